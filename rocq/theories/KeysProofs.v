(** Lemmas on key files (C35-C37) *)
From Coq Require Import String Ascii Decimal DecimalString DecimalNat DecimalFacts.
From Verif Require Import Base Params Keys.
Local Open Scope string_scope.

(** ** File names *)
(** what comes before the first character that is not a digit is determined *)
Fixpoint all_digits (s : string) : Prop :=
  match s with
  | EmptyString => True
  | String c t => In c ["0"; "1"; "2"; "3"; "4"; "5"; "6"; "7"; "8"; "9"]%char /\ all_digits t
  end.
Lemma uint_digits : forall d, all_digits (NilEmpty.string_of_uint d).
Proof. induction d; cbn; tauto. Qed.
Lemma split_digits : forall a b c s t, all_digits a -> all_digits b ->
  ~ In c ["0"; "1"; "2"; "3"; "4"; "5"; "6"; "7"; "8"; "9"]%char ->
  a ++ String c s = b ++ String c t -> a = b /\ s = t.
Proof.
  induction a as [|x a IH]; intros [|y b] c s t Ha Hb Hc E; cbn in *.
  - injection E as E. auto.
  - injection E as E1 E2. subst. tauto.
  - injection E as E1 E2. subst. tauto.
  - injection E as E1 E2. subst. destruct Ha as [_ Ha], Hb as [_ Hb].
    destruct (IH b c s t Ha Hb Hc E2). subst. auto.
Qed.
Lemma dec_inj : forall n m, dec n = dec m -> n = m.
Proof.
  intros n m H. unfold dec in H.
  assert (E : Nat.to_uint n = Nat.to_uint m).
  { assert (G : Some (Nat.to_uint n) = Some (Nat.to_uint m)).
    { rewrite <- !NilEmpty.usu, H. reflexivity. }
    congruence. }
  apply Unsigned.to_uint_inj; auto.
Qed.
Lemma split_dec : forall n m c s t,
  ~ In c ["0"; "1"; "2"; "3"; "4"; "5"; "6"; "7"; "8"; "9"]%char ->
  dec n ++ String c s = dec m ++ String c t -> n = m /\ s = t.
Proof.
  intros n m c s t Hc H. destruct (split_digits _ _ c s t (uint_digits _) (uint_digits _) Hc H). 
  split; auto. apply dec_inj; auto.
Qed.
Lemma app_cancel : forall a s t, a ++ s = a ++ t -> s = t.
Proof. induction a as [|c a IH]; intros s t H; cbn in *; auto. injection H. auto. Qed.

Lemma filename_fields : forall p q, filename_from_params p = filename_from_params q ->
  let c := concrete_pars p in let d := concrete_pars q in
  lwe_dimension c = lwe_dimension d /\ polynomial_size c = polynomial_size d /\
  pbs_base_log c = pbs_base_log d /\ pbs_level c = pbs_level d /\
  ks_base_log c = ks_base_log d /\ ks_level c = ks_level d.
Proof.
  intros p q H. unfold filename_from_params in H.
  apply app_cancel in H. apply app_cancel in H. cbn zeta. revert H.
  generalize (concrete_pars p) (concrete_pars q). intros c d H.
  apply (app_cancel "n-") in H.
  assert (N1 : ~ In "_"%char ["0"; "1"; "2"; "3"; "4"; "5"; "6"; "7"; "8"; "9"]%char)
    by (cbn; intros G; repeat (destruct G as [G|G]; [discriminate|]); exact G).
  assert (N2 : ~ In "."%char ["0"; "1"; "2"; "3"; "4"; "5"; "6"; "7"; "8"; "9"]%char)
    by (cbn; intros G; repeat (destruct G as [G|G]; [discriminate|]); exact G).
  apply (split_dec _ _ "_"%char ("N-" ++ _) ("N-" ++ _) N1) in H. destruct H as [-> H]. apply app_cancel in H.
  apply (split_dec _ _ "_"%char ("gamma-" ++ _) ("gamma-" ++ _) N1) in H. destruct H as [-> H]. apply app_cancel in H.
  apply (split_dec _ _ "_"%char ("l-" ++ _) ("l-" ++ _) N1) in H. destruct H as [-> H]. apply app_cancel in H.
  apply (split_dec _ _ "_"%char ("kappa-" ++ _) ("kappa-" ++ _) N1) in H. destruct H as [-> H]. apply app_cancel in H.
  apply (split_dec _ _ "_"%char ("t-" ++ _) ("t-" ++ _) N1) in H. destruct H as [-> H]. apply app_cancel in H.
  apply (split_dec _ _ "."%char "key" "key" N2) in H. destruct H as [-> _]. repeat split.
Qed.
Lemma filename_only : forall p q,
  let c := concrete_pars p in let d := concrete_pars q in
  lwe_dimension c = lwe_dimension d -> polynomial_size c = polynomial_size d ->
  pbs_base_log c = pbs_base_log d -> pbs_level c = pbs_level d ->
  ks_base_log c = ks_base_log d -> ks_level c = ks_level d ->
  filename_from_params p = filename_from_params q.
Proof.
  intros p q c d H1 H2 H3 H4 H5 H6. unfold filename_from_params. subst c d.
  rewrite H1, H2, H3, H4, H5, H6. reflexivity.
Qed.

(** ** Files *)
Lemma get_put_same : forall l n c, file_get (file_put l n c) n = Some c.
Proof.
  induction l as [|[m d] l IH]; intros n c; cbn; [rewrite String.eqb_refl; auto|].
  destruct (String.eqb n m) eqn:E; cbn; [rewrite String.eqb_refl; auto|]. rewrite E. auto.
Qed.
Lemma get_put_other : forall l n c m, m <> n -> file_get (file_put l n c) m = file_get l m.
Proof.
  induction l as [|[k d] l IH]; intros n c m H; cbn.
  - apply String.eqb_neq in H. rewrite H. auto.
  - destruct (String.eqb n k) eqn:E; cbn.
    + apply String.eqb_eq in E. subst k. apply String.eqb_neq in H. rewrite H. auto.
    + destruct (String.eqb m k); auto.
Qed.
