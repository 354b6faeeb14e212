(** The Ruby prototype kt.rb against naf.rs *)
From Verif Require Import Base Encryption Naf KtScript Spec BaseProofs ValueProofs BitsProofs EncProofs NafProofs.
From Coq Require Import ZifyBool ZifyNat.

Lemma bind_Ok_inv : forall A X (m : M A) (f : A -> M X) x, fst (bind m f) = Ok x ->
  exists a, fst m = Ok a /\ fst (f a) = Ok x.
Proof. intros A X m f x H. rewrite fst_bind in H. destruct (fst m) as [a| |]; try discriminate. eauto. Qed.
Lemma upd_rb : forall kv j d kv', fst (upd kv j d) = Ok kv' -> kv' = rb_set kv j d.
Proof.
  intros kv j d kv' H. unfold upd in H. unfold rb_set. destruct (j <? length kv)%nat; inversion H; auto.
Qed.
Lemma fill_rb : forall n j f g kv kv',
  (forall i d, fst (f i) = Ok d -> d = g i) ->
  fst (kt_fill n j f kv) = Ok kv' -> kv' = rb_fill n j g kv.
Proof.
  induction n as [|n IH]; intros j f g kv kv' Hf H; cbn [kt_fill rb_fill] in *.
  - inversion H; auto.
  - apply bind_Ok_inv in H. destruct H as [d [H1 H]]. apply bind_Ok_inv in H. destruct H as [kv1 [H2 H]].
    apply Hf in H1. subst d. apply upd_rb in H2. subst kv1. apply (IH _ _ _ _ _ Hf H).
Qed.
Lemma bit_rb : forall k i d, fst (kt_bit k i) = Ok d -> d = bit k i.
Proof. intros k i d H. inversion H; auto. Qed.
Lemma bit_m1_rb : forall o k i d, fst (kt_bit_m1 o k i) = Ok d -> d = bit k i - 1.
Proof.
  intros o k i d H. pose proof (bit_m1_ok k o i) as B. unfold ovfP in B. rewrite H in B. exact B.
Qed.

Definition rb_of (s : kt_state) : rb_state :=
  let (j, m, x, y, z, u, v, w, kv) := s in mkRb j (Z.b2z m) x y z u v w kv.

Lemma step_rb : forall o k s s', fst (kt_step o k s) = Ok s' -> rb_of s' = rb_step k (rb_of s).
Proof.
  intros o k [j m x y z u v w kv] s' H. unfold kt_step in H. unfold rb_of at 2, rb_step.
  set (y' := if bit k x =? 1 then y + 1 else y - 1) in *.
  destruct m; cbn [negb Z.b2z Z.eqb] in *.
  - destruct (y' + 3 <=? v) eqn:E.
    + apply bind_Ok_inv in H. destruct H as [kv1 [H1 H]]. apply bind_Ok_inv in H. destruct H as [kv2 [H2 H]].
      apply (fill_rb _ _ _ _ _ _ (bit_m1_rb o k)) in H1. subst kv1. apply upd_rb in H2. subst kv2.
      inversion H; reflexivity.
    + inversion H. destruct (v <? y'); reflexivity.
  - destruct (z + 3 <=? y') eqn:E.
    + apply bind_Ok_inv in H. destruct H as [kv1 [H1 H]]. apply bind_Ok_inv in H. destruct H as [kv2 [H2 H]].
      apply (fill_rb _ _ _ _ _ _ (bit_rb k)) in H1. subst kv1. apply upd_rb in H2. subst kv2.
      inversion H; reflexivity.
    + inversion H. destruct (y' <? z); reflexivity.
Qed.
Lemma loop_rb : forall n o k s s', fst (kt_loop n o k s) = Ok s' -> rb_of s' = rb_loop n k (rb_of s).
Proof.
  induction n as [|n IH]; intros o k s s' H; cbn [kt_loop rb_loop] in *.
  - inversion H; auto.
  - apply bind_Ok_inv in H. destruct H as [s1 [H1 H]]. rewrite <- (step_rb _ _ _ _ H1). eapply IH; eauto.
Qed.
Lemma end_rb : forall o k s kv, fst (kt_end o k s) = Ok kv -> kv = rb_end k (rb_of s).
Proof.
  intros o k [j m x y z u v w kv] kv' H. unfold kt_end in H. unfold rb_of, rb_end.
  assert (C : ((Z.b2z m =? 0) || ((Z.b2z m =? 1) && (v <=? y))) = negb m || (v <=? y)).
  { destruct m; reflexivity. }
  rewrite C. destruct (negb m || (v <=? y)).
  - apply bind_Ok_inv in H. destruct H as [kv1 [H1 H]]. apply bind_Ok_inv in H. destruct H as [kv2 [H2 H]].
    apply (fill_rb _ _ _ (fun j => bit k j - Z.b2z m)) in H1.
    2:{ intros i d Hd. inversion Hd; auto. }
    subst kv1. apply upd_rb in H2. subst kv2. apply upd_rb in H. auto.
  - apply bind_Ok_inv in H. destruct H as [kv1 [H1 H]]. apply bind_Ok_inv in H. destruct H as [kv2 [H2 H]].
    apply bind_Ok_inv in H. destruct H as [kv3 [H3 H]]. apply bind_Ok_inv in H. destruct H as [kv4 [H4 H]].
    apply (fill_rb _ _ _ _ _ _ (bit_m1_rb o k)) in H1. subst kv1. apply upd_rb in H2. subst kv2.
    apply (fill_rb _ _ _ _ _ _ (bit_rb k)) in H3. subst kv3. apply upd_rb in H4. subst kv4.
    apply upd_rb in H. auto.
Qed.
Lemma pop_rb : forall kv, pop_zero kv = rb_pop kv.
Proof.
  intros kv. unfold pop_zero, rb_pop. destruct kv as [|a kv]; auto. destruct (exists_last (l := a :: kv)) as [l [d ->]]; [discriminate|].
  rewrite rev_unit. destruct (d =? 0); auto. rewrite removelast_last, rev_involutive. auto.
Qed.

(** whatever the Rust function returns, in either build, is what the script returns *)
Lemma kt_rb_same : forall o k kv, fst (koyama_tsuruoka_vec o k) = Ok kv -> kt_rb (bit_len_32 k) k = kv.
Proof.
  intros o k kv H. unfold koyama_tsuruoka_vec in H. unfold kt_rb.
  destruct (k =? 0); [inversion H; auto|]. destruct (k =? 1); [inversion H; auto|].
  apply bind_Ok_inv in H. destruct H as [s [H1 H]]. apply bind_Ok_inv in H. destruct H as [kv1 [H2 H]].
  apply loop_rb in H1. apply end_rb in H2. inversion H. rewrite <- pop_rb. subst kv1. rewrite H1. reflexivity.
Qed.

(** the script for numbers of any size and any length it is told *)
Lemma kt_rb_value : forall x k, k <> 0 -> k <> 1 ->
  let kv := kt_rb (S x) k in
  digits kv /\ value kv = k mod 2 ^ Z.of_nat x + 2 ^ Z.of_nat x /\
  (0 < length kv <= S (S x))%nat /\ nth (length kv - 1) kv 0 <> 0.
Proof.
  intros x k H0 H1. unfold kt_rb. replace (k =? 0) with false by lia. replace (k =? 1) with false by lia.
  replace (S x - 1)%nat with x by lia. cbv zeta.
  assert (R : okP (s <- kt_loop x false k (mkKt 0 false 0 0 0 0 0 0 (repeat 0 (S x + 1))) ;; kt_end false k s)
    (fun kv => digits kv /\ length kv = S (S x) /\ value kv = k mod 2 ^ Z.of_nat x + 2 ^ Z.of_nat x /\
    (fn kv (S x) = 1 \/ fn kv (S x) = 0 /\ fn kv x = 1))).
  { apply ovfP_okP. eapply ovfP_bind.
    { apply (kt_loop_ok k false (S (S x)) x 0); [|lia]. unfold kt_inv.
      split; auto. split; auto. split; [rewrite repeat_length; lia|].
      split; [apply digits_repeat0|]. split; [lia|]. split; auto. split; [|reflexivity].
      intros i Hi. replace i with 0%nat by lia. cbn. lia. }
    intros s Hs. apply (kt_end_ok k false (S (S x)) x s); auto. }
  destruct R as [kv [E [D [HL [V T]]]]]. apply bind_Ok_inv in E. destruct E as [s [E1 E2]].
  apply loop_rb in E1. apply end_rb in E2. unfold rb_of at 2 in E1. cbn [Z.b2z] in E1.
  rewrite <- E1, <- E2, <- pop_rb.
  destruct (pop_zero_ok kv x HL D T) as [P1 [P2 [P3 P4]]]. rewrite P2. auto.
Qed.
