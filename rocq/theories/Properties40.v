(** C75: what a bound on quadratic weights gives when noise is random *)
From Verif Require Import Base Backend Words Encryption Params Arith Expr Spec Contract Symbolic Weights Random AscTable NeuralNetwork.
From Verif Require Import BaseProofs ValueProofs WordsProofs EncProofs RelProofs DepthProofs WeightProofs WeightMul WeightAll
  Properties4 Properties5 Properties8 Properties22 Instances.
From Coq Require Import ZifyBool ZifyNat.

(* ------------------------------------------------------------------ *)
(** ** Sums over outcomes *)
Section Outcomes.
Context {Om : Type} (outs : list (Z * Om)).
Notation E := (total outs).

Lemma E_ext : forall f g, (forall w, f w = g w) -> E f = E g.
Proof. intros f g H. unfold total. induction outs as [|p l IH]; cbn [fold_right]; [reflexivity|]. rewrite H. lia. Qed.
Lemma E_add : forall f g, E (fun w => f w + g w) = E f + E g.
Proof. intros f g. unfold total. induction outs as [|p l IH]; cbn [fold_right]; lia. Qed.
Lemma E_scale : forall c f, E (fun w => c * f w) = c * E f.
Proof. intros c f. unfold total. induction outs as [|p l IH]; cbn [fold_right]; lia. Qed.
Lemma E_zero : E (fun _ => 0) = 0.
Proof. unfold total. induction outs as [|p l IH]; cbn [fold_right]; lia. Qed.
Hypothesis Hw : Forall (fun p => 0 <= fst p) outs.
Lemma E_le : forall f g, (forall w, f w <= g w) -> E f <= E g.
Proof.
  intros f g H. unfold total. clear - H Hw. revert Hw; induction 1 as [|p l Hp _ IH]; cbn [fold_right]; [lia|].
  apply Z.add_le_mono; [apply Z.mul_le_mono_nonneg_l; [exact Hp|apply H]|exact (IH (Forall_inv_tail Hw))].
Qed.
Lemma E_le_in : forall f g, (forall p, In p outs -> f (snd p) <= g (snd p)) -> E f <= E g.
Proof.
  intros f g H. unfold total. clear - H Hw. revert H Hw; induction outs as [|p l IH]; cbn [fold_right]; intros H Hw; [lia|].
  apply Z.add_le_mono; [apply Z.mul_le_mono_nonneg_l; [exact (Forall_inv Hw)|apply H; left; reflexivity]|].
  apply IH; [intros q Hq; apply H; right; exact Hq|exact (Forall_inv_tail Hw)].
Qed.
Lemma E_nonneg : forall f, (forall w, 0 <= f w) -> 0 <= E f.
Proof. intros f H. rewrite <- E_zero. apply E_le. exact H. Qed.

(** Chebyshev: a large value is rare *)
Lemma chebyshev : forall tau x, 0 <= tau -> tau * tau * mass outs (fun w => tau <=? Z.abs (x w)) <= E (fun w => x w * x w).
Proof.
  intros tau x Ht. unfold mass. rewrite <- E_scale. apply E_le. intros w. destruct (tau <=? Z.abs (x w)) eqn:L; [|nia].
  assert (G : tau <= Z.abs (x w)) by lia. rewrite Z.mul_1_r. rewrite <- (Z.abs_square (x w)). nia.
Qed.

(** a sum of uncorrelated variables *)
Definition comb (c : term -> Z) (x : term -> Om -> Z) (l : list term) (w : Om) : Z := fold_right (fun a s => c a * x a w + s) 0 l.
Lemma comb_orth : forall (c : term -> Z) (x : term -> Om -> Z) a l, (forall b, In b l -> E (fun w => x a w * x b w) = 0) ->
  E (fun w => x a w * comb c x l w) = 0.
Proof.
  intros c x a l. induction l as [|b l IH]; intros H.
  - rewrite (E_ext _ (fun _ => 0)); [apply E_zero|]. intros w. unfold comb. cbn [fold_right]. ring.
  - rewrite (E_ext _ (fun w => c b * (x a w * x b w) + x a w * comb c x l w)) by (intros w; unfold comb; cbn [fold_right]; ring).
    rewrite E_add, E_scale, (H b (or_introl eq_refl)), IH by (intros b' I; apply H; right; exact I). lia.
Qed.
Lemma comb_square : forall (c : term -> Z) (x : term -> Om -> Z) l v, NoDup l ->
  (forall a b, In a l -> In b l -> a <> b -> E (fun w => x a w * x b w) = 0) ->
  (forall a, In a l -> E (fun w => x a w * x a w) <= v) -> E (fun w => comb c x l w * comb c x l w) <= sq_sum c l * v.
Proof.
  intros c x l v ND. induction ND as [|a l Ha ND IH]; intros H1 H2.
  - rewrite (E_ext _ (fun _ => 0)); [rewrite E_zero; cbn; lia|]. intros w. reflexivity.
  - rewrite (E_ext _ (fun w => c a * c a * (x a w * x a w) + (2 * c a * (x a w * comb c x l w) + comb c x l w * comb c x l w)))
      by (intros w; unfold comb; cbn [fold_right]; ring).
    rewrite !E_add, !E_scale, (comb_orth c x a l) by (intros b I; apply H1; [left; reflexivity|right; exact I|intros ->; contradiction]).
    pose proof (IH (fun b d Hb Hd => H1 b d (or_intror Hb) (or_intror Hd)) (fun b Hb => H2 b (or_intror Hb))) as K.
    pose proof (H2 a (or_introl eq_refl)) as K2. cbn [sq_sum fold_right]. fold (sq_sum c l).
    assert (0 <= c a * c a) by nia. nia.
Qed.
End Outcomes.

(* ------------------------------------------------------------------ *)
(** ** Noise of a combination *)

(** the samples that a term combines *)
Fixpoint atoms (t : term) : list term :=
  match t with
  | TVar _ | TLut _ _ => [t]
  | TAdd u v => atoms u ++ atoms v
  | TAddPt u _ | TOpp u | TMul u _ => atoms u
  end.
Lemma atoms_samples : forall t a, In a (atoms t) -> In a (samples_of t).
Proof.
  induction t as [i|u IHu v IHv|u IHu p|u IHu|u IHu k|acc u IHu]; intros x H; cbn [atoms samples_of] in *.
  - exact H.
  - apply in_app_iff in H. apply in_app_iff. destruct H as [H|H]; auto.
  - auto.
  - auto.
  - auto.
  - destruct H as [<-|[]]. left. reflexivity.
Qed.
Lemma ind_sum : forall (e : term -> Z) t l, NoDup l -> fold_right (fun a s => (if term_eq_dec t a then 1 else 0) * e a + s) 0 l =
  if in_dec term_eq_dec t l then e t else 0.
Proof.
  intros e t l ND. induction ND as [|a l Ha ND IH]; [reflexivity|]. cbn [fold_right]. rewrite IH. clear IH.
  destruct (in_dec term_eq_dec t (a :: l)) as [I|I]; destruct (term_eq_dec t a) as [Ea|Ea]; destruct (in_dec term_eq_dec t l) as [J|J];
    subst; try contradiction; try lia; cbn [In] in I; exfalso; try tauto.
  - destruct I as [I|I]; [congruence|contradiction].
Qed.
Lemma noise_comb : forall e l t, NoDup l -> (forall a, In a (atoms t) -> In a l) ->
  noise e t = fold_right (fun a s => coef t a * e a + s) 0 l.
Proof.
  intros e l t ND.
  assert (L1 : forall f g : term -> Z, fold_right (fun a s => (f a + g a) * e a + s) 0 l =
     fold_right (fun a s => f a * e a + s) 0 l + fold_right (fun a s => g a * e a + s) 0 l)
    by (intros f g; clear; induction l as [|a l IH]; cbn [fold_right]; lia).
  assert (L2 : forall (k : Z) (f : term -> Z), fold_right (fun a s => (k * f a) * e a + s) 0 l = k * fold_right (fun a s => f a * e a + s) 0 l)
    by (intros k f; clear; induction l as [|a l IH]; cbn [fold_right]; lia).
  assert (X : forall f g : term -> Z, (forall a, f a = g a) -> fold_right (fun a s => f a * e a + s) 0 l = fold_right (fun a s => g a * e a + s) 0 l)
    by (intros f g H; clear - H; induction l as [|a l IH]; cbn [fold_right]; [reflexivity|rewrite H, IH; reflexivity]).
  induction t as [i|u IHu v IHv|u IHu p|u IHu|u IHu k|acc u IHu]; intros H; cbn [noise atoms] in *.
  - rewrite (X (coef (TVar i)) (fun a => if term_eq_dec (TVar i) a then 1 else 0)) by reflexivity. rewrite ind_sum by exact ND.
    destruct (in_dec term_eq_dec (TVar i) l) as [J|J]; [reflexivity|]. exfalso. apply J, H. left. reflexivity.
  - rewrite IHu, IHv by (intros a I; apply H, in_app_iff; auto). rewrite <- L1. apply X. reflexivity.
  - rewrite IHu by exact H. apply X. reflexivity.
  - rewrite IHu by exact H. rewrite (X (coef (TOpp u)) (fun a => -1 * coef u a)) by (intros a; cbn [coef]; lia). rewrite L2. lia.
  - rewrite IHu by exact H. rewrite (X (coef (TMul u k)) (fun a => k * coef u a)) by (intros a; reflexivity). rewrite L2. lia.
  - rewrite (X (coef (TLut acc u)) (fun a => if term_eq_dec (TLut acc u) a then 1 else 0)) by reflexivity. rewrite ind_sum by exact ND.
    destruct (in_dec term_eq_dec (TLut acc u) l) as [J|J]; [reflexivity|]. exfalso. apply J, H. left. reflexivity.
Qed.

(** The mean square of the noise of a combination of quadratic weight [n] is at most [n] times that of a sample *)
Theorem C75_variance : forall Om (outs : list (Z * Om)) (x : Om -> term -> Z) t v n,
  uncorrelated outs (fun a w => x w a) (samples_of t) v -> 0 <= n -> qle (coef t) n ->
  total outs (fun w => noise (x w) t * noise (x w) t) <= n * v * total outs (fun _ => 1).
Proof.
  intros Om outs x t v n [Hw [Hv [H1 H2]]] Hn Hq. set (l := nodup term_eq_dec (atoms t)).
  assert (ND : NoDup l) by apply NoDup_nodup.
  assert (Il : forall a, In a l -> In a (samples_of t)) by (intros a I; apply atoms_samples; apply nodup_In in I; exact I).
  rewrite (E_ext outs _ (fun w => comb (coef t) (fun a w => x w a) l w * comb (coef t) (fun a w => x w a) l w)).
  2: { intros w. rewrite (noise_comb (x w) l t ND) by (intros a I; apply nodup_In; exact I). reflexivity. }
  assert (W : 0 <= total outs (fun _ => 1)) by (apply E_nonneg; [exact Hw|intros; lia]).
  assert (A : 0 <= v * total outs (fun _ : Om => 1)) by (apply Z.mul_nonneg_nonneg; assumption).
  pose proof (comb_square outs (coef t) (fun a w => x w a) l (v * total outs (fun _ => 1)) ND
    (fun a b Ha Hb => H1 a b (Il a Ha) (Il b Hb)) (fun a Ha => H2 a (Il a Ha))) as K.
  specialize (Hq l ND). rewrite <- Z.mul_assoc. nia.
Qed.

(** many combinations: the outcomes where the noise of one of them reaches [tau] *)
Definition some_large (e : term -> Z) (tau : Z) (l : list term) : bool := existsb (fun t => tau <=? Z.abs (noise e t)) l.
Theorem C75_union : forall Om (outs : list (Z * Om)) (x : Om -> term -> Z) l v n tau,
  (forall t, In t l -> uncorrelated outs (fun a w => x w a) (samples_of t) v /\ qle (coef t) n) -> 0 <= n -> 0 <= tau ->
  tau * tau * mass outs (fun w => some_large (x w) tau l) <= Z.of_nat (length l) * n * v * total outs (fun _ => 1).
Proof.
  intros Om outs x l v n tau. induction l as [|t l IH]; intros H Hn Ht.
  - unfold mass, some_large. cbn [existsb length]. rewrite E_zero. lia.
  - destruct (H t (or_introl eq_refl)) as [U Q]. pose proof U as [Hw _].
    pose proof (C75_variance Om outs x t v n U Hn Q) as K1. pose proof (chebyshev outs Hw tau (fun w => noise (x w) t) Ht) as K2.
    specialize (IH (fun a I => H a (or_intror I)) Hn Ht).
    assert (K3 : mass outs (fun w => some_large (x w) tau (t :: l)) <=
      mass outs (fun w => tau <=? Z.abs (noise (x w) t)) + mass outs (fun w => some_large (x w) tau l)).
    { unfold mass. rewrite <- E_add. apply E_le; [exact Hw|]. intros w. cbn [some_large existsb].
      destruct (tau <=? Z.abs (noise (x w) t)); cbn [orb]; fold (some_large (x w) tau l); destruct (some_large (x w) tau l); lia. }
    assert (T2 : 0 <= tau * tau) by nia. cbn [length]. rewrite Nat2Z.inj_succ.
    pose proof (Z.mul_le_mono_nonneg_l _ _ _ T2 K3) as K4. rewrite Z.mul_add_distr_l in K4.
    assert (K5 : forall a b c d, Z.succ a * b * c * d = b * c * d + a * b * c * d) by (intros; ring). rewrite K5. cbv beta in K2. lia.
Qed.

(* ------------------------------------------------------------------ *)
(** ** One outcome *)
Section One.
Context {B : backend} (T : torus B) (inp : nat -> ct B) (ierr : nat -> Z) (tau : Z).
Notation N := (poly_size B).
Notation N2 := (2 * Z.of_nat (poly_size B)).
Let e := err T inp ierr.
Definition small (t : term) : bool := Z.abs (noise e t) <? tau.
Definition good (t : term) : bool := forallb small (t :: boot_inputs t).

(** the phase without the noise of the samples that are not rotated away; nothing is claimed after a noise that is too large *)
Fixpoint ps (t : term) : Z :=
  match t with
  | TVar i => tph T (inp i) - ierr i
  | TAdd u v => ps u + ps v
  | TAddPt u p => ps u + p
  | TOpp u => - ps u
  | TMul u k => ps u * k
  | TLut acc u => ncoef acc (if good u then rot T (teval B inp u) else modswitch N2 (ps u))
  end.
Lemma ps_noise : forall t, forallb small (boot_inputs t) = true -> teq (tph T (teval B inp t)) (ps t + noise e t).
Proof.
  induction t as [i|u IHu v IHv|u IHu p|u IHu|u IHu k|acc u IHu]; cbn [boot_inputs teval ps noise]; intros H.
  - unfold e. cbn [err]. exists 0. lia.
  - rewrite forallb_app in H. apply andb_true_iff in H as [H1 H2]. eapply teq_trans; [apply t_add|].
    destruct (IHu H1) as [q Q]. destruct (IHv H2) as [r R]. exists (q + r). lia.
  - eapply teq_trans; [apply t_add_pt|]. destruct (IHu H) as [q Q]. exists q. lia.
  - eapply teq_trans; [apply t_opp|]. destruct (IHu H) as [q Q]. exists (- q). lia.
  - eapply teq_trans; [apply t_mul|]. destruct (IHu H) as [q Q]. exists (q * k). rewrite Q. ring.
  - change (good u = true) in H. rewrite H. unfold e. cbn [err]. apply t_lut.
Qed.

Context (qw M : Z) (HM : tms T <= M) (Ht : 0 <= tau) (HN : (0 < N)%nat) (H32 : (N mod 32 = 0)%nat)
  (Hb : tau * N2 + Z.max M (2 ^ 63) < 2 ^ 58 * N2).
(** terms, with this phase, satisfy the contract with no noise at all: what is left of it counts as part of the rounding *)
Definition quiet : contract (sym N) qw.
Proof.
  refine (mkContract (sym N) qw ps 0 (tau * N2 + Z.max M (2 ^ 63)) _ _ _ _ _ _ _ _ _ _); cbn [poly_size sym ct_add ct_add_pt ct_opp ct_mul ct_lut ct ps].
  - lia.
  - nia.
  - exact HN.
  - exact H32.
  - intros a b. apply teq_refl.
  - intros a p. apply teq_refl.
  - intros a. apply teq_refl.
  - intros a k _. apply teq_refl.
  - intros acc c _. cbv zeta. destruct (good c) eqn:G.
    + cbn [good forallb] in G. apply andb_true_iff in G as [G1 G2]. unfold small in G1.
      destruct (ps_noise c G2) as [j J].
      destruct (t_rot B T (teval B inp c)) as (d & q & Q & D). cbv zeta in Q.
      exists (rot T (teval B inp c)), (noise e c * N2 + d), (q - j), 0.
      split; [rewrite J in Q; lia|]. split; [|split; [exists 0; lia|lia]].
      assert (Z.abs (noise e c) < tau) by lia. pose proof (Z.abs_triangle (noise e c * N2) d).
      assert (Z.abs (noise e c * N2) <= tau * N2) by (rewrite Z.abs_mul, (Z.abs_eq N2) by lia; nia). lia.
    + exists (modswitch N2 (ps c)), (modswitch N2 (ps c) * 2 ^ 64 - ps c * N2), 0, 0.
      pose proof (modswitch_err N2 (ps c)). split; [lia|]. split; [nia|]. split; [exists 0; lia|lia].
  - cbv zeta. lia.
Defined.

(** decryption of a result none of whose noises is large *)
Lemma quiet_decrypts : forall cl o (z : ciphertext (sym N)) v, rounds T cl -> enc_val quiet z v ->
  (forall t, In t (secrets z) -> good t = true) -> (length z <= 63)%nat ->
  parm_decrypt cl o (map (wmap inp) z) = ret v.
Proof.
  intros cl o z v R (ds & [Hd HF] & <-) G L.
  assert (K : parm_decrypt_to_vec cl (map (wmap inp) z) = ret ds).
  { clear L. unfold parm_decrypt_to_vec. revert z ds HF Hd G.
    refine (fix IH z ds HF {struct HF} := _). destruct HF as [|w d z ds Hw HF]; intros Hd G; [reflexivity|]. specialize (IH z ds HF).
    cbn [map mapM]. assert (Dg : digit d) by exact (Forall_inv Hd). unfold digit in Dg.
    assert (E1 : decrypt_mi (Some cl) (wmap inp w) = ret d).
    { unfold decrypt_mi, decrypt_mu. destruct w as [t|p]; cbn [wmap].
      - rewrite ret_bind. f_equal. destruct Hw as (e0 & Q & E0). cbn [phase quiet nB] in Q, E0.
        assert (e0 = 0) by (clear - E0; lia). subst e0.
        assert (Gt : good t = true) by (apply G; cbn; left; reflexivity).
        cbn [good forallb] in Gt. apply andb_true_iff in Gt as [G1 G2]. unfold small in G1.
        pose proof (ps_noise t G2) as P. rewrite (R (teval B inp t) d (noise e t)).
        + unfold MSG_MOD. rewrite <- (mu_to_mi_32_small d) at 2 by (clear - Dg; lia). unfold mu_to_mi. rewrite Zmod_mod. reflexivity.
        + destruct P as [a A]. destruct Q as [b Bq]. exists (a + b). clear - A Bq. lia.
        + change (step / 2) with (2 ^ 58). assert (tau < 2 ^ 58) by (clear - Hb HN; nia). clear - G1 H. lia.
      - rewrite ret_bind. f_equal. destruct Hw as [P1 P2]. change MSG_MOD with (2 ^ 5).
        rewrite (pt_to_mu_near 5 d 0 p ltac:(clear; lia) P1 ltac:(rewrite Z.add_0_r; exact P2) ltac:(clear; lia)).
        change (2 ^ 5) with 32. rewrite <- (mu_to_mi_32_small d) at 2 by (clear - Dg; lia). unfold mu_to_mi. rewrite Zmod_mod. reflexivity. }
    rewrite E1, ret_bind, IH; [rewrite ret_bind; reflexivity|exact (Forall_inv_tail Hd)|].
    intros t I. apply G. unfold secrets. cbn [flat_map]. apply in_app_iff. right. exact I. }
  unfold parm_decrypt. rewrite K, ret_bind. apply convert_from_vec_ok; [exact Hd|]. rewrite <- (Forall2_len _ _ _ _ _ HF). exact L.
Qed.
End One.

(* ------------------------------------------------------------------ *)
(** ** Programs *)

(** all combinations whose noise matters: what is bootstrapped, and the words of the result *)
Definition exposed {N} (z : ciphertext (sym N)) : list term := nodup term_eq_dec (flat_map boot_inputs (secrets z) ++ secrets z).
Definition all_samples {N} (z : ciphertext (sym N)) : list term := flat_map samples_of (secrets z).
(** whether an outcome decrypts to [v] *)
Definition decrypts_to {N} (w : world N) pc xs e o (v : Z) : bool :=
  match fst (z <- run (arith_ct pc) (w_env w xs) e ;; parm_decrypt (w_client w) o z) with Ok u => u =? v | _ => false end.

Lemma samples_boot : forall t u a, In u (boot_inputs t) -> In a (samples_of u) -> In a (samples_of t).
Proof.
  induction t as [i|t1 IH1 t2 IH2|t IH p|t IH|t IH k|acc t IH]; intros u a H K; cbn [boot_inputs samples_of] in *.
  - contradiction.
  - apply in_app_iff. apply in_app_iff in H as [H|H]; [left; exact (IH1 u a H K)|right; exact (IH2 u a H K)].
  - exact (IH u a H K).
  - exact (IH u a H K).
  - exact (IH u a H K).
  - right. destruct H as [<-|H]; [exact K|exact (IH u a H K)].
Qed.
Lemma inputs_shape : forall xs, Forall (fun x => digits (map snd x)) xs -> digit_shapes (map in_shape xs).
Proof.
  intros xs H. unfold digit_shapes. apply Forall_map. eapply Forall_impl; [|exact H]. intros x Hx. unfold in_shape.
  apply Forall_map. unfold digits in Hx. rewrite Forall_map in Hx. eapply Forall_impl; [|exact Hx]. intros [[] d] Hd; cbn; [|exact I].
  exists d. split; [exact Hd|reflexivity].
Qed.
Lemma inputs_enc : forall N qw (C : contract (sym N) qw) xs n,
  (forall i d, nth_error (flat_map in_secrets xs) i = Some d -> teq (phase C (TVar (n + i))) (d * step)) ->
  Forall (fun x => digits (map snd x)) xs -> Forall2 (enc_val C) (sinputs N n (map in_shape xs)) (map in_value xs).
Proof.
  intros N qw C.
  assert (One : forall x n, (forall i d, nth_error (in_secrets x) i = Some d -> teq (phase C (TVar (n + i))) (d * step)) ->
    Forall2 (fun w d => wmsg C w d 1) (sinput N n (in_shape x)) (map snd x)).
  { induction x as [|[b d] x IH]; intros n H; [constructor|]. cbn [in_shape map fst snd]. destruct b.
    - cbn [sinput]. constructor; [|apply IH; intros i d' I; apply H; exact I].
      split; [apply Z.mod_pos_bound; lia|]. apply teq_u64.
    - cbn [sinput]. constructor.
      + exists 0. split; [|pose proof (nB_nonneg _ _ C); lia]. specialize (H 0%nat d eq_refl). rewrite Nat.add_0_r in H.
        rewrite Z.add_0_r. exact H.
      + apply IH. intros i d' I. specialize (H (S i) d' I). rewrite Nat.add_succ_r in H. exact H. }
  induction xs as [|x xs IH]; intros n H Hd; [constructor|]. cbn [map sinputs]. constructor.
  - exists (map snd x). split; [|reflexivity]. split; [exact (Forall_inv Hd)|]. apply One. intros i d I. apply H.
    cbn [flat_map]. rewrite nth_error_app1; [exact I|]. apply nth_error_Some. rewrite I. discriminate.
  - apply IH; [|exact (Forall_inv_tail Hd)]. intros i d I.
    assert (L : nsecret (in_shape x) = length (in_secrets x)).
    { clear. unfold nsecret, in_shape, in_secrets. induction x as [|[[] d] x IH]; [reflexivity| |]; cbn [map filter length fst snd flat_map app] in *; rewrite ?IH; reflexivity. }
    rewrite L, <- Nat.add_assoc. apply H. cbn [flat_map]. rewrite nth_error_app2 by lia.
    replace (length (in_secrets x) + i - length (in_secrets x))%nat with i by lia. exact I.
Qed.
Lemma sim_run : forall (B : backend) N inp pc e ss, poly_size B = N ->
  fst (run (arith_ct pc) (map (map (wmap (B := B) inp)) (sinputs N 0 ss)) e) =
  omap (map (wmap inp)) (fst (run (arith_ct pc) (sinputs N 0 ss) e)).
Proof.
  intros B N inp pc e ss <-. set (env := map (map (wmap inp)) (sinputs (poly_size B) 0 ss)).
  assert (HE : Forall2 (Forall2 (wrel (fun (t : ct (sym (poly_size B))) c => c = teval B inp t))) (sinputs (poly_size B) 0 ss) env).
  { subst env. induction (sinputs (poly_size B) 0 ss) as [|x l IH]; cbn [map]; constructor; auto. apply circuit_rel. reflexivity. }
  destruct (run_rel (arel_ct (sim_circuit B inp) (tp_only True) pc (fun _ => I)) e _ _ HE) as [H1 _].
  destruct (fst (run (arith_ct pc) env e)) as [z'|er'|er'], (fst (run (arith_ct pc) (sinputs (poly_size B) 0 ss) e)) as [z|er|er];
    try tauto; cbn [omap]; try (rewrite H1; reflexivity).
  apply circuit_rel in H1. rewrite H1. reflexivity.
Qed.

(** An outcome in which no exposed noise reaches [tau] decrypts to the right value *)
Theorem C75_outcome : forall N pc xs e o z M tau (w : world N),
  bit_precision (cparams pc) = 5%nat -> asc_12 pc = shipped_asc -> consts e -> Forall (fun x => digits (map snd x)) xs ->
  (0 < N)%nat -> (N mod 32 = 0)%nat -> 0 <= tau -> tau * (2 * Z.of_nat N) + Z.max M (2 ^ 63) < 2 ^ 58 * (2 * Z.of_nat N) ->
  w_ok M xs w -> fst (run (arith_ct pc) (sinputs N 0 (map in_shape xs)) e) = Ok z -> (length z <= 63)%nat ->
  some_large (w_err w) tau (exposed z) = false -> decrypts_to w pc xs e o (zeval (map in_value xs) e) = true.
Proof.
  intros N pc xs e o z M tau w Hb HT Hc Hd HN H32 Ht Hbud [R [HM HI]] Ez L HS.
  destruct w as [B HB T cl inp ierr]. cbn [wb_ w_torus w_client w_inp w_ierr] in *. subst N.
  unfold decrypts_to, w_env. cbn [wb_ w_torus w_client w_inp w_ierr].
  pose proof (sim_run B _ inp pc e (map in_shape xs) eq_refl) as SR. rewrite Ez in SR. cbn [omap] in SR.
  set (C := quiet T inp ierr tau (quad_weight (cparams pc)) M HM Ht HN H32 Hbud).
  assert (EV : enc_val C z (zeval (map in_value xs) e)).
  { pose proof (C27_expressions C pc e (sinputs (poly_size B) 0 (map in_shape xs)) (map in_value xs) eq_refl Hb HT Hc) as K.
    rewrite Ez in K. apply K. apply inputs_enc; [|exact Hd]. intros i d I. cbn [C quiet phase ps Nat.add].
    destruct (HI i d I) as [q Q]. exists q. clear - Q. lia. }
  assert (G : forall t, In t (secrets z) -> good T inp ierr tau t = true).
  { intros t I. unfold good. apply forallb_forall. intros u Hu. unfold small.
    destruct (Z.abs (noise (err T inp ierr) u) <? tau) eqn:Lt; [reflexivity|]. exfalso.
    assert (X : some_large (err T inp ierr) tau (exposed z) = true).
    { unfold some_large. apply existsb_exists. exists u. split; [|clear - Lt; lia]. unfold exposed. apply nodup_In, in_app_iff.
      destruct Hu as [<-|Hu]; [right; exact I|left; apply in_flat_map; eauto]. }
    change (some_large (err T inp ierr) tau (exposed z) = false) in HS. rewrite X in HS. discriminate. }
  pose proof (quiet_decrypts T inp ierr tau _ M HM Ht HN H32 Hbud cl o z _ R EV G L) as D.
  rewrite fst_bind, SR, D. cbn [ret fst]. apply Z.eqb_refl.
Qed.

(** ... and such outcomes are rare, if the circuit keeps to quadratic weights of [n] *)
Theorem C75_within : forall N pc xs e o z M tau n v (outs : list (Z * world N)),
  bit_precision (cparams pc) = 5%nat -> asc_12 pc = shipped_asc -> consts e -> Forall (fun x => digits (map snd x)) xs ->
  (0 < N)%nat -> (N mod 32 = 0)%nat -> 0 <= tau -> tau * (2 * Z.of_nat N) + Z.max M (2 ^ 63) < 2 ^ 58 * (2 * Z.of_nat N) ->
  Forall (fun p => w_ok M xs (snd p)) outs ->
  fst (run (arith_ct pc) (sinputs N 0 (map in_shape xs)) e) = Ok z -> (length z <= 63)%nat ->
  uncorrelated outs (fun a w => w_err w a) (all_samples z) v -> 0 <= n -> within n z -> (forall t, In t (secrets z) -> qle (coef t) n) ->
  tau * tau * mass outs (fun w => negb (decrypts_to w pc xs e o (zeval (map in_value xs) e)))
    <= Z.of_nat (length (exposed z)) * n * v * total outs (fun _ => 1).
Proof.
  intros N pc xs e o z M tau n v outs Hb HT Hc Hd HN H32 Ht Hbud Hok Ez L U Hn W Q.
  eapply Z.le_trans; [|apply (C75_union _ outs w_err (exposed z) v n tau); auto].
  - apply Z.mul_le_mono_nonneg_l; [nia|]. unfold mass. destruct U as [Hw _]. apply E_le_in; [exact Hw|]. intros [p w] I. cbn [snd].
    rewrite Forall_forall in Hok. specialize (Hok _ I). cbn [snd] in Hok.
    destruct (some_large (w_err w) tau (exposed z)) eqn:S; [destruct (decrypts_to w pc xs e o _); cbn [negb]; lia|].
    rewrite (C75_outcome N pc xs e o z M tau w) by assumption. cbn [negb]. lia.
  - intros t I. unfold exposed in I. apply nodup_In, in_app_iff in I. split.
    + destruct U as [Hw [Hv [U1 U2]]].
      assert (S : forall a, In a (samples_of t) -> In a (all_samples z)).
      { intros a Ia. unfold all_samples. apply in_flat_map. destruct I as [I|I]; [|eauto].
        apply in_flat_map in I as [t' [I1 I2]]. exists t'. split; [exact I1|]. eapply samples_boot; eauto. }
      split; [exact Hw|]. split; [exact Hv|]. split; [intros a b Ia Ib; apply U1; auto|intros a Ia; apply U2; auto].
    + destruct I as [I|I]; [|exact (Q t I)]. apply in_flat_map in I as [t' [I1 I2]]. exact (W t' t I1 I2).
Qed.

(** Every program under the settings of C61 *)
Theorem C75_programs : forall N pc xs e o z M tau v (outs : list (Z * world N)),
  bit_precision (cparams pc) = 5%nat -> asc_12 pc = shipped_asc -> 65 <= quad_weight (cparams pc) <= 84 \/ 225 <= quad_weight (cparams pc) ->
  consts e -> Forall (fun x => digits (map snd x)) xs ->
  (0 < N)%nat -> (N mod 32 = 0)%nat -> 0 <= tau -> tau * (2 * Z.of_nat N) + Z.max M (2 ^ 63) < 2 ^ 58 * (2 * Z.of_nat N) ->
  Forall (fun p => w_ok M xs (snd p)) outs ->
  fst (run (arith_ct pc) (sinputs N 0 (map in_shape xs)) e) = Ok z -> (length z <= 63)%nat ->
  uncorrelated outs (fun a w => w_err w a) (all_samples z) v ->
  tau * tau * mass outs (fun w => negb (decrypts_to w pc xs e o (zeval (map in_value xs) e)))
    <= Z.of_nat (length (exposed z)) * quad_weight (cparams pc) * v * total outs (fun _ => 1).
Proof.
  intros N pc xs e o z M tau v outs Hb HT HS Hc Hd HN H32 Ht Hbud Hok Ez L U.
  pose proof (run_kept (fine_kept N pc HS Hb) e _ (sinputs_fine N (budget pc) _ 0 (inputs_shape xs Hd)) z Ez) as F.
  eapply C75_within; eauto; [lia|exact (fines_within _ _ _ F)|].
  intros t I. unfold secrets in I. apply in_flat_map in I as [w [I1 I2]]. rewrite Forall_forall in F. destruct (F w I1) as [_ [S _]].
  destruct w as [t'|p]; [|contradiction]. destruct I2 as [<-|[]]. eapply qle_mono; [|exact S]. lia.
Qed.
Print Assumptions C75_variance.
Print Assumptions C75_union.
Print Assumptions C75_outcome.
Print Assumptions C75_within.
Print Assumptions C75_programs.

(* ------------------------------------------------------------------ *)
(** ** Example: terms as ciphertexts, with the noise that one chooses *)
Section Terms.
Context (N : nat) (m : nat -> Z) (er : term -> Z).
Fixpoint term_phase (t : term) : Z :=
  match t with
  | TVar i => m i * step + er (TVar i)
  | TAdd u v => term_phase u + term_phase v
  | TAddPt u p => term_phase u + p
  | TOpp u => - term_phase u
  | TMul u k => term_phase u * k
  | TLut acc u => ncoef acc (modswitch (2 * Z.of_nat N) (term_phase u)) + er t
  end.
Definition term_torus : torus (sym N).
Proof.
  refine (mkTorus (sym N) term_phase (fun c => modswitch (2 * Z.of_nat N) (term_phase c)) (fun acc c => er (TLut acc c)) (2 ^ 63) _ _ _ _ _ _);
    cbn [sym ct_add ct_add_pt ct_opp ct_mul ct_lut term_phase poly_size]; intros; try apply teq_refl.
  exists (modswitch (2 * Z.of_nat N) (term_phase c) * 2 ^ 64 - term_phase c * (2 * Z.of_nat N)), 0. cbv zeta.
  split; [lia|apply modswitch_err].
Defined.
Definition term_client : client (sym N) :=
  mkClient (sym N) unit (fun _ mu => TAddPt (TMul (TVar 0) 0) (mu * step)) (fun c => ((term_phase c + 2 ^ 58) / 2 ^ 59) mod 32).
Definition term_world : world N := mkWorld N (sym N) eq_refl term_torus term_client TVar (fun i => er (TVar i)).
Lemma term_ok : forall xs, (forall i d, nth_error (flat_map in_secrets xs) i = Some d -> m i = d) -> w_ok (2 ^ 63) xs term_world.
Proof.
  intros xs H. split; [|split; [cbn; lia|]].
  - intros c k e [q Q] He. cbn [term_world w_torus w_client term_client ct_dec term_torus tph] in *. unfold step in *.
    replace (term_phase c + 2 ^ 58) with ((e + 2 ^ 58) + (k + q * 32) * 2 ^ 59) by lia. rewrite Z.div_add by lia.
    rewrite (Z.div_small (e + 2 ^ 58)) by lia. rewrite Z.add_0_l. apply Z.mod_add. lia.
  - intros i d I. cbn [term_world w_torus term_torus tph w_inp term_phase w_ierr]. rewrite (H i d I). apply teq_refl.
Qed.
End Terms.

(** The product of two encrypted bits. In most outcomes nothing is noisy, in six one sample has a noise of a whole
    step; those decrypt to something else. *)
Definition bits_in : list input := [[(false, 1)]; [(false, -1)]].
Definition is_var (i : nat) (t : term) : bool := match t with TVar j => (i =? j)%nat | _ => false end.
Definition is_lut (t : term) : bool := match t with TLut _ _ => true | _ => false end.
Definition one_noisy (which : term -> bool) (x : Z) : world 32 :=
  term_world 32 (fun i => nth i [1; -1] 0) (fun t => if which t then x else 0).
Definition rare : list (Z * world 32) :=
  (2 ^ 20, one_noisy (fun _ => false) 0) ::
  flat_map (fun p => [(1, one_noisy p (2 ^ 59)); (1, one_noisy p (- 2 ^ 59))]) [is_var 0; is_var 1; is_lut].
Definition circ : outcome (ciphertext (sym 32)) := fst (run (arith_ct (cloud_84 true)) (sinputs 32 0 (map in_shape bits_in)) (Mul (Var 0) (Var 1))).
Definition circ_z : ciphertext (sym 32) := match circ with Ok z => z | _ => [] end.
Definition pairs_ok (l : list term) : bool :=
  forallb (fun a => forallb (fun b => (if term_eq_dec a b then true else false) || (total rare (fun w => w_err w a * w_err w b) =? 0)) l) l.
Example C75_example : uncorrelated rare (fun a w => w_err w a) (all_samples circ_z) (2 ^ 99) /\
  Forall (fun p => w_ok (2 ^ 63) bits_in (snd p)) rare /\ circ = Ok circ_z /\ length (exposed circ_z) = 2%nat /\
  mass rare (fun w => negb (decrypts_to w (cloud_84 true) bits_in (Mul (Var 0) (Var 1)) true (-1))) = 6 /\ total rare (fun _ => 1) = 2 ^ 20 + 6.
Proof.
  split; [split; [repeat (constructor; [cbn; lia|]); constructor|split; [lia|split]]|].
  - assert (K : pairs_ok (all_samples circ_z) = true) by (vm_compute; reflexivity). unfold pairs_ok in K.
    intros a b Ha Hb D. rewrite forallb_forall in K. specialize (K a Ha). rewrite forallb_forall in K. specialize (K b Hb).
    destruct (term_eq_dec a b) as [Eab|_]; [contradiction|]. cbn [orb] in K. apply Z.eqb_eq in K. exact K.
  - assert (K : forallb (fun a => total rare (fun w => w_err w a * w_err w a) <=? 2 ^ 99 * total rare (fun _ => 1)) (all_samples circ_z) = true)
      by (vm_compute; reflexivity).
    intros a Ha. rewrite forallb_forall in K. apply Z.leb_le. exact (K a Ha).
  - split; [|vm_compute; auto].
    assert (K : forall er, w_ok (2 ^ 63) bits_in (term_world 32 (fun i => nth i [1; -1] 0) er)).
    { intros er. apply term_ok. intros [|[|[|i]]] d I; cbn in I; try discriminate; injection I as <-; reflexivity. }
    unfold rare, one_noisy. cbn [flat_map app]. repeat (constructor; [apply K|]). constructor.
Qed.
(** the bound: of 1048582 outcomes at most 5376 decrypt to something else than -1 (6 do) *)
Example C75_example_bound : mass rare (fun w => negb (decrypts_to w (cloud_84 true) bits_in (Mul (Var 0) (Var 1)) true (-1))) <= 5376.
Proof.
  destruct C75_example as (U & O & Z0 & L & _ & T).
  pose proof (C75_programs 32 (cloud_84 true) bits_in (Mul (Var 0) (Var 1)) true circ_z (2 ^ 63) (2 ^ 57 - 1) (2 ^ 99) rare
    eq_refl eq_refl ltac:(left; cbn; lia) ltac:(cbn; auto) ltac:(repeat constructor; unfold digit; cbn; lia) ltac:(lia) eq_refl ltac:(lia) ltac:(lia) O Z0
    ltac:(vm_compute; lia) U) as K.
  rewrite L, T in K. change (zeval (map in_value bits_in) (Mul (Var 0) (Var 1))) with (-1) in K.
  change (quad_weight (cparams (cloud_84 true))) with 84 in K. revert K.
  generalize (mass rare (fun w => negb (decrypts_to w (cloud_84 true) bits_in (Mul (Var 0) (Var 1)) true (-1)))). intros k K. lia.
Qed.
