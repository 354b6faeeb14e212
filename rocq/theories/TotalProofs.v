(** Additions never fail, whatever the words hold (no contract needed) *)
From Verif Require Import Base Backend Words Params Pbs Addition Spec BaseProofs WordsProofs PbsProofs AddProofs.
From Coq Require Import ZifyBool ZifyNat.

Section Total.
Context {B : backend}.

Lemma pt_to_mu_lt : forall pt, 0 <= pt_to_mu MSG_MOD pt < 32.
Proof.
  intros pt. unfold pt_to_mu. change (delta MSG_MOD) with (2^59).
  pose proof (u64_range (pt + u64 (Z.land pt (2^59 / 2) * 2))) as H.
  pose proof (Z.div_pos (u64 (pt + u64 (Z.land pt (2^59 / 2) * 2))) (2^59)).
  pose proof (Z.div_lt_upper_bound (u64 (pt + u64 (Z.land pt (2^59 / 2) * 2))) (2^59) 32). lia.
Qed.

Lemma lut_total : forall (c : word B) h, okP (eval_LUT_5_half c h) (fun w => is_triv w = is_triv c).
Proof.
  intros [c|pt] h.
  - eexists. split; reflexivity.
  - unfold eval_LUT_5_half. pose proof (pt_to_mu_lt pt) as Hm.
    destruct (_ <? 16) eqn:E1; [|replace (pt_to_mu MSG_MOD pt <? 32) with true by (symmetry; lia)];
      rewrite ret_bind; apply okP_ret; destruct (Z.land _ _ =? 1); reflexivity.
Qed.

Lemma lutu_total : forall (c : word B) l, okP (eval_LUT_5_uint c l) (fun w => is_triv w = is_triv c).
Proof. intros c l. apply lut_total. Qed.

Lemma okP_mapM_any : forall A A' (f : A -> M A') l,
  (forall a, In a l -> okP (f a) (fun _ => True)) -> okP (mapM f l) (fun r => length r = length l).
Proof.
  intros A A' f. induction l as [|a l IH]; intros H; cbn [mapM]; [apply okP_ret; auto|].
  eapply okP_bind; [apply H; left; auto|]. intros b _.
  eapply okP_bind; [apply IH; intros; apply H; right; auto|]. intros r Hr.
  apply okP_ret. cbn [length]. f_equal. exact Hr.
Qed.

Lemma add_sub_total : forall is_add (x y : ciphertext B) refresh,
  okP (add_sub_impl is_add x y refresh) (fun _ => True).
Proof.
  intros is_add x y refresh. unfold add_sub_impl.
  destruct (_ =? length x)%nat eqn:E1; [apply okP_ret; auto|].
  destruct (_ =? length y)%nat eqn:E2; [apply okP_ret; auto|].
  apply okP_measure.
  pose proof (ctz_spec x) as [Cx _]. pose proof (ctz_spec y) as [Cy _].
  pose proof (ctz_rev x ltac:(lia)). pose proof (ctz_rev y ltac:(lia)).
  replace (Nat.leb _ _) with false by (symmetry; lia).
  eapply okP_bind.
  { apply okP_mapM_any. intros i _. eapply okP_conseq; [apply lutu_total|auto]. }
  intros q _. eapply okP_bind; [|intros; apply okP_ret; exact I].
  instantiate (1 := fun _ => True). destruct refresh; [|apply okP_ret; auto].
  eapply okP_conseq; [apply okP_mapM_any|auto]. intros w _.
  eapply okP_conseq; [apply lutu_total|auto].
Qed.

End Total.
