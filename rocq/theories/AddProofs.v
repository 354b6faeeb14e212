(** Proofs about addition, subtraction, opposite, shift *)
From Verif Require Import Base Backend Words Params Pbs Addition Spec Contract
  BaseProofs WordsProofs PbsProofs ValueProofs.
From Coq Require Import ZifyBool ZifyNat.
Ltac Zify.zify_post_hook ::= Z.div_mod_to_equations.

Lemma nth_last : forall A (l : list A) d, nth (length l - 1) l d = last l d.
Proof.
  induction l as [|a [|b l] IH]; intros d; auto.
  change (last (a :: b :: l) d) with (last (b :: l) d). rewrite <- (IH d). simpl length. replace (S (S (length l)) - 1)%nat with (S (length l)) by lia.
  simpl. rewrite Nat.sub_0_r. auto.
Qed.

(** thresholds: what the tables f_3, f_4, f_5 compute *)
Definition thr (t m : Z) : Z := if t <=? m then 1 else if m <=? - t then -1 else 0.

(** Integer counterpart of the parallel addition: carries and result digits *)
Section Carry.
Variable W : nat -> Z.
Variable r : nat.

Definition cQ (i : nat) : Z :=
  if (i <? r)%nat then 0
  else thr 4 (W i * 3 + (if (r <? i)%nat then W (i - 1)%nat else 0)).
Definition cP (i : nat) : Z := if (0 <? i)%nat then cQ (i - 1)%nat else 0.
Definition cW (i : nat) : Z := W i - cQ i * 2 + cP i.

Hypothesis HW : forall i, -2 <= W i <= 2.
Hypothesis Hlow : forall i, (i < r)%nat -> -1 <= W i <= 1.

Lemma cW_digit : forall i, digit (cW i).
Proof.
  intros i. unfold digit, cW, cP.
  pose proof (HW i) as H0. pose proof (HW (i - 1)) as H1. pose proof (HW (i - 1 - 1)) as H2.
  unfold cQ, thr.
  destruct (i <? r)%nat eqn:E1.
  - apply Nat.ltb_lt in E1. pose proof (Hlow i E1).
    destruct (0 <? i)%nat eqn:E2; [|lia].
    replace (i - 1 <? r)%nat with true by lia. lia.
  - apply Nat.ltb_ge in E1.
    destruct (0 <? i)%nat eqn:E2.
    + destruct (r <? i)%nat eqn:E3.
      * replace (i - 1 <? r)%nat with false by lia.
        destruct (r <? i - 1)%nat eqn:E4;
        repeat (match goal with |- context [if ?b then _ else _] => destruct b eqn:? end); lia.
      * replace (i - 1 <? r)%nat with true by lia.
        repeat (match goal with |- context [if ?b then _ else _] => destruct b eqn:? end); lia.
    + replace (r <? i)%nat with false by lia.
      repeat (match goal with |- context [if ?b then _ else _] => destruct b eqn:? end); lia.
Qed.

Lemma cQ_digit : forall i, digit (cQ i).
Proof.
  intros i. unfold digit, cQ, thr.
  repeat (match goal with |- context [if ?b then _ else _] => destruct b end); lia.
Qed.

Lemma carry_sum : forall n,
  vsum cW n + cP n * 2 ^ Z.of_nat n = vsum W n.
Proof.
  induction n as [|n IH].
  - unfold cP. simpl. lia.
  - simpl vsum. unfold cP at 1. replace (0 <? S n)%nat with true by lia.
    replace (S n - 1)%nat with n by lia. rewrite pow2_S, <- IH. unfold cW. ring.
Qed.
End Carry.

Section Add.
Context {B : backend} {qw : Z} (C : contract B qw).

(* ------------------------------------------------------------------ *)
Lemma ctz_spec : forall x : ciphertext B,
  (count_triv_zeros x <= length x)%nat /\
  (forall i, (i < count_triv_zeros x)%nat -> is_triv_zero (nth i x triv0) = true) /\
  ((count_triv_zeros x < length x)%nat ->
     is_triv_zero (nth (count_triv_zeros x) x triv0) = false).
Proof.
  induction x as [|w x [I1 [I2 I3]]]; simpl.
  - split; [lia|]. split; intros; lia.
  - destruct (is_triv_zero w) eqn:E.
    + split; [lia|]. split.
      * intros [|i] Hi; auto. apply I2; lia.
      * intros Hi. apply I3. lia.
    + split; [lia|]. split; [intros; lia|auto].
Qed.

Lemma ctz_rev : forall x : ciphertext B, (count_triv_zeros x < length x)%nat ->
  (count_triv_zeros x + count_triv_zeros (rev x) < length x)%nat.
Proof.
  intros x H. destruct (ctz_spec x) as [_ [_ H3]]. specialize (H3 H).
  destruct (ctz_spec (rev x)) as [_ [H2 _]].
  destruct (Nat.lt_ge_cases (count_triv_zeros x + count_triv_zeros (rev x)) (length x)); auto.
  exfalso. set (i := count_triv_zeros x) in *.
  specialize (H2 (length x - 1 - i)%nat).
  rewrite rev_nth in H2 by lia.
  replace (length x - S (length x - 1 - i))%nat with i in H2 by lia.
  rewrite H2 in H3 by lia. discriminate.
Qed.

Lemma ctz_high : forall (x : ciphertext B) i,
  (length x - count_triv_zeros (rev x) <= i < length x)%nat ->
  is_triv_zero (nth i x triv0) = true.
Proof.
  intros x i Hi. destruct (ctz_spec (rev x)) as [_ [H2 _]].
  specialize (H2 (length x - 1 - i)%nat). rewrite rev_nth in H2 by lia.
  replace (length x - S (length x - 1 - i))%nat with i in H2 by lia. apply H2; lia.
Qed.

Lemma triv_zero_digit : forall (w : word B) d k, is_triv_zero w = true ->
  wmsg C w d k -> digit d -> d = 0.
Proof.
  intros [c|p] d k H Hw Hd; simpl in H; [discriminate|].
  destruct Hw as [_ [q Hq]]. unfold digit in Hd. unfold step in Hq. lia.
Qed.

Lemma triv_zero_triv : forall w : word B, is_triv_zero w = true -> is_triv w = true.
Proof. intros [c|p]; simpl; auto. Qed.

Lemma zip_length : forall f (w y : ciphertext B), length (zip_inplace f w y) = length w.
Proof. induction w; intros [|b y]; simpl; auto. Qed.

Lemma zip_nth : forall f (w y : ciphertext B) i, (i < length w)%nat ->
  nth i (zip_inplace f w y) triv0 =
  if (i <? length y)%nat then f (nth i w triv0) (nth i y triv0) else nth i w triv0.
Proof.
  induction w as [|a w IH]; intros [|b y] i Hi; simpl in *; try lia; auto.
  destruct i; auto. rewrite IH by lia. auto.
Qed.

Lemma ct_triv_length : forall n, length (@ct_triv B n) = n.
Proof. intros; apply repeat_length. Qed.
Lemma ct_triv_nth : forall n i, nth i (@ct_triv B n) triv0 = triv0.
Proof. intros n i. unfold ct_triv. rewrite nth_repeat_any. destruct (i <? n)%nat; auto. Qed.

Lemma encrypts_nth : forall (x : ciphertext B) dx i, encrypts C x dx ->
  wmsg C (nth i x triv0) (nth i dx 0) 1.
Proof.
  intros x dx i [_ H]. destruct (Nat.lt_ge_cases i (length x)) as [Hi|Hi].
  - eapply (Forall2_nth _ _ (fun w d => wmsg C w d 1)); eauto.
  - rewrite !nth_overflow; [apply wmsg_triv0| |auto].
    rewrite <- (Forall2_len _ _ _ _ _ H); auto.
Qed.

Lemma encrypts_nth0 : forall (x : ciphertext B) dx i, encrypts C x dx ->
  is_triv_zero (nth i x triv0) = true -> nth i dx 0 = 0.
Proof.
  intros x dx i H Ht. eapply triv_zero_digit; eauto using encrypts_nth.
  apply digits_nth. apply H.
Qed.

Lemma encrypts_len : forall (x : ciphertext B) dx, encrypts C x dx -> length dx = length x.
Proof. intros x dx [_ H]. symmetry. eapply Forall2_len; eauto. Qed.

(** the words of a sum before the carry *)
Definition sgn_of (b : bool) : Z := if b then 1 else -1.

Lemma l1_need_8 : 8 <= l1_need qw.
Proof. unfold l1_need. destruct (85 <=? qw); [lia|]. destruct (41 <=? qw); lia. Qed.

Lemma f_4_ok : lut_fun C f_4_pi_5 (-12) 12 (thr 4).
Proof. apply lut_fun_of; reflexivity. Qed.
Lemma id_ok : lut_fun C id_pi_5 (-8) 8 (fun m => m).
Proof. apply lut_fun_of; reflexivity. Qed.

Lemma digits_map_seq : forall f n, (forall i, digit (f i)) -> digits (map f (seq 0 n)).
Proof.
  intros f n H. apply Forall_forall. intros d Hd. apply in_map_iff in Hd.
  destruct Hd as [i [<- _]]. auto.
Qed.

(** length without the leading trivial zeros *)
Definition elen (x : ciphertext B) : nat := (length x - count_triv_zeros (rev x))%nat.

Lemma elen_length : forall x, (elen x <= length x)%nat.
Proof. intros x. unfold elen. lia. Qed.

Lemma elen_le : forall (x : ciphertext B) n,
  (forall i, (n <= i < length x)%nat -> is_triv_zero (nth i x triv0) = true) ->
  (elen x <= n)%nat.
Proof.
  intros x n H. unfold elen. destruct (ctz_spec (rev x)) as [H1 [_ H3]].
  rewrite rev_length in *. set (c := count_triv_zeros (rev x)) in *.
  destruct (Nat.lt_ge_cases c (length x)) as [Hc|Hc]; [|lia].
  specialize (H3 Hc). rewrite rev_nth in H3 by auto.
  destruct (Nat.le_gt_cases (length x - c) n); auto. exfalso.
  rewrite H in H3 by lia. discriminate.
Qed.

Lemma opp_triv_zero : forall w : word B, is_triv_zero w = true -> is_triv_zero (w_opp w) = true.
Proof.
  intros [c|p] H; simpl in *; [discriminate|]. apply Z.eqb_eq in H. subst. reflexivity.
Qed.

Lemma elen_opp : forall x : ciphertext B, (elen (pa_opp x) <= elen x)%nat.
Proof.
  intros x. apply elen_le. unfold pa_opp, opposite_impl. rewrite map_length. intros i Hi.
  change triv0 with (w_opp (@triv0 B)). rewrite map_nth. apply opp_triv_zero.
  apply ctz_high. unfold elen in Hi. lia.
Qed.

(** length of the result, and main invariant *)
Definition add_wlen (x y : ciphertext B) : nat := Nat.max (elen x) (elen y).
Definition add_rtriv (x y : ciphertext B) : nat :=
  Nat.max (count_triv_zeros x) (count_triv_zeros y).

(** weight of the noise of result words *)
Definition out_weight (refresh : bool) : Z := if refresh then 1 else 5.

Definition sum_rep (refresh : bool) (x y z : ciphertext B) (v : Z) : Prop :=
  (exists dz, digits dz /\ Forall2 (fun w d => wmsg C w d (out_weight refresh)) z dz /\
     value dz = v) /\
  (length z <= Nat.max (length x) (length y) + 1)%nat /\
  (elen z <= Nat.max (elen x) (elen y) + 1)%nat /\
  (length z <= Nat.max (Nat.max (elen x) (elen y) + 1) (Nat.max (length x) (length y)))%nat.

Lemma rep_weaken : forall z dz k k', k <= k' ->
  Forall2 (fun w d => wmsg C w d k) z dz -> Forall2 (fun w d => wmsg C w d k') z dz.
Proof.
  intros z dz k k' Hk H. induction H; constructor; auto. eapply wmsg_weaken; eauto.
Qed.

Lemma opp_ok : forall x dx, encrypts C x dx -> encrypts C (pa_opp x) (map Z.opp dx).
Proof.
  intros x dx [H1 H2]. split; [apply digits_opp; auto|].
  unfold pa_opp, opposite_impl. clear H1. induction H2; simpl; constructor; auto.
  apply wmsg_opp; auto.
Qed.

Lemma add_sub_ok : forall is_add x y refresh dx dy,
  encrypts C x dx -> encrypts C y dy ->
  okP (add_sub_impl is_add x y refresh)
      (fun z => sum_rep refresh x y z (value dx + sgn_of is_add * value dy)).
Proof.
  intros is_add x y refresh dx dy Hx Hy. unfold add_sub_impl.
  pose proof (encrypts_len x dx Hx) as Lx. pose proof (encrypts_len y dy Hy) as Ly.
  destruct (ctz_spec x) as [X1 [X2 X3]]. destruct (ctz_spec y) as [Y1 [Y2 Y3]].
  assert (How : 1 <= out_weight refresh) by (destruct refresh; simpl; lia).
  destruct (count_triv_zeros x =? length x)%nat eqn:E1.
  { (* x is all trivial zeros *)
    apply Nat.eqb_eq in E1.
    assert (Hv : value dx = 0).
    { apply value_zero_digits. intros i. destruct (Nat.lt_ge_cases i (length x)).
      - apply (encrypts_nth0 x); auto. apply X2; lia.
      - apply nth_overflow. lia. }
    rewrite Hv. destruct is_add; apply okP_ret; unfold sgn_of, sum_rep.
    - split; [|unfold elen; lia]. exists dy. destruct Hy. split; auto. split; [|lia].
      eapply rep_weaken; eauto.
    - split; [|pose proof (elen_opp y); unfold pa_opp, opposite_impl in *;
               rewrite map_length; lia].
      exists (map Z.opp dy). destruct (opp_ok y dy Hy). split; auto. split.
      + eapply rep_weaken; eauto.
      + rewrite value_map_opp. lia. }
  destruct (count_triv_zeros y =? length y)%nat eqn:E2.
  { apply Nat.eqb_eq in E2.
    assert (Hv : value dy = 0).
    { apply value_zero_digits. intros i. destruct (Nat.lt_ge_cases i (length y)).
      - apply (encrypts_nth0 y); auto. apply Y2; lia.
      - apply nth_overflow. lia. }
    rewrite Hv. apply okP_ret. split; [|unfold elen; lia]. exists dx. destruct Hx. split; auto. split; [|lia].
    eapply rep_weaken; eauto. }
  apply Nat.eqb_neq in E1. apply Nat.eqb_neq in E2.
  pose proof (ctz_rev x) as RX. pose proof (ctz_rev y) as RY.
  fold (elen x). fold (elen y). fold (add_rtriv x y). fold (add_wlen x y).
  assert (Hrw : (add_rtriv x y < add_wlen x y)%nat) by (unfold add_rtriv, add_wlen, elen; lia).
  assert (Hwl : (add_wlen x y <= Nat.max (length x) (length y))%nat)
    by (unfold add_wlen, elen; lia).
  set (r := add_rtriv x y) in *. set (wlen := add_wlen x y) in *.
  apply okP_measure.
  set (w := zip_inplace (if is_add then w_add else w_sub)
                        (firstn wlen x ++ ct_triv (wlen - length x)) y).
  set (W := fun i => nth i dx 0 + sgn_of is_add * nth i dy 0).
  assert (Hdx : forall i, digit (nth i dx 0)) by (intros; apply digits_nth; apply Hx).
  assert (Hdy : forall i, digit (nth i dy 0)) by (intros; apply digits_nth; apply Hy).
  assert (HW2 : forall i, -2 <= W i <= 2).
  { intros i. pose proof (Hdx i). pose proof (Hdy i). unfold digit in *.
    unfold W, sgn_of. destruct is_add; lia. }
  assert (Hlow : forall i, (i < r)%nat -> -1 <= W i <= 1).
  { intros i Hi. pose proof (Hdx i). pose proof (Hdy i). unfold digit in *.
    unfold W, sgn_of. unfold r, add_rtriv in Hi.
    destruct (Nat.lt_ge_cases i (count_triv_zeros x)) as [Hc|Hc].
    - rewrite (encrypts_nth0 x dx i Hx) by (apply X2; auto). destruct is_add; lia.
    - rewrite (encrypts_nth0 y dy i Hy) by (apply Y2; lia). destruct is_add; lia. }
  assert (Lw0 : length (firstn wlen x ++ ct_triv (wlen - length x)) = wlen).
  { rewrite app_length, firstn_length, ct_triv_length. lia. }
  assert (Lw : length w = wlen) by (unfold w; rewrite zip_length; auto).
  assert (Nw0 : forall i, (i < wlen)%nat ->
     nth i (firstn wlen x ++ ct_triv (wlen - length x)) triv0 = nth i x triv0).
  { intros i Hi. rewrite nth_app_any, firstn_length, nth_firstn, ct_triv_nth.
    destruct (i <? Nat.min wlen (length x))%nat eqn:E.
    - replace (i <? wlen)%nat with true by lia. auto.
    - rewrite nth_overflow; auto. lia. }
  (* words before the carries *)
  assert (Hw : forall i, (i < wlen)%nat -> wmsg C (nth i w triv0) (W i) 2).
  { intros i Hi. unfold w. rewrite zip_nth by lia. rewrite Nw0 by auto.
    pose proof (encrypts_nth x dx i Hx) as A. pose proof (encrypts_nth y dy i Hy) as D.
    destruct (i <? length y)%nat eqn:E.
    - unfold W, sgn_of. destruct is_add.
      + replace (nth i dx 0 + 1 * nth i dy 0) with (nth i dx 0 + nth i dy 0) by lia.
        apply (wmsg_add C _ _ _ _ 1 1); auto; lia.
      + replace (nth i dx 0 + -1 * nth i dy 0) with (nth i dx 0 - nth i dy 0) by lia.
        apply (wmsg_sub C _ _ _ _ 1 1); auto; lia.
    - unfold W. rewrite (nth_overflow dy) by lia.
      rewrite Z.mul_0_r, Z.add_0_r. eapply wmsg_weaken; [|apply A]. lia. }
  assert (Hwl1 : forall i, (i < r)%nat -> wmsg C (nth i w triv0) (W i) 1).
  { intros i Hi. unfold w. rewrite zip_nth by lia. rewrite Nw0 by lia.
    pose proof (encrypts_nth x dx i Hx) as A. pose proof (encrypts_nth y dy i Hy) as D.
    destruct (i <? length y)%nat eqn:E.
    - unfold r, add_rtriv in Hi.
      assert (HAD : exists k l, 0 <= k /\ 0 <= l /\ k + l = 1 /\
         wmsg C (nth i x triv0) (nth i dx 0) k /\ wmsg C (nth i y triv0) (nth i dy 0) l).
      { destruct (Nat.lt_ge_cases i (count_triv_zeros x)) as [Hc|Hc].
        - exists 0, 1. split; [lia|]. split; [lia|]. split; [lia|]. split; auto.
          eapply wmsg_is_triv; [|apply A]. apply triv_zero_triv. apply X2; auto.
        - exists 1, 0. split; [lia|]. split; [lia|]. split; [lia|]. split; auto.
          eapply wmsg_is_triv; [|apply D]. apply triv_zero_triv. apply Y2; lia. }
      destruct HAD as [k [l [Hk [Hl [Hkl [A' D']]]]]]. rewrite <- Hkl.
      unfold W, sgn_of. destruct is_add.
      + replace (nth i dx 0 + 1 * nth i dy 0) with (nth i dx 0 + nth i dy 0) by lia.
        apply wmsg_add; auto.
      + replace (nth i dx 0 + -1 * nth i dy 0) with (nth i dx 0 - nth i dy 0) by lia.
        apply wmsg_sub; auto.
    - unfold W. rewrite (nth_overflow dy) by lia. rewrite Z.mul_0_r, Z.add_0_r. auto. }
  replace (wlen <=? r)%nat with false by lia.
  (* carries *)
  pose proof l1_need_8 as H8.
  eapply okP_bind.
  { apply (okP_mapM _ _ _ (fun i0 q => wmsg C q (cQ W r (i0 + r)) 1)).
    intros i0 Hin. apply in_seq in Hin.
    set (i := (i0 + r)%nat).
    assert (Hi : (i < wlen)%nat) by lia.
    set (arg := if (0 <? i0)%nat then w_add (w_mul_const (nth i w triv0) 3) (nth (i - 1) w triv0)
                else w_mul_const (nth i w triv0) 3).
    assert (Harg : wmsg C arg (W i * 3 + (if (r <? i)%nat then W (i - 1)%nat else 0)) 8).
    { assert (H3 : wmsg C (w_mul_const (nth i w triv0) 3) (W i * 3) 6).
      { apply (wmsg_mul C _ _ 2 3); [lia|auto]. }
      unfold arg. replace (r <? i)%nat with (0 <? i0)%nat by lia.
      destruct (0 <? i0)%nat eqn:E.
      - apply (wmsg_add C _ _ _ _ 6 2); auto; try lia. apply Hw; lia.
      - rewrite Z.add_0_r. eapply wmsg_weaken; [|apply H3]; lia. }
    destruct (f_4_ok arg (W i * 3 + (if (r <? i)%nat then W (i - 1)%nat else 0)) 8)
      as [q [F1 [F2 F3]]]; auto.
    - lia.
    - pose proof (HW2 i). pose proof (HW2 (i - 1)%nat). destruct (r <? i)%nat; lia.
    - exists q. split; [exact (f_equal fst F1)|].
      unfold cQ. replace (i <? r)%nat with false by lia. auto. }
  intros q_hi Hq. cbv beta in Hq.
  assert (Lq : length q_hi = (wlen - r)%nat).
  { rewrite <- (Forall2_len _ _ _ _ _ Hq), seq_length. auto. }
  set (q := ct_triv r ++ q_hi).
  assert (Lq' : length q = wlen) by (unfold q; rewrite app_length, ct_triv_length; lia).
  assert (HQ : forall i, (i < wlen)%nat -> wmsg C (nth i q triv0) (cQ W r i) 1).
  { intros i Hi. unfold q. rewrite nth_app_any, ct_triv_length, ct_triv_nth.
    destruct (i <? r)%nat eqn:E.
    - unfold cQ. rewrite E. apply wmsg_triv0.
    - pose proof (Forall2_map_seq _ _ _ _ _ triv0 Hq (i - r)%nat) as HF.
      rewrite Nat.add_0_l in HF. replace (i - r + r)%nat with i in HF by lia. apply HF; lia. }
  assert (HQ0 : forall i, (i < r)%nat -> wmsg C (nth i q triv0) (cQ W r i) 0).
  { intros i Hi. unfold q. rewrite nth_app_any, ct_triv_length, ct_triv_nth.
    replace (i <? r)%nat with true by lia. unfold cQ. replace (i <? r)%nat with true by lia.
    apply wmsg_triv0. }
  set (w' := map (fun i => let wi := w_sub (nth i w triv0) (w_mul_const (nth i q triv0) 2) in
                   if (0 <? i)%nat then w_add wi (nth (i - 1) q triv0) else wi) (seq 0 wlen)).
  assert (Lw' : length w' = wlen) by (unfold w'; rewrite map_length, seq_length; auto).
  assert (HW' : forall i, (i < wlen)%nat ->
            wmsg C (nth i w' triv0) (cW W r i) (if (i <? r)%nat then 1 else 5)).
  { intros i Hi. unfold w'. rewrite nth_map_seq. replace (i <? wlen)%nat with true by lia.
    rewrite Nat.add_0_l. cbv zeta. unfold cW, cP.
    destruct (i <? r)%nat eqn:E.
    - assert (H1 : wmsg C (w_sub (nth i w triv0) (w_mul_const (nth i q triv0) 2))
                     (W i - cQ W r i * 2) 1).
      { apply (wmsg_sub C _ _ _ _ 1 0); try lia; [apply Hwl1; lia|].
        apply (wmsg_mul C _ _ 0 2); [lia|]. apply HQ0; lia. }
      destruct (0 <? i)%nat eqn:E0.
      + apply (wmsg_add C _ _ _ _ 1 0); try lia; auto. apply HQ0; lia.
      + rewrite Z.add_0_r. auto.
    - assert (H1 : wmsg C (w_sub (nth i w triv0) (w_mul_const (nth i q triv0) 2))
                     (W i - cQ W r i * 2) 4).
      { apply (wmsg_sub C _ _ _ _ 2 2); try lia; [apply Hw; lia|].
        apply (wmsg_mul C _ _ 1 2); [lia|]. apply HQ; lia. }
      destruct (0 <? i)%nat eqn:E0.
      + apply (wmsg_add C _ _ _ _ 4 1); try lia; auto. apply HQ; lia.
      + rewrite Z.add_0_r. eapply wmsg_weaken; [|apply H1]; lia. }
  pose proof (cW_digit W r HW2 Hlow) as HD.
  (* refresh *)
  eapply okP_bind with (P := fun z => length z = (wlen - r)%nat /\ forall i, (i < wlen - r)%nat ->
      wmsg C (nth i z triv0) (cW W r (r + i)) (out_weight refresh)).
  { destruct refresh.
    - eapply okP_conseq.
      + apply (okP_mapM_nth _ _ id_pi_5 (fun i z => wmsg C z (cW W r (r + i)) 1)
                 (skipn r w') triv0 triv0).
        rewrite skipn_length, Lw'. intros i Hi. rewrite nth_skipn.
        destruct (id_ok (nth (r + i) w' triv0) (cW W r (r + i)) 5) as [z [Z1 [Z2 Z3]]].
        * lia.
        * pose proof (HD (r + i)%nat). unfold digit in *. lia.
        * specialize (HW' (r + i)%nat). replace (r + i <? r)%nat with false in HW' by lia.
          apply HW'; lia.
        * exists z. rewrite Z1. auto.
      + cbv beta. rewrite skipn_length, Lw'. auto.
    - apply okP_ret. rewrite skipn_length, Lw'. split; auto. intros i Hi. rewrite nth_skipn.
      specialize (HW' (r + i)%nat). replace (r + i <? r)%nat with false in HW' by lia.
      apply HW'; lia. }
  intros z_hi [Lz Hz].
  apply okP_ret. unfold sum_rep.
  match goal with |- _ /\ _ /\ (elen ?z <= _)%nat /\ _ => pose proof (elen_length z) as Ez end.
  rewrite !app_length, firstn_length, Lw', Lz in *. simpl length in *.
  split; [|unfold wlen, add_wlen in *; lia].
  exists (map (cW W r) (seq 0 wlen) ++ [cQ W r (wlen - 1)]).
  split; [|split].
  - apply digits_app; [apply digits_map_seq; auto|]. constructor; [apply cQ_digit; auto|constructor].
  - apply (Forall2_of_nth _ _ _ _ _ triv0 0).
    + rewrite !app_length, firstn_length, map_length, seq_length, Lw', Lz. simpl. lia.
    + rewrite !app_length, firstn_length, Lw', Lz. simpl length. intros i Hi.
      rewrite !nth_app_any, firstn_length, map_length, seq_length, Lw', Lz, nth_firstn,
        nth_map_seq, Nat.add_0_l.
      destruct (i <? wlen)%nat eqn:E.
      * destruct (i <? Nat.min r wlen)%nat eqn:E'.
        -- replace (i <? r)%nat with true by lia.
           specialize (HW' i). replace (i <? r)%nat with true in HW' by lia.
           eapply wmsg_weaken; [|apply HW'; lia]. lia.
        -- replace (Nat.min r wlen) with r by lia.
           replace (i - r <? wlen - r)%nat with true by lia.
           specialize (Hz (i - r)%nat). replace (r + (i - r))%nat with i in Hz by lia.
           apply Hz. lia.
      * replace (i <? Nat.min r wlen)%nat with false by lia.
        replace (i - Nat.min r wlen <? wlen - r)%nat with false by lia.
        replace (i - Nat.min r wlen - (wlen - r))%nat with 0%nat by lia.
        replace (i - wlen)%nat with 0%nat by lia. simpl nth.
        rewrite <- (nth_last _ q triv0). rewrite Lq'. eapply wmsg_weaken; [|apply HQ; lia]. lia.
  - rewrite value_app, value_map_seq, map_length, seq_length. simpl value.
    pose proof (carry_sum W r HW2 Hlow wlen) as HS. unfold cP in HS.
    replace (0 <? wlen)%nat with true in HS by lia.
    assert (HV : vsum W wlen = value dx + sgn_of is_add * value dy).
    { set (n := Nat.max (length x) (length y)).
      rewrite (value_vsum dx n), (value_vsum dy n) by lia.
      rewrite <- vsum_scale, <- vsum_add. fold W. symmetry. apply vsum_zero_above; [lia|].
      intros i Hi. unfold W.
      assert (Zx : nth i dx 0 = 0).
      { destruct (Nat.lt_ge_cases i (length x)); [|apply nth_overflow; lia].
        apply (encrypts_nth0 x); auto. apply ctz_high. unfold wlen, add_wlen, elen in Hi. lia. }
      assert (Zy : nth i dy 0 = 0).
      { destruct (Nat.lt_ge_cases i (length y)); [|apply nth_overflow; lia].
        apply (encrypts_nth0 y); auto. apply ctz_high. unfold wlen, add_wlen, elen in Hi. lia. }
      rewrite Zx, Zy. lia. }
    rewrite <- HV, <- HS. ring.
Qed.

(** ** API operations *)
Lemma sum_rep_refresh : forall x y z v, sum_rep true x y z v -> enc_val C z v.
Proof.
  intros x y z v [[dz [H1 [H2 H3]]] _]. exists dz. split; auto. split; auto.
Qed.

Lemma pa_add_ok : forall x y vx vy, enc_val C x vx -> enc_val C y vy ->
  okP (pa_add x y) (fun z => enc_val C z (vx + vy) /\
                             (length z <= Nat.max (length x) (length y) + 1)%nat /\
                             (elen z <= Nat.max (elen x) (elen y) + 1)%nat /\
  (length z <= Nat.max (Nat.max (elen x) (elen y) + 1) (Nat.max (length x) (length y)))%nat).
Proof.
  intros x y vx vy [dx [Hx <-]] [dy [Hy <-]]. unfold pa_add. apply okP_analysed.
  eapply okP_conseq; [apply (add_sub_ok true x y true dx dy); auto|].
  intros z Hz. split; [|apply Hz]. apply sum_rep_refresh in Hz.
  unfold sgn_of in Hz. rewrite Z.mul_1_l in Hz. auto.
Qed.

Lemma pa_sub_ok : forall x y vx vy, enc_val C x vx -> enc_val C y vy ->
  okP (pa_sub x y) (fun z => enc_val C z (vx - vy) /\
                             (length z <= Nat.max (length x) (length y) + 1)%nat).
Proof.
  intros x y vx vy [dx [Hx <-]] [dy [Hy <-]]. unfold pa_sub. apply okP_analysed.
  eapply okP_conseq; [apply (add_sub_ok false x y true dx dy); auto|].
  intros z Hz. split; [|apply Hz]. apply sum_rep_refresh in Hz.
  unfold sgn_of in Hz. replace (value dx - value dy) with (value dx + -1 * value dy) by lia. auto.
Qed.

Lemma pa_opp_ok : forall x v, enc_val C x v -> enc_val C (pa_opp x) (- v).
Proof.
  intros x v [dx [Hx <-]]. exists (map Z.opp dx). split; [apply opp_ok; auto|apply value_map_opp].
Qed.

Lemma encrypts_triv_zeros : forall n, encrypts C (ct_triv n) (repeat 0 n).
Proof.
  intros n. split; [apply digits_repeat0|]. unfold ct_triv.
  induction n; simpl; constructor; auto using wmsg_triv0.
Qed.

Lemma encrypts_app : forall x y dx dy, encrypts C x dx -> encrypts C y dy ->
  encrypts C (x ++ y) (dx ++ dy).
Proof.
  intros x y dx dy [H1 H2] [H3 H4]. split; [apply digits_app; auto|]. apply Forall2_app; auto.
Qed.

Lemma encrypts_firstn : forall n x dx, encrypts C x dx -> encrypts C (firstn n x) (firstn n dx).
Proof.
  intros n x dx [H1 H2]. split; [apply digits_firstn; auto|]. apply Forall2_firstn; auto.
Qed.
Lemma encrypts_skipn : forall n x dx, encrypts C x dx -> encrypts C (skipn n x) (skipn n dx).
Proof.
  intros n x dx [H1 H2]. split; [apply digits_skipn; auto|]. apply Forall2_skipn; auto.
Qed.

Lemma enc_val_nil : enc_val C [] 0.
Proof. exists []. split; [split; constructor|reflexivity]. Qed.

Lemma pa_shift_ok : forall x k v, enc_val C x v ->
  enc_val C (pa_shift x k) (v * 2 ^ Z.of_nat k).
Proof.
  intros x k v [dx [Hx <-]]. destruct k.
  - exists dx. split; auto. change (Z.of_nat 0) with 0. change (2 ^ 0) with 1. lia.
  - exists (repeat 0 (S k) ++ dx). split.
    + apply encrypts_app; auto. apply encrypts_triv_zeros.
    + rewrite value_app, value_repeat0, repeat_length. lia.
Qed.

Lemma pa_shift_length : forall (x : ciphertext B) k, length (pa_shift x k) = (k + length x)%nat.
Proof. intros x [|k]; auto. unfold pa_shift. rewrite app_length, ct_triv_length. auto. Qed.

End Add.
