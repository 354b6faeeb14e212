(** Sums of operands whose words are noisier than fresh ones, or no digits *)
From Verif Require Import Base Backend Words Encryption Params Pbs Addition Spec Contract
  BaseProofs ValueProofs WordsProofs PbsProofs EncProofs AddProofs.
From Coq Require Import ZifyBool ZifyNat.

Ltac Zify.zify_post_hook ::= Z.div_mod_to_equations.

Section Noisy.
Context {B : backend} {qw : Z} (C : contract B qw).

(** each word stands for an integer in [-m, m], with noise at most [k] times fresh noise *)
Definition loose (k m : Z) (x : ciphertext B) (ds : list Z) : Prop :=
  Forall (fun d => - m <= d <= m) ds /\ Forall2 (fun w d => wmsg C w d k) x ds.

Lemma loose_len : forall k m x ds, loose k m x ds -> length ds = length x.
Proof. intros k m x ds [_ H]. symmetry. eapply Forall2_len; eauto. Qed.
Lemma loose_nth : forall k m x ds i, loose k m x ds -> wmsg C (nth i x triv0) (nth i ds 0) k.
Proof.
  intros k m x ds i [_ H]. destruct (Nat.lt_ge_cases i (length x)) as [Hi|Hi].
  - eapply (Forall2_nth _ _ (fun w d => wmsg C w d k)); eauto.
  - rewrite !nth_overflow; [apply wmsg_triv0| |auto]. rewrite <- (Forall2_len _ _ _ _ _ H); auto.
Qed.
Lemma loose_range : forall k m x ds i, 0 <= m -> loose k m x ds -> - m <= nth i ds 0 <= m.
Proof.
  intros k m x ds i Hm [H _]. destruct (Nat.lt_ge_cases i (length ds)) as [Hi|Hi].
  - rewrite Forall_forall in H. apply H, nth_In, Hi.
  - rewrite nth_overflow by auto. lia.
Qed.
Lemma loose_nth0 : forall k m x ds i, 0 <= m <= 15 -> loose k m x ds ->
  is_triv_zero (nth i x triv0) = true -> nth i ds 0 = 0.
Proof.
  intros k m x ds i Hm H Ht. pose proof (loose_nth k m x ds i H) as Hw. pose proof (loose_range k m x ds i ltac:(lia) H) as Hr.
  destruct (nth i x triv0) as [c|p]; simpl in Ht; [discriminate|].
  destruct Hw as [_ [q Hq]]. unfold step in Hq. lia.
Qed.
Lemma loose_weaken : forall k m k' m' x ds, k <= k' -> m <= m' -> loose k m x ds -> loose k' m' x ds.
Proof.
  intros k m k' m' x ds Hk Hm [H1 H2]. split; [|eapply rep_weaken; eauto].
  eapply Forall_impl; [|exact H1]. intros d Hd. cbv beta in *. lia.
Qed.
Lemma loose_opp : forall k m x ds, loose k m x ds -> loose k m (pa_opp x) (map Z.opp ds).
Proof.
  intros k m x ds [H1 H2]. split.
  - clear H2. induction H1; cbn [map]; constructor; auto. lia.
  - unfold pa_opp, opposite_impl. clear H1. induction H2; simpl; constructor; auto. apply wmsg_opp; auto.
Qed.
Lemma encrypts_loose : forall x ds, encrypts C x ds -> loose 1 1 x ds.
Proof. intros x ds [H1 H2]. split; auto. Qed.

(** the carry table returns a digit whatever the noise of its argument *)
Lemma f_4_entries : forall m, digit (negacyclic lut_f_4 m).
Proof.
  intros m. unfold negacyclic.
  assert (H : forall i, 0 <= nth i lut_f_4 0 <= 1).
  { intros i. do 16 (destruct i as [|i]; [cbn; lia|]). cbn. destruct i; lia. }
  unfold digit. destruct (m mod 32 <? 16); [specialize (H (Z.to_nat (m mod 32)))|specialize (H (Z.to_nat (m mod 32 - 16)))]; lia.
Qed.
Lemma f_4_any : forall (w : word B) t k, wmsg C w t k ->
  exists r d, fst (f_4_pi_5 w) = Ok r /\ digit d /\ wmsg C r d 1.
Proof.
  intros [c|p] t k Hw.
  - destruct (poly_size_32 C) as [n [Hn HN]].
    assert (Hh : lut_range (map (fun v => 2 * v) lut_f_4)).
    { intros i. rewrite nth_map2. pose proof (f_4_entries (Z.of_nat i)).
      do 16 (destruct i as [|i]; [cbn; lia|]). cbn. destruct i; lia. }
    pose proof (ph_lut B qw C (gen_no_padding_acc (poly_size B) (map (fun v => 2 * v) lut_f_4)) c) as HL. cbv zeta in HL.
    rewrite HN in HL at 1 2. rewrite (acc_length n Hn) in HL. specialize (HL eq_refl).
    destruct HL as [r [d [q' [f [_ [_ [H3 H4]]]]]]].
    exists (Ct (ct_lut B (gen_no_padding_acc (poly_size B) (map (fun v => 2 * v) lut_f_4)) c)), (negacyclic lut_f_4 (box_of n r)).
    split; [reflexivity|]. split; [apply f_4_entries|]. unfold wmsg, wrep. exists f. split; [|fold (nB C) in H4; lia].
    eapply teq_trans; [apply H3|]. apply teq_add; [|apply teq_refl].
    rewrite HN. eapply teq_trans; [apply (ncoef_acc n Hn _ Hh)|]. rewrite negacyclic_map2.
    replace (negacyclic lut_f_4 (box_of n r) * step) with (2 * negacyclic lut_f_4 (box_of n r) * 2^58) by (unfold step; lia).
    apply teq_refl.
  - destruct (lut_uint_ok C (Triv p) t 0 lut_f_4) as [r [H1 [H2 _]]].
    + intros i. do 16 (destruct i as [|i]; [cbn; lia|]). cbn. destruct i; lia.
    + unfold l1_need. repeat destruct (_ <=? _); lia.
    + eapply wmsg_is_triv; [|exact Hw]. reflexivity.
    + exists r, (negacyclic lut_f_4 t). split; [unfold f_4_pi_5; rewrite H1; reflexivity|]. split; [apply f_4_entries|exact H2].
Qed.
Lemma digits_of : forall l : list (word B), Forall (fun w => exists d, digit d /\ wmsg C w d 1) l ->
  exists ds, digits ds /\ Forall2 (fun w d => wmsg C w d 1) l ds.
Proof.
  intros l H. induction H as [|w l [d [H1 H2]] _ [ds [D1 D2]]].
  - exists []. split; constructor.
  - exists (d :: ds). split; constructor; auto.
Qed.

(** words minus twice their carries plus the carries from below: the value stays,
    whatever the carries are *)
Lemma telescope : forall (W Q : nat -> Z) n,
  vsum (fun i => W i - Q i * 2 + (if (0 <? i)%nat then Q (i - 1)%nat else 0)) n
    + (if (0 <? n)%nat then Q (n - 1)%nat else 0) * 2 ^ Z.of_nat n = vsum W n.
Proof.
  intros W Q. induction n as [|n IH]; [reflexivity|]. cbn [vsum]. rewrite <- IH.
  replace (0 <? S n)%nat with true by lia. replace (S n - 1)%nat with n by lia.
  rewrite Nat2Z.inj_succ, Z.pow_succ_r by lia. ring.
Qed.

Lemma forall2_any : forall {S T} (P : T -> Prop) (l : list S) l', Forall2 (fun _ b => P b) l l' -> Forall P l'.
Proof. intros S T P l l' H. induction H; constructor; auto. Qed.

Lemma add_loose : forall is_add x y refresh dx dy kx ky mx my,
  0 <= kx -> 0 <= ky -> 0 <= mx -> 0 <= my -> mx + my + 3 <= 15 ->
  (refresh = true -> kx + ky + 3 <= l1_need qw /\ mx + my + 3 <= 8) ->
  loose kx mx x dx -> loose ky my y dy ->
  okP (add_sub_impl is_add x y refresh) (fun z => exists dz,
    loose (if refresh then Z.max 1 (Z.max kx ky) else kx + ky + 3) (mx + my + 3) z dz /\
    value dz = value dx + sgn_of is_add * value dy /\
    (length z <= Nat.max (length x) (length y) + 1)%nat).
Proof.
  intros is_add x y refresh dx dy kx ky mx my Hkx Hky Hmx Hmy Hm Hre Hx Hy. unfold add_sub_impl.
  pose proof (loose_len _ _ x dx Hx) as Lx. pose proof (loose_len _ _ y dy Hy) as Ly.
  destruct (ctz_spec x) as [X1 [X2 X3]]. destruct (ctz_spec y) as [Y1 [Y2 Y3]].
  set (kz := if refresh then Z.max 1 (Z.max kx ky) else kx + ky + 3).
  assert (Kx : kx <= kz) by (unfold kz; destruct refresh; lia).
  assert (Ky : ky <= kz) by (unfold kz; destruct refresh; lia).
  assert (K1 : 1 <= kz) by (unfold kz; destruct refresh; lia).
  destruct (count_triv_zeros x =? length x)%nat eqn:E1.
  { apply Nat.eqb_eq in E1.
    assert (Hv : value dx = 0).
    { apply value_zero_digits. intros i. destruct (Nat.lt_ge_cases i (length x)).
      - apply (loose_nth0 kx mx x); auto; try lia. apply X2; lia.
      - apply nth_overflow. lia. }
    rewrite Hv. destruct is_add; apply okP_ret; unfold sgn_of.
    - exists dy. split; [eapply loose_weaken; [| |exact Hy]; lia|]. lia.
    - exists (map Z.opp dy). split; [eapply loose_weaken; [| |apply loose_opp, Hy]; lia|].
      rewrite value_map_opp. unfold pa_opp, opposite_impl. rewrite map_length. lia. }
  destruct (count_triv_zeros y =? length y)%nat eqn:E2.
  { apply Nat.eqb_eq in E2.
    assert (Hv : value dy = 0).
    { apply value_zero_digits. intros i. destruct (Nat.lt_ge_cases i (length y)).
      - apply (loose_nth0 ky my y); auto; try lia. apply Y2; lia.
      - apply nth_overflow. lia. }
    rewrite Hv. apply okP_ret. exists dx. split; [eapply loose_weaken; [| |exact Hx]; lia|]. lia. }
  apply Nat.eqb_neq in E1. apply Nat.eqb_neq in E2.
  pose proof (ctz_rev x) as RX. pose proof (ctz_rev y) as RY.
  fold (elen x). fold (elen y). fold (add_rtriv x y). fold (add_wlen x y).
  assert (Hrw : (add_rtriv x y < add_wlen x y)%nat) by (unfold add_rtriv, add_wlen, elen; lia).
  assert (Hwl : (add_wlen x y <= Nat.max (length x) (length y))%nat)
    by (unfold add_wlen, elen; lia).
  set (r := add_rtriv x y) in *. set (wlen := add_wlen x y) in *.
  apply okP_measure.
  set (w := zip_inplace (if is_add then w_add else w_sub)
                        (firstn wlen x ++ ct_triv (wlen - length x)) y).
  set (W := fun i => nth i dx 0 + sgn_of is_add * nth i dy 0).
  assert (HW : forall i, - (mx + my) <= W i <= mx + my).
  { intros i. pose proof (loose_range _ _ _ _ i Hmx Hx). pose proof (loose_range _ _ _ _ i Hmy Hy).
    unfold W, sgn_of. destruct is_add; lia. }
  assert (Lw0 : length (firstn wlen x ++ ct_triv (wlen - length x)) = wlen).
  { rewrite app_length, firstn_length, ct_triv_length. lia. }
  assert (Lw : length w = wlen) by (unfold w; rewrite zip_length; auto).
  assert (Nw0 : forall i, (i < wlen)%nat ->
     nth i (firstn wlen x ++ ct_triv (wlen - length x)) triv0 = nth i x triv0).
  { intros i Hi. rewrite nth_app_any, firstn_length, nth_firstn, ct_triv_nth.
    destruct (i <? Nat.min wlen (length x))%nat eqn:E.
    - replace (i <? wlen)%nat with true by lia. auto.
    - rewrite nth_overflow; auto. lia. }
  (* words before the carries *)
  assert (HwG : forall i k l, (i < wlen)%nat -> 0 <= k -> 0 <= l ->
    wmsg C (nth i x triv0) (nth i dx 0) k -> wmsg C (nth i y triv0) (nth i dy 0) l ->
    wmsg C (nth i w triv0) (W i) (k + l)).
  { intros i k l Hi Hk Hl A D. unfold w. rewrite zip_nth by lia. rewrite Nw0 by auto.
    destruct (i <? length y)%nat eqn:E.
    - unfold W, sgn_of. destruct is_add.
      + replace (nth i dx 0 + 1 * nth i dy 0) with (nth i dx 0 + nth i dy 0) by lia.
        apply wmsg_add; auto.
      + replace (nth i dx 0 + -1 * nth i dy 0) with (nth i dx 0 - nth i dy 0) by lia.
        apply wmsg_sub; auto.
    - unfold W. rewrite (nth_overflow dy) by lia.
      rewrite Z.mul_0_r, Z.add_0_r. eapply wmsg_weaken; [|apply A]. lia. }
  assert (Hw : forall i, (i < wlen)%nat -> wmsg C (nth i w triv0) (W i) (kx + ky)).
  { intros i Hi. apply HwG; auto; eapply loose_nth; eauto. }
  assert (Hwl1 : forall i, (i < r)%nat -> wmsg C (nth i w triv0) (W i) kz).
  { intros i Hi. assert (Hiw : (i < wlen)%nat) by lia. pose proof (loose_nth _ _ x dx i Hx) as A. pose proof (loose_nth _ _ y dy i Hy) as D.
    unfold r, add_rtriv in Hi.
    destruct (Nat.lt_ge_cases i (count_triv_zeros x)) as [Hc|Hc].
    - apply (wmsg_weaken C _ _ (0 + ky)); [lia|]. apply HwG; auto; try lia.
      eapply wmsg_is_triv; [|apply A]. apply triv_zero_triv. apply X2; auto.
    - apply (wmsg_weaken C _ _ (kx + 0)); [lia|]. apply HwG; auto; try lia.
      eapply wmsg_is_triv; [|apply D]. apply triv_zero_triv. apply Y2; lia. }
  replace (wlen <=? r)%nat with false by lia.
  (* carries: some digits *)
  eapply okP_bind.
  { apply (okP_mapM _ _ _ (fun _ q => exists d, digit d /\ wmsg C q d 1)).
    intros i0 Hin. apply in_seq in Hin.
    set (i := (i0 + r)%nat).
    assert (Hi : (i < wlen)%nat) by lia.
    set (arg := if (0 <? i0)%nat then w_add (w_mul_const (nth i w triv0) 3) (nth (i - 1) w triv0)
                else w_mul_const (nth i w triv0) 3).
    assert (Harg : exists m k, wmsg C arg m k).
    { assert (H3 : wmsg C (w_mul_const (nth i w triv0) 3) (W i * 3) (3 * (kx + ky))).
      { replace (3 * (kx + ky)) with ((kx + ky) * Z.abs 3) by (simpl Z.abs; lia).
        eapply wmsg_weaken; [|apply (wmsg_mul C _ _ (kx + ky) 3); [lia|auto]]. lia. }
      unfold arg. destruct (0 <? i0)%nat eqn:E; [|eauto].
      exists (W i * 3 + W (i - 1)%nat), (3 * (kx + ky) + (kx + ky)).
      apply wmsg_add; [lia|lia|exact H3|]. apply Hw. lia. }
    destruct Harg as [m [k Harg]]. destruct (f_4_any arg m k Harg) as [q [d [F1 [F2 F3]]]].
    exists q. split; [exact F1|]. eauto. }
  intros q_hi Hq. cbv beta in Hq.
  assert (Lq : length q_hi = (wlen - r)%nat).
  { rewrite <- (Forall2_len _ _ _ _ _ Hq), seq_length. auto. }
  apply forall2_any in Hq. apply digits_of in Hq. destruct Hq as [dq [Dq Hq]].
  pose proof (Forall2_len _ _ _ _ _ Hq) as Ldq.
  set (Q := fun i => if (i <? r)%nat then 0 else nth (i - r) dq 0).
  assert (DQ : forall i, digit (Q i)).
  { intros i. unfold Q. destruct (i <? r)%nat; [unfold digit; lia|]. apply digits_nth, Dq. }
  set (q := ct_triv r ++ q_hi).
  assert (Lq' : length q = wlen) by (unfold q; rewrite app_length, ct_triv_length; lia).
  assert (HQ : forall i, (i < wlen)%nat -> wmsg C (nth i q triv0) (Q i) (if (i <? r)%nat then 0 else 1)).
  { intros i Hi. unfold q, Q. rewrite nth_app_any, ct_triv_length, ct_triv_nth.
    destruct (i <? r)%nat eqn:E; [apply wmsg_triv0|].
    eapply (Forall2_nth _ _ (fun w d => wmsg C w d 1)); eauto. lia. }
  assert (HQ1 : forall i, (i < wlen)%nat -> wmsg C (nth i q triv0) (Q i) 1).
  { intros i Hi. eapply wmsg_weaken; [|apply HQ, Hi]. destruct (i <? r)%nat; lia. }
  set (w' := map (fun i => let wi := w_sub (nth i w triv0) (w_mul_const (nth i q triv0) 2) in
                   if (0 <? i)%nat then w_add wi (nth (i - 1) q triv0) else wi) (seq 0 wlen)).
  assert (Lw' : length w' = wlen) by (unfold w'; rewrite map_length, seq_length; auto).
  set (D := fun i => W i - Q i * 2 + (if (0 <? i)%nat then Q (i - 1)%nat else 0)).
  assert (HD : forall i, - (mx + my + 3) <= D i <= mx + my + 3).
  { intros i. unfold D. pose proof (HW i). pose proof (DQ i). pose proof (DQ (i - 1)%nat). unfold digit in *.
    destruct (0 <? i)%nat; lia. }
  assert (HW' : forall i, (i < wlen)%nat ->
            wmsg C (nth i w' triv0) (D i) (if (i <? r)%nat then kz else kx + ky + 3)).
  { intros i Hi. unfold w'. rewrite nth_map_seq. replace (i <? wlen)%nat with true by lia.
    rewrite Nat.add_0_l. cbv zeta. unfold D.
    destruct (i <? r)%nat eqn:E.
    - assert (HQ0 : forall j, (j <= i)%nat -> wmsg C (nth j q triv0) (Q j) 0).
      { intros j Hj. specialize (HQ j ltac:(lia)). replace (j <? r)%nat with true in HQ by lia. exact HQ. }
      assert (H1 : wmsg C (w_sub (nth i w triv0) (w_mul_const (nth i q triv0) 2)) (W i - Q i * 2) kz).
      { eapply wmsg_weaken; [|apply (wmsg_sub C _ _ _ _ kz 0); [lia|lia|apply Hwl1; lia|]]; [lia|].
        apply (wmsg_mul C _ _ 0 2); [lia|]. apply HQ0; lia. }
      destruct (0 <? i)%nat eqn:E0.
      + eapply wmsg_weaken; [|apply (wmsg_add C _ _ _ _ kz 0); [lia|lia|exact H1|apply HQ0; lia]]. lia.
      + rewrite Z.add_0_r. auto.
    - assert (H1 : wmsg C (w_sub (nth i w triv0) (w_mul_const (nth i q triv0) 2))
                     (W i - Q i * 2) (kx + ky + 2)).
      { apply (wmsg_sub C _ _ _ _ (kx + ky) 2); try lia; [apply Hw; lia|].
        apply (wmsg_mul C _ _ 1 2); [lia|]. apply HQ1; lia. }
      destruct (0 <? i)%nat eqn:E0.
      + replace (kx + ky + 3) with (kx + ky + 2 + 1) by lia. apply wmsg_add; try lia; auto. apply HQ1; lia.
      + rewrite Z.add_0_r. eapply wmsg_weaken; [|apply H1]; lia. }
  (* refresh *)
  eapply okP_bind with (P := fun z => length z = (wlen - r)%nat /\ forall i, (i < wlen - r)%nat ->
      wmsg C (nth i z triv0) (D (r + i)%nat) kz).
  { destruct refresh eqn:Er.
    - destruct (Hre eq_refl) as [Hl1 Hm8].
      eapply okP_conseq.
      + apply (okP_mapM_nth _ _ id_pi_5 (fun i z => wmsg C z (D (r + i)%nat) kz)
                 (skipn r w') triv0 triv0).
        rewrite skipn_length, Lw'. intros i Hi. rewrite nth_skipn.
        destruct (id_ok C (nth (r + i) w' triv0) (D (r + i)%nat) (kx + ky + 3)) as [z [Z1 [Z2 Z3]]].
        * lia.
        * pose proof (HD (r + i)%nat). lia.
        * specialize (HW' (r + i)%nat). replace (r + i <? r)%nat with false in HW' by lia.
          apply HW'; lia.
        * exists z. rewrite Z1. split; auto. eapply wmsg_weaken; [|exact Z2]. lia.
      + cbv beta. rewrite skipn_length, Lw'. auto.
    - apply okP_ret. rewrite skipn_length, Lw'. split; auto. intros i Hi. rewrite nth_skipn.
      specialize (HW' (r + i)%nat). replace (r + i <? r)%nat with false in HW' by lia.
      apply HW'; lia. }
  intros z_hi [Lz Hz].
  apply okP_ret.
  exists (map D (seq 0 wlen) ++ [Q (wlen - 1)%nat]). split; [split|split].
  - apply Forall_app. split.
    + apply Forall_forall. intros d Hd. apply in_map_iff in Hd. destruct Hd as [i [<- _]]. apply HD.
    + constructor; [|constructor]. pose proof (DQ (wlen - 1)%nat). unfold digit in *. lia.
  - apply (Forall2_of_nth _ _ _ _ _ triv0 0).
    + rewrite !app_length, firstn_length, map_length, seq_length, Lw', Lz. simpl. lia.
    + rewrite !app_length, firstn_length, Lw', Lz. simpl length. intros i Hi.
      rewrite !nth_app_any, firstn_length, map_length, seq_length, Lw', Lz, nth_firstn,
        nth_map_seq, Nat.add_0_l.
      destruct (i <? wlen)%nat eqn:E.
      * destruct (i <? Nat.min r wlen)%nat eqn:E'.
        -- replace (i <? r)%nat with true by lia.
           specialize (HW' i). replace (i <? r)%nat with true in HW' by lia. apply HW'; lia.
        -- replace (Nat.min r wlen) with r by lia.
           replace (i - r <? wlen - r)%nat with true by lia.
           specialize (Hz (i - r)%nat). replace (r + (i - r))%nat with i in Hz by lia.
           apply Hz. lia.
      * replace (i <? Nat.min r wlen)%nat with false by lia.
        replace (i - Nat.min r wlen <? wlen - r)%nat with false by lia.
        replace (i - Nat.min r wlen - (wlen - r))%nat with 0%nat by lia.
        replace (i - wlen)%nat with 0%nat by lia. simpl nth.
        rewrite <- (nth_last _ q triv0). rewrite Lq'. eapply wmsg_weaken; [|apply HQ1; lia]. lia.
  - rewrite value_app, value_map_seq, map_length, seq_length. simpl value.
    pose proof (telescope W Q wlen) as HS. fold D in HS.
    replace (0 <? wlen)%nat with true in HS by lia.
    assert (HV : vsum W wlen = value dx + sgn_of is_add * value dy).
    { set (n := Nat.max (length x) (length y)).
      rewrite (value_vsum dx n), (value_vsum dy n) by lia.
      rewrite <- vsum_scale, <- vsum_add. fold W. symmetry. apply vsum_zero_above; [lia|].
      intros i Hi. unfold W.
      assert (Zx : nth i dx 0 = 0).
      { destruct (Nat.lt_ge_cases i (length x)); [|apply nth_overflow; lia].
        apply (loose_nth0 kx mx x); auto; try lia. apply ctz_high. unfold wlen, add_wlen, elen in Hi. lia. }
      assert (Zy : nth i dy 0 = 0).
      { destruct (Nat.lt_ge_cases i (length y)); [|apply nth_overflow; lia].
        apply (loose_nth0 ky my y); auto; try lia. apply ctz_high. unfold wlen, add_wlen, elen in Hi. lia. }
      rewrite Zx, Zy. lia. }
    rewrite <- HV, <- HS. ring.
  - rewrite !app_length, firstn_length, Lw', Lz. simpl length. lia.
Qed.

End Noisy.
