(** Proofs about lookup tables *)
From Verif Require Import Base Backend Words Pbs Spec Contract BaseProofs WordsProofs.
From Coq Require Import ZifyBool ZifyNat.
Ltac Zify.zify_post_hook ::= idtac.

(* ------------------------------------------------------------------ *)
(** ** The accumulator *)

Lemma flat_map_repeat_length : forall A (f : nat -> A) b n s,
  length (flat_map (fun i => repeat (f i) b) (seq s n)) = (n * b)%nat.
Proof.
  induction n; intros s; simpl; auto. rewrite app_length, repeat_length, IHn. auto.
Qed.

Lemma nth_flat_map_repeat : forall A (f : nat -> A) b n s i d,
  (0 < b)%nat -> (i < n * b)%nat ->
  nth i (flat_map (fun i => repeat (f i) b) (seq s n)) d = f (s + i / b)%nat.
Proof.
  induction n; intros s i d Hb Hi; simpl in *; [lia|].
  destruct (Nat.lt_ge_cases i b) as [H|H].
  - rewrite app_nth1 by (rewrite repeat_length; auto).
    rewrite nth_repeat_any. replace (i <? b)%nat with true by lia.
    rewrite Nat.div_small by auto. f_equal; lia.
  - rewrite app_nth2 by (rewrite repeat_length; auto). rewrite repeat_length.
    rewrite IHn by lia. f_equal.
    replace i with ((i - b) + 1 * b)%nat at 2 by lia. rewrite Nat.div_add by lia. lia.
Qed.

Section Acc.
Variable n : nat.                     (* N = 32 n *)
Hypothesis Hn : (0 < n)%nat.
Variable h : list Z.

Let N := (32 * n)%nat.

Lemma box_eq : (N / 16 = 2 * n)%nat.
Proof. unfold N. replace (32 * n)%nat with ((2 * n) * 16)%nat by lia. apply Nat.div_mul; lia. Qed.

Lemma half_eq : (2 * n / 2 = n)%nat.
Proof. rewrite Nat.mul_comm. apply Nat.div_mul; lia. Qed.

Lemma acc_init_length : length (acc_init N h) = N.
Proof.
  unfold acc_init. rewrite app_length, flat_map_repeat_length, repeat_length, box_eq.
  unfold N; lia.
Qed.

Lemma acc_init_nth : forall i, (i < N)%nat ->
  nth i (acc_init N h) 0 = sat_u64 (nth (i / (2 * n)) h 0 * (delta MSG_MOD / 2)).
Proof.
  intros i Hi. unfold acc_init. rewrite app_nth1.
  - rewrite box_eq, (nth_flat_map_repeat _ (fun i => sat_u64 (nth i h 0 * (delta MSG_MOD / 2)))).
    + auto.
    + lia.
    + unfold N in Hi; lia.
  - rewrite flat_map_repeat_length, box_eq. unfold N in Hi; lia.
Qed.

Lemma acc_length : length (gen_no_padding_acc N h) = N.
Proof.
  unfold gen_no_padding_acc. rewrite box_eq, half_eq.
  set (l := map _ _ ++ _). assert (Hl : length l = N).
  { unfold l. rewrite app_length, map_length, <- app_length, firstn_skipn, acc_init_length; auto. }
  rewrite app_length, skipn_length, firstn_length, Hl. unfold N; lia.
Qed.

Lemma acc_nth : forall i, (i < N)%nat ->
  nth i (gen_no_padding_acc N h) 0 =
  if (i <? N - n)%nat then nth (i + n) (acc_init N h) 0
  else u64 (- nth (i - (N - n)) (acc_init N h) 0).
Proof.
  intros i Hi. unfold gen_no_padding_acc. rewrite box_eq, half_eq.
  set (a := acc_init N h). pose proof acc_init_length as Ha. fold a in Ha.
  set (neg := map (fun z => u64 (- z)) (firstn n a) ++ skipn n a).
  assert (Hl : length neg = N).
  { unfold neg. rewrite app_length, map_length, <- app_length, firstn_skipn; auto. }
  assert (HnN : (n <= N)%nat) by (unfold N; lia).
  destruct (i <? N - n)%nat eqn:E.
  - apply Nat.ltb_lt in E. rewrite app_nth1 by (rewrite skipn_length; lia).
    rewrite nth_skipn. unfold neg.
    rewrite app_nth2; rewrite map_length, firstn_length, Ha; [|lia].
    rewrite nth_skipn. f_equal; lia.
  - apply Nat.ltb_ge in E. rewrite app_nth2 by (rewrite skipn_length; lia).
    rewrite skipn_length, Hl. rewrite nth_firstn.
    destruct (i - (N - n) <? n)%nat eqn:F; [|apply Nat.ltb_ge in F; lia].
    apply Nat.ltb_lt in F. unfold neg.
    rewrite app_nth1 by (rewrite map_length, firstn_length; lia).
    rewrite (nth_indep _ 0 (u64 (- 0))) by (rewrite map_length, firstn_length; lia).
    rewrite (map_nth (fun z => u64 (- z))), nth_firstn.
    destruct (i - (N - n) <? n)%nat eqn:G; [auto|apply Nat.ltb_ge in G; lia].
Qed.

Hypothesis Hh : forall i, 0 <= nth i h 0 < 64.

Lemma sat_h : forall i, sat_u64 (nth i h 0 * (delta MSG_MOD / 2)) = nth i h 0 * 2^58.
Proof.
  intros i. change (delta MSG_MOD / 2) with (2^58). specialize (Hh i). unfold sat_u64. lia.
Qed.

(** index of the box that holds coefficient r *)
Definition box_of (r : Z) : Z := ((r + Z.of_nat n) / (2 * Z.of_nat n)) mod 32.

Lemma ncoef_acc : forall r,
  teq (ncoef (gen_no_padding_acc N h) r) (negacyclic h (box_of r) * 2^58).
Proof.
  intros r. unfold ncoef. rewrite acc_length.
  assert (HN : Z.of_nat N = 32 * Z.of_nat n) by (unfold N; lia).
  rewrite HN. set (k := Z.of_nat n) in *. assert (Hk : 0 < k) by lia.
  set (s := r mod (2 * (32 * k))).
  assert (Hs : 0 <= s < 64 * k) by (unfold s; pose proof (Z.mod_pos_bound r (2 * (32 * k))); lia).
  assert (Hb : box_of r = ((s + k) / (2 * k)) mod 32).
  { unfold box_of. fold k. unfold s. rewrite (Z.mod_eq r) by lia.
    set (q := r / (2 * (32 * k))).
    replace (r - 2 * (32 * k) * q + k) with (r + k + (- 32 * q) * (2 * k)) by ring.
    rewrite Z.div_add by lia. replace (-32 * q) with (-q * 32) by ring.
    rewrite Z.mod_add by lia; auto. }
  rewrite Hb. clear Hb. clearbody s. clear r. unfold negacyclic. rewrite Z.mod_mod by lia.
  remember ((s + k) / (2 * k)) as m eqn:Hmdef.
  assert (Hm : 2 * k * m <= s + k < 2 * k * (m + 1)).
  { pose proof (Z.div_mod (s + k) (2 * k)) as D. pose proof (Z.mod_pos_bound (s + k) (2 * k)) as D2.
    rewrite <- Hmdef in D. lia. }
  assert (Hidx : forall i : nat, (i < 32 * n)%nat -> Z.of_nat (i / (2 * n)) = Z.of_nat i / (2 * k)).
  { intros i Hi. rewrite Nat2Z.inj_div. f_equal. unfold k; lia. }
  destruct (s <? 32 * k) eqn:E1.
  - rewrite acc_nth by (unfold N; lia).
    destruct (Z.to_nat s <? N - n)%nat eqn:E2.
    + apply Nat.ltb_lt in E2. assert (Hs2 : s < 31 * k) by (unfold N in E2; lia).
      assert (0 <= m < 16) by nia. rewrite (Z.mod_small m) by lia.
      replace (m <? 16) with true by lia.
      rewrite acc_init_nth by (unfold N; lia). rewrite sat_h.
      replace (Z.to_nat m) with ((Z.to_nat s + n) / (2 * n))%nat.
      * apply teq_refl.
      * apply Nat2Z.inj. rewrite Hidx by lia. rewrite Z2Nat.id by lia.
        rewrite Hmdef. f_equal. unfold k; lia.
    + apply Nat.ltb_ge in E2. assert (Hs2 : 31 * k <= s) by (unfold N in E2; lia).
      assert (m = 16) by nia. rewrite (Z.mod_small m) by lia.
      replace (m <? 16) with false by lia.
      rewrite acc_init_nth by (unfold N; lia). rewrite sat_h.
      rewrite Nat.div_small by (unfold N; lia).
      replace (Z.to_nat (m - 16)) with 0%nat by lia.
      eapply teq_trans; [apply teq_u64|]. rewrite Z.mul_opp_l. apply teq_refl.
  - rewrite acc_nth by (unfold N; lia).
    destruct (Z.to_nat (s - 32 * k) <? N - n)%nat eqn:E2.
    + apply Nat.ltb_lt in E2. assert (Hs2 : s < 63 * k) by (unfold N in E2; lia).
      assert (16 <= m < 32) by nia. rewrite (Z.mod_small m) by lia.
      replace (m <? 16) with false by lia.
      rewrite acc_init_nth by (unfold N; lia). rewrite sat_h.
      replace (Z.to_nat (m - 16)) with ((Z.to_nat (s - 32 * k) + n) / (2 * n))%nat.
      * rewrite Z.mul_opp_l. apply teq_refl.
      * apply Nat2Z.inj. rewrite Hidx by lia. rewrite Z2Nat.id by lia.
        rewrite Hmdef. replace (Z.of_nat (Z.to_nat (s - 32 * k) + n)) with (s + k + (-16) * (2 * k))
          by (unfold k; lia).
        rewrite Z.div_add by lia. lia.
    + apply Nat.ltb_ge in E2. assert (Hs2 : 63 * k <= s) by (unfold N in E2; lia).
      assert (Hm32 : m = 32) by nia. rewrite Hm32. change (32 mod 32) with 0.
      change (0 <? 16) with true. cbv iota.
      rewrite acc_init_nth by (unfold N; lia). rewrite sat_h.
      rewrite Nat.div_small by (unfold N; lia).
      change (Z.to_nat 0) with 0%nat.
      eapply teq_trans; [apply teq_opp, teq_u64|]. rewrite Z.opp_involutive. apply teq_refl.
Qed.

End Acc.

(* ------------------------------------------------------------------ *)
(** ** Evaluation of a table on a word *)
Ltac Zify.zify_post_hook ::= Z.div_mod_to_equations.

Definition lut_range (h : list Z) : Prop := forall i, 0 <= nth i h 0 < 64.

Section Lut.
Context {B : backend} {qw : Z} (C : contract B qw).

Lemma poly_size_32 : exists n, (0 < n)%nat /\ poly_size B = (32 * n)%nat.
Proof.
  pose proof (N_pos B qw C). pose proof (N_32 B qw C).
  exists (poly_size B / 32)%nat.
  pose proof (Nat.div_mod (poly_size B) 32). lia.
Qed.

(** any error below half a box, after scaling to the modulus 2N *)
Lemma ct_lut_gen : forall (c : ct B) m e h, lut_range h ->
  teq (phase C c) (m * step + e) ->
  (let N2 := 2 * Z.of_nat (poly_size B) in Z.abs e * N2 + nMS C < 2^58 * N2) ->
  wrep C (Ct (ct_lut B (gen_no_padding_acc (poly_size B) h) c)) (negacyclic h m * 2^58) 1.
Proof.
  intros c m e h Hh [q Hph] Hb. cbv zeta in Hb.
  destruct poly_size_32 as [n [Hn HN]].
  pose proof (ph_lut B qw C (gen_no_padding_acc (poly_size B) h) c) as HL. cbv zeta in HL.
  rewrite HN in HL at 1 2. rewrite (acc_length n Hn) in HL. specialize (HL eq_refl).
  destruct HL as [r [d [q' [f [H1 [H2 [H3 H4]]]]]]].
  unfold wrep. exists f. split; [|lia].
  eapply teq_trans; [apply H3|]. apply teq_add; [|apply teq_refl].
  rewrite HN. eapply teq_trans; [apply (ncoef_acc n Hn h Hh)|].
  replace (negacyclic h (box_of n r)) with (negacyclic h m); [apply teq_refl|].
  unfold negacyclic. replace (box_of n r mod 32) with (m mod 32); auto.
  unfold box_of. rewrite Z.mod_mod by lia.
  fold (nB C) in *. fold (nMS C) in *.
  rewrite HN in *. replace (Z.of_nat (32 * n)) with (32 * Z.of_nat n) in * by lia.
  set (kn := Z.of_nat n) in *. assert (Hkn : 0 < kn) by lia.
  (* the rotation minus its ideal value *)
  set (dl := r + q' * (2 * (32 * kn)) - 2 * kn * m - q * (2 * (32 * kn))).
  assert (Hdl : dl * 2^64 = e * (64 * kn) + d).
  { unfold dl. rewrite Hph in H1. unfold step in H1.
    change (2^59) with 576460752303423488 in H1.
    change (2^64) with 18446744073709551616 in *. lia. }
  assert (He2 : Z.abs (e * (64 * kn) + d) < 2^58 * (64 * kn)).
  { assert (Z.abs (e * (64 * kn)) = Z.abs e * (64 * kn)).
    { rewrite Z.abs_mul. rewrite (Z.abs_eq (64 * kn)) by lia. auto. }
    replace (2 * (32 * kn)) with (64 * kn) in Hb by ring. lia. }
  assert (Hd2 : - kn < dl < kn).
  { rewrite <- Hdl in He2. change (2^64) with (64 * 2^58) in He2.
    assert (0 < 2^58) by reflexivity. set (T := 2^58) in *. nia. }
  replace (r + kn) with ((dl + kn) + (m + 32 * (q - q')) * (2 * kn)) by (unfold dl; ring).
  rewrite Z.div_add by lia. rewrite Z.div_small by lia.
  rewrite Z.add_0_l. replace (m + 32 * (q - q')) with (m + (q - q') * 32) by ring.
  rewrite Z.mod_add by lia. auto.
Qed.

Lemma ct_lut_ok : forall (c : ct B) m k h, lut_range h -> 0 <= k <= l1_need qw ->
  wrep C (Ct c) (m * step) k ->
  wrep C (Ct (ct_lut B (gen_no_padding_acc (poly_size B) h) c)) (negacyclic h m * 2^58) 1.
Proof.
  intros c m k h Hh Hk [e [Hph He]]. apply (ct_lut_gen c m e); auto. cbv zeta.
  pose proof (budget B qw C) as Hb. cbv zeta in Hb. pose proof (nB0 C).
  pose proof (N_pos B qw C). set (N2 := 2 * Z.of_nat (poly_size B)) in *.
  assert (Z.abs e <= l1_need qw * nB C) by nia.
  assert (Z.abs e * N2 <= l1_need qw * nB C * N2) by (apply Z.mul_le_mono_nonneg_r; lia).
  fold (nB C) (nMS C) in Hb. lia.
Qed.

Lemma sat_i32_small : forall z, Z.abs z < 2^31 -> sat_i32 z = z.
Proof. intros z H. unfold sat_i32, I32_MIN, I32_MAX. lia. Qed.

Lemma land1 : forall z, Z.land z 1 = z mod 2.
Proof. intros z. change 1 with (Z.ones 1). rewrite Z.land_ones by lia. auto. Qed.
Lemma land31 : forall z, Z.land z 31 = z mod 32.
Proof. intros z. change 31 with (Z.ones 5). rewrite Z.land_ones by lia. auto. Qed.

Lemma half_split : forall z, Z.quot (if z mod 2 =? 1 then z - 1 else z) 2 = z / 2.
Proof.
  intros z. destruct (z mod 2 =? 1) eqn:E.
  - replace (z - 1) with ((z / 2) * 2) by lia. apply Z.quot_mul; lia.
  - replace z with ((z / 2) * 2) at 1 by lia. apply Z.quot_mul; lia.
Qed.

(** the value returned for a trivial word *)
Lemma triv_lut_ok : forall pt m h k, (forall i, Z.abs (nth i h 0) < 2^31) ->
  wrep C (Triv pt) (m * step) k ->
  exists p, fst (eval_LUT_5_half (Triv pt : word B) h) = Ok (Triv p) /\
            snd (eval_LUT_5_half (Triv pt : word B) h) = [] /\
            wrep C (Triv p) (negacyclic h m * 2^58) 0.
Proof.
  intros pt m h k Hh [H1 H2]. unfold eval_LUT_5_half.
  assert (Hmu : pt_to_mu MSG_MOD pt = m mod 32).
  { change MSG_MOD with (2^5). rewrite (pt_to_mu_near 5 m 0); auto; try lia.
    rewrite Z.add_0_r; auto. }
  rewrite Hmu. set (fm := negacyclic h m).
  assert (Hfm : (if m mod 32 <? 16 then ret (nth (Z.to_nat (m mod 32)) h 0)
      else if m mod 32 <? 32 then ret (- nth (Z.to_nat (m mod 32 - 16)) h 0)
      else panic P_lut_range) = ret fm).
  { unfold fm, negacyclic. destruct (m mod 32 <? 16) eqn:E; auto.
    replace (m mod 32 <? 32) with true by lia. auto. }
  rewrite Hfm, ret_bind.
  assert (Hfa : Z.abs fm < 2^31).
  { unfold fm, negacyclic. destruct (m mod 32 <? 16).
    - apply Hh.
    - specialize (Hh (Z.to_nat (m mod 32 - 16))). lia. }
  rewrite (sat_i32_small fm) by auto. rewrite land1, half_split.
  rewrite sat_i32_small by lia. rewrite land31.
  pose proof (wmsg_triv C ((fm / 2) mod 32) 0) as HT. unfold wmsg in HT.
  assert (HT' : wrep C (encrypt_word_triv ((fm / 2) mod 32)) (fm / 2 * step) 0).
  { eapply wrep_teq; [|apply HT]. exists (- ((fm / 2) / 32)).
    unfold step. lia. }
  destruct (fm mod 2 =? 1) eqn:E.
  - exists (u64 (mi_to_pt MSG_MOD ((fm / 2) mod 32) + half_to_pt MSG_MOD)).
    split; [reflexivity|]. split; [reflexivity|].
    pose proof (wrep_half C _ _ _ HT') as HF. unfold encrypt_word_triv, w_add_half in HF.
    eapply wrep_teq; [|apply HF]. unfold step. exists 0. lia.
  - exists (mi_to_pt MSG_MOD ((fm / 2) mod 32)).
    split; [reflexivity|]. split; [reflexivity|].
    eapply wrep_teq; [|apply HT']. unfold step. exists 0. lia.
Qed.

Definition lut_trace (c : word B) : list event := if is_triv c then [] else [EPbs].

(** C06, C07 in one statement *)
Lemma lut_half_ok : forall (c : word B) m k h, lut_range h -> 0 <= k <= l1_need qw ->
  wmsg C c m k ->
  exists w, eval_LUT_5_half c h = (Ok w, lut_trace c) /\
            wrep C w (negacyclic h m * 2^58) 1 /\ is_triv w = is_triv c.
Proof.
  intros [c|p] m k h Hh Hk H.
  - exists (Ct (ct_lut B (gen_no_padding_acc (poly_size B) h) c)).
    split; [reflexivity|]. split; [|reflexivity]. eapply ct_lut_ok; eauto.
  - destruct (triv_lut_ok p m h k) as [p' [H1 [H2 H3]]]; auto.
    { intros i. specialize (Hh i). lia. }
    exists (Triv p'). split; [|split; auto].
    rewrite (surjective_pairing (eval_LUT_5_half _ _)), H1, H2. auto.
Qed.

Definition lut_range_u (l : list Z) : Prop := forall i, 0 <= nth i l 0 < 32.

Lemma nth_map2 : forall l i, nth i (map (fun v => 2 * v) l) 0 = 2 * nth i l 0.
Proof. intros l i. change 0 with (2 * 0) at 1. apply (map_nth (fun v => 2 * v)). Qed.

Lemma negacyclic_map2 : forall l m,
  negacyclic (map (fun v => 2 * v) l) m = 2 * negacyclic l m.
Proof. intros l m. unfold negacyclic. rewrite !nth_map2. destruct (m mod 32 <? 16); ring. Qed.

Lemma lut_uint_ok : forall (c : word B) m k l, lut_range_u l -> 0 <= k <= l1_need qw ->
  wmsg C c m k ->
  exists w, eval_LUT_5_uint c l = (Ok w, lut_trace c) /\
            wmsg C w (negacyclic l m) 1 /\ is_triv w = is_triv c.
Proof.
  intros c m k l Hl Hk H. unfold eval_LUT_5_uint.
  destruct (lut_half_ok c m k (map (fun v => 2 * v) l)) as [w [H1 [H2 H3]]]; auto.
  { intros i. rewrite nth_map2. specialize (Hl i). lia. }
  exists w. split; auto. split; auto. unfold wmsg. rewrite negacyclic_map2 in H2.
  replace (negacyclic l m * step) with (2 * negacyclic l m * 2^58) by (unfold step; lia). auto.
Qed.

Lemma wmsg_mod : forall (w : word B) m m' k, (m - m') mod 32 = 0 -> wmsg C w m k -> wmsg C w m' k.
Proof.
  intros w m m' k H Hw. eapply wrep_teq; [|apply Hw]. exists ((m - m') / 32).
  unfold step. lia.
Qed.

(** What a named lookup function does: on words with message in [lo, hi] it
    returns [f m] with fresh noise. *)
Definition lut_fun (F : word B -> M (word B)) (lo hi : Z) (f : Z -> Z) : Prop :=
  forall (c : word B) m k, 0 <= k <= l1_need qw -> lo <= m <= hi -> wmsg C c m k ->
  exists w, F c = (Ok w, lut_trace c) /\ wmsg C w (f m) 1 /\ is_triv w = is_triv c.

Definition zrange (lo hi : Z) : list Z :=
  map (fun i => lo + Z.of_nat i) (seq 0 (Z.to_nat (hi - lo + 1))).

Lemma in_zrange : forall lo hi m, lo <= m <= hi -> In m (zrange lo hi).
Proof.
  intros lo hi m H. unfold zrange. apply in_map_iff. exists (Z.to_nat (m - lo)).
  split; [lia|]. apply in_seq. lia.
Qed.

Definition tbl_check (l : list Z) (lo hi : Z) (f : Z -> Z) : bool :=
  forallb (fun m => (negacyclic l m - f m) mod 32 =? 0) (zrange lo hi).

Lemma lut_fun_of : forall l lo hi f,
  forallb (fun v => (0 <=? v) && (v <? 32)) l = true ->
  tbl_check l lo hi f = true ->
  lut_fun (fun c => eval_LUT_5_uint c l) lo hi f.
Proof.
  intros l lo hi f Hr Hc c m k Hk Hm H.
  destruct (lut_uint_ok c m k l) as [w [H1 [H2 H3]]]; auto.
  { intros i. destruct (nth_in_or_default i l 0) as [Hi|Hi].
    - rewrite forallb_forall in Hr. specialize (Hr _ Hi). lia.
    - rewrite Hi. lia. }
  exists w. split; auto. split; auto. eapply wmsg_mod; [|apply H2].
  unfold tbl_check in Hc. rewrite forallb_forall in Hc.
  specialize (Hc m (in_zrange lo hi m Hm)). lia.
Qed.

End Lut.
