(** Property C49: the test suite. Whatever the random generator draws, a test
    of a correct backend passes; the tests that multiply by known integers do
    not pass in a build with overflow checks. *)
From Verif Require Import Base Backend Words Encryption Params Pbs Addition Signum Maximum Multiplication
  Squaring Rounding Naf Asc AscTable ScalarMul Arith NeuralNetwork TestSuite
  Spec Contract BaseProofs WordsProofs EncProofs ValueProofs PbsProofs AddProofs SgnProofs MulProofs
  RoundProofs NafProofs AscProofs ScalarProofs Expr ArithProofs TestProofs Instances Properties1 Properties3 Properties4.
From Coq Require Import ZifyBool ZifyNat.

(** A test passes: it returns, without a panic and without an error. *)
Definition passes (t : M unit) : Prop := fst t = Ok tt.

Section C49.
Context {B : backend} {qw : Z} (C : contract B qw).
Variables (cl cu : client B) (pc : cloud).
Hypothesis K : client_ok C cl.
Hypothesis KU : client_ok C cu.
Hypothesis Hq : quad_weight (cparams pc) = qw.
Hypothesis Hbp : bit_precision (cparams pc) = 5%nat.
Hypothesis HT : asc_12 pc = shipped_asc.

Local Lemma rand_digits : forall v, Forall (fun x => -1 <= x <= 1) v -> digits v.
Proof. intros v H. eapply Forall_impl; [|exact H]. unfold digit. lia. Qed.

(* ------------------------------------------------------------------ *)
(** ** test_encryption.rs *)

Theorem C49_decrypt_triv : passes (t_decrypt_triv cl pc).
Proof.
  unfold passes, t_decrypt_triv. rewrite (decrypt_ok C cl K (ovf pc) _ 0).
  - rewrite fst_bind. reflexivity.
  - exists (repeat 0 62). split; [apply encrypts_triv_zeros|reflexivity].
  - cbn. lia.
Qed.

Theorem C49_encrypt_decrypt_int : forall ds,
  Forall (fun d => - (2^62 - 1) <= fst d < 2^62) ds ->
  passes (repeats (t_encrypt_decrypt_int cl pc) ds).
Proof.
  intros ds H. unfold passes. eapply repeats_ok; [|exact H]. cbv beta.
  intros [m seeds] Hm. cbn [fst] in Hm. unfold t_encrypt_decrypt_int.
  destruct (Properties1.C01_identity B qw C cl K (ovf pc) seeds m TESTS_BITLEN_FULL) as [c [E1 [_ E2]]].
  - lia.
  - unfold TESTS_BITLEN_FULL. lia.
  - change (2 ^ Z.of_nat TESTS_BITLEN_FULL) with (2^62). lia.
  - rewrite E1. cbn [expect fst]. rewrite fst_bind. cbn [fst]. rewrite E2. rewrite fst_bind. cbn [expect fst].
    rewrite assert_eq_refl. reflexivity.
Qed.

Theorem C49_encrypt_decrypt_vec : forall ds, Forall (drawn TESTS_BITLEN_FULL) ds ->
  passes (repeats (t_encrypt_decrypt_vec cl pc) ds).
Proof.
  intros ds H. unfold passes. eapply repeats_ok; [|exact H]. intros d [Hl Hd]. apply rand_digits in Hd.
  unfold t_encrypt_decrypt_vec.
  destruct (encrypt_from_vec_ok C cl K (d_seed d) _ Hd) as [c [E [Hc _]]]. rewrite E.
  rewrite fst_bind. cbn [expect fst ret]. rewrite (decrypt_ok C cl K (ovf pc) c (value (d_vec d))).
  - rewrite fst_bind. cbn [expect fst ret]. rewrite (t_convert_ok pc _ Hd) by (rewrite Hl; unfold TESTS_BITLEN_FULL; lia).
    rewrite ret_bind, assert_eq_refl. reflexivity.
  - exists (d_vec d). auto.
  - rewrite <- (encrypts_len C _ _ Hc), Hl. unfold TESTS_BITLEN_FULL. lia.
Qed.

Theorem C49_modes : forall mode ds, Forall (drawn TESTS_BITLEN_FULL) ds ->
  passes (repeats (t_decr_with_mode cl cu pc mode) ds).
Proof.
  intros mode ds H. unfold passes. eapply repeats_ok; [|exact H]. intros d [Hl Hd]. apply rand_digits in Hd.
  unfold t_decr_with_mode.
  rewrite (t_convert_ok pc _ Hd) by (rewrite Hl; unfold TESTS_BITLEN_FULL; lia). rewrite ret_bind.
  rewrite (t_decrypt_ok C cu pc KU _ (value (d_vec d))), ret_bind, assert_eq_refl; auto.
  - apply mode_val; auto.
  - rewrite mode_len, Hl. unfold TESTS_BITLEN_FULL. lia.
Qed.

(* ------------------------------------------------------------------ *)
(** ** test_encr_word.rs and test_pbs.rs *)

Local Lemma dec_mu : forall w m k, 0 <= k -> k * nB C < 2^58 -> wmsg C w m k ->
  decrypt_mu (Some cl) w = ret (m mod 32).
Proof.
  intros [c|p] m k Hk Hn H; simpl decrypt_mu.
  - destruct H as [e [H1 H2]]. rewrite (dec_phase C cl K c m e H1); auto.
    unfold step. change (2^59/2) with (2^58). lia.
  - destruct H as [H1 H2]. change MSG_MOD with (2^5).
    rewrite (pt_to_mu_near 5 m 0) by (auto; try lia; rewrite Z.add_0_r; auto). reflexivity.
Qed.
Local Lemma t_mu : forall w m k, 0 <= k -> k * nB C < 2^58 -> wmsg C w m k ->
  t_decrypt_mu cl w = ret (m mod 32).
Proof.
  intros w m k Hk Hn H. unfold t_decrypt_mu. rewrite (dec_mu w m k) by auto.
  change (expect (ret (m mod 32))) with (ret (m mod 32)). rewrite ret_bind.
  rewrite i32_in; auto. unfold I32_MIN, I32_MAX. pose proof (Z.mod_pos_bound m 32). lia.
Qed.
Local Lemma budget_4 : 4 * nB C < 2^58.
Proof.
  pose proof (budget_dec C). pose proof (nB_nonneg _ _ C). 
  assert (8 <= l1_need qw) by (unfold l1_need; destruct (85 <=? qw), (41 <=? qw); lia). nia.
Qed.

(** test_encr_word.rs:61-62, 109 *)
Definition word_drawn (d : word_draw cl) : Prop :=
  (exists b, fst (word_bounds pc) = Ok b /\ fst b <= wd_ms cl d < snd b /\ fst b <= wd_mo cl d < snd b) /\
  - TESTS_EW_MAX_SCALAR <= wd_k cl d <= TESTS_EW_MAX_SCALAR.

Local Lemma word_bounds_eq : word_bounds pc = ret (-16, 16).
Proof. unfold word_bounds, plaintext_pos_max. rewrite Hbp. destruct (ovf pc); reflexivity. Qed.
Local Lemma space_eq : plaintext_space_size (ovf pc) (cparams pc) = ret 32.
Proof. unfold plaintext_space_size. rewrite Hbp. reflexivity. Qed.
Local Lemma mode_word : forall mode s m, mode <> ENCRTRIV -> exists w,
  word_with_mode cl mode s m = ret w /\ wmsg C w m 1 /\
  is_triv w = match mode with TRIV => true | _ => false end.
Proof.
  intros [| |] s m Hm; [| |congruence]; eexists; (split; [reflexivity|]).
  - split; [apply (encrypt_word_ok C cl K)|reflexivity].
  - split; [apply wmsg_triv|reflexivity].
Qed.

Theorem C49_encr_word : forall s_mode o_mode ds, s_mode <> ENCRTRIV -> o_mode <> ENCRTRIV ->
  Forall word_drawn ds -> passes (repeats (t_encr_word cl pc s_mode o_mode) ds).
Proof.
  intros sm om ds Hsm Hom H. unfold passes. eapply repeats_ok; [|exact H].
  intros [ms mo k ss so] [[b [Eb [Hs Ho]]] Hk]. cbn [wd_ms wd_mo wd_k] in *.
  rewrite word_bounds_eq in Eb. inversion Eb; subst b; clear Eb. cbn [fst snd] in Hs, Ho.
  unfold TESTS_EW_MAX_SCALAR in Hk. pose proof budget_4 as Hn. pose proof (nB_nonneg _ _ C) as Hn0.
  unfold t_encr_word. cbn [wd_ms wd_mo wd_k wd_s wd_o]. rewrite space_eq, ret_bind. cbv zeta.
  destruct (mode_word sm ss ms Hsm) as [cs [E1 [W1 T1]]]. destruct (mode_word om so mo Hom) as [co [E2 [W2 T2]]].
  rewrite E1, ret_bind, E2, ret_bind.
  replace (match sm with ENCR => assert_true (negb (is_triv cs)) | TRIV => assert_true (is_triv cs)
           | ENCRTRIV => panic P_assert end) with (ret tt)
    by (rewrite T1; destruct sm; auto; congruence).
  rewrite ret_bind.
  rewrite (t_mu cs ms 1), ret_bind, (t_mu co mo 1), ret_bind by (auto; lia).
  unfold rem_euclid. change (Z.abs 32) with 32.
  rewrite assert_eq_refl, ret_bind, assert_eq_refl, ret_bind.
  rewrite (t_mu _ (ms + mo) 2), ret_bind by (try lia; apply (wmsg_add C _ _ _ _ 1 1); auto; lia).
  rewrite (t_mu _ (ms - mo) 2), ret_bind by (try lia; apply (wmsg_sub C _ _ _ _ 1 1); auto; lia).
  rewrite (chk_i32_in (ovf pc) (ms + mo)), ret_bind by (unfold I32_MIN, I32_MAX; lia).
  rewrite (chk_i32_in (ovf pc) (ms - mo)), ret_bind by (unfold I32_MIN, I32_MAX; lia).
  rewrite assert_eq_refl, ret_bind, assert_eq_refl, ret_bind.
  assert (Hapi : forall a c, Z.abs c <= 4 -> w_mul_const_api (ovf pc) a c = ret (w_mul_const (B := B) a c)).
  { intros a c Hc. unfold w_mul_const_api. rewrite chk_i32_in, ret_bind by (unfold I32_MIN, I32_MAX; lia). reflexivity. }
  rewrite Hapi, ret_bind by lia.
  assert (Hkn : Z.abs k * nB C <= 4 * nB C) by (apply Z.mul_le_mono_nonneg_r; lia).
  rewrite (t_mu _ (ms * k) (1 * Z.abs k)), ret_bind by (try lia; apply (wmsg_mul C); auto; lia).
  assert (Hkm : Z.abs (k * ms) <= 64).
  { rewrite Z.abs_mul. assert (Z.abs k * Z.abs ms <= 4 * 16) by (apply Z.mul_le_mono_nonneg; lia). lia. }
  rewrite (chk_i32_in (ovf pc) (k * ms)), ret_bind by (unfold I32_MIN, I32_MAX; lia).
  rewrite (Z.mul_comm ms k), assert_eq_refl, ret_bind.
  rewrite Hapi, ret_bind by lia.
  rewrite (t_mu _ (ms * 2 + 1) (1 * Z.abs 2)), ret_bind.
  - rewrite (chk_i32_in (ovf pc) (ms * 2)), ret_bind by (unfold I32_MIN, I32_MAX; lia).
    rewrite (chk_i32_in (ovf pc) (ms * 2 + 1)), ret_bind by (unfold I32_MIN, I32_MAX; lia).
    rewrite assert_eq_refl. reflexivity.
  - lia.
  - change (Z.abs 2) with 2. lia.
  - unfold wmsg. replace ((ms * 2 + 1) * step) with ((ms * step + 2^58) * 2) by (unfold step; lia).
    apply wrep_mul; [reflexivity|]. apply wrep_half. exact W1.
Qed.

Theorem C49_pbs : forall mode ds, mode <> ENCRTRIV ->
  Forall (fun d => exists b, fst (word_bounds pc) = Ok b /\ fst b <= fst d < snd b) ds ->
  passes (repeats (t_pbs cl pc mode) ds).
Proof.
  intros mode ds Hm H. unfold passes. eapply repeats_ok; [|exact H].
  intros [m s] [b [Eb Hs]]. rewrite word_bounds_eq in Eb. inversion Eb; subst b; clear Eb. cbn [fst snd] in Hs.
  unfold t_pbs. rewrite space_eq, ret_bind. cbv zeta. unfold rem_euclid. change (Z.abs 32) with 32. change (32 / 2) with 16.
  destruct (mode_word mode s m Hm) as [c [E1 [W1 T1]]]. rewrite E1, ret_bind.
  assert (H8 : 1 <= l1_need qw) by (unfold l1_need; destruct (85 <=? qw), (41 <=? qw); lia).
  assert (HR : lut_range_u lut_identity_5).
  { intros i. unfold lut_identity_5. do 16 (destruct i as [|i]; [cbn; lia|]). destruct i; cbn; lia. }
  destruct (lut_uint_ok C c m 1 lut_identity_5 HR ltac:(lia) W1) as [w [E2 [W2 _]]].
  rewrite fst_bind, E2. cbn [fst]. pose proof budget_4 as Hn. pose proof (nB_nonneg _ _ C) as Hn0.
  rewrite (dec_mu w _ 1 ltac:(lia) ltac:(lia) W2). change (expect (ret ?a)) with (ret a). rewrite ret_bind.
  assert (Hi : forall j, (j < 16)%nat -> index lut_identity_5 j = ret (nth j lut_identity_5 0)).
  { intros j Hj. apply index_ok. exact Hj. }
  pose proof (Z.mod_pos_bound m 32 ltac:(lia)) as Hmod. unfold negacyclic.
  assert (Hu : forall z, u64 (z mod 32) = z mod 32).
  { intros z. pose proof (Z.mod_pos_bound z 32). unfold u64. rewrite Z.mod_small; lia. }
  destruct (m mod 32 <? 16) eqn:E.
  - rewrite Hi by lia. rewrite ret_bind, Hu, assert_eq_refl. reflexivity.
  - rewrite Hi by lia. rewrite ret_bind, ret_bind, Hu, assert_eq_refl. reflexivity.
Qed.

(* ------------------------------------------------------------------ *)
(** ** Additions *)

Local Lemma i64_room : forall v n, digits v -> (length v <= n)%nat -> Z.abs (value v) < 2 ^ Z.of_nat n.
Proof. intros v n Hd Hl. pose proof (value_bound v Hd). pose proof (pow2_le (length v) n Hl). lia. Qed.

Local Lemma add_sub_ok : forall c1 c2 v1 v2, enc_val C c1 v1 -> enc_val C c2 v2 ->
  (length c1 <= 62)%nat -> (length c2 <= 62)%nat ->
  exists ca cs, fst (pa_add c1 c2) = Ok ca /\ fst (pa_sub c1 c2) = Ok cs /\
    enc_val C ca (v1 + v2) /\ enc_val C cs (v1 - v2) /\ (length ca <= 63)%nat /\ (length cs <= 63)%nat.
Proof.
  intros c1 c2 v1 v2 H1 H2 L1 L2.
  destruct (pa_add_ok C c1 c2 v1 v2 H1 H2) as [ca [Ea [Va [La _]]]].
  destruct (pa_sub_ok C c1 c2 v1 v2 H1 H2) as [cs [Es [Vs Ls]]].
  exists ca, cs. repeat split; auto; lia.
Qed.

Theorem C49_addition : forall mode aligned bl ds, In bl ADD_LENGTHS ->
  Forall (drawn_pair aligned bl) ds -> passes (repeats (t_add_sub cl cu pc mode) ds).
Proof.
  intros mode al bl ds Hbl H. unfold passes. eapply repeats_ok; [|exact H].
  intros [d1 d2] [D1 [D2 Hl]]. cbn [fst snd] in *. apply rand_digits in D1, D2.
  assert (Hb : (bl <= 61)%nat) by (cbn in Hbl; unfold TESTS_BITLEN_FULL in Hbl; cbn in Hbl; lia).
  assert (L1 : (length (d_vec d1) <= 61)%nat) by (destruct al; lia).
  assert (L2 : (length (d_vec d2) <= 61)%nat) by (destruct al; lia). clear Hl Hbl Hb.
  unfold t_add_sub. rewrite (t_convert_ok pc _ D1), ret_bind, (t_convert_ok pc _ D2), ret_bind by lia. cbv zeta.
  cbn [arith_ct arith_i64 a_add a_sub].
  destruct (add_sub_ok (encrypt_with_mode cl mode d1) (encrypt_with_mode cl mode d2) (value (d_vec d1)) (value (d_vec d2)))
    as [ca [cs [E1 [E2 [V1 [V2 [N1 N2]]]]]]]; [apply mode_val; auto..|rewrite mode_len; lia|rewrite mode_len; lia|].
  rewrite fst_bind, E1, fst_bind, E2.
  rewrite (t_decrypt_ok C cu pc KU _ _ V1 N1), ret_bind, (t_decrypt_ok C cu pc KU _ _ V2 N2), ret_bind.
  destruct V1 as [va [[Da Fa] Va]], V2 as [vs [[Ds Fs] Vs]].
  assert (H8 : 1 <= l1_need qw) by (unfold l1_need; destruct (85 <=? qw), (41 <=? qw); lia).
  rewrite (decrypt_vec_ok C cl K ca va 1 ltac:(lia) Da Fa). change (expect (ret va)) with (ret va). rewrite ret_bind.
  rewrite (decrypt_vec_ok C cl K cs vs 1 ltac:(lia) Ds Fs). change (expect (ret vs)) with (ret vs). rewrite ret_bind.
  pose proof (i64_room _ 61 D1 L1). pose proof (i64_room _ 61 D2 L2).
  change (2 ^ Z.of_nat 61) with 2305843009213693952 in *.
  rewrite chk_i64_in, ret_bind by (unfold I64_MIN, I64_MAX; lia).
  rewrite chk_i64_in, ret_bind by (unfold I64_MIN, I64_MAX; lia).
  rewrite assert_eq_refl, ret_bind, assert_eq_refl. reflexivity.
Qed.

(** test_addition_misc.rs:83-86 *)
Definition const_drawn (d : draw cl * list Z) : Prop :=
  (exists n, (n <= TESTS_BITLEN_ADD_CONST)%nat /\ rand_vec n (d_vec (fst d))) /\
  (exists n, (n <= TESTS_BITLEN_ADD_CONST)%nat /\ rand_vec n (snd d)).

Theorem C49_add_const : forall mode ds, Forall const_drawn ds -> passes (repeats (t_add_const cl cu pc mode) ds).
Proof.
  intros mode ds H. unfold passes. eapply repeats_ok; [|exact H].
  intros [d k] [[n1 [L1 [N1 D1]]] [n2 [L2 [N2 D2]]]]. cbn [fst snd] in *. apply rand_digits in D1, D2.
  unfold TESTS_BITLEN_ADD_CONST in *.
  unfold t_add_const. rewrite (t_convert_ok pc _ D1), ret_bind, (t_convert_ok pc _ D2), ret_bind by lia.
  pose proof (i64_room (d_vec d) 8 D1 ltac:(lia)). pose proof (i64_room k 8 D2 ltac:(lia)).
  change (2 ^ Z.of_nat 8) with 256 in *. cbn [arith_ct arith_i64 a_add_const].
  destruct (pa_add_const_ok C pc (encrypt_with_mode cl mode d) (value k) (value (d_vec d)) Hbp) as [z [E [Vz Lz]]].
  { unfold I64_MIN, I64_MAX. lia. }
  { apply mode_val; auto. }
  specialize (Lz 8%nat ltac:(change (2 ^ Z.of_nat 8) with 256; lia)). rewrite mode_len in Lz.
  rewrite fst_bind, E, (t_decrypt_ok C cu pc KU z _ Vz ltac:(lia)), ret_bind.
  rewrite chk_i64_in, ret_bind by (unfold I64_MIN, I64_MAX; lia).
  rewrite assert_eq_refl. reflexivity.
Qed.

(** trivial zeros on both sides: any shape of at most 61 words *)
Theorem C49_zeros : forall mode lx nx rx ly ny ry ds,
  (lx + nx + rx <= 61)%nat -> (ly + ny + ry <= 61)%nat ->
  Forall (fun d => drawn nx (fst d) /\ drawn ny (snd d)) ds ->
  passes (repeats (t_add_triv_zeros cl cu pc lx rx mode ly ry) ds).
Proof.
  intros mode lx nx rx ly ny ry ds Lx Ly H. unfold passes. eapply repeats_ok; [|exact H].
  intros [d1 d2] [[N1 D1] [N2 D2]]. cbn [fst snd] in *. apply rand_digits in D1, D2.
  assert (HZ : forall l r (d : draw cl), digits (d_vec d) ->
    digits (repeat 0 r ++ d_vec d ++ repeat 0 l) /\
    encrypts C (ct_triv r ++ encrypt_with_mode cl mode d ++ ct_triv l) (repeat 0 r ++ d_vec d ++ repeat 0 l) /\
    length (repeat 0 r ++ d_vec d ++ repeat 0 l) = (r + length (d_vec d) + l)%nat /\
    length (ct_triv (B := B) r ++ encrypt_with_mode cl mode d ++ ct_triv l) = (r + length (d_vec d) + l)%nat).
  { intros l r d Hd.
    assert (E : encrypts C (ct_triv r ++ encrypt_with_mode cl mode d ++ ct_triv l) (repeat 0 r ++ d_vec d ++ repeat 0 l)).
    { apply encrypts_app; [apply encrypts_triv_zeros|]. apply encrypts_app; [apply (mode_enc C cl K); auto|apply encrypts_triv_zeros]. }
    split; [apply E|]. split; [exact E|].
    assert (EL : length (repeat 0 r ++ d_vec d ++ repeat 0 l) = (r + length (d_vec d) + l)%nat)
      by (rewrite !app_length, !repeat_length; lia).
    split; [exact EL|]. rewrite (encrypts_len C _ _ E) in EL || rewrite <- (encrypts_len C _ _ E) in EL. exact EL. }
  unfold t_add_triv_zeros, gen_ct_with_triv_zeros. cbn [fst snd].
  destruct (HZ lx rx d1 D1) as [A1 [A2 [A3 A4]]]. destruct (HZ ly ry d2 D2) as [B1 [B2 [B3 B4]]]. clear HZ.
  revert A1 A2 A3 A4. generalize (repeat 0 rx ++ d_vec d1 ++ repeat 0 lx) (ct_triv (B := B) rx ++ encrypt_with_mode cl mode d1 ++ ct_triv lx).
  intros v1 c1 A1 A2 A3 A4.
  revert B1 B2 B3 B4. generalize (repeat 0 ry ++ d_vec d2 ++ repeat 0 ly) (ct_triv (B := B) ry ++ encrypt_with_mode cl mode d2 ++ ct_triv ly).
  intros v2 c2 B1 B2 B3 B4.
  rewrite (t_convert_ok pc _ A1), ret_bind, (t_convert_ok pc _ B1), ret_bind by lia.
  unfold add_sub_body. cbn [arith_ct arith_i64 a_add a_sub].
  destruct (add_sub_ok c1 c2 (value v1) (value v2)) as [ca [cs [E1 [E2 [V1 [V2 [M1 M2]]]]]]];
    [exists v1; auto|exists v2; auto|unfold ciphertext in *; lia|unfold ciphertext in *; lia|].
  rewrite fst_bind, E1, fst_bind, E2.
  rewrite (t_decrypt_ok C cu pc KU _ _ V1 M1), ret_bind, (t_decrypt_ok C cu pc KU _ _ V2 M2), ret_bind.
  pose proof (i64_room v1 61 A1 ltac:(lia)). pose proof (i64_room v2 61 B1 ltac:(lia)).
  change (2 ^ Z.of_nat 61) with 2305843009213693952 in *.
  rewrite chk_i64_in, ret_bind by (unfold I64_MIN, I64_MAX; lia).
  rewrite chk_i64_in, ret_bind by (unfold I64_MIN, I64_MAX; lia).
  rewrite assert_eq_refl, ret_bind, assert_eq_refl. reflexivity.
Qed.

(* ------------------------------------------------------------------ *)
(** ** Signum, rounding, maximum *)

Theorem C49_signum : forall mode ds, Forall (drawn TESTS_BITLEN_SGN) ds ->
  passes (repeats (t_sgn cl cu pc mode) ds) /\ passes (t_sgn_empty cu pc).
Proof.
  intros mode ds H. split.
  - unfold passes. eapply repeats_ok; [|exact H]. intros d [N D]. apply rand_digits in D. unfold TESTS_BITLEN_SGN in N.
    apply (t_unary_ok C cl cu pc KU) with (r := Z.sgn (value (d_vec d))); auto; [lia|].
    cbn [arith_ct a_sgn]. eapply okP_conseq; [apply (pa_sgn_ok C pc Hq), mode_val; auto|].
    intros z [Hz Lz]. split; auto. lia.
  - unfold passes, t_sgn_empty. cbn [arith_ct a_sgn].
    destruct (pa_sgn_ok C pc Hq ct_empty 0 (enc_val_nil C)) as [z [E [Hz Lz]]]. rewrite fst_bind, E.
    rewrite (t_decrypt_ok C cu pc KU z _ Hz) by lia. reflexivity.
Qed.

Theorem C49_rounding : forall mode ds,
  Forall (fun d => drawn TESTS_BITLEN_ROUND (fst d) /\ (snd d <= TESTS_POS_ROUND)%nat) ds ->
  passes (repeats (t_round cl cu pc mode) ds) /\ passes (t_round_empty cu pc).
Proof.
  intros mode ds H. split.
  - unfold passes. eapply repeats_ok; [|exact H]. intros [d p] [[N D] Hp]. cbn [fst snd] in *. apply rand_digits in D.
    unfold TESTS_BITLEN_ROUND, TESTS_POS_ROUND in *. pose proof (i64_room (d_vec d) 5 D ltac:(lia)) as Hv.
    change (2 ^ Z.of_nat 5) with 32 in Hv. unfold t_round.
    apply (t_unary_ok C cl cu pc KU) with (r := round_to p (value (d_vec d))); auto; [lia|..].
    + cbn [arith_ct a_round_at]. eapply okP_conseq; [apply (pa_round_ok C pc Hq), mode_val; auto|].
      intros z [Hz Lz]. split; auto. rewrite mode_len in Lz. lia.
    + cbn [arith_i64 a_round_at]. rewrite i64_round_ok; auto; [lia|lia|].
      unfold round_to. assert (Hpow : 0 < 2 ^ Z.of_nat p <= 128).
      { split; [apply Z.pow_pos_nonneg; lia|]. change 128 with (2 ^ Z.of_nat 7). apply pow2_le; lia. }
      set (w := 2 ^ Z.of_nat p) in *. assert (0 <= w / 2 <= 64) by (split; [apply Z.div_pos; lia|apply Z.div_le_upper_bound; lia]).
      pose proof (Z.div_mod (value (d_vec d) + w / 2) w ltac:(lia)). pose proof (Z.mod_pos_bound (value (d_vec d) + w / 2) w ltac:(lia)). lia.
  - unfold passes, t_round_empty. cbn [arith_ct a_round_at].
    destruct (pa_round_ok C pc Hq ct_empty 0 0 (enc_val_nil C)) as [z [E [Hz Lz]]]. rewrite fst_bind, E.
    rewrite (t_decrypt_ok C cu pc KU z _ Hz) by (cbn in Lz; lia). reflexivity.
Qed.

(** any two modes; the case of one empty operand is a draw of length zero *)
Theorem C49_maximum : forall mode1 mode2 aligned ds, Forall (drawn_pair aligned TESTS_BITLEN_MAX) ds ->
  passes (repeats (t_max cl cu pc mode1 mode2) ds) /\ passes (t_max_both_empty cu pc).
Proof.
  intros mode1 mode2 al ds H. split.
  - unfold passes. eapply repeats_ok; [|exact H]. intros [d1 d2] [D1 [D2 Hl]]. cbn [fst snd] in *. apply rand_digits in D1, D2.
    unfold TESTS_BITLEN_MAX in Hl.
    assert (L1 : (length (d_vec d1) <= 7)%nat) by (destruct al; lia).
    assert (L2 : (length (d_vec d2) <= 7)%nat) by (destruct al; lia).
    apply (t_binary_ok C cl cu pc KU) with (r := Z.max (value (d_vec d1)) (value (d_vec d2))); auto; [lia|lia|].
    cbn [arith_ct a_max]. eapply okP_conseq; [apply (pa_max_ok C pc Hq); apply mode_val; auto|].
    intros z [Hz Lz]. split; auto. rewrite !mode_len in Lz. lia.
  - unfold passes, t_max_both_empty. cbn [arith_ct a_max].
    destruct (pa_max_ok C pc Hq ct_empty ct_empty 0 0 (enc_val_nil C) (enc_val_nil C)) as [z [E [Hz Lz]]]. rewrite fst_bind, E.
    rewrite (t_decrypt_ok C cu pc KU z _ Hz) by (cbn in Lz; lia). reflexivity.
Qed.

(* ------------------------------------------------------------------ *)
(** ** Products and squares *)

Local Lemma mul_room : forall a b n, (n <= 31)%nat -> Z.abs a < 2 ^ Z.of_nat n -> Z.abs b < 2 ^ Z.of_nat n ->
  I64_MIN <= a * b <= I64_MAX.
Proof.
  intros a b n Hn Ha Hb. assert (Z.abs (a * b) < 2 ^ 62); [|unfold I64_MIN, I64_MAX; lia].
  rewrite Z.abs_mul. pose proof (pow2_le n 31 Hn). change (2 ^ Z.of_nat 31) with (2^31) in *. nia.
Qed.

Theorem C49_multiplication : forall mode1 mode2 aligned bl ds, In bl MUL_LENGTHS ->
  Forall (drawn_pair aligned bl) ds -> passes (repeats (t_mul cl cu pc mode1 mode2) ds).
Proof.
  intros mode1 mode2 al bl ds Hbl H. unfold passes. eapply repeats_ok; [|exact H].
  intros [d1 d2] [D1 [D2 Hl]]. cbn [fst snd] in *. apply rand_digits in D1, D2.
  assert (Hb : (bl <= 9)%nat) by (cbn in Hbl; lia).
  assert (L1 : (length (d_vec d1) <= 9)%nat) by (destruct al; lia).
  assert (L2 : (length (d_vec d2) <= 9)%nat) by (destruct al; lia). clear Hl Hbl Hb.
  apply (t_binary_ok C cl cu pc KU) with (r := value (d_vec d1) * value (d_vec d2)); auto; [lia|lia|..].
  - cbn [arith_ct a_mul]. eapply okP_conseq; [apply (pa_mul_ok C); [rewrite !mode_len; lia|apply mode_val; auto..]|].
    intros z [Hz Lz]. split; auto. rewrite !mode_len in Lz. eapply Nat.le_trans; [exact Lz|].
    generalize (Nat.max (length (d_vec d1)) (length (d_vec d2))) ltac:(apply Nat.max_lub; [exact L1|exact L2]).
    intros n Hn. do 10 (destruct n as [|n]; [cbn; lia|]). lia.
  - cbn [arith_i64 a_mul]. rewrite chk_i64_in; [reflexivity|].
    apply (mul_room _ _ 9); [lia|apply i64_room; auto..].
Qed.

Theorem C49_squaring : forall mode bl ds, In bl SQU_LENGTHS -> Forall (drawn bl) ds ->
  passes (repeats (t_squ cl cu pc mode) ds).
Proof.
  intros mode bl ds Hbl H. unfold passes. eapply repeats_ok; [|exact H].
  intros d [N D]. apply rand_digits in D.
  assert (L : (length (d_vec d) <= 9)%nat) by (cbn in Hbl; lia). clear Hbl N.
  apply (t_unary_ok C cl cu pc KU) with (r := value (d_vec d) * value (d_vec d)); auto; [lia|..].
  - cbn [arith_ct a_squ]. eapply okP_conseq; [apply (pa_squ_ok C); [rewrite mode_len; lia|apply mode_val; auto]|].
    intros z [Hz Lz]. split; auto. rewrite mode_len in Lz. eapply Nat.le_trans; [exact Lz|].
    revert L. generalize (length (d_vec d)). intros n Hn. do 10 (destruct n as [|n]; [cbn; lia|]). lia.
  - cbn [arith_i64 a_squ]. rewrite chk_i64_in; [reflexivity|].
    apply (mul_room _ _ 9); [lia|apply i64_room; auto..].
Qed.
(** the listed vectors and their negations *)
Theorem C49_squaring_2_3 : forall ds,
  Forall (fun d => In (d_vec d) (squ_2_3_vecs ++ map (map Z.opp) squ_2_3_vecs)) ds ->
  passes (repeats (t_squ_2_3 cl cu pc) ds).
Proof.
  intros ds H. unfold passes. eapply repeats_ok; [|exact H]. cbv beta. intros d Hin.
  assert (HD : digits (d_vec d) /\ (length (d_vec d) <= 3)%nat).
  { revert Hin. generalize (d_vec d). intros v Hv.
    assert (HF : Forall (fun v => digits v /\ (length v <= 3)%nat) (squ_2_3_vecs ++ map (map Z.opp) squ_2_3_vecs)).
    { cbn. repeat constructor; unfold digit; lia. }
    rewrite Forall_forall in HF. auto. }
  clear Hin. destruct HD as [D L]. unfold t_squ_2_3. rewrite (t_convert_ok pc _ D), ret_bind by lia.
  cbn [arith_ct arith_i64 a_squ].
  destruct (pa_squ_ok C (encrypt_with_mode cl ENCR d) (value (d_vec d))) as [z [E [Hz Lz]]];
    [rewrite mode_len; lia|apply mode_val; auto|].
  rewrite fst_bind, E. rewrite mode_len in Lz.
  assert (Lz' : (length z <= 63)%nat).
  { eapply Nat.le_trans; [exact Lz|]. revert L. generalize (length (d_vec d)). intros n Hn.
    do 4 (destruct n as [|n]; [cbn; lia|]). lia. }
  pose proof Hz as [v [[Dz Fz] Vz]].
  assert (H8 : 1 <= l1_need qw) by (unfold l1_need; destruct (85 <=? qw), (41 <=? qw); lia).
  rewrite (decrypt_vec_ok C cl K z v 1 ltac:(lia) Dz Fz). change (expect (ret v)) with (ret v). rewrite ret_bind.
  rewrite (t_decrypt_ok C cu pc KU z _ Hz Lz'), ret_bind.
  rewrite chk_i64_in, ret_bind, assert_eq_refl; [reflexivity|].
  apply (mul_room _ _ 9); [lia|apply i64_room; auto; lia..].
Qed.

(* ------------------------------------------------------------------ *)
(** ** Scalar multiplication *)

(** test_scalar_multiplication.rs:111, 123 *)
Definition scm_drawn (d : Z * draw cl) : Prop :=
  - 2 ^ Z.of_nat TESTS_BITLEN_SCALAR <= fst d <= 2 ^ Z.of_nat TESTS_BITLEN_SCALAR /\ drawn TESTS_BITLEN_SCM (snd d).

Local Lemma scm_room : forall k v, - 2^30 <= k <= 2^30 -> Z.abs v < 2^9 -> I64_MIN <= k * v <= I64_MAX.
Proof. intros k v Hk Hv. unfold I64_MIN, I64_MAX. assert (Z.abs (k * v) <= 2^30 * 2^9) by (rewrite Z.abs_mul; nia). lia. Qed.

(** A test of scalar multiplication passes, or meets an overflow in a build
    that checks for it. It never finds a wrong product. *)
Theorem C49_scm : forall mode ds, Forall scm_drawn ds ->
  passes (repeats (t_scm cl cu pc mode) ds) \/
  (ovf pc = true /\ fst (repeats (t_scm cl cu pc mode) ds) = Panic P_overflow).
Proof.
  intros mode ds H. unfold passes, repeats. induction H as [|[k d] ds [Hk [N D]] H IH]; cbn [foldM]; [left; reflexivity|].
  cbn [fst snd] in *. apply rand_digits in D. unfold TESTS_BITLEN_SCM in N.
  change (2 ^ Z.of_nat TESTS_BITLEN_SCALAR) with (2^30) in Hk.
  pose proof (i64_room (d_vec d) 9 D ltac:(lia)) as Hv. change (2 ^ Z.of_nat 9) with (2^9) in Hv.
  assert (HT' : table_valid 16 (asc_12 pc)) by (rewrite HT; apply shipped_valid).
  pose proof (scalar_mul_ok C pc 16 k (encrypt_with_mode cl mode d) (value (d_vec d)) HT'
    ltac:(unfold I32_MIN, I32_MAX; lia) (mode_val C cl K mode d D)) as S.
  unfold ovfP in S. rewrite mode_len in S.
  rewrite fst_bind. unfold t_scm. destruct (fst (pa_scalar_mul pc k (encrypt_with_mode cl mode d))) as [z| |e] eqn:E.
  - rewrite (t_unary_ok C cl cu pc KU) with (r := k * value (d_vec d)); auto; [lia|..].
    + exists z. split; auto. destruct S as [S1 S2]. split; auto. lia.
    + cbn [arith_i64 a_scalar_mul]. rewrite chk_i64_in; [reflexivity|]. apply scm_room; auto.
  - destruct S.
  - right. destruct S as [S1 S2]. split; auto. subst e.
    unfold t_unary. rewrite (t_convert_ok pc _ D), ret_bind by lia. cbv zeta. rewrite fst_bind.
    cbn [arith_ct a_scalar_mul]. rewrite E. reflexivity.
Qed.
Theorem C49_scm_unchecked : forall mode ds, ovf pc = false -> Forall scm_drawn ds ->
  passes (repeats (t_scm cl cu pc mode) ds).
Proof. intros mode ds Ho H. destruct (C49_scm mode ds H) as [|[E _]]; auto. congruence. Qed.
(** the fixed scalars of lines 44-56, in both builds *)
Theorem C49_scm_fixed : forall mode ds,
  Forall (fun d => In (fst d) scm_scalars /\ drawn TESTS_BITLEN_SCM (snd d)) ds ->
  passes (repeats (t_scm cl cu pc mode) ds).
Proof.
  intros mode ds H. unfold passes. eapply repeats_ok; [|exact H]. intros [k d] [Hin [N D]]. cbn [fst snd] in *.
  apply rand_digits in D. unfold TESTS_BITLEN_SCM in N. unfold t_scm.
  assert (Hk : - 2^30 <= k <= 2^30) by (cbn in Hin; lia).
  pose proof (i64_room (d_vec d) 9 D ltac:(lia)) as Hv. change (2 ^ Z.of_nat 9) with (2^9) in Hv.
  apply (t_unary_ok C cl cu pc KU) with (r := k * value (d_vec d)); auto; [lia|..].
  - cbn [arith_ct a_scalar_mul].
    assert (Hs : okP (pa_scalar_mul pc k (encrypt_with_mode cl mode d))
      (fun z => enc_val C z (k * value (d_vec d)) /\ (length z <= length (encrypt_with_mode cl mode d) + 8)%nat)).
    { destruct (Z_le_gt_dec (Z.abs k) 7).
      - eapply okP_conseq; [apply (small_scalar_ok C pc k); auto; apply mode_val; auto|]. intros z [Hz Lz]. split; auto. lia.
      - apply (one_window_ok C pc 8); auto; [lia| |apply mode_val; auto].
        replace (Z.abs k) with 256 by (cbn in Hin; lia). vm_compute. reflexivity. }
    eapply okP_conseq; [exact Hs|]. intros z [Hz Lz]. split; auto. rewrite mode_len in Lz. lia.
  - cbn [arith_i64 a_scalar_mul]. rewrite chk_i64_in; [reflexivity|]. apply scm_room; auto.
Qed.

Theorem C49_asc : passes (t_asc pc).
Proof.
  unfold passes, t_asc. rewrite HT, count_ok. change (Z.of_nat 2048) with 2048.
  rewrite assert_eq_refl, ret_bind. eapply repeats_ok with (P := fun e => In e shipped_asc).
  - intros [n c] Hin. cbn [fst snd]. pose proof (table_ok _ Hin) as Ht.
    pose proof (entry_value 16 (n, c) (ovf pc) Ht) as Ev. cbn [fst snd] in Ev. rewrite fst_bind, Ev.
    assert (Hn : 0 < n < 4096).
    { pose proof Properties4.C24_keys as Hkeys. apply (in_map fst) in Hin. rewrite Hkeys in Hin. cbn [fst] in Hin.
      apply in_map_iff in Hin. destruct Hin as [i [Ei Hi]]. apply in_seq in Hi. lia. }
    replace (i64 n) with n by (unfold i64; rewrite Z.mod_small; lia). rewrite assert_eq_refl. reflexivity.
  - apply Forall_forall. auto.
Qed.

Theorem C49_koy_tsu_unchecked : forall ks, ovf pc = false ->
  Forall (fun k => 0 <= k <= 2 ^ Z.of_nat TESTS_BITLEN_KOY_TSU) ks -> passes (repeats (t_koy_tsu pc) ks).
Proof.
  intros ks Ho H. unfold passes. eapply repeats_ok; [|exact H]. cbv beta. intros k Hk.
  change (2 ^ Z.of_nat TESTS_BITLEN_KOY_TSU) with (2^30) in Hk. unfold t_koy_tsu.
  rewrite chk_i32_in, ret_bind by (unfold I32_MIN, I32_MAX; lia).
  replace (Z.abs k) with k by lia. replace (u32 k) with k by (unfold u32; rewrite Z.mod_small; lia).
  pose proof (Properties3.C20_recoding (ovf pc) k 31 ltac:(lia) ltac:(change (2 ^ Z.of_nat 31) with (2^31); lia)) as R.
  rewrite fst_bind.
  destruct (fst (koyama_tsuruoka_vec (ovf pc) k)) as [kv| |e]; [|destruct R|destruct R; congruence].
  destruct R as [Dk [Vk [Lk _]]]. rewrite (t_convert_ok pc kv Dk) by lia. rewrite ret_bind, Vk, assert_eq_refl. reflexivity.
Qed.

(* ------------------------------------------------------------------ *)
(** ** test_nn.rs *)

Theorem C49_nn : forall mode ds,
  Forall (fun d => gen_nn (fst d) /\ length (snd d) = nn_inputs (fst d) /\ Forall (drawn TESTS_BITLEN_NNE) (snd d)) ds ->
  passes (repeats (t_nn cl cu pc mode) ds).
Proof.
  intros mode ds H. unfold passes. eapply repeats_ok; [|exact H]. intros [nn xs] [HG [HL HX]]. cbn [fst snd] in *.
  unfold t_nn.
  assert (Hin : mapM (fun d1 => t_convert pc (d_vec d1)) xs = ret (map (fun d => value (d_vec d)) xs) /\
    Forall2 (fun x v => enc_val C x v /\ (length x <= 5)%nat) (map (encrypt_with_mode cl mode) xs) (map (fun d => value (d_vec d)) xs) /\
    Forall2 (fun x v => x = v /\ Z.abs v < 2 ^ Z.of_nat 5) (map (fun d => value (d_vec d)) xs) (map (fun d => value (d_vec d)) xs)).
  { clear HL. induction HX as [|d xs [N D] HX IH]; cbn [mapM map]; [auto|].
    destruct IH as [I1 [I2 I3]]. apply rand_digits in D. unfold TESTS_BITLEN_NNE in N.
    rewrite (t_convert_ok pc _ D), ret_bind, I1, ret_bind by lia. split; [reflexivity|].
    split; constructor; auto.
    - split; [apply mode_val; auto|rewrite mode_len; lia].
    - split; auto. apply i64_room; auto. lia. }
  destruct Hin as [E [F1 F2]]. rewrite E, ret_bind. clear E.
  destruct HG as [Hd [Hi Hg]]. unfold TESTS_NNE_DEPTH, TESTS_NNE_LAYER_SIZE in Hd, Hi.
  assert (Hs : Forall (Forall p_small) (nn_layers nn)).
  { revert Hg. generalize (nn_layers nn), (nn_inputs nn), Hi. clear.
    induction l as [|l ls IH]; intros n Hn Hg; constructor.
    - destruct Hg as [_ [Hg _]]. eapply Forall_impl; [|exact Hg]. intros p [P1 [P2 P3]].
      split; [lia|]. split; [eapply Forall_impl; [|exact P2]; cbv beta; lia|unfold TESTS_NNE_B_ABS_MAX in P3; lia].
    - destruct Hg as [H1 [_ H3]]. unfold TESTS_NNE_LAYER_SIZE in H1. apply (IH (length l)); auto. lia. }
  assert (Hne : nn_layers nn <> []) by (intros E; rewrite E in Hd; cbn in Hd; lia).
  destruct (graded_nn _ _ (graded_ct C pc Hq Hbp HT) nn 5 _ _ Hne ltac:(lia) Hs F1) as [cz [Ec Hc]].
  destruct (graded_nn _ _ (graded_i64 (ovf pc)) nn 5 _ _ Hne ltac:(lia) Hs F2) as [iz [Ei Hz]].
  rewrite fst_bind, Ec.
  assert (Em : mapM (t_decrypt cu pc) cz = ret (layers_spec (nn_layers nn) (map (fun d => value (d_vec d)) xs))).
  { revert Hc. generalize (layers_spec (nn_layers nn) (map (fun d => value (d_vec d)) xs)). clear - KU Hd.
    intros vs Hc. induction Hc as [|x v cz vs [H1 H2] Hc IH]; cbn [mapM]; auto.
    rewrite (t_decrypt_ok C cu pc KU x v H1), ret_bind, IH, ret_bind by lia. reflexivity. }
  rewrite Em, ret_bind, fst_bind, Ei.
  assert (iz = layers_spec (nn_layers nn) (map (fun d => value (d_vec d)) xs)) as ->.
  { revert Hz. generalize (layers_spec (nn_layers nn) (map (fun d => value (d_vec d)) xs)). clear.
    intros vs Hz. induction Hz as [|x v iz vs [-> _] Hz IH]; auto. f_equal; auto. }
  destruct (list_eq_dec Z.eq_dec _ _) as [|Hn]; [reflexivity|congruence].
Qed.

End C49.

(* ------------------------------------------------------------------ *)
(** ** The same tests in a build with overflow checks *)

(** 91 lies in the range of both tests *)
Theorem C49_koy_tsu_refuted : forall pc, ovf pc = true ->
  0 <= 91 <= 2 ^ Z.of_nat TESTS_BITLEN_KOY_TSU /\ fst (t_koy_tsu pc 91) = Panic P_overflow.
Proof. intros pc Ho. split; [split; [lia|]; vm_compute; discriminate|]. unfold t_koy_tsu. rewrite Ho. vm_compute. reflexivity. Qed.

Theorem C49_scm_refuted : forall {B} (cl cu : client B) pc mode d, ovf pc = true -> rand_vec TESTS_BITLEN_SCM (d_vec d) ->
  scm_drawn cl (91, d) /\ fst (t_scm cl cu pc mode (91, d)) = Panic P_overflow.
Proof.
  intros B cl cu pc mode d Ho [N D]. split.
  - split; [|split; auto]. cbn [fst]. change (2 ^ Z.of_nat TESTS_BITLEN_SCALAR) with (2^30). lia.
  - unfold t_scm, t_unary. rewrite (t_convert_ok pc (d_vec d)).
    + rewrite ret_bind. cbv zeta. rewrite fst_bind. cbn [arith_ct a_scalar_mul].
      rewrite (Properties4.C26_total_checked_refuted 91 pc); auto.
    + eapply Forall_impl; [|exact D]. unfold digit. lia.
    + rewrite N. unfold TESTS_BITLEN_SCM. lia.
Qed.

(* ------------------------------------------------------------------ *)
(** ** Examples *)
Definition ex_draw (v : list Z) : draw exact_client :=
  mkDraw exact_client v (fun i => Nat.even i) (fun _ => ([], 0)).

Example C49_example_hyp :
  client_ok (exact_contract 100) exact_client /\ quad_weight (cparams (cloud_100 true)) = 100 /\
  bit_precision (cparams (cloud_100 true)) = 5%nat /\ asc_12 (cloud_100 true) = shipped_asc /\
  drawn_pair false TESTS_BITLEN_MAX (ex_draw [1; -1; 0; 1], ex_draw []) /\
  drawn TESTS_BITLEN_NNE (ex_draw [1; -1; 0; 1; 1]) /\
  word_drawn exact_client (cloud_100 true) (mkWordDraw exact_client (-16) 15 (-4) ([], 0) ([], 0)) /\
  scm_drawn exact_client (- 2^30, ex_draw [1; -1; 0; 1; 1; 0; 0; 1; -1]).
Proof.
  split; [apply exact_client_ok|]. repeat (split; [reflexivity|]).
  split. { split; [repeat constructor; lia|]. split; [constructor|]. cbn. unfold TESTS_BITLEN_MAX. lia. }
  split. { split; [reflexivity|]. repeat constructor; lia. }
  split. { split; [|cbn [wd_k]; unfold TESTS_EW_MAX_SCALAR; lia]. exists (-16, 16). split; [reflexivity|]. cbn [wd_ms wd_mo fst snd]. lia. }
  split; [vm_compute; split; discriminate|]. split; [reflexivity|]. repeat constructor; lia.
Qed.
(** a network of the largest kind that t_gen_nn can return: five inputs, depth 3 *)
Definition ex_nn : neural_network := mkNN
  [[mkPerceptron ACT [7; -7; 3; 0; 1] 15; mkPerceptron MAX [1; 2; -3; 4; 5] (-15)];
   [mkPerceptron LIN [-6; 2] 0; mkPerceptron MAX [7; 7] 3; mkPerceptron ACT [0; 1] (-1)];
   [mkPerceptron LIN [1; 1; 1] 1]] 5.
Definition ex_inputs : list (draw exact_client) :=
  map ex_draw [[1; 0; 0; 0; 1]; [0; 1; -1; 0; 1]; [0; 0; 0; 0; 0]; [1; 1; 1; 1; 1]; [-1; -1; 0; 0; -1]].
Example C49_example_nn : gen_nn ex_nn /\ length ex_inputs = nn_inputs ex_nn /\
  Forall (drawn TESTS_BITLEN_NNE) ex_inputs /\
  nn_eval (arith_i64 true) ex_nn (map (fun d => value (d_vec d)) ex_inputs) <> ret [].
Proof.
  split.
  - split; [cbn; unfold TESTS_NNE_DEPTH; lia|]. split; [cbn; unfold TESTS_NNE_LAYER_SIZE; lia|].
    cbn. unfold TESTS_NNE_LAYER_SIZE, gen_perceptron, TESTS_NNE_B_ABS_MAX. cbn.
    repeat split; try lia; repeat constructor; cbn; try lia.
  - split; [reflexivity|]. split.
    + repeat constructor; cbn; lia.
    + vm_compute. discriminate.
Qed.
(** the tests run *)
Example C49_example_run :
  fst (t_max exact_client exact_client (cloud_100 true) ENCRTRIV ENCR (ex_draw [1; -1; 0; 1], ex_draw [1; 1])) = Ok tt /\
  fst (t_encr_word exact_client (cloud_100 true) ENCR TRIV (mkWordDraw exact_client (-16) 15 (-4) ([], 0) ([], 0))) = Ok tt /\
  fst (t_squ exact_client exact_client (cloud_100 true) ENCR (ex_draw [1; -1; 1])) = Ok tt.
Proof. vm_compute. auto. Qed.
(** and can fail: a second user whose decryption is one off *)
Definition off_client : client exact := mkClient exact (list Z * Z) (ct_enc (B := exact) exact_client) (fun c => (ct_dec exact_client c + 1) mod 32).
Example C49_example_fail :
  fst (t_max exact_client off_client (cloud_100 true) ENCR ENCR (ex_draw [1; -1; 0; 1], ex_draw [1; 1])) <> Ok tt /\
  fst (t_decr_with_mode exact_client off_client (cloud_100 true) ENCR (ex_draw [1; -1; 0; 1])) <> Ok tt.
Proof. vm_compute. repeat split; discriminate. Qed.

Print Assumptions C49_decrypt_triv.
Print Assumptions C49_encrypt_decrypt_int.
Print Assumptions C49_encrypt_decrypt_vec.
Print Assumptions C49_modes.
Print Assumptions C49_encr_word.
Print Assumptions C49_pbs.
Print Assumptions C49_addition.
Print Assumptions C49_add_const.
Print Assumptions C49_zeros.
Print Assumptions C49_signum.
Print Assumptions C49_rounding.
Print Assumptions C49_maximum.
Print Assumptions C49_multiplication.
Print Assumptions C49_squaring.
Print Assumptions C49_squaring_2_3.
Print Assumptions C49_scm.
Print Assumptions C49_scm_unchecked.
Print Assumptions C49_scm_fixed.
Print Assumptions C49_asc.
Print Assumptions C49_koy_tsu_unchecked.
Print Assumptions C49_nn.
Print Assumptions C49_koy_tsu_refuted.
Print Assumptions C49_scm_refuted.
