(** Property C58: what a passed test says. Nothing is assumed of the backend or
    of the keys here: if a test passes, the result it is about is right for the
    operands that were drawn, so a library that computes anything else fails
    the test on these operands. *)
From Verif Require Import Base Backend Words Encryption Params Pbs Addition Signum Maximum Multiplication
  Squaring Rounding Naf Asc AscTable ScalarMul Arith NeuralNetwork TestSuite
  Spec Contract BaseProofs WordsProofs EncProofs ValueProofs PbsProofs AddProofs SgnProofs MulProofs
  RoundProofs NafProofs AscProofs ScalarProofs Expr ArithProofs TestProofs Instances Properties1 Properties3 Properties4
  Properties12.
From Coq Require Import ZifyBool ZifyNat.

Local Lemma bind_Ok : forall A X (m : M A) (f : A -> M X) x, fst (bind m f) = Ok x ->
  exists a, fst m = Ok a /\ fst (f a) = Ok x.
Proof. intros A X m f x H. rewrite fst_bind in H. destruct (fst m) as [a| |]; try discriminate. eauto. Qed.
Local Lemma expect_inv : forall A (m : M A) a, fst (expect m) = Ok a -> fst m = Ok a.
Proof. intros A [[x|e|e] t] a; cbn; congruence. Qed.
Local Lemma expect_Ok : forall A (m : M A) a, fst m = Ok a -> fst (expect m) = Ok a.
Proof. intros A [[x|e|e] t] a; cbn; congruence. Qed.
Local Lemma assert_Ok : forall a b, fst (assert_eq a b) = Ok tt <-> a = b.
Proof.
  intros a b. unfold assert_eq. destruct (a =? b) eqn:E; cbn; split; auto; try discriminate; try lia.
Qed.
Local Lemma Ok_bind : forall A X (m : M A) (f : A -> M X) a, fst m = Ok a -> fst (bind m f) = fst (f a).
Proof. intros A X m f a H. rewrite fst_bind, H. reflexivity. Qed.
Ltac step H a E := apply bind_Ok in H; destruct H as [a [E H]].

(** A loop passes if and only if every round passes. *)
Theorem C58_rounds : forall D (body : D -> M unit) ds,
  passes (repeats body ds) <-> Forall (fun d => passes (body d)) ds.
Proof.
  intros D body ds. unfold passes, repeats. induction ds as [|d ds IH]; cbn [foldM].
  - split; auto.
  - split; intros H.
    + step H u E. destruct u. constructor; auto. apply IH; auto.
    + inversion H; subst. rewrite (Ok_bind _ _ _ _ tt) by auto. apply IH; auto.
Qed.

Section C58.
Context {B : backend} (cl cu : client B) (pc : cloud).

(** [c] is a result that the user reads as [v] *)
Definition reads (r : M (ciphertext B)) (v : Z) : Prop :=
  exists c, fst r = Ok c /\ fst (parm_decrypt cu (ovf pc) c) = Ok v.

(** The three ways of encrypting the operands: which words are encrypted *)
Theorem C58_modes : forall mode (d : draw cl) i m, nth_error (d_vec d) i = Some m ->
  nth_error (encrypt_with_mode cl mode d) i = Some
    (if match mode with ENCR => true | TRIV => false | ENCRTRIV => d_coin d i end
     then encrypt_word cl (d_seed d i) m else encrypt_word_triv m).
Proof.
  intros mode d i m H. unfold encrypt_with_mode, encrypt_with_flags.
  assert (Hi : (i < length (d_vec d))%nat) by (apply nth_error_Some; congruence).
  assert (G : forall (v : list Z) s j, nth_error v j = Some m ->
    nth_error (combine (seq s (length v)) v) j = Some ((s + j)%nat, m)).
  { induction v as [|x v IH]; intros s [|j] Hj; cbn [length seq combine nth_error] in *; try discriminate.
    - inversion Hj. rewrite Nat.add_0_r. reflexivity.
    - rewrite (IH (S s) j Hj). do 2 f_equal. lia. }
  rewrite (map_nth_error _ _ _ (G _ 0%nat _ H)). cbn [Nat.add].
  assert (F : nth_error (mode_flags mode (length (d_vec d)) (d_coin d)) i =
    Some (match mode with ENCR => true | TRIV => false | ENCRTRIV => d_coin d i end)).
  { unfold mode_flags. apply (map_nth_error (fun i => match mode with ENCR => true | TRIV => false | ENCRTRIV => d_coin d i end)).
    rewrite nth_error_nth' with (d := 0%nat) by (rewrite seq_length; auto). rewrite seq_nth by auto. reflexivity. }
  rewrite F. destruct mode; reflexivity.
Qed.
Theorem C58_modes_length : forall mode (d : draw cl),
  length (encrypt_with_mode cl mode d) = length (d_vec d).
Proof. intros. apply mode_len. Qed.

(* ------------------------------------------------------------------ *)
(** ** test_encryption.rs *)

Theorem C58_decrypt_triv : passes (t_decrypt_triv cl pc) <->
  fst (parm_decrypt cl (ovf pc) (ct_triv 62)) = Ok 0.
Proof.
  unfold passes, t_decrypt_triv. change TESTS_BITLEN_FULL with 62%nat. split; intros H.
  - step H m E. apply expect_inv in E. apply assert_Ok in H. subst. auto.
  - rewrite (Ok_bind _ _ _ _ 0); [reflexivity|]. apply expect_Ok; auto.
Qed.
Theorem C58_encrypt_decrypt_int : forall m seeds, passes (t_encrypt_decrypt_int cl pc (m, seeds)) <->
  exists c, fst (parm_encrypt cl (ovf pc) seeds m 62) = Ok c /\ fst (parm_decrypt cl (ovf pc) c) = Ok m.
Proof.
  intros m seeds. unfold passes, t_encrypt_decrypt_int. change TESTS_BITLEN_FULL with 62%nat. split; intros H.
  - step H c E. step H mp F. apply expect_inv in E, F. apply assert_Ok in H. subst. exists c. auto.
  - destruct H as [c [E F]]. rewrite (Ok_bind _ _ _ _ c), (Ok_bind _ _ _ _ m); [apply assert_Ok; auto| |]; apply expect_Ok; auto.
Qed.
Theorem C58_encrypt_decrypt_vec : forall d : draw cl, digits (d_vec d) -> (length (d_vec d) <= 63)%nat ->
  (passes (t_encrypt_decrypt_vec cl pc d) <->
   exists c, fst (parm_encrypt_from_vec cl (d_seed d) (d_vec d)) = Ok c /\
     fst (parm_decrypt cl (ovf pc) c) = Ok (value (d_vec d))).
Proof.
  intros d D L. unfold passes, t_encrypt_decrypt_vec. split; intros H.
  - step H c E. step H mp F. rewrite (t_convert_ok pc _ D L), ret_bind in H. apply expect_inv in E, F. apply assert_Ok in H.
    subst. eauto.
  - destruct H as [c [E F]]. rewrite (Ok_bind _ _ _ _ c), (Ok_bind _ _ _ _ (value (d_vec d))); [|apply expect_Ok; auto..].
    rewrite (t_convert_ok pc _ D L), ret_bind. apply assert_Ok; auto.
Qed.
Theorem C58_decr_with_mode : forall mode (d : draw cl), digits (d_vec d) -> (length (d_vec d) <= 63)%nat ->
  (passes (t_decr_with_mode cl cu pc mode d) <-> reads (ret (encrypt_with_mode cl mode d)) (value (d_vec d))).
Proof.
  intros mode d D L. unfold passes, t_decr_with_mode, t_decrypt, reads. rewrite (t_convert_ok pc _ D L), ret_bind. split; intros H.
  - step H m E. apply expect_inv in E. apply assert_Ok in H. subst. exists (encrypt_with_mode cl mode d). auto.
  - destruct H as [c [E F]]. inversion E; subst c. rewrite (Ok_bind _ _ _ _ (value (d_vec d))); [apply assert_Ok; auto|apply expect_Ok; auto].
Qed.

(* ------------------------------------------------------------------ *)
(** ** test_encr_word.rs and test_pbs.rs *)

(** The message of a word, as the test reads it *)
Definition word_reads (w : word B) (m : Z) : Prop :=
  exists mu, fst (decrypt_mu (Some cl) w) = Ok mu /\ mu mod 2^32 = m mod 32.

Local Lemma i32_cong : forall x m, i32 x = m mod 32 -> x mod 2^32 = m mod 32.
Proof.
  intros x m H. unfold i32 in H. pose proof (Z.mod_pos_bound m 32 ltac:(lia)) as Hm.
  pose proof (Z.mod_pos_bound (x + 2^31) (2^32) ltac:(lia)) as Hb.
  assert (E : x = m mod 32 + 2^32 * ((x + 2^31) / 2^32)).
  { pose proof (Z.div_mod (x + 2^31) (2^32) ltac:(lia)). lia. }
  rewrite E, (Z.mul_comm (2^32)), Z.mod_add, Z.mod_small by lia. reflexivity.
Qed.
Local Lemma t_mu_inv : forall w x, fst (t_decrypt_mu cl w) = Ok x -> exists mu, fst (decrypt_mu (Some cl) w) = Ok mu /\ x = i32 mu.
Proof.
  intros w x H. unfold t_decrypt_mu in H. step H mu E. apply expect_inv in E. inversion H. eauto.
Qed.

Theorem C58_encr_word : forall s_mode o_mode (d : word_draw cl), bit_precision (cparams pc) = 5%nat ->
  -16 <= wd_ms cl d <= 15 -> -16 <= wd_mo cl d <= 15 -> -4 <= wd_k cl d <= 4 ->
  passes (t_encr_word cl pc s_mode o_mode d) ->
  exists cs co ck ch, fst (word_with_mode cl s_mode (wd_s cl d) (wd_ms cl d)) = Ok cs /\
    fst (word_with_mode cl o_mode (wd_o cl d) (wd_mo cl d)) = Ok co /\
    (s_mode = ENCR -> is_triv cs = false) /\ (s_mode = TRIV -> is_triv cs = true) /\
    word_reads cs (wd_ms cl d) /\ word_reads co (wd_mo cl d) /\
    word_reads (w_add cs co) (wd_ms cl d + wd_mo cl d) /\
    word_reads (w_sub cs co) (wd_ms cl d - wd_mo cl d) /\
    fst (w_mul_const_api (ovf pc) cs (wd_k cl d)) = Ok ck /\ word_reads ck (wd_k cl d * wd_ms cl d) /\
    fst (w_mul_const_api (ovf pc) (w_add_half cs) 2) = Ok ch /\ word_reads ch (2 * wd_ms cl d + 1).
Proof.
  intros sm om [ms mo k ss so] Hbp Hs Ho Hk H. cbn [wd_ms wd_mo wd_k wd_s wd_o] in *.
  unfold passes, t_encr_word in H. cbn [wd_ms wd_mo wd_k wd_s wd_o] in H.
  assert (Hsp : plaintext_space_size (ovf pc) (cparams pc) = ret 32) by (unfold plaintext_space_size; rewrite Hbp; reflexivity).
  rewrite Hsp, ret_bind in H. cbv zeta in H. unfold rem_euclid in H. change (Z.abs 32) with 32 in H.
  step H cs Ecs. step H co Eco. step H u Eu. destruct u.
  step H ds Eds. step H d_o Edo. step H u1 Eu1. destruct u1. step H u2 Eu2. destruct u2.
  step H dadd Eadd. step H dsub Esub.
  rewrite chk_i32_in, ret_bind in H by (unfold I32_MIN, I32_MAX; lia).
  rewrite chk_i32_in, ret_bind in H by (unfold I32_MIN, I32_MAX; lia).
  step H u3 Eu3. destruct u3. step H u4 Eu4. destruct u4. step H ck Eck. step H dscm Escm.
  rewrite chk_i32_in, ret_bind in H by (unfold I32_MIN, I32_MAX; nia).
  step H u5 Eu5. destruct u5. step H ch Ech. step H dah Eah.
  rewrite chk_i32_in, ret_bind in H by (unfold I32_MIN, I32_MAX; lia).
  rewrite chk_i32_in, ret_bind in H by (unfold I32_MIN, I32_MAX; lia).
  apply assert_Ok in Eu1, Eu2, Eu3, Eu4, Eu5, H. subst ds d_o dadd dsub dscm dah.
  assert (G : forall w m, fst (t_decrypt_mu cl w) = Ok (m mod 32) -> word_reads w m).
  { intros w m E. apply t_mu_inv in E. destruct E as [mu [E1 E2]]. exists mu. split; auto. apply i32_cong. auto. }
  exists cs, co, ck, ch. replace (2 * ms + 1) with (ms * 2 + 1) by lia.
  split; [auto|]. split; [auto|].
  split. { intros ->. destruct (is_triv cs); [discriminate|reflexivity]. }
  split. { intros ->. destruct (is_triv cs); [reflexivity|discriminate]. }
  repeat split; auto.
Qed.

(** The table of the test is the identity on small messages *)
Theorem C58_pbs : forall mode m s, bit_precision (cparams pc) = 5%nat -> -8 <= m <= 8 ->
  passes (t_pbs cl pc mode (m, s)) ->
  exists c r, fst (word_with_mode cl mode s m) = Ok c /\ fst (eval_LUT_5_uint c lut_identity_5) = Ok r /\
    fst (decrypt_mu (Some cl) r) = Ok (m mod 32).
Proof.
  intros mode m s Hbp Hm H. unfold passes, t_pbs in H.
  assert (Hsp : plaintext_space_size (ovf pc) (cparams pc) = ret 32) by (unfold plaintext_space_size; rewrite Hbp; reflexivity).
  rewrite Hsp, ret_bind in H. cbv zeta in H. unfold rem_euclid in H. change (Z.abs 32) with 32 in H. change (32 / 2) with 16 in H.
  step H c Ec. step H r Er. step H mu Emu. step H e Ee. apply expect_inv in Emu. apply assert_Ok in H. subst mu.
  exists c, r. split; [auto|]. split; [auto|]. rewrite Emu. do 2 f_equal. clear - Ee Hm.
  assert (Hc : m = -8 \/ m = -7 \/ m = -6 \/ m = -5 \/ m = -4 \/ m = -3 \/ m = -2 \/ m = -1 \/ m = 0 \/ m = 1 \/ m = 2 \/
    m = 3 \/ m = 4 \/ m = 5 \/ m = 6 \/ m = 7 \/ m = 8) by lia.
  assert (G : e mod 32 = m mod 32).
  { repeat (destruct Hc as [ -> |Hc]; [vm_compute in Ee; inversion Ee; reflexivity|]).
    rewrite Hc in Ee |- *. vm_compute in Ee. inversion Ee. reflexivity. }
  rewrite G. unfold u64. apply Z.mod_small. pose proof (Z.mod_pos_bound m 32). lia.
Qed.

(* ------------------------------------------------------------------ *)
(** ** The operations *)

Local Lemma unary_iff : forall (op : forall T, arith T -> T -> M T) mode (d : draw cl) r,
  digits (d_vec d) -> (length (d_vec d) <= 63)%nat ->
  fst (op _ (arith_i64 (ovf pc)) (value (d_vec d))) = Ok r ->
  (fst (t_unary cl cu pc op mode d) = Ok tt <-> reads (op _ (arith_ct pc) (encrypt_with_mode cl mode d)) r).
Proof.
  intros op mode d r D L Hr. unfold t_unary, reads, t_decrypt. rewrite (t_convert_ok pc _ D L), ret_bind. cbv zeta. split; intros H.
  - step H c E. step H m F. apply expect_inv in F. rewrite (Ok_bind _ _ _ _ r Hr) in H. apply assert_Ok in H. subst. eauto.
  - destruct H as [c [E F]]. rewrite (Ok_bind _ _ _ _ c E), (Ok_bind _ _ _ _ r), (Ok_bind _ _ _ _ r Hr) by (apply expect_Ok; auto).
    apply assert_Ok; auto.
Qed.
Local Lemma binary_iff : forall (op : forall T, arith T -> T -> T -> M T) mode1 mode2 (d1 d2 : draw cl) r,
  digits (d_vec d1) -> (length (d_vec d1) <= 63)%nat -> digits (d_vec d2) -> (length (d_vec d2) <= 63)%nat ->
  fst (op _ (arith_i64 (ovf pc)) (value (d_vec d1)) (value (d_vec d2))) = Ok r ->
  (fst (t_binary cl cu pc op mode1 mode2 (d1, d2)) = Ok tt <->
   reads (op _ (arith_ct pc) (encrypt_with_mode cl mode1 d1) (encrypt_with_mode cl mode2 d2)) r).
Proof.
  intros op mode1 mode2 d1 d2 r D1 L1 D2 L2 Hr. unfold t_binary, reads, t_decrypt.
  rewrite (t_convert_ok pc _ D1 L1), ret_bind, (t_convert_ok pc _ D2 L2), ret_bind. cbv zeta. split; intros H.
  - step H c E. step H m F. apply expect_inv in F. rewrite (Ok_bind _ _ _ _ r Hr) in H. apply assert_Ok in H. subst. eauto.
  - destruct H as [c [E F]]. rewrite (Ok_bind _ _ _ _ c E), (Ok_bind _ _ _ _ r), (Ok_bind _ _ _ _ r Hr) by (apply expect_Ok; auto).
    apply assert_Ok; auto.
Qed.
Local Lemma room : forall v n, digits v -> (length v <= n)%nat -> Z.abs (value v) < 2 ^ Z.of_nat n.
Proof. intros v n D L. pose proof (value_bound v D). pose proof (pow2_le _ _ L). lia. Qed.

Theorem C58_signum : forall mode (d : draw cl), digits (d_vec d) -> (length (d_vec d) <= 63)%nat ->
  (passes (t_sgn cl cu pc mode d) <-> reads (pa_sgn pc (encrypt_with_mode cl mode d)) (Z.sgn (value (d_vec d)))) /\
  (passes (t_sgn_empty cu pc) <-> reads (pa_sgn pc []) 0).
Proof.
  intros mode d D L. split.
  - apply (unary_iff (fun T (A : arith T) x => a_sgn A x)); auto.
  - unfold passes, t_sgn_empty, t_decrypt, reads. cbn [arith_ct a_sgn]. unfold ct_empty. split; intros H.
    + step H c E. step H m F. apply expect_inv in F. apply assert_Ok in H. subst. eauto.
    + destruct H as [c [E F]]. rewrite (Ok_bind _ _ _ _ c E), (Ok_bind _ _ _ _ 0); [reflexivity|apply expect_Ok; auto].
Qed.
Theorem C58_rounding : forall mode (d : draw cl) pos, digits (d_vec d) -> (length (d_vec d) <= 61)%nat -> (pos <= 61)%nat ->
  (passes (t_round cl cu pc mode (d, pos)) <->
   reads (pa_round_at pc (encrypt_with_mode cl mode d) pos) (round_to pos (value (d_vec d)))) /\
  (passes (t_round_empty cu pc) <-> reads (pa_round_at pc [] 0) 0).
Proof.
  intros mode d pos D L Hp. split.
  - apply (unary_iff (fun T (A : arith T) x => a_round_at A x pos)); auto; try lia.
    cbn [arith_i64 a_round_at]. pose proof (room _ 61 D L) as Hv. change (2 ^ Z.of_nat 61) with (2^61) in Hv.
    rewrite i64_round_ok; auto; try lia.
    assert (HP : 2 ^ Z.of_nat pos <= 2^61) by (apply (pow2_le pos 61); auto).
    assert (HP0 : 0 < 2 ^ Z.of_nat pos) by (apply Z.pow_pos_nonneg; lia).
    unfold round_to. set (p := 2 ^ Z.of_nat pos) in *.
    pose proof (Z.div_mod (value (d_vec d) + p / 2) p ltac:(lia)).
    pose proof (Z.mod_pos_bound (value (d_vec d) + p / 2) p ltac:(lia)).
    pose proof (Z.div_mod p 2 ltac:(lia)). pose proof (Z.mod_pos_bound p 2 ltac:(lia)). lia.
  - unfold passes, t_round_empty, t_decrypt, reads. cbn [arith_ct a_round_at]. unfold ct_empty. split; intros H.
    + step H c E. step H m F. apply expect_inv in F. apply assert_Ok in H. subst. eauto.
    + destruct H as [c [E F]]. rewrite (Ok_bind _ _ _ _ c E), (Ok_bind _ _ _ _ 0); [reflexivity|apply expect_Ok; auto].
Qed.
Theorem C58_maximum : forall mode1 mode2 (d1 d2 : draw cl),
  digits (d_vec d1) -> (length (d_vec d1) <= 63)%nat -> digits (d_vec d2) -> (length (d_vec d2) <= 63)%nat ->
  (passes (t_max cl cu pc mode1 mode2 (d1, d2)) <->
   reads (pa_max pc (encrypt_with_mode cl mode1 d1) (encrypt_with_mode cl mode2 d2))
     (Z.max (value (d_vec d1)) (value (d_vec d2)))) /\
  (passes (t_max_both_empty cu pc) <-> reads (pa_max pc [] []) 0).
Proof.
  intros mode1 mode2 d1 d2 D1 L1 D2 L2. split.
  - apply (binary_iff (fun T (A : arith T) x y => a_max A x y)); auto.
  - unfold passes, t_max_both_empty, t_decrypt, reads. cbn [arith_ct a_max]. unfold ct_empty. split; intros H.
    + step H c E. step H m F. apply expect_inv in F. apply assert_Ok in H. subst. eauto.
    + destruct H as [c [E F]]. rewrite (Ok_bind _ _ _ _ c E), (Ok_bind _ _ _ _ 0); [reflexivity|apply expect_Ok; auto].
Qed.
Theorem C58_multiplication : forall mode1 mode2 (d1 d2 : draw cl),
  digits (d_vec d1) -> digits (d_vec d2) -> (length (d_vec d1) + length (d_vec d2) <= 62)%nat ->
  (passes (t_mul cl cu pc mode1 mode2 (d1, d2)) <->
   reads (pa_mul (encrypt_with_mode cl mode1 d1) (encrypt_with_mode cl mode2 d2)) (value (d_vec d1) * value (d_vec d2))).
Proof.
  intros mode1 mode2 d1 d2 D1 D2 L.
  apply (binary_iff (fun T (A : arith T) x y => a_mul A x y)); auto; try lia.
  cbn [arith_i64 a_mul]. rewrite chk_i64_in; [reflexivity|].
  pose proof (value_bound _ D1) as V1. pose proof (value_bound _ D2) as V2.
  assert (P : 2 ^ Z.of_nat (length (d_vec d1)) * 2 ^ Z.of_nat (length (d_vec d2)) <= 2^62).
  { rewrite <- Z.pow_add_r, <- Nat2Z.inj_add by lia. apply (pow2_le _ 62); auto. }
  assert (Z.abs (value (d_vec d1) * value (d_vec d2)) <= 2^62) by (rewrite Z.abs_mul; nia).
  unfold I64_MIN, I64_MAX. lia.
Qed.
Theorem C58_squaring : forall mode (d : draw cl), digits (d_vec d) -> (length (d_vec d) <= 31)%nat ->
  (passes (t_squ cl cu pc mode d) <->
   reads (pa_squ (encrypt_with_mode cl mode d)) (value (d_vec d) ^ 2)) /\
  (passes (t_squ_2_3 cl cu pc d) -> reads (pa_squ (encrypt_with_mode cl ENCR d)) (value (d_vec d) ^ 2)).
Proof.
  intros mode d D L.
  assert (Hr : fst (a_squ (arith_i64 (ovf pc)) (value (d_vec d))) = Ok (value (d_vec d) ^ 2)).
  { cbn [arith_i64 a_squ]. rewrite chk_i64_in; [rewrite Z.pow_2_r; reflexivity|].
    pose proof (room _ 31 D L) as Hv. change (2 ^ Z.of_nat 31) with (2^31) in Hv. unfold I64_MIN, I64_MAX. nia. }
  split.
  - apply (unary_iff (fun T (A : arith T) x => a_squ A x)); auto; lia.
  - intros H. unfold passes, t_squ_2_3, t_decrypt in H. rewrite (t_convert_ok pc _ D), ret_bind in H by lia.
    step H c E. step H v F. step H m G. apply expect_inv in G. rewrite (Ok_bind _ _ _ _ _ Hr) in H. apply assert_Ok in H. subst.
    exists c. auto.
Qed.

Theorem C58_addition : forall mode (d1 d2 : draw cl),
  digits (d_vec d1) -> (length (d_vec d1) <= 62)%nat -> digits (d_vec d2) -> (length (d_vec d2) <= 62)%nat ->
  passes (t_add_sub cl cu pc mode (d1, d2)) ->
  reads (pa_add (encrypt_with_mode cl mode d1) (encrypt_with_mode cl mode d2)) (value (d_vec d1) + value (d_vec d2)) /\
  reads (pa_sub (encrypt_with_mode cl mode d1) (encrypt_with_mode cl mode d2)) (value (d_vec d1) - value (d_vec d2)).
Proof.
  intros mode d1 d2 D1 L1 D2 L2 H. unfold passes, t_add_sub, t_decrypt in H.
  rewrite (t_convert_ok pc _ D1), ret_bind, (t_convert_ok pc _ D2), ret_bind in H by lia. cbv zeta in H.
  pose proof (room _ 62 D1 L1) as V1. pose proof (room _ 62 D2 L2) as V2. change (2 ^ Z.of_nat 62) with (2^62) in *.
  cbn [arith_ct arith_i64 a_add a_sub] in H.
  step H ca Ea. step H cs Es. step H ma Fa. step H ms Fs. step H va Ga. step H vs Gs. apply expect_inv in Fa, Fs.
  rewrite chk_i64_in, ret_bind in H by (unfold I64_MIN, I64_MAX; lia).
  rewrite chk_i64_in, ret_bind in H by (unfold I64_MIN, I64_MAX; lia).
  step H u Eu. destruct u. apply assert_Ok in Eu, H. subst. split; eexists; eauto.
Qed.
Theorem C58_zeros : forall mode lx rx ly ry (d1 d2 : draw cl), digits (d_vec d1) -> digits (d_vec d2) ->
  (rx + length (d_vec d1) + lx <= 62)%nat -> (ry + length (d_vec d2) + ly <= 62)%nat ->
  (passes (t_add_triv_zeros cl cu pc lx rx mode ly ry (d1, d2)) <->
   let c1 := ct_triv rx ++ encrypt_with_mode cl mode d1 ++ ct_triv lx in
   let c2 := ct_triv ry ++ encrypt_with_mode cl mode d2 ++ ct_triv ly in
   let v1 := 2 ^ Z.of_nat rx * value (d_vec d1) in
   let v2 := 2 ^ Z.of_nat ry * value (d_vec d2) in
   reads (pa_add c1 c2) (v1 + v2) /\ reads (pa_sub c1 c2) (v1 - v2)).
Proof.
  intros mode lx rx ly ry d1 d2 D1 D2 L1 L2. cbv zeta.
  assert (HZ : forall l r v, digits v -> digits (repeat 0 r ++ v ++ repeat 0 l) /\
    value (repeat 0 r ++ v ++ repeat 0 l) = 2 ^ Z.of_nat r * value v).
  { intros l r v D. assert (Z0 : forall n, digits (repeat 0 n)).
    { intros n. apply Forall_forall. intros x Hx. apply repeat_spec in Hx. subst. unfold digit. lia. }
    split; [apply Forall_app; split; [apply Z0|apply Forall_app; split; [exact D|apply Z0]]|].
    rewrite !value_app, !value_zeros, repeat_length. ring. }
  unfold passes, t_add_triv_zeros, gen_ct_with_triv_zeros. cbn [fst snd].
  set (c1 := ct_triv rx ++ _). set (c2 := ct_triv ry ++ _).
  destruct (HZ lx rx _ D1) as [DD1 E1]. destruct (HZ ly ry _ D2) as [DD2 E2].
  assert (N1 : (length (repeat 0%Z rx ++ d_vec d1 ++ repeat 0%Z lx) <= 62)%nat) by (rewrite !app_length, !repeat_length; lia).
  assert (N2 : (length (repeat 0%Z ry ++ d_vec d2 ++ repeat 0%Z ly) <= 62)%nat) by (rewrite !app_length, !repeat_length; lia).
  pose proof (room _ 62 DD1 N1) as V1. pose proof (room _ 62 DD2 N2) as V2. change (2 ^ Z.of_nat 62) with (2^62) in *.
  rewrite (t_convert_ok pc _ DD1), ret_bind, (t_convert_ok pc _ DD2), ret_bind by lia.
  rewrite E1 in *. rewrite E2 in *.
  generalize dependent (2 ^ Z.of_nat rx * value (d_vec d1)). generalize dependent (2 ^ Z.of_nat ry * value (d_vec d2)).
  intros v2 _ V2 v1 _ V1. clearbody c1 c2. unfold add_sub_body, t_decrypt, reads. cbn [arith_ct arith_i64 a_add a_sub]. split.
  - intros H. step H ca Ea. step H cs Es. step H ma Fa. step H ms Fs. apply expect_inv in Fa, Fs.
    rewrite chk_i64_in, ret_bind in H by (unfold I64_MIN, I64_MAX; lia).
    rewrite chk_i64_in, ret_bind in H by (unfold I64_MIN, I64_MAX; lia).
    step H u Eu. destruct u. apply assert_Ok in Eu, H. subst. split; eexists; eauto.
  - intros [[ca [Ea Fa]] [cs [Es Fs]]]. rewrite (Ok_bind _ _ _ _ ca Ea), (Ok_bind _ _ _ _ cs Es).
    rewrite (Ok_bind _ _ _ _ (v1 + v2)), (Ok_bind _ _ _ _ (v1 - v2)); [|apply expect_Ok; auto..].
    rewrite chk_i64_in, ret_bind by (unfold I64_MIN, I64_MAX; lia).
    rewrite chk_i64_in, ret_bind by (unfold I64_MIN, I64_MAX; lia).
    rewrite (Ok_bind _ _ _ _ tt); [|apply assert_Ok; auto]. apply assert_Ok; auto.
Qed.
Theorem C58_add_const : forall mode (d : draw cl) k, digits (d_vec d) -> (length (d_vec d) <= 62)%nat ->
  digits k -> (length k <= 62)%nat ->
  (passes (t_add_const cl cu pc mode (d, k)) <->
   reads (pa_add_const pc (encrypt_with_mode cl mode d) (value k)) (value (d_vec d) + value k)).
Proof.
  intros mode d k D L Dk Lk. unfold passes, t_add_const, t_decrypt, reads.
  rewrite (t_convert_ok pc _ D), ret_bind, (t_convert_ok pc _ Dk), ret_bind by lia.
  pose proof (room _ 62 D L) as V1. pose proof (room _ 62 Dk Lk) as V2. change (2 ^ Z.of_nat 62) with (2^62) in *.
  cbn [arith_ct arith_i64 a_add_const]. split; intros H.
  - step H c E. step H m F. apply expect_inv in F. rewrite chk_i64_in, ret_bind in H by (unfold I64_MIN, I64_MAX; lia).
    apply assert_Ok in H. subst. eauto.
  - destruct H as [c [E F]]. rewrite (Ok_bind _ _ _ _ c E), (Ok_bind _ _ _ _ (value (d_vec d) + value k)) by (apply expect_Ok; auto).
    rewrite chk_i64_in, ret_bind by (unfold I64_MIN, I64_MAX; lia). apply assert_Ok; auto.
Qed.

(* ------------------------------------------------------------------ *)
(** ** test_scalar_multiplication.rs *)

Theorem C58_scm : forall mode k (d : draw cl), - 2^31 <= k < 2^31 -> digits (d_vec d) -> (length (d_vec d) <= 31)%nat ->
  (passes (t_scm cl cu pc mode (k, d)) <->
   reads (pa_scalar_mul pc k (encrypt_with_mode cl mode d)) (k * value (d_vec d))).
Proof.
  intros mode k d Hk D L. apply (unary_iff (fun T (A : arith T) x => a_scalar_mul A k x)); auto; try lia.
  cbn [arith_i64 a_scalar_mul]. rewrite chk_i64_in; [reflexivity|].
  pose proof (room _ 31 D L) as Hv. change (2 ^ Z.of_nat 31) with (2^31) in Hv.
  assert (Z.abs (k * value (d_vec d)) <= 2^31 * (2^31 - 1)) by (rewrite Z.abs_mul; nia). unfold I64_MIN, I64_MAX. lia.
Qed.
(** The test of the recoding, and of the table of chains *)
Theorem C58_koy_tsu : forall k, Z.abs k < 2^31 -> passes (t_koy_tsu pc k) ->
  exists v, fst (koyama_tsuruoka_vec (ovf pc) (Z.abs k)) = Ok v /\ fst (convert_from_vec (ovf pc) v) = Ok (Z.abs k).
Proof.
  intros k Hk H. unfold passes, t_koy_tsu, t_convert in H. rewrite chk_i32_in, ret_bind in H by (unfold I32_MIN, I32_MAX; lia).
  replace (u32 (Z.abs k)) with (Z.abs k) in H by (unfold u32; rewrite Z.mod_small; lia).
  step H v E. step H x F. apply expect_inv in F. apply assert_Ok in H. subst. eauto.
Qed.
Theorem C58_asc : passes (t_asc pc) -> length (asc_12 pc) = 2048%nat /\
  forall n c, In (n, c) (asc_12 pc) -> - 2^63 <= n < 2^63 -> fst (asc_value (ovf pc) c) = Ok n.
Proof.
  intros H. unfold passes, t_asc in H. step H u E. destruct u. apply assert_Ok in E. split; [lia|].
  intros n c Hin Hn. apply (proj1 (C58_rounds _ _ _)) in H. rewrite Forall_forall in H. specialize (H _ Hin).
  unfold passes in H. cbn [fst snd] in H. step H v F. apply assert_Ok in H.
  replace (i64 n) with n in H by (unfold i64; rewrite Z.mod_small; lia). subst. auto.
Qed.

(* ------------------------------------------------------------------ *)
(** ** test_nn.rs *)

Theorem C58_nn : forall mode nn (ds : list (draw cl)), gen_nn nn -> length ds = nn_inputs nn ->
  Forall (drawn 5) ds -> passes (t_nn cl cu pc mode (nn, ds)) ->
  exists cs, fst (nn_eval (arith_ct pc) nn (map (encrypt_with_mode cl mode) ds)) = Ok cs /\
    map (fun c => fst (parm_decrypt cu (ovf pc) c)) cs =
    map Ok (layers_spec (nn_layers nn) (map (fun d => value (d_vec d)) ds)).
Proof.
  intros mode nn ds HG HL HX H. unfold passes, t_nn in H.
  assert (Hin : mapM (fun d1 => t_convert pc (d_vec d1)) ds = ret (map (fun d => value (d_vec d)) ds) /\
    Forall2 (fun x v => x = v /\ Z.abs v < 2 ^ Z.of_nat 5) (map (fun d => value (d_vec d)) ds) (map (fun d => value (d_vec d)) ds)).
  { clear HL H. induction HX as [|d xs [N D] HX IH]; cbn [mapM map]; [auto|].
    destruct IH as [I1 I2]. assert (DD : digits (d_vec d)) by (eapply Forall_impl; [|exact D]; unfold digit; lia).
    rewrite (t_convert_ok pc _ DD), ret_bind, I1, ret_bind by lia. split; [reflexivity|].
    constructor; auto. split; auto. apply room; auto. lia. }
  destruct Hin as [E F2]. rewrite E, ret_bind in H. clear E.
  destruct HG as [Hd [Hi Hg]]. unfold TESTS_NNE_DEPTH, TESTS_NNE_LAYER_SIZE in Hd, Hi.
  assert (Hs : Forall (Forall p_small) (nn_layers nn)).
  { revert Hg. generalize (nn_layers nn), (nn_inputs nn), Hi. clear.
    induction l as [|l ls IH]; intros n Hn Hg; constructor.
    - destruct Hg as [_ [Hg _]]. eapply Forall_impl; [|exact Hg]. intros p [P1 [P2 P3]].
      split; [lia|]. split; [eapply Forall_impl; [|exact P2]; cbv beta; lia|unfold TESTS_NNE_B_ABS_MAX in P3; lia].
    - destruct Hg as [H1 [_ H3]]. unfold TESTS_NNE_LAYER_SIZE in H1. apply (IH (length l)); auto. lia. }
  assert (Hne : nn_layers nn <> []) by (intros E; rewrite E in Hd; cbn in Hd; lia).
  destruct (graded_nn _ _ (graded_i64 (ovf pc)) nn 5 _ _ Hne ltac:(lia) Hs F2) as [iz [Ei Hz]].
  assert (iz = layers_spec (nn_layers nn) (map (fun d => value (d_vec d)) ds)) as ->.
  { revert Hz. generalize (layers_spec (nn_layers nn) (map (fun d => value (d_vec d)) ds)). clear.
    intros vs Hz. induction Hz as [|x v iz vs [-> _] Hz IH]; auto. f_equal; auto. }
  step H cs Ec. step H m Em. rewrite (Ok_bind _ _ _ _ _ Ei) in H.
  destruct (list_eq_dec Z.eq_dec _ _) as [<-|]; [|discriminate]. exists cs. split; auto.
  clear - Em. revert m Em. induction cs as [|c cs IH]; intros m Em; cbn [mapM map] in *.
  - inversion Em. reflexivity.
  - step Em x F. step Em y G. inversion Em; subst. unfold t_decrypt in F. apply expect_inv in F. cbn [map]. rewrite F, (IH y G). reflexivity.
Qed.

End C58.

(* ------------------------------------------------------------------ *)
(** ** Examples *)

Definition ex20 : cloud := cloud_100 true.
(** the tests pass on these draws *)
Example C58_example_pass :
  passes (t_mul exact_client exact_client ex20 ENCR TRIV (ex_draw [1; -1; 1], ex_draw [0; 1])) /\
  passes (t_add_sub exact_client exact_client ex20 ENCRTRIV (ex_draw [1; -1; 1], ex_draw [0; 1])) /\
  passes (t_pbs exact_client ex20 ENCR (-8, ([], 0))) /\
  passes (t_scm exact_client exact_client ex20 ENCR (-12, ex_draw [1; -1])) /\
  passes (t_encr_word exact_client ex20 ENCR TRIV (mkWordDraw exact_client (-16) 15 (-4) ([], 0) ([], 0))) /\
  passes (t_nn exact_client exact_client ex20 ENCR (ex_nn, ex_inputs)).
Proof. vm_compute. repeat split. Qed.
(** a user whose decryption is one off fails every one of them *)
Example C58_example_fail :
  ~ passes (t_decr_with_mode exact_client off_client ex20 ENCR (ex_draw [1; -1])) /\
  ~ passes (t_sgn exact_client off_client ex20 ENCR (ex_draw [1; -1])) /\
  ~ passes (t_round exact_client off_client ex20 ENCR (ex_draw [1; -1], 1%nat)) /\
  ~ passes (t_mul exact_client off_client ex20 ENCR ENCR (ex_draw [1; -1; 1], ex_draw [0; 1])) /\
  ~ passes (t_squ exact_client off_client ex20 ENCR (ex_draw [1; 1])) /\
  ~ passes (t_add_sub exact_client off_client ex20 ENCR (ex_draw [1; -1; 1], ex_draw [0; 1])) /\
  ~ passes (t_scm exact_client off_client ex20 ENCR (-12, ex_draw [1; -1])) /\
  ~ passes (t_pbs off_client ex20 ENCR (-8, ([], 0))) /\
  ~ passes (t_encr_word off_client ex20 ENCR TRIV (mkWordDraw off_client (-16) 15 (-4) ([], 0) ([], 0))).
Proof. unfold passes. vm_compute. repeat split; discriminate. Qed.
(** a table with a wrong chain fails the test of the table *)
Example C58_example_table : let pc := mkCloud (cparams ex20) ((3, []) :: tl shipped_asc) true in
  ~ passes (t_asc pc).
Proof. unfold passes. vm_compute. discriminate. Qed.

Print Assumptions C58_rounds.
Print Assumptions C58_modes.
Print Assumptions C58_modes_length.
Print Assumptions C58_decrypt_triv.
Print Assumptions C58_encrypt_decrypt_int.
Print Assumptions C58_encrypt_decrypt_vec.
Print Assumptions C58_decr_with_mode.
Print Assumptions C58_encr_word.
Print Assumptions C58_pbs.
Print Assumptions C58_signum.
Print Assumptions C58_rounding.
Print Assumptions C58_maximum.
Print Assumptions C58_multiplication.
Print Assumptions C58_squaring.
Print Assumptions C58_addition.
Print Assumptions C58_zeros.
Print Assumptions C58_add_const.
Print Assumptions C58_scm.
Print Assumptions C58_koy_tsu.
Print Assumptions C58_asc.
Print Assumptions C58_nn.
