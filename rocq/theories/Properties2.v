(** Properties C09-C19 and C31: the arithmetic operations. *)
From Verif Require Import Base Backend Words Encryption Params Pbs Addition Signum Maximum
  Multiplication Squaring Rounding Spec Contract BaseProofs WordsProofs ValueProofs AddProofs EncProofs
  SgnProofs MulProofs RoundProofs ShapeProofs TotalProofs Instances.
From Coq Require Import ZifyBool ZifyNat.

Section Ops.
Context {B : backend} {qw : Z} (C : contract B qw).

(* ------------------------------------------------------------------ *)
(** ** C09, C10: addition and subtraction *)

(** [enc_val C x v]: x encrypts (in any mix of trivial and encrypted words, each
    with at most fresh noise) a vector of digits -1, 0, 1 of value v. So the
    conclusion also says that the alphabet is closed and the noise is fresh. *)
Theorem C09_add : forall x y vx vy, enc_val C x vx -> enc_val C y vy ->
  exists z, fst (pa_add x y) = Ok z /\ enc_val C z (vx + vy).
Proof.
  intros x y vx vy Hx Hy. destruct (pa_add_ok C x y vx vy Hx Hy) as [z [H1 [H2 _]]]. eauto.
Qed.

Theorem C09_sub : forall x y vx vy, enc_val C x vx -> enc_val C y vy ->
  exists z, fst (pa_sub x y) = Ok z /\ enc_val C z (vx - vy).
Proof.
  intros x y vx vy Hx Hy. destruct (pa_sub_ok C x y vx vy Hx Hy) as [z [H1 [H2 _]]]. eauto.
Qed.

Theorem C09_add_decrypts : forall cl, client_ok C cl -> forall o x y vx vy,
  enc_val C x vx -> enc_val C y vy -> (length x <= 62)%nat -> (length y <= 62)%nat ->
  exists z, fst (pa_add x y) = Ok z /\ parm_decrypt cl o z = (Ok (vx + vy), []).
Proof.
  intros cl Hcl o x y vx vy Hx Hy Lx Ly.
  destruct (pa_add_ok C x y vx vy Hx Hy) as [z [H1 [H2 [H3 _]]]]. exists z. split; auto.
  rewrite (decrypt_ok C cl Hcl o z _ H2) by lia. reflexivity.
Qed.

Theorem C10_growth : forall x y vx vy, enc_val C x vx -> enc_val C y vy ->
  exists z z', fst (pa_add x y) = Ok z /\ fst (pa_sub x y) = Ok z' /\
    enc_val C z (vx + vy) /\ enc_val C z' (vx - vy) /\
    (length z <= Nat.max (length x) (length y) + 1)%nat /\
    (length z' <= Nat.max (length x) (length y) + 1)%nat.
Proof.
  intros x y vx vy Hx Hy. destruct (pa_add_ok C x y vx vy Hx Hy) as [z [H1 [H2 [H3 _]]]].
  destruct (pa_sub_ok C x y vx vy Hx Hy) as [z' [H1' [H2' H3']]].
  exists z, z'. auto 10.
Qed.

(** whatever the words hold, no error and no panic *)
Theorem C10_total : forall (x y : ciphertext B),
  (exists z, fst (pa_add x y) = Ok z) /\ (exists z, fst (pa_sub x y) = Ok z) /\
  (exists z, fst (pa_add_noisy x y) = Ok z) /\ (exists z, fst (pa_sub_noisy x y) = Ok z).
Proof.
  assert (H : forall a (x y : ciphertext B) r, exists z, fst (analysed (add_sub_impl a x y r)) = Ok z).
  { intros a x y r. destruct (okP_analysed _ _ _ (add_sub_total a x y r)) as [z [Hz _]]. eauto. }
  intros x y. unfold pa_add, pa_sub, pa_add_noisy, pa_sub_noisy. auto.
Qed.

(* ------------------------------------------------------------------ *)
(** ** C11: noisy variants *)

Theorem C11_noisy : forall is_add x y vx vy, enc_val C x vx -> enc_val C y vy ->
  exists z dz, fst (if is_add : bool then pa_add_noisy x y else pa_sub_noisy x y) = Ok z /\
    digits dz /\ Forall2 (fun w d => wmsg C w d 5) z dz /\
    value dz = (if is_add then vx + vy else vx - vy) /\
    (length z <= Nat.max (length x) (length y) + 1)%nat.
Proof.
  intros is_add x y vx vy [dx [Hx <-]] [dy [Hy <-]].
  destruct (add_sub_ok C is_add x y false dx dy Hx Hy) as [z [H1 [[dz [D1 [D2 D3]]] [H3 _]]]].
  exists z, dz. split.
  { destruct is_add; unfold pa_add_noisy, pa_sub_noisy; rewrite fst_analysed, H1; reflexivity. }
  split; auto. split; auto. split; auto. rewrite D3. destruct is_add; simpl sgn_of; lia.
Qed.

Theorem C11_decrypts : forall cl, client_ok C cl -> forall o is_add x y vx vy,
  enc_val C x vx -> enc_val C y vy -> (length x <= 62)%nat -> (length y <= 62)%nat ->
  exists z, fst (if is_add : bool then pa_add_noisy x y else pa_sub_noisy x y) = Ok z /\
    parm_decrypt cl o z = (Ok (if is_add then vx + vy else vx - vy), []).
Proof.
  intros cl Hcl o is_add x y vx vy Hx Hy Lx Ly.
  destruct (C11_noisy is_add x y vx vy Hx Hy) as [z [dz [H1 [H2 [H3 [H4 H5]]]]]].
  exists z. split; auto. pose proof (l1_need_8 (qw := qw)).
  rewrite (decrypt_ok_k C cl Hcl o z dz 5); auto; try lia. rewrite H4. reflexivity.
Qed.

(* ------------------------------------------------------------------ *)
(** ** C12: opposite, shift, zero *)

(** these are pure functions of the model: no event, hence no bootstrap *)
Theorem C12_opp : forall x v, enc_val C x v ->
  enc_val C (pa_opp x) (- v) /\ length (pa_opp x) = length x.
Proof. intros x v H. split; [apply pa_opp_ok; auto|apply map_length]. Qed.

Theorem C12_opp_noise : forall x ds k, Forall2 (fun w d => wmsg C w d k) x ds ->
  Forall2 (fun w d => wmsg C w d k) (pa_opp x) (map Z.opp ds).
Proof.
  intros x ds k H. unfold pa_opp, opposite_impl.
  induction H; cbn [map]; constructor; auto. apply wmsg_opp; auto.
Qed.

Theorem C12_shift : forall x v k, enc_val C x v ->
  enc_val C (pa_shift x k) (v * 2 ^ Z.of_nat k) /\ length (pa_shift x k) = (k + length x)%nat.
Proof. intros x v k H. split; [apply pa_shift_ok; auto|apply pa_shift_length]. Qed.

(** the words themselves are untouched *)
Theorem C12_shift_words : forall (x : ciphertext B) k, pa_shift x k = repeat (Triv 0) k ++ x.
Proof. intros x [|k]; reflexivity. Qed.

Theorem C12_zero : enc_val C pa_zero 0 /\ length (@pa_zero B) = 0%nat.
Proof. split; [apply enc_val_nil|reflexivity]. Qed.

(* ------------------------------------------------------------------ *)
(** ** C13: adding a constant *)

Theorem C13_add_const : forall pc x k v, bit_precision (cparams pc) = 5%nat ->
  - 2^63 < k < 2^63 -> enc_val C x v ->
  exists z, fst (pa_add_const pc x k) = Ok z /\ enc_val C z (v + k) /\
    forall n, Z.abs k < 2 ^ Z.of_nat n -> (length z <= Nat.max (length x) n + 1)%nat.
Proof.
  intros pc x k v Hp Hk Hx.
  apply (pa_add_const_ok C pc x k v Hp); auto. unfold I64_MIN, I64_MAX; lia.
Qed.

Theorem C13_min_checked : forall pc (x : ciphertext B), ovf pc = true ->
  fst (pa_add_const pc x (- 2^63)) = Panic P_overflow.
Proof. exact pa_add_const_min_checked. Qed.

(** the constant is silently dropped *)
Theorem C13_min_unchecked_refuted : forall pc x v, ovf pc = false -> enc_val C x v ->
  exists z, fst (pa_add_const pc x (- 2^63)) = Ok z /\ enc_val C z v.
Proof. exact (pa_add_const_min_unchecked C). Qed.

(* ------------------------------------------------------------------ *)
(** ** C14: signum *)

Theorem C14_sgn : forall pc x v, quad_weight (cparams pc) = qw -> enc_val C x v ->
  exists z, fst (pa_sgn pc x) = Ok z /\ enc_val C z (Z.sgn v) /\ (length z <= 1)%nat.
Proof. intros pc x v Hq Hx. exact (pa_sgn_ok C pc Hq x v Hx). Qed.

(* ------------------------------------------------------------------ *)
(** ** C15: maximum and ReLU *)

(** the digits of the larger operand (the first one on a tie), padded with zeros *)
Theorem C15_max_digits : forall pc x y dx dy, quad_weight (cparams pc) = qw ->
  encrypts C x dx -> encrypts C y dy ->
  exists z, fst (pa_max pc x y) = Ok z /\
    encrypts C z (if value dy <=? value dx then dx ++ repeat 0 (length dy - length dx)
                  else dy ++ repeat 0 (length dx - length dy)).
Proof.
  intros pc x y dx dy Hq Hx Hy.
  exact (okP_analysed _ _ _ (max_impl_ok C pc Hq x y dx dy Hx Hy)).
Qed.

Theorem C15_max : forall pc x y vx vy, quad_weight (cparams pc) = qw ->
  enc_val C x vx -> enc_val C y vy ->
  exists z, fst (pa_max pc x y) = Ok z /\ enc_val C z (Z.max vx vy) /\
    length z = Nat.max (length x) (length y).
Proof. intros pc x y vx vy Hq. exact (pa_max_ok C pc Hq x y vx vy). Qed.

Theorem C15_relu : forall pc x v, quad_weight (cparams pc) = qw -> enc_val C x v ->
  exists z, fst (pa_relu pc x) = Ok z /\ enc_val C z (Z.max 0 v) /\ length z = length x.
Proof. intros pc x v Hq. exact (pa_relu_ok C pc Hq x v). Qed.

(* ------------------------------------------------------------------ *)
(** ** C16, C17: multiplication *)

Theorem C16_mul : forall x y vx vy, (length x <= 32)%nat -> (length y <= 32)%nat ->
  enc_val C x vx -> enc_val C y vy ->
  exists z, fst (pa_mul x y) = Ok z /\ enc_val C z (vx * vy).
Proof.
  intros x y vx vy Lx Ly Hx Hy.
  destruct (pa_mul_ok C x y vx vy) as [z [H1 [H2 _]]]; auto; [lia|eauto].
Qed.

Theorem C16_too_long : forall x y : ciphertext B, (32 < length x \/ 32 < length y)%nat ->
  fst (pa_mul x y) = Panic E_mul_long.
Proof. intros x y H. apply pa_mul_long. lia. Qed.

Theorem C17_decrypts : forall cl, client_ok C cl -> forall o x y vx vy,
  (length x <= 31)%nat -> (length y <= 31)%nat -> enc_val C x vx -> enc_val C y vy ->
  exists z, fst (pa_mul x y) = Ok z /\ (length z <= 63)%nat /\
    parm_decrypt cl o z = (Ok (vx * vy), []).
Proof.
  intros cl Hcl o x y vx vy Lx Ly Hx Hy.
  destruct (pa_mul_ok C x y vx vy) as [z [H1 [H2 H3]]]; auto; [lia|].
  assert (length z <= 63)%nat.
  { eapply Nat.le_trans; [exact H3|]. change 63%nat with (mul_len 31). apply mul_len_mono; lia. }
  exists z. split; auto. split; auto.
  rewrite (decrypt_ok C cl Hcl o z _ H2) by auto. reflexivity.
Qed.

(** whatever two 32-word encrypted numbers are multiplied, the (correct) product
    cannot be decrypted *)
Theorem C17_mul_32_undecryptable : forall cl o x y vx vy, client_ok C cl ->
  length x = 32%nat -> length y = 32%nat ->
  Forall (fun w => is_triv w = false) x -> Forall (fun w => is_triv w = false) y ->
  enc_val C x vx -> enc_val C y vy ->
  exists z, fst (pa_mul x y) = Ok z /\ enc_val C z (vx * vy) /\ length z = 66%nat /\
    parm_decrypt cl o z = (Err E_too_long, []).
Proof.
  intros cl o x y vx vy Hcl Lx Ly Ax Ay Hx Hy.
  destruct (pa_mul_ok C x y vx vy) as [z [H1 [H2 H3]]]; auto; [lia|].
  assert (Ht : mul_tight (length x) = true) by (rewrite Lx; reflexivity).
  destruct (ms_top _ _ _ (pa_mul_shape x y ltac:(lia) z H1)) as [L _]; auto; try lia.
  { apply Forall_allct; auto. } { apply Forall_allct; auto. }
  assert (L' : length z = 66%nat) by (rewrite L, Lx; reflexivity).
  exists z. split; auto. split; auto. split; auto.
  destruct H2 as [dz [Hz _]]. rewrite (decrypt_long C cl Hcl o z dz Hz) by lia. reflexivity.
Qed.

(* ------------------------------------------------------------------ *)
(** ** C18: squaring *)

Theorem C18_squ : forall x v, (length x <= 32)%nat -> enc_val C x v ->
  exists z, fst (pa_squ x) = Ok z /\ enc_val C z (v * v).
Proof. intros x v L H. destruct (pa_squ_ok C x v L H) as [z [H1 [H2 _]]]. eauto. Qed.

Theorem C18_too_long : forall x : ciphertext B, (32 < length x)%nat ->
  fst (pa_squ x) = Panic E_squ_long.
Proof. exact pa_squ_long. Qed.

Theorem C18_decrypts : forall cl, client_ok C cl -> forall o x v,
  (length x <= 30)%nat -> enc_val C x v ->
  exists z, fst (pa_squ x) = Ok z /\ (length z <= 63)%nat /\
    parm_decrypt cl o z = (Ok (v * v), []).
Proof.
  intros cl Hcl o x v L Hx. destruct (pa_squ_ok C x v ltac:(lia) Hx) as [z [H1 [H2 H3]]].
  assert (length z <= 63)%nat.
  { eapply Nat.le_trans; [exact H3|]. change 63%nat with (squ_len 30). apply squ_len_mono; lia. }
  exists z. split; auto. split; auto.
  rewrite (decrypt_ok C cl Hcl o z _ H2) by auto. reflexivity.
Qed.

Theorem C18_squ_31_32_undecryptable : forall cl o x v n, client_ok C cl ->
  (length x = 31 /\ n = 65 \/ length x = 32 /\ n = 68)%nat ->
  Forall (fun w => is_triv w = false) x -> enc_val C x v ->
  exists z, fst (pa_squ x) = Ok z /\ enc_val C z (v * v) /\ length z = n /\
    parm_decrypt cl o z = (Err E_too_long, []).
Proof.
  intros cl o x v n Hcl Hl Ax Hx.
  destruct (pa_squ_ok C x v ltac:(lia) Hx) as [z [H1 [H2 H3]]].
  destruct (pa_squ_shape x ltac:(lia) z H1) as [_ L].
  destruct L as [L _]; [apply Forall_allct; auto| |].
  { destruct Hl as [[-> _]|[-> _]]; reflexivity. }
  assert (L' : length z = n) by (rewrite L; destruct Hl as [[-> ->]|[-> ->]]; reflexivity).
  exists z. split; auto. split; auto. split; auto.
  destruct H2 as [dz [Hz _]]. rewrite (decrypt_long C cl Hcl o z dz Hz) by lia. reflexivity.
Qed.

(* ------------------------------------------------------------------ *)
(** ** C19: rounding *)

Theorem C19_round : forall pc x v p, quad_weight (cparams pc) = qw -> enc_val C x v ->
  exists z, fst (pa_round_at pc x p) = Ok z /\ enc_val C z (round_to p v) /\
    (length z <= Nat.max (length x) (S p) + 1)%nat.
Proof. intros pc x v p Hq. exact (pa_round_ok C pc Hq x v p). Qed.

End Ops.

(** [round_to p v] is the nearest multiple of 2^p, ties towards plus infinity *)
Theorem C19_round_to_nearest : forall p v, let u := 2 ^ Z.of_nat p in
  (exists q, round_to p v = q * u) /\ - u <= 2 * (v - round_to p v) < u.
Proof.
  intros p v u. unfold round_to. fold u.
  assert (Hu : 0 < u) by (apply Z.pow_pos_nonneg; lia).
  split; [exists ((v + u / 2) / u); reflexivity|].
  pose proof (Z.div_mod (v + u / 2) u ltac:(lia)). pose proof (Z.mod_pos_bound (v + u / 2) u Hu).
  pose proof (Z.div_mod u 2 ltac:(lia)). pose proof (Z.mod_pos_bound u 2 ltac:(lia)).
  assert (Hpar : u mod 2 = 0 \/ u = 1).
  { destruct p as [|p]; [right; reflexivity|left]. unfold u.
    rewrite Nat2Z.inj_succ, Z.pow_succ_r by lia. rewrite Z.mul_comm. apply Z.mod_mul. lia. }
  destruct Hpar as [Hpar|Hpar]; [nia|]. rewrite Hpar in *. change (1 / 2) with 0 in *. lia.
Qed.

Print Assumptions C09_add.
Print Assumptions C09_sub.
Print Assumptions C09_add_decrypts.
Print Assumptions C10_growth.
Print Assumptions C10_total.
Print Assumptions C11_noisy.
Print Assumptions C11_decrypts.
Print Assumptions C12_opp.
Print Assumptions C12_opp_noise.
Print Assumptions C12_shift.
Print Assumptions C12_shift_words.
Print Assumptions C12_zero.
Print Assumptions C13_add_const.
Print Assumptions C13_min_checked.
Print Assumptions C13_min_unchecked_refuted.
Print Assumptions C14_sgn.
Print Assumptions C15_max_digits.
Print Assumptions C15_max.
Print Assumptions C15_relu.
Print Assumptions C16_mul.
Print Assumptions C16_too_long.
Print Assumptions C17_decrypts.
Print Assumptions C17_mul_32_undecryptable.
Print Assumptions C18_squ.
Print Assumptions C18_too_long.
Print Assumptions C18_decrypts.
Print Assumptions C18_squ_31_32_undecryptable.
Print Assumptions C19_round.
Print Assumptions C19_round_to_nearest.

(* ------------------------------------------------------------------ *)
(** ** C31: bootstrap counts, with no assumption on the backend *)

(** [npbs] counts the EPbs events of a trace. [active x y]: positions from the
    first one where neither operand is inside its leading run of trivial zeros, to
    the last one where some operand is before its trailing run. *)
Theorem C31_add : forall B (x y z : ciphertext B),
  (fst (pa_add x y) = Ok z -> (npbs (snd (pa_add x y)) <= 2 * active x y)%nat) /\
  (fst (pa_sub x y) = Ok z -> (npbs (snd (pa_sub x y)) <= 2 * active x y)%nat).
Proof.
  intros B x y z. split; intros H.
  - exact (as_cnt _ _ _ _ _ (pa_add_shape x y z H)).
  - exact (as_cnt _ _ _ _ _ (pa_sub_shape x y z H)).
Qed.

Theorem C31_active_bound : forall B (x y : ciphertext B),
  (active x y <= Nat.max (length x) (length y))%nat.
Proof.
  intros B x y. unfold active, add_wlen. pose proof (elen_length x). pose proof (elen_length y). lia.
Qed.

(** equality when every active position holds an encrypted word *)
Theorem C31_add_exact : forall B (x y : ciphertext B),
  (exists w, In w x /\ is_triv_zero w = false) -> (exists w, In w y /\ is_triv_zero w = false) ->
  (forall i, (add_rtriv x y <= i < add_wlen x y)%nat ->
     is_triv (nth i x triv0) = false \/ is_triv (nth i y triv0) = false) ->
  npbs (snd (pa_add x y)) = (2 * active x y)%nat.
Proof.
  intros B x y Hx Hy Ha. destruct (okP_analysed _ _ _ (add_sub_total true x y true)) as [z [Hz _]].
  pose proof (pa_add_shape x y z Hz) as S. rewrite (as_cnt_eq _ _ _ _ _ S); auto;
    apply ctz_lt_ex; auto.
Qed.

Theorem C31_add_encrypted : forall B (x y : ciphertext B), x <> [] -> y <> [] ->
  Forall (fun w => is_triv w = false) x -> Forall (fun w => is_triv w = false) y ->
  npbs (snd (pa_add x y)) = (2 * Nat.max (length x) (length y))%nat.
Proof.
  intros B x y Nx Ny Ax Ay.
  pose proof (Forall_allct x Ax) as Ax'. pose proof (Forall_allct y Ay) as Ay'.
  assert (Lx : (0 < length x)%nat) by (destruct x; [congruence|cbn; lia]).
  assert (Ly : (0 < length y)%nat) by (destruct y; [congruence|cbn; lia]).
  destruct (okP_analysed _ _ _ (add_sub_total true x y true)) as [z [Hz _]].
  pose proof (pa_add_shape x y z Hz) as S. rewrite (as_cnt_eq _ _ _ _ _ S).
  - unfold active, add_wlen, add_rtriv. rewrite !allct_elen, !allct_ctz by auto. lia.
  - rewrite allct_ctz; auto.
  - rewrite allct_ctz; auto.
  - unfold add_wlen, actv. rewrite !allct_elen by auto. intros i Hi.
    destruct (le_lt_dec (length x) i); [right; apply Ay'; lia|left; apply Ax'; auto].
Qed.

Theorem C31_sgn : forall B pc (x z : ciphertext B), fst (pa_sgn pc x) = Ok z ->
  (npbs (snd (pa_sgn pc x)) <= length x)%nat.
Proof. intros B pc x z H. exact (proj1 (proj2 (pa_sgn_shape pc x z H))). Qed.

Theorem C31_max : forall B pc (x y z : ciphertext B), fst (pa_max pc x y) = Ok z ->
  let n := Nat.max (length x) (length y) in
  (npbs (snd (pa_max pc x y)) <= 5 * n + 2)%nat /\
  (41 <= quad_weight (cparams pc) -> (npbs (snd (pa_max pc x y)) <= 4 * n + 2)%nat).
Proof. intros B pc x y z H n. exact (proj2 (pa_max_shape pc x y z H)). Qed.

(** schoolbook: one bootstrap per pair of words, plus n - 1 additions *)
Theorem C31_schoolbook : forall B (x y z : ciphertext B),
  let n := Nat.max (length x) (length y) in (2 <= n < 16 \/ n = 17)%nat ->
  fst (pa_mul x y) = Ok z ->
  (npbs (snd (pa_mul x y)) <= n * n + (n - 1) * (2 * n))%nat /\
  (length x = length y -> Forall (fun w => is_triv w = false) x ->
   Forall (fun w => is_triv w = false) y ->
   npbs (snd (pa_mul x y)) = n * n + (n - 1) * (2 * n))%nat.
Proof.
  intros B x y z n Hn H. 
  destruct (pa_mul_school_count x y ltac:(fold n; lia) z H) as [H1 H2]. split; [exact H1|].
  intros L Ax Ay. apply H2; auto; apply Forall_allct; auto.
Qed.

Theorem C31_round : forall B pc (x z : ciphertext B) p, fst (pa_round_at pc x p) = Ok z ->
  (npbs (snd (pa_round_at pc x p)) <= 2 * length x + 2)%nat /\
  (p = 0%nat -> npbs (snd (pa_round_at pc x p)) = 0%nat).
Proof. intros B pc x z p H. exact (proj2 (pa_round_shape pc x p z H)). Qed.

Print Assumptions C31_add.
Print Assumptions C31_active_bound.
Print Assumptions C31_add_exact.
Print Assumptions C31_add_encrypted.
Print Assumptions C31_sgn.
Print Assumptions C31_max.
Print Assumptions C31_schoolbook.
Print Assumptions C31_round.

(* ------------------------------------------------------------------ *)
(** ** Examples *)

(** the hypotheses can be met, with real noise *)
Example ops_hypotheses : forall qw,
  enc_val (noisy_contract qw) (nenc 1000 12) 1000 /\ enc_val (noisy_contract qw) (nenc (-77) 8) (-77) /\
  enc_val (noisy_contract qw) (nenc 123456789 32) 123456789 /\ length (nenc 123456789 32) = 32%nat /\
  Forall (fun w => is_triv w = false) (nenc 123456789 32).
Proof.
  intros qw. split; [apply nenc_ok; lia|]. split; [apply nenc_ok; lia|].
  split; [apply nenc_ok; lia|]. split; apply (nenc_ok qw); lia.
Qed.
Example ops_clouds : quad_weight (cparams (cloud_100 true)) = 100 /\
  quad_weight (cparams (cloud_22 true)) = 22 /\ bit_precision (cparams (cloud_22 false)) = 5%nat.
Proof. repeat split. Qed.

(** computed runs *)
Example C09_example : xdec (pa_add (xenc 1000 12) (xenc (-77) 8)) = Ok 923 /\
  xdec (pa_sub (xencv [1; 1; -1; 0; 1]) (xtriv [1; 1; 1])) = Ok 8 /\
  xdec (pa_add [] (xenc 5 3)) = Ok 5 /\ xlen (pa_add (xenc 7 3) (xenc 7 3)) = 4%nat.
Proof. vm_compute. repeat split. Qed.
Example C11_example : xdec (pa_sub_noisy (xenc 100 8) (xenc 77 8)) = Ok 23.
Proof. vm_compute. reflexivity. Qed.
Example C12_example : xdec (ret (pa_opp (xenc 100 8))) = Ok (-100) /\
  xdec (ret (pa_shift (xenc 100 8) 3)) = Ok 800.
Proof. vm_compute. auto. Qed.
Example C13_example : xdec (pa_add_const (cloud_100 true) (xenc 100 8) (-1234)) = Ok (-1134).
Proof. vm_compute. reflexivity. Qed.
Example C14_example : xdec (pa_sgn (cloud_100 true) (xencv [-1; -1; -1; -1; -1; 1])) = Ok 1 /\
  xdec (pa_sgn (cloud_22 true) (xencv [-1; -1; -1; -1; -1; 1])) = Ok 1 /\
  xdec (pa_sgn (cloud_22 true) (xencv [0; 1; 1; 1; 1; -1; 0])) = Ok (-1).
Proof. vm_compute. auto. Qed.
Example C15_example :
  xdecv (pa_max (cloud_100 true) (xencv [1; 1]) (xencv [-1; 0; 1])) = Ok [1; 1; 0] /\
  xdecv (pa_max (cloud_22 true) (xencv [-1; 0; 1]) (xencv [1; 1])) = Ok [-1; 0; 1] /\
  xdec (pa_relu (cloud_22 true) (xenc (-9) 5)) = Ok 0.
Proof. vm_compute. auto. Qed.
Example C16_example : xdec (pa_mul (xenc 13 5) (xenc (-11) 4)) = Ok (-143).
Proof. vm_compute. reflexivity. Qed.
Example C18_example : xdec (pa_squ (xenc (-13) 5)) = Ok 169.
Proof. vm_compute. reflexivity. Qed.
Example C19_example : xdec (pa_round_at (cloud_100 true) (xenc 22 6) 2) = Ok 24 /\
  xdec (pa_round_at (cloud_22 true) (xenc (-22) 6) 2) = Ok (-20) /\
  xdec (pa_round_at (cloud_22 true) (xenc (-22) 6) 9) = Ok 0.
Proof. vm_compute. auto. Qed.
Example C31_example : npbs (snd (pa_add (xenc 1000 12) (xenc (-77) 8))) = 24%nat /\
  npbs (snd (pa_mul (xenc 13 4) (xenc (-11) 4))) = 40%nat.
Proof. vm_compute. auto. Qed.
