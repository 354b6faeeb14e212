(** Model of the test suite, tests/*.rs. What the random generator returns is a
    parameter of each test ("draw"), with a predicate for the range it is drawn
    from. The printing is left out. Each body ends in [Ok tt] if the test
    passes and in a panic if it fails. *)
From Verif Require Import Base Backend Words Encryption Params Pbs Naf Asc Arith NeuralNetwork.

(** assert_eq!(a, b) and assert!(b) *)
Definition assert_eq (a b : Z) : M unit := if a =? b then ret tt else panic P_assert.
Definition assert_true (b : bool) : M unit := if b then ret tt else panic P_assert.
(** the body of a loop, once for each draw *)
Definition repeats {D} (body : D -> M unit) (ds : list D) : M unit :=
  foldM (fun _ d => body d) ds tt.

(* ------------------------------------------------------------------ *)
(** ** common/mod.rs *)

(** common/mod.rs:35-56. The numbers of rounds (58-70) are left out: a test
    takes a list of draws of any length. *)
Definition TESTS_BITLEN_FULL : nat := 62.
Definition TESTS_BITLEN_MAX : nat := 7.
Definition TESTS_BITLEN_SGN : nat := 7.
Definition TESTS_BITLEN_ROUND : nat := 5.
Definition TESTS_POS_ROUND : nat := 7.
Definition TESTS_BITLEN_MUL : nat := 2.
Definition TESTS_EXTRA_BITLEN_MUL : list nat := [8; 9]%nat.
Definition TESTS_BITLEN_SQU : nat := 7.
Definition TESTS_EXTRA_BITLEN_SQU : list nat := [8; 9]%nat.
Definition TESTS_BITLEN_ADD : nat := 2.
Definition TESTS_EXTRA_BITLEN_ADD : list nat := [15; TESTS_BITLEN_FULL - 1]%nat.
Definition TESTS_BITLEN_ADD_CONST : nat := 8.
Definition TESTS_BITLEN_SCM : nat := 9.
Definition TESTS_BITLEN_SCALAR : nat := 30.
Definition TESTS_BITLEN_KOY_TSU : nat := 30.
Definition TESTS_BITLEN_NNE : nat := 5.
Definition TESTS_EW_MAX_SCALAR : Z := 4.
Definition TESTS_NNE_DEPTH : nat := 3.
Definition TESTS_NNE_LAYER_SIZE : nat := 5.
Definition TESTS_NNE_B_ABS_MAX : Z := 15.

(** common/mod.rs:72-80 *)
Inductive encr_vs_triv : Type := ENCR | TRIV | ENCRTRIV.

Section Tests.
(** [cl] holds TEST_PRIV_KEYS, [cu] the keys inside TEST_PU (common/mod.rs:17-22):
    two calls of PrivKeySet::new *)
Context {B : backend} (cl cu : client B) (pc : cloud).

(** One call of [encrypt_with_mode]: the digits, the coins of the mixed mode,
    the randomness of the encryption *)
Record draw : Type := mkDraw {
  d_vec : list Z;
  d_coin : nat -> bool;
  d_seed : nat -> seed cl
}.

(** common/mod.rs:101-110 *)
Definition mode_flags (mode : encr_vs_triv) (n : nat) (coin : nat -> bool) : list bool :=
  map (fun i => match mode with ENCR => true | TRIV => false | ENCRTRIV => coin i end) (seq 0 n).

(** common/mod.rs:122-139: three iterators zipped over a ciphertext of trivial
    zeros; positions without a flag keep the zero *)
Definition encrypt_with_flags (seeds : nat -> seed cl) (m_vec : list Z) (m_flags : list bool)
  : ciphertext B :=
  map (fun imi : nat * Z =>
         let (i, mi) := imi in
         match nth_error m_flags i with
         | Some true => encrypt_word cl (seeds i) mi
         | Some false => encrypt_word_triv mi
         | None => triv0
         end)
      (combine (seq 0 (length m_vec)) m_vec).

(** common/mod.rs:97-119 *)
Definition encrypt_with_mode (mode : encr_vs_triv) (d : draw) : ciphertext B :=
  encrypt_with_flags (d_seed d) (d_vec d) (mode_flags mode (length (d_vec d)) (d_coin d)).

Let o := ovf pc.
(** encryption::convert_from_vec(..).expect(..) *)
Definition t_convert (v : list Z) : M Z := expect (convert_from_vec o v).
(** TEST_PU.decrypt(..).expect(..) *)
Definition t_decrypt (c : ciphertext B) : M Z := expect (parm_decrypt cu o c).

(* ------------------------------------------------------------------ *)
(** ** test_encryption.rs *)

(** 19-29 *)
Definition t_decrypt_triv : M unit :=
  m <- expect (parm_decrypt cl o (ct_triv TESTS_BITLEN_FULL)) ;; assert_eq m 0.

(** 33-53, one round *)
Definition t_encrypt_decrypt_int (d : Z * (nat -> seed cl)) : M unit :=
  let (mi, seeds) := d in
  c <- expect (parm_encrypt cl o seeds mi TESTS_BITLEN_FULL) ;;
  mp <- expect (parm_decrypt cl o c) ;;
  assert_eq mp mi.

(** 57-77, one round *)
Definition t_encrypt_decrypt_vec (d : draw) : M unit :=
  c <- expect (parm_encrypt_from_vec cl (d_seed d) (d_vec d)) ;;
  mp <- expect (parm_decrypt cl o c) ;;
  md <- t_convert (d_vec d) ;;
  assert_eq mp md.

(** 102-120, one round *)
Definition t_decr_with_mode (mode : encr_vs_triv) (d : draw) : M unit :=
  m1 <- t_convert (d_vec d) ;;
  m_he <- t_decrypt (encrypt_with_mode mode d) ;;
  assert_eq m_he m1.

(* ------------------------------------------------------------------ *)
(** ** test_encr_word.rs:50-123, one round *)

(** 69-78: the third mode is not called *)
Definition word_with_mode (mode : encr_vs_triv) (s : seed cl) (m : Z) : M (word B) :=
  match mode with
  | ENCR => ret (encrypt_word cl s m)
  | TRIV => ret (encrypt_word_triv m)
  | ENCRTRIV => panic P_assert
  end.

(** [decrypt_mu(..).expect(..) as i32] *)
Definition t_decrypt_mu (w : word B) : M Z := mu <- expect (decrypt_mu (Some cl) w) ;; ret (i32 mu).
(** [x.rem_euclid(ps_mod)] *)
Definition rem_euclid (x m : Z) : Z := x mod Z.abs m.

Record word_draw : Type := mkWordDraw {
  wd_ms : Z; wd_mo : Z; wd_k : Z; wd_s : seed cl; wd_o : seed cl
}.

Definition t_encr_word (s_mode o_mode : encr_vs_triv) (d : word_draw) : M unit :=
  ps_mod <- plaintext_space_size o (cparams pc) ;;                         (* 57 *)
  let ms := wd_ms d in
  let mo := wd_mo d in
  let k := wd_k d in
  cs <- word_with_mode s_mode (wd_s d) ms ;;
  co <- word_with_mode o_mode (wd_o d) mo ;;
  match s_mode with                                                        (* 81-85 *)
  | ENCR => assert_true (negb (is_triv cs))
  | TRIV => assert_true (is_triv cs)
  | ENCRTRIV => panic P_assert
  end ;;;
  ds <- t_decrypt_mu cs ;;                                                 (* 88-97 *)
  d_o <- t_decrypt_mu co ;;
  assert_eq ds (rem_euclid ms ps_mod) ;;;
  assert_eq d_o (rem_euclid mo ps_mod) ;;;
  dadd <- t_decrypt_mu (w_add cs co) ;;                                    (* 100-107 *)
  dsub <- t_decrypt_mu (w_sub cs co) ;;
  sum <- chk_i32 o (ms + mo) ;;
  dif <- chk_i32 o (ms - mo) ;;
  assert_eq dadd (rem_euclid sum ps_mod) ;;;
  assert_eq dsub (rem_euclid dif ps_mod) ;;;
  cscm <- w_mul_const_api o cs k ;;                                        (* 110-114 *)
  dscm <- t_decrypt_mu cscm ;;
  prod <- chk_i32 o (k * ms) ;;
  assert_eq dscm (rem_euclid prod ps_mod) ;;;
  cah <- w_mul_const_api o (w_add_half cs) 2 ;;                            (* 117-122 *)
  dah <- t_decrypt_mu cah ;;
  dbl <- chk_i32 o (ms * 2) ;;
  half <- chk_i32 o (dbl + 1) ;;
  assert_eq dah (rem_euclid half ps_mod).

(** 60-62: the bounds of the messages *)
Definition word_bounds : M (Z * Z) :=
  p <- plaintext_pos_max o (cparams pc) ;;
  n <- chk_i32 o (- i32 p) ;;
  ret (n, i32 p).

(* ------------------------------------------------------------------ *)
(** ** test_pbs.rs:37-67, one round *)

(** 59 *)
Definition lut_identity_5 : list Z := [0;1;2;3;4;5;6;7;8;7;6;5;4;3;2;1].

Definition t_pbs (mode : encr_vs_triv) (d : Z * seed cl) : M unit :=
  let (m, s) := d in
  ps_mod <- plaintext_space_size o (cparams pc) ;;                         (* 43 *)
  let m_us := rem_euclid m ps_mod in                                       (* 48 *)
  c <- word_with_mode mode s m ;;
  cpbs <- eval_LUT_5_uint c lut_identity_5 ;;                              (* 60 *)
  dpbs <- expect (decrypt_mu (Some cl) cpbs) ;;
  e <- (if m_us <? ps_mod / 2 then index lut_identity_5 (Z.to_nat m_us)
        else l <- index lut_identity_5 (Z.to_nat (m_us - ps_mod / 2)) ;; ret (- l)) ;;
  assert_eq dpbs (u64 (rem_euclid e ps_mod)).

(* ------------------------------------------------------------------ *)
(** ** Operations: the ciphertext result, decrypted, against the i64 result.
    The tests of one operation differ only in the operation. *)

Section Operation.
Variable op1 : forall T, arith T -> T -> M T.
Variable op2 : forall T, arith T -> T -> T -> M T.

Definition t_unary (mode : encr_vs_triv) (d : draw) : M unit :=
  m1 <- t_convert (d_vec d) ;;
  let c1 := encrypt_with_mode mode d in
  c_he <- op1 _ (arith_ct pc) c1 ;;
  m_he <- t_decrypt c_he ;;
  m_pl <- op1 _ (arith_i64 o) m1 ;;
  assert_eq m_he m_pl.

Definition t_binary (mode1 mode2 : encr_vs_triv) (d : draw * draw) : M unit :=
  let (d1, d2) := d in
  m1 <- t_convert (d_vec d1) ;;
  m2 <- t_convert (d_vec d2) ;;
  let c1 := encrypt_with_mode mode1 d1 in
  let c2 := encrypt_with_mode mode2 d2 in
  c_he <- op2 _ (arith_ct pc) c1 c2 ;;
  m_he <- t_decrypt c_he ;;
  m_pl <- op2 _ (arith_i64 o) m1 m2 ;;
  assert_eq m_he m_pl.
End Operation.

(** test_signum.rs:61-83; 41-54 with an empty sample *)
Definition t_sgn := t_unary (fun T (A : arith T) x => a_sgn A x).
Definition t_sgn_empty : M unit :=
  c <- a_sgn (arith_ct pc) ct_empty ;; m <- t_decrypt c ;; assert_eq m 0.

(** test_rounding.rs:65-92; 43-56 with an empty sample *)
Definition t_round (mode : encr_vs_triv) (d : draw * nat) : M unit :=
  let (d1, pos) := d in t_unary (fun T (A : arith T) x => a_round_at A x pos) mode d1.
Definition t_round_empty : M unit :=
  c <- a_round_at (arith_ct pc) ct_empty 0%nat ;; m <- t_decrypt c ;; assert_eq m 0.

(** test_maximum.rs:152-187; 64-78 both empty; 82-109 and 112-145 are rounds of
    the mixed mode *)
Definition t_max := t_binary (fun T (A : arith T) x y => a_max A x y).
Definition t_max_both_empty : M unit :=
  c <- a_max (arith_ct pc) ct_empty ct_empty ;; m <- t_decrypt c ;; assert_eq m 0.

(** test_multiplication.rs:96-135; 62-89 is a round with a trivial first and an
    encrypted second operand *)
Definition t_mul := t_binary (fun T (A : arith T) x y => a_mul A x y).

(** test_squaring.rs:66-92; 95-114 decrypts the digits as well *)
Definition t_squ := t_unary (fun T (A : arith T) x => a_squ A x).
Definition t_squ_2_3 (d : draw) : M unit :=
  m <- t_convert (d_vec d) ;;
  c_he <- a_squ (arith_ct pc) (encrypt_with_mode ENCR d) ;;
  m_vec_he <- expect (parm_decrypt_to_vec cl c_he) ;;
  m_he <- t_decrypt c_he ;;
  m_pl <- a_squ (arith_i64 o) m ;;
  assert_eq m_he m_pl.
(** 41-50; 56 adds the negated vectors *)
Definition squ_2_3_vecs : list (list Z) :=
  [[0;0]; [1;0]; [0;1]; [1;1]; [0;0;1]; [1;0;1]; [0;1;1]; [1;1;1]].

(** test_addition.rs:64-111 and test_addition_misc.rs:139-155: both operations on the same ciphertexts *)
Definition add_sub_body (c1 c2 : ciphertext B) (m1 m2 : Z) : M unit :=
  c_he_a <- a_add (arith_ct pc) c1 c2 ;;
  c_he_s <- a_sub (arith_ct pc) c1 c2 ;;
  m_he_a <- t_decrypt c_he_a ;;
  m_he_s <- t_decrypt c_he_s ;;
  m_pl_a <- a_add (arith_i64 o) m1 m2 ;;
  m_pl_s <- a_sub (arith_i64 o) m1 m2 ;;
  assert_eq m_he_a m_pl_a ;;;
  assert_eq m_he_s m_pl_s.
(** 91-93: the digits are decrypted too, before the plain evaluation *)
Definition t_add_sub (mode : encr_vs_triv) (d : draw * draw) : M unit :=
  let (d1, d2) := d in
  m1 <- t_convert (d_vec d1) ;;
  m2 <- t_convert (d_vec d2) ;;
  let c1 := encrypt_with_mode mode d1 in
  let c2 := encrypt_with_mode mode d2 in
  c_he_a <- a_add (arith_ct pc) c1 c2 ;;
  c_he_s <- a_sub (arith_ct pc) c1 c2 ;;
  m_he_a <- t_decrypt c_he_a ;;
  m_he_s <- t_decrypt c_he_s ;;
  _ <- expect (parm_decrypt_to_vec cl c_he_a) ;;
  _ <- expect (parm_decrypt_to_vec cl c_he_s) ;;
  m_pl_a <- a_add (arith_i64 o) m1 m2 ;;
  m_pl_s <- a_sub (arith_i64 o) m1 m2 ;;
  assert_eq m_he_a m_pl_a ;;;
  assert_eq m_he_s m_pl_s.

(** test_addition_misc.rs:75-106; the constant is drawn as a digit vector *)
Definition t_add_const (mode : encr_vs_triv) (d : draw * list Z) : M unit :=
  let (de, mc_vec) := d in
  me <- t_convert (d_vec de) ;;
  mc <- t_convert mc_vec ;;
  c_he <- a_add_const (arith_ct pc) (encrypt_with_mode mode de) mc ;;
  m_he <- t_decrypt c_he ;;
  m_pl <- a_add_const (arith_i64 o) me mc ;;
  assert_eq m_he m_pl.

(** test_addition_misc.rs:163-188 *)
Definition gen_ct_with_triv_zeros (ltriv rtriv : nat) (mode : encr_vs_triv) (d : draw)
  : list Z * ciphertext B :=
  (repeat 0 rtriv ++ d_vec d ++ repeat 0 ltriv,
   ct_triv rtriv ++ encrypt_with_mode mode d ++ ct_triv ltriv).

(** test_addition_misc.rs:109-156 *)
Definition t_add_triv_zeros (ltriv_x rtriv_x : nat) (mode : encr_vs_triv) (ltriv_y rtriv_y : nat)
  (d : draw * draw) : M unit :=
  let (m1_vec, c1) := gen_ct_with_triv_zeros ltriv_x rtriv_x mode (fst d) in
  let (m2_vec, c2) := gen_ct_with_triv_zeros ltriv_y rtriv_y mode (snd d) in
  m1 <- t_convert m1_vec ;;
  m2 <- t_convert m2_vec ;;
  add_sub_body c1 c2 m1 m2.

(* ------------------------------------------------------------------ *)
(** ** test_scalar_multiplication.rs *)

(** 118-141 *)
Definition t_scm (mode : encr_vs_triv) (d : Z * draw) : M unit :=
  let (k, d1) := d in t_unary (fun T (A : arith T) x => a_scalar_mul A k x) mode d1.
(** 44-56 *)
Definition scm_scalars : list Z := [0; 1; -1; 2; -2; 4; -4; 256; -256].

(** 62-72: the global table *)
Definition t_asc : M unit :=
  assert_eq (Z.of_nat (length (asc_12 pc))) 2048 ;;;
  repeats (fun nc : Z * asc => v <- asc_value o (snd nc) ;; assert_eq (i64 (fst nc)) v) (asc_12 pc).

(** 76-98, one round; k is an i32 *)
Definition t_koy_tsu (k : Z) : M unit :=
  ka <- chk_i32 o (Z.abs k) ;;
  kt_vec <- koyama_tsuruoka_vec o (u32 ka) ;;
  k_val <- t_convert kt_vec ;;
  assert_eq ka k_val.

(* ------------------------------------------------------------------ *)
(** ** test_nn.rs:43-87, one round *)

Definition t_nn (mode : encr_vs_triv) (d : neural_network * list draw) : M unit :=
  let (nn, ds) := d in
  m_in <- mapM (fun d1 => t_convert (d_vec d1)) ds ;;
  c_he <- nn_eval (arith_ct pc) nn (map (encrypt_with_mode mode) ds) ;;
  m_he <- mapM t_decrypt c_he ;;
  m_pl <- nn_eval (arith_i64 o) nn m_in ;;
  assert_true (if list_eq_dec Z.eq_dec m_he m_pl then true else false).

End Tests.
Arguments d_vec {B cl} d.
Arguments d_coin {B cl} d.
Arguments d_seed {B cl} d.

(* ------------------------------------------------------------------ *)
(** ** Ranges of the draws *)

(** common/mod.rs:89-94 *)
Definition rand_vec (len : nat) (v : list Z) : Prop :=
  length v = len /\ Forall (fun x => -1 <= x <= 1) v.

(** test_nn.rs:93-138: the networks that t_gen_nn can return. Layers have 1 to
    4 perceptrons ([1..5]), weights lie in [-7, 7]. *)
Definition gen_perceptron (in_len : nat) (p : perceptron) : Prop :=
  length (p_w p) = in_len /\ Forall (fun w => -7 <= w <= 7) (p_w p) /\
  - TESTS_NNE_B_ABS_MAX <= p_b p <= TESTS_NNE_B_ABS_MAX.
Fixpoint gen_layers (in_len : nat) (ls : list layer) : Prop :=
  match ls with
  | [] => True
  | l :: ls => (1 <= length l < TESTS_NNE_LAYER_SIZE)%nat /\ Forall (gen_perceptron in_len) l /\
               gen_layers (length l) ls
  end.
Definition gen_nn (nn : neural_network) : Prop :=
  (1 <= length (nn_layers nn) <= TESTS_NNE_DEPTH)%nat /\
  (1 <= nn_inputs nn <= TESTS_NNE_LAYER_SIZE)%nat /\
  gen_layers (nn_inputs nn) (nn_layers nn).

(** The pairs of vectors drawn for a bit-length: both of it, or both of at most
    it (test_addition.rs:77-80, test_maximum.rs:161-164, test_multiplication.rs:109-112) *)
Definition drawn_pair {B} {cl : client B} (aligned : bool) (bl : nat) (d : draw cl * draw cl) : Prop :=
  Forall (fun x => -1 <= x <= 1) (d_vec (fst d)) /\ Forall (fun x => -1 <= x <= 1) (d_vec (snd d)) /\
  (if aligned then length (d_vec (fst d)) = bl /\ length (d_vec (snd d)) = bl
   else (length (d_vec (fst d)) <= bl /\ length (d_vec (snd d)) <= bl)%nat).
Definition drawn {B} {cl : client B} (bl : nat) (d : draw cl) : Prop := rand_vec bl (d_vec d).

(** test_addition.rs:72-73, test_multiplication.rs:104-105, test_squaring.rs:68-69 *)
Definition ADD_LENGTHS : list nat := seq 0 (S TESTS_BITLEN_ADD) ++ TESTS_EXTRA_BITLEN_ADD.
Definition MUL_LENGTHS : list nat := seq 0 (S TESTS_BITLEN_MUL) ++ TESTS_EXTRA_BITLEN_MUL.
Definition SQU_LENGTHS : list nat := seq 0 (S TESTS_BITLEN_SQU) ++ TESTS_EXTRA_BITLEN_SQU.
