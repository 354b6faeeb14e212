(** Properties proved: C63 *)
From Verif Require Import Base Backend Words Params Encryption Addition Naf Asc AscTable ScalarMul Signum Maximum Rounding
  Arith Expr NeuralNetwork DemoNets Spec BaseProofs ValueProofs BitsProofs EncProofs NafProofs KtChecked Contract Instances Properties4 Properties9.
From Verif Require Properties18.
From Coq Require Import ZifyBool ZifyNat.

(* ------------------------------------------------------------------ *)
(** ** C63: what a build with overflow checks can run *)

(** In the recoding of k (as release builds compute it) a -1 stands for a zero
    bit of k and, further up but below the end of k, a 1 stands for a zero bit
    as well. *)
Definition borrows (k : Z) : Prop :=
  exists kv i j, fst (koyama_tsuruoka_vec false k) = Ok kv /\ (i < j)%nat /\ 2 ^ Z.of_nat j <= k /\
    Z.testbit k (Z.of_nat i) = false /\ nth i kv 0 = -1 /\
    Z.testbit k (Z.of_nat j) = false /\ nth j kv 0 = 1.
(** scalars that a build with overflow checks refuses *)
Definition refused (k : Z) : Prop := k = - 2^31 \/ borrows (Z.abs k).

(** the same cloud in a build without overflow checks *)
Definition release (pc : cloud) : cloud := mkCloud (cparams pc) (asc_12 pc) false.

(** ** Recoding *)
Lemma so_ret : forall A (a : A), same_or_overflow (ret a) (ret a).
Proof. right. reflexivity. Qed.
Lemma so_bind : forall A C (m m' : M A) (f f' : A -> M C), same_or_overflow m m' ->
  (forall a, same_or_overflow (f a) (f' a)) -> same_or_overflow (bind m f) (bind m' f').
Proof.
  intros A C m m' f f' [H|H] Hf; [left; apply fst_bind_panic; exact H|]. subst m'.
  destruct m as [[a|e|e] t].
  - destruct (Hf a) as [K|K]; [left|right].
    + rewrite fst_bind. cbn [fst]. exact K.
    + unfold bind. rewrite K. reflexivity.
  - right. reflexivity.
  - right. reflexivity.
Qed.
Lemma so_refl : forall A (m : M A), same_or_overflow m m.
Proof. right. reflexivity. Qed.
Lemma so_bit : forall k j, same_or_overflow (kt_bit_m1 true k j) (kt_bit_m1 false k j).
Proof.
  intros k j. unfold kt_bit_m1. apply so_bind; [|intros; apply so_ret]. unfold chk_u32.
  destruct (in_u32 (bit k j - 1)); [apply so_ret|left; reflexivity].
Qed.
Lemma so_fill : forall n j (f g : nat -> M Z) kv, (forall i, same_or_overflow (f i) (g i)) ->
  same_or_overflow (kt_fill n j f kv) (kt_fill n j g kv).
Proof.
  induction n as [|n IH]; intros j f g kv H; cbn [kt_fill]; [apply so_ret|].
  apply so_bind; [apply H|]. intros d. apply so_bind; [apply so_refl|]. intros kv'. apply IH. exact H.
Qed.
Lemma so_step : forall k s, same_or_overflow (kt_step true k s) (kt_step false k s).
Proof.
  intros k [j m x y z u v w kv]. unfold kt_step. cbv zeta. destruct (negb m); [apply so_refl|].
  match goal with |- same_or_overflow (if ?c then _ else _) _ => destruct c end; [|apply so_refl].
  apply so_bind; [apply so_fill, so_bit|intros; apply so_refl].
Qed.
Lemma so_loop : forall n k s, same_or_overflow (kt_loop n true k s) (kt_loop n false k s).
Proof.
  induction n as [|n IH]; intros k s; cbn [kt_loop]; [apply so_ret|]. apply so_bind; [apply so_step|]. intros. apply IH.
Qed.
Lemma so_end : forall k s, same_or_overflow (kt_end true k s) (kt_end false k s).
Proof.
  intros k [j m x y z u v w kv]. unfold kt_end. destruct (negb m || (v <=? y)); [apply so_refl|].
  apply so_bind; [apply so_fill, so_bit|intros; apply so_refl].
Qed.
Lemma so_kt : forall k, same_or_overflow (koyama_tsuruoka_vec true k) (koyama_tsuruoka_vec false k).
Proof.
  intros k. unfold koyama_tsuruoka_vec. destruct (k =? 0); [apply so_ret|]. destruct (k =? 1); [apply so_ret|]. cbv zeta.
  apply so_bind; [apply so_loop|]. intros s. apply so_bind; [apply so_end|]. intros. apply so_ret.
Qed.
Lemma kt_total : forall k, 0 <= k < 2^32 -> exists kv, fst (koyama_tsuruoka_vec false k) = Ok kv /\ digits kv.
Proof.
  intros k Hk. pose proof (kt_ok false k Hk) as K. apply ovfP_okP in K. destruct K as [kv [E [D _]]]. eauto.
Qed.
Lemma bitz_false : forall k i, bitz k i = 0 <-> Z.testbit k (Z.of_nat i) = false.
Proof. intros k i. unfold bitz. destruct (Z.testbit k (Z.of_nat i)); cbn; split; congruence. Qed.

(** exactly these scalars stop the recoding; for all others it is the same *)
Theorem C63_recoding : forall k, 0 <= k < 2^32 ->
  (fst (koyama_tsuruoka_vec true k) = Panic P_overflow <-> borrows k) /\
  (~ borrows k -> koyama_tsuruoka_vec true k = koyama_tsuruoka_vec false k).
Proof.
  intros k Hk. destruct (kt_total k Hk) as [kv [E _]]. pose proof (kt_checked_digits k kv Hk E) as D.
  assert (I : fst (koyama_tsuruoka_vec true k) = Panic P_overflow <-> borrows k).
  { rewrite D. unfold borrows. split.
    - intros [i [j [H1 [H2 [H3 [H4 [H5 H6]]]]]]]. exists kv, i, j. rewrite <- !bitz_false. unfold fn in *. auto 10.
    - intros [kv' [i [j [H0 [H1 [H2 [H3 [H4 [H5 H6]]]]]]]]]. assert (kv' = kv) by congruence. subst kv'.
      exists i, j. rewrite !bitz_false. unfold fn. auto 10. }
  split; [exact I|]. intros H. destruct (so_kt k) as [S|S]; [|exact S]. exfalso. apply H, I, S.
Qed.
(** 91 is 1011011 in binary: the -1 at position 2 and the 1 at position 5 stand for zeros *)
Example C63_example_91 : fst (koyama_tsuruoka_vec false 91) = Ok [-1; 0; -1; 0; 0; 1; 1] /\ borrows 91.
Proof.
  split; [vm_compute; reflexivity|]. exists [-1; 0; -1; 0; 0; 1; 1], 2%nat, 5%nat.
  repeat split; try (vm_compute; reflexivity); lia.
Qed.
(** 0xF0F0 has zeros as well, but is recoded in both builds *)
Example C63_example_F0F0 : ~ borrows 0xF0F0.
Proof.
  intros H. apply (proj1 (C63_recoding 0xF0F0 ltac:(lia))) in H. vm_compute in H. discriminate.
Qed.

(** ** Windows and scalar multiplication *)
Lemma wind_loop_build : forall f kv bl sh, digits kv -> (bl <= 63)%nat ->
  wind_loop f true kv bl sh = wind_loop f false kv bl sh.
Proof.
  induction f as [|f IH]; intros kv bl sh D Hb; cbn [wind_loop]; [reflexivity|]. cbv zeta.
  set (w := firstn bl _).
  assert (Dw : digits w) by (unfold w; apply digits_firstn, digits_skipn; exact D).
  assert (Lw : (length w <= 63)%nat) by (unfold w; rewrite firstn_length; lia).
  rewrite !(convert_from_vec_ok _ w) by assumption. change (expect (ret (value w))) with (ret (value w)). rewrite !ret_bind.
  destruct (length kv <=? _)%nat; [reflexivity|]. rewrite IH by assumption. reflexivity.
Qed.
Theorem C63_windows : forall k, 0 <= k < 2^32 ->
  (borrows k -> fst (wind_shifts true k ASC_BITLEN) = Panic P_overflow) /\
  (~ borrows k -> wind_shifts true k ASC_BITLEN = wind_shifts false k ASC_BITLEN).
Proof.
  intros k Hk. destruct (C63_recoding k Hk) as [I S]. unfold wind_shifts. split; intros H.
  - apply fst_bind_panic, I, H.
  - rewrite (S H). apply Properties18.bind_same. intros kv E. destruct (kt_total k Hk) as [kv' [E' D]].
    assert (kv' = kv) by congruence. subst kv'. apply wind_loop_build; [exact D|unfold ASC_BITLEN; lia].
Qed.

Lemma borrows_big : forall k, borrows k -> 1 < k.
Proof.
  intros k [kv [i [j [_ [H1 [H2 _]]]]]]. assert (2 ^ 1 <= 2 ^ Z.of_nat j) by (apply Z.pow_le_mono_r; lia). lia.
Qed.

(** Any backend, any ciphertext, any table: the multiplication stops for the
    refused scalars; for all others the two builds give the same result, the
    same errors and the same events. *)
Theorem C63_scalar_mul : forall (B : backend) pc k (x : ciphertext B), ovf pc = true -> - 2^31 <= k < 2^31 ->
  (refused k -> fst (pa_scalar_mul pc k x) = Panic P_overflow) /\
  (~ refused k -> pa_scalar_mul pc k x = pa_scalar_mul (release pc) k x).
Proof.
  intros B pc k x Ho Hk. unfold refused. split.
  - intros [E|H]; [subst k; apply (C26_total_checked_refuted (- 2^31)); auto|].
    destruct (Z.eq_dec k (- 2^31)) as [E|NE]; [subst k; apply (C26_total_checked_refuted (- 2^31)); auto|].
    pose proof (borrows_big _ H) as HB.
    unfold pa_scalar_mul. rewrite fst_analysed. unfold scalar_mul_impl. rewrite Ho. cbv zeta. unfold chk_i32.
    replace (in_i32 (Z.abs k)) with true by (unfold in_i32, I32_MIN, I32_MAX; lia). rewrite ret_bind.
    unfold u32. rewrite Z.mod_small by lia. replace (Z.abs k =? 0) with false by lia. replace (Z.abs k =? 1) with false by lia.
    rewrite fst_bind. rewrite (proj1 (C63_windows (Z.abs k) ltac:(lia)) H). reflexivity.
  - intros NR. assert (NE : k <> - 2^31) by tauto. assert (NB : ~ borrows (Z.abs k)) by tauto.
    unfold pa_scalar_mul. f_equal. unfold scalar_mul_impl. rewrite Ho. cbn [release ovf asc_12]. cbv zeta. unfold chk_i32.
    replace (in_i32 (Z.abs k)) with true by (unfold in_i32, I32_MIN, I32_MAX; lia). rewrite !ret_bind.
    unfold u32. rewrite Z.mod_small by lia. rewrite (proj2 (C63_windows (Z.abs k) ltac:(lia)) NB). reflexivity.
Qed.

(* ------------------------------------------------------------------ *)
(** ** Programs and networks *)
Section Build.
Context {B : backend}.
Lemma sgn_rec_build : forall fuel pc (x : ciphertext B) f,
  sgn_recursion_fuel fuel pc x f = sgn_recursion_fuel fuel (release pc) x f.
Proof.
  induction fuel as [|fuel IH]; intros pc x f; cbn [sgn_recursion_fuel]; [reflexivity|].
  destruct (length x =? 0)%nat; [reflexivity|]. destruct (length x =? 1)%nat; [reflexivity|]. f_equal.
  change (sgn_first_group (release pc) x) with (sgn_first_group pc x).
  apply Properties18.bind_same. intros b _. apply IH.
Qed.
Lemma sgn_raw_build : forall pc (x : ciphertext B) f, sgn_recursion_raw pc x f = sgn_recursion_raw (release pc) x f.
Proof. intros. apply sgn_rec_build. Qed.
Lemma sgn_build : forall pc (x : ciphertext B), pa_sgn pc x = pa_sgn (release pc) x.
Proof.
  intros pc x. unfold pa_sgn. f_equal. unfold sgn_impl. rewrite sgn_raw_build. reflexivity.
Qed.
Lemma max_build : forall pc (x y : ciphertext B), pa_max pc x y = pa_max (release pc) x y.
Proof.
  intros pc x y. unfold pa_max. f_equal. unfold max_impl. f_equal. apply Properties18.bind_same. intros r _.
  rewrite sgn_raw_build. reflexivity.
Qed.
Lemma relu_build : forall pc (x : ciphertext B), pa_relu pc x = pa_relu (release pc) x.
Proof. intros pc x. exact (max_build pc pa_zero x). Qed.
Lemma round_build : forall pc (x : ciphertext B) p, pa_round_at pc x p = pa_round_at (release pc) x p.
Proof.
  intros pc x p. unfold pa_round_at. f_equal. unfold round_at_impl. destruct p as [|p1]; [reflexivity|].
  rewrite sgn_build. reflexivity.
Qed.
Lemma add_const_build : forall pc (x : ciphertext B) k, (1 <= bit_precision (cparams pc) <= 31)%nat -> - 2^63 < k < 2^63 ->
  pa_add_const pc x k = pa_add_const (release pc) x k.
Proof.
  intros pc x k Hb Hk. unfold pa_add_const. f_equal. unfold add_const_impl. destruct (k =? 0); [reflexivity|].
  unfold chk_i64. replace (in_i64 (Z.abs k)) with true by (unfold in_i64, I64_MIN, I64_MAX; lia). rewrite !ret_bind. cbv zeta.
  replace (plaintext_mask (ovf (release pc)) (cparams (release pc))) with (plaintext_mask (ovf pc) (cparams pc)); [reflexivity|].
  cbn [release ovf cparams]. unfold plaintext_mask, shift_amount.
  replace (Z.of_nat (bit_precision (cparams pc)) <? 32) with true by lia. rewrite !ret_bind.
  set (p := Z.of_nat (bit_precision (cparams pc))). assert (P : 2 ^ 1 <= 2 ^ p <= 2 ^ 31) by (split; apply Z.pow_le_mono_r; lia).
  unfold chk_u32, u32. rewrite Z.mod_small by lia. 
  replace (in_u32 (2 ^ p - 1)) with true by (unfold in_u32; lia). reflexivity.
Qed.

(** the scalars of a program *)
Fixpoint scalars (e : expr) : list Z :=
  match e with
  | Var _ | Zero => []
  | Opp e | Shift e _ | Sgn e | Relu e | Squ e | Round e _ | AddC e _ => scalars e
  | Let e1 e2 | Expr.Add e1 e2 | Sub e1 e2 | Max e1 e2 | Mul e1 e2 => scalars e1 ++ scalars e2
  | ScMul k e => k :: scalars e
  end.

(** A program all of whose scalars are accepted: both builds give the same
    result, the same errors and the same events. *)
Theorem C63_programs : forall pc e (env : list (ciphertext B)), (1 <= bit_precision (cparams pc) <= 31)%nat -> consts e ->
  Forall (fun k => ~ refused k) (scalars e) ->
  run (arith_ct pc) env e = run (arith_ct (release pc)) env e.
Proof.
  intros pc e env Hb. destruct (ovf pc) eqn:Ho.
  2:{ intros _ _. replace (release pc) with pc; [reflexivity|]. destruct pc as [cp t o]. cbn [ovf] in Ho. subst o. reflexivity. }
  revert env. induction e; intros env Hc Hs; cbn [run consts scalars] in *; try reflexivity;
    try (rewrite Forall_app in Hs; destruct Hs as [Hs1 Hs2], Hc as [Hc1 Hc2]; rewrite IHe1 by assumption;
         apply Properties18.bind_same; intros x _; cbv beta; rewrite IHe2 by assumption;
         try reflexivity; apply Properties18.bind_same; intros y _; first [reflexivity|apply max_build]).
  - rewrite IHe by assumption. reflexivity.
  - rewrite IHe by assumption. reflexivity.
  - destruct Hc as [Hk Hc]. rewrite IHe by assumption. apply Properties18.bind_same. intros x _. apply add_const_build; assumption.
  - destruct Hc as [Hk Hc]. inversion Hs as [|? ? H1 H2]. subst. rewrite IHe by assumption. apply Properties18.bind_same. intros x _.
    cbn [arith_ct a_scalar_mul]. apply C63_scalar_mul; assumption.
  - rewrite IHe by assumption. apply Properties18.bind_same. intros x _. apply sgn_build.
  - rewrite IHe by assumption. apply Properties18.bind_same. intros x _. apply relu_build.
  - rewrite IHe by assumption. reflexivity.
  - rewrite IHe by assumption. apply Properties18.bind_same. intros x _. apply round_build.
Qed.

Lemma not_ok_bind1 : forall A C (m : M A) (f : A -> M C), (forall a, fst m <> Ok a) -> forall c, fst (bind m f) <> Ok c.
Proof.
  intros A C m f H c. rewrite fst_bind. destruct (fst m) as [a|e|e]; [exfalso; apply (H a); reflexivity|discriminate|discriminate].
Qed.
Lemma not_ok_bind2 : forall A C (m : M A) (f : A -> M C), (forall a c, fst (f a) <> Ok c) -> forall c, fst (bind m f) <> Ok c.
Proof.
  intros A C m f H c. rewrite fst_bind. destruct (fst m) as [a|e|e]; [apply H|discriminate|discriminate].
Qed.
(** A program with a refused scalar never gets to its end, whatever its inputs are. *)
Theorem C63_programs_refused : forall pc e k (env : list (ciphertext B)) z, ovf pc = true -> consts e ->
  In k (scalars e) -> refused k -> fst (run (arith_ct pc) env e) <> Ok z.
Proof.
  intros pc e k env z Ho Hc Hk R. revert env z. induction e; intros env z; cbn [run consts scalars] in *; try contradiction;
    try (destruct Hc as [Hc1 Hc2]; apply in_app_or in Hk; destruct Hk as [Hk|Hk];
         [apply not_ok_bind1; intros a; apply IHe1; assumption
         |apply not_ok_bind2; intros a c; first [apply IHe2; assumption|apply not_ok_bind1; intros a'; apply IHe2; assumption]]).
  - apply not_ok_bind1. intros a. apply IHe; assumption.
  - apply not_ok_bind1. intros a. apply IHe; assumption.
  - apply not_ok_bind1. intros a. apply IHe; tauto.
  - destruct Hc as [Hr Hc]. destruct Hk as [Hk|Hk]; [|apply not_ok_bind1; intros a; apply IHe; assumption].
    subst. apply not_ok_bind2. intros a c. cbn [arith_ct a_scalar_mul].
    rewrite (proj1 (C63_scalar_mul B pc k a Ho Hr) R). discriminate.
  - apply not_ok_bind1. intros a. apply IHe; assumption.
  - apply not_ok_bind1. intros a. apply IHe; assumption.
  - apply not_ok_bind1. intros a. apply IHe; assumption.
  - apply not_ok_bind1. intros a. apply IHe; assumption.
Qed.

(** networks all of whose weights are accepted *)
Lemma foldM_same : forall A S (f g : S -> A -> M S) l s, (forall s a, In a l -> f s a = g s a) -> foldM f l s = foldM g l s.
Proof.
  intros A S f g l. induction l as [|a l IH]; intros s H; cbn [foldM]; [reflexivity|]. rewrite (H s a) by (left; reflexivity).
  apply Properties18.bind_same. intros s' _. apply IH. intros s'' a' Ha. apply H. right. exact Ha.
Qed.
Theorem C63_networks : forall pc nn (xs : list (ciphertext B)), (1 <= bit_precision (cparams pc) <= 31)%nat -> nn_consts nn ->
  Forall (Forall (fun p => Forall (fun w => ~ refused w) (p_w p))) (nn_layers nn) ->
  nn_eval (arith_ct pc) nn xs = nn_eval (arith_ct (release pc)) nn xs.
Proof.
  intros pc nn xs Hb Hc Hr. destruct (ovf pc) eqn:Ho.
  2:{ replace (release pc) with pc; [reflexivity|]. destruct pc as [cp t o]. cbn [ovf] in Ho. subst o. reflexivity. }
  unfold nn_eval, nn_consts, eval_layers in *. f_equal. f_equal. apply foldM_same. intros s l Hl. f_equal.
  rewrite Forall_forall in Hc, Hr. specialize (Hc l Hl). specialize (Hr l Hl). rewrite Forall_forall in Hc, Hr.
  f_equal. unfold eval_layer. apply Properties18.mapM_same. intros p Hp. destruct (Hc p Hp) as [Hw HB]. specialize (Hr p Hp).
  rewrite Forall_forall in Hw, Hr.
  assert (SC : forall w (x : ciphertext B), In w (p_w p) -> pa_scalar_mul pc w x = pa_scalar_mul (release pc) w x).
  { intros w x Hi. apply C63_scalar_mul; [exact Ho|apply Hw, Hi|apply Hr, Hi]. }
  assert (AF : affine_pool (arith_ct pc) (p_w p) (fst s) (p_b p) = affine_pool (arith_ct (release pc)) (p_w p) (fst s) (p_b p)).
  { unfold affine_pool. replace (a_zero (arith_ct (release pc))) with (a_zero (arith_ct (B := B) pc)) by reflexivity.
    rewrite (foldM_same _ _ _ (fun res (wa : Z * ciphertext B) => scm <- a_scalar_mul (arith_ct (release pc)) (fst wa) (snd wa) ;; a_add (arith_ct (release pc)) res scm)).
    - apply Properties18.bind_same. intros r _. apply add_const_build; assumption.
    - intros r [w a] Hi. cbn [fst snd arith_ct a_scalar_mul a_add]. rewrite SC; [reflexivity|]. apply in_combine_l in Hi. exact Hi. }
  assert (MP : forall a : list (ciphertext B), max_pairs (arith_ct pc) a = max_pairs (arith_ct (release pc)) a).
  { fix REC 1. intros [|x [|y t]]; cbn [max_pairs]; [reflexivity|reflexivity|].
    cbn [arith_ct a_max]. rewrite max_build. apply Properties18.bind_same. intros m _. rewrite (REC t). reflexivity. }
  assert (MR : forall f (a : list (ciphertext B)), max_pool_recursion (arith_ct pc) f a = max_pool_recursion (arith_ct (release pc)) f a).
  { induction f as [|f IH]; intros a; cbn [max_pool_recursion]; [reflexivity|]. destruct a as [|x [|y t]]; [reflexivity|reflexivity|].
    rewrite MP. apply Properties18.bind_same. intros h _. apply IH. }
  unfold eval_perceptron. f_equal. destruct (p_t p).
  - unfold max_pool. rewrite (Properties18.mapM_same _ _ _ (fun wa : Z * ciphertext B => a_scalar_mul (arith_ct (release pc)) (fst wa) (snd wa))).
    + apply Properties18.bind_same. intros wa _. rewrite MR. apply Properties18.bind_same. intros r _. apply add_const_build; assumption.
    + intros [w a] Hi. cbn [fst snd arith_ct a_scalar_mul]. apply SC. apply in_combine_l in Hi. exact Hi.
  - exact AF.
  - rewrite AF. apply Properties18.bind_same. intros r _. unfold act_fn. cbn [arith_ct a_relu]. apply relu_build.
Qed.
End Build.

(* ------------------------------------------------------------------ *)
(** ** How many scalars are refused *)
Lemma kt_panics_borrows : forall k, 0 <= k < 2^32 -> (kt_panics k = true <-> borrows k).
Proof.
  intros k Hk. destruct (C63_recoding k Hk) as [I S]. rewrite <- I. unfold kt_panics, panics. split.
  - intros H. destruct (so_kt k) as [K|K]; [exact K|]. rewrite K in H. destruct (kt_total k Hk) as [kv [E _]].
    rewrite E in H. discriminate.
  - intros ->. reflexivity.
Qed.

(** [how_many P N] counts the numbers from 0 to N - 1 with P: 665 of the 12-bit
    scalars, two thirds of those below 2^31, and 69 % of all u32 stop the
    recoding *)
Theorem C63_how_many :
  how_many (fun k => panics (koyama_tsuruoka_vec true k)) (2^12) = 665 /\
  how_many (fun k => panics (koyama_tsuruoka_vec true k)) (2^31) = 1453214493 /\
  how_many (fun k => panics (koyama_tsuruoka_vec true k)) (2^32) = 2982464061.
Proof.
  split; [exact (eq_trans (how_many_kt 11 ltac:(lia)) below_11)|].
  split; [exact (eq_trans (how_many_kt 30 ltac:(lia)) below_30)|exact (eq_trans (how_many_kt 31 ltac:(lia)) below_31)].
Qed.

Lemma hm_rev : forall n P, hm (fun i => P (Z.of_nat n - 1 - i)) n = hm P n.
Proof.
  induction n as [|n IH]; intros P; [reflexivity|]. rewrite (hm_S P).
  pose proof (hm_add (fun i => P (Z.of_nat (S n) - 1 - i)) 1 n) as A. change (1 + n)%nat with (S n) in A. rewrite A.
  rewrite hm_S, hm_0. change (Z.of_nat 0) with 0.
  replace (Z.of_nat (S n) - 1 - 0) with (Z.of_nat n) by lia.
  rewrite (hm_ext _ (fun i => P (Z.of_nat n - 1 - i))); [rewrite IH; lia|].
  intros i Hi. f_equal. lia.
Qed.

Section Count.
Context {B : backend} {qw : Z} (C : contract B qw).
Lemma scm_panics : forall pc k (x : ciphertext B) v, ovf pc = true -> asc_12 pc = shipped_asc -> enc_val C x v ->
  - 2^31 <= k < 2^31 -> (panics (pa_scalar_mul pc k x) = true <-> refused k).
Proof.
  intros pc k x v Ho Ha Hx Hk. destruct (C63_scalar_mul B pc k x Ho Hk) as [R N]. split.
  - intros H. unfold panics in H. pose proof (C26_scalar_mul C pc k x v Ha Hk Hx) as S.
    destruct (fst (pa_scalar_mul pc k x)) as [z|e|e] eqn:E; try discriminate.
    destruct (Z.eq_dec k (- 2^31)) as [Ek|NE]; [left; exact Ek|]. right.
    destruct (kt_panics (Z.abs k)) eqn:K; [apply kt_panics_borrows; [lia|exact K]|]. exfalso.
    assert (NR : ~ refused k). { intros [Ek|HB]; [contradiction|]. apply kt_panics_borrows in HB; [congruence|lia]. }
    rewrite (N NR) in E. pose proof (C26_scalar_mul C (release pc) k x v Ha Hk Hx) as S'. rewrite E in S'. destruct S' as [S' _]. discriminate.
  - intros H. unfold panics. rewrite (R H). reflexivity.
Qed.

Lemma scalars_count : forall n pc (x : ciphertext B) v, Z.of_nat n = 2^31 -> hm kt_panics n = 1453214493 ->
  ovf pc = true -> asc_12 pc = shipped_asc -> enc_val C x v ->
  hm (fun i => panics (pa_scalar_mul pc (i - 2^31) x)) (n + n) = 2906428987.
Proof.
  intros n pc x v Hn KT Ho Ha Hx.
  assert (ABS : forall k, - 2^31 < k < 2^31 -> panics (pa_scalar_mul pc k x) = kt_panics (Z.abs k)).
  { intros k Hk. pose proof (scm_panics pc k x v Ho Ha Hx ltac:(lia)) as S. pose proof (kt_panics_borrows (Z.abs k) ltac:(lia)) as K.
    unfold refused in S. destruct (panics (pa_scalar_mul pc k x)), (kt_panics (Z.abs k)); auto.
    - destruct (proj1 S eq_refl) as [E|E]; [lia|]. apply K in E. discriminate.
    - apply S. right. apply K. reflexivity. }
  rewrite hm_add.
  assert (H2 : hm (fun i => panics (pa_scalar_mul pc (Z.of_nat n + i - 2^31) x)) n = hm kt_panics n).
  { apply hm_ext. intros i Hi. rewrite ABS by lia. f_equal. lia. }
  rewrite H2, KT. destruct n as [|n]; [lia|].
  change (S n) with (1 + n)%nat. rewrite hm_add, hm_S, hm_0.
  assert (H0 : panics (pa_scalar_mul pc (Z.of_nat 0 - 2^31) x) = true).
  { apply (scm_panics pc _ x v Ho Ha Hx); [lia|]. left. reflexivity. }
  rewrite H0.
  assert (H1 : hm (fun i => panics (pa_scalar_mul pc (Z.of_nat 1 + i - 2^31) x)) n = hm kt_panics (S n)).
  { rewrite <- (hm_rev (S n) kt_panics), hm_S. replace (Z.of_nat (S n) - 1 - Z.of_nat n) with 0 by lia.
    change (kt_panics 0) with false. cbn [Z.b2z]. rewrite Z.add_0_r. apply hm_ext. intros i Hi. rewrite ABS by lia. f_equal. lia. }
  rewrite H1, KT. reflexivity.
Qed.

(** Of the 2^32 scalars of scalar_mul, 2906428987 (67.7 %) panic in a build with
    overflow checks; which ones does not depend on the ciphertext. *)
Theorem C63_how_many_scalars : forall pc (x : ciphertext B) v, ovf pc = true -> asc_12 pc = shipped_asc -> enc_val C x v ->
  how_many (fun i => panics (pa_scalar_mul pc (i - 2^31) x)) (2^32) = 2906428987.
Proof.
  intros pc x v Ho Ha Hx.
  assert (KT : how_many kt_panics (2^31) = 1453214493) by exact (proj1 (proj2 C63_how_many)).
  assert (EN : exists n, Z.of_nat n = 2^31) by (exists (Z.to_nat (2^31)); apply Z2Nat.id; lia). destruct EN as [n Hn].
  rewrite <- Hn in KT. pose proof (scalars_count n pc x v Hn KT Ho Ha Hx) as K. unfold hm in K.
  replace (Z.of_nat (n + n)) with (2^32) in K by lia. exact K.
Qed.
End Count.

Print Assumptions C63_recoding.
Print Assumptions C63_windows.
Print Assumptions C63_scalar_mul.
Print Assumptions C63_programs.
Print Assumptions C63_programs_refused.
Print Assumptions C63_networks.
Print Assumptions C63_how_many.
Print Assumptions C63_how_many_scalars.

(* ------------------------------------------------------------------ *)
(** ** Examples *)
Definition refusedb (k : Z) : bool := (k =? - 2^31) || kt_panics (Z.abs k).
Lemma refusedb_ok : forall k, - 2^31 <= k < 2^31 -> (refusedb k = true <-> refused k).
Proof.
  intros k Hk. unfold refusedb, refused. rewrite orb_true_iff, kt_panics_borrows by lia. split; intros [H|H]; auto; left; lia.
Qed.
(** the two networks of the demos: the small one is evaluated alike in both
    builds, of the 1216 weights of the other one 122 are refused *)
Definition refused_weights (nn : neural_network) : list Z :=
  flat_map (fun l => flat_map (fun p => filter refusedb (p_w p)) l) (nn_layers nn).
Definition weights (nn : neural_network) : list Z := flat_map (fun l => flat_map p_w l) (nn_layers nn).
Example C63_example_weights : refused_weights demo_nn = [] /\
  length (refused_weights arrhythmia_nn) = 122%nat /\ length (weights arrhythmia_nn) = 1216%nat.
Proof. repeat split; vm_compute; reflexivity. Qed.
Example C63_example_network : forall (xs : list (ciphertext exact)),
  nn_eval (arith_ct (cloud_100 true)) demo_nn xs = nn_eval (arith_ct (cloud_100 false)) demo_nn xs.
Proof.
  intros xs. apply (C63_networks (cloud_100 true) demo_nn xs).
  - cbn. lia.
  - unfold nn_consts. repeat constructor; cbn; lia.
  - assert (H : forallb (fun l => forallb (fun p => forallb (fun w => (- 2^31 <=? w) && (w <? 2^31) && negb (refusedb w)) (p_w p)) l) (nn_layers demo_nn) = true)
      by (vm_compute; reflexivity).
    rewrite forallb_forall in H. apply Forall_forall. intros l Hl. specialize (H l Hl). rewrite forallb_forall in H.
    apply Forall_forall. intros p Hp. specialize (H p Hp). rewrite forallb_forall in H.
    apply Forall_forall. intros w Hw. specialize (H w Hw). intros R. apply refusedb_ok in R; [|lia]. rewrite R in H. lia.
Qed.
(** x * 1000 + (- 7) * x, and the same with 91: the second never ends in a build with checks *)
Example C63_example_programs :
  xdec (run (arith_ct (cloud_100 true)) [xenc 5 4] (Expr.Add (ScMul 1000 (Var 0)) (ScMul (-7) (Var 0)))) = Ok 4965 /\
  (forall (env : list (ciphertext exact)) z, fst (run (arith_ct (cloud_100 true)) env (Expr.Add (ScMul 1000 (Var 0)) (ScMul 91 (Var 0)))) <> Ok z) /\
  xdec (run (arith_ct (cloud_100 false)) [xenc 5 4] (Expr.Add (ScMul 1000 (Var 0)) (ScMul 91 (Var 0)))) = Ok 5455.
Proof.
  split; [vm_compute; reflexivity|]. split; [|vm_compute; reflexivity].
  intros env z. apply (C63_programs_refused _ _ 91); [reflexivity|cbn; lia|right; left; reflexivity|].
  right. apply kt_panics_borrows; [lia|vm_compute; reflexivity].
Qed.
(** the count for the encryption of 5 in four words *)
Example C63_example_count : exists c : ciphertext exact,
  parm_encrypt exact_client true (fun _ => ([], 0)) 5 4 = ret c /\
  how_many (fun i => panics (pa_scalar_mul (cloud_100 true) (i - 2^31) c)) (2^32) = 2906428987.
Proof.
  destruct (encrypt_ok (exact_contract 100) exact_client (exact_client_ok 100) true (fun _ => ([], 0)) 5 4) as [c [Ec [_ [Vc _]]]];
    [unfold I64_MIN, I64_MAX; lia|lia|].
  exists c. split; [exact Ec|]. apply (C63_how_many_scalars (exact_contract 100) (cloud_100 true) c _ eq_refl eq_refl Vc).
Qed.
