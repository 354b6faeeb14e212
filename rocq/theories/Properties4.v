(** Properties C24-C28 and C41-C44: addition chains, scalar multiplication,
    programs over the arithmetic interface, neural networks *)
From Verif Require Import Base Backend Words Encryption Params Addition Signum Maximum
  Multiplication Squaring Rounding Naf Asc AscTable ScalarMul Arith NeuralNetwork
  Spec Expr Contract BaseProofs WordsProofs ValueProofs AddProofs EncProofs MulProofs NafProofs
  ScalarProofs AscProofs ArithProofs Instances.
From Coq Require Import ZifyBool ZifyNat.

(* ------------------------------------------------------------------ *)
(** ** C24: the shipped table *)

(** keys: 1, 3, 5, ..., 4095, each once *)
Theorem C24_keys : map fst shipped_asc = map (fun i => 1 + 2 * Z.of_nat i) (seq 0 2048).
Proof. rewrite (odds_keys _ 1 keys_ok), count_ok. reflexivity. Qed.

(** [chain_wf 1 c]: every step refers to earlier elements; [chain_value c]: the
    last of the integers 1, ... that the steps produce; [asc_value]: the same
    computed by the library, on i64 *)
Theorem C24_chains : forall n, 0 < n < 4096 -> Z.odd n = true ->
  exists c, In (n, c) shipped_asc /\ fst (asc_get shipped_asc n) = Ok c /\
    chain_wf 1 c /\ chain_value c = n /\ forall o, fst (asc_value o c) = Ok n.
Proof.
  intros n Hn Ho. destruct (odds_get shipped_asc 1 n keys_ok) as [c [I1 I2]].
  - rewrite count_ok. change (2 * Z.of_nat 2048) with 4096. lia.
  - auto.
  - exists c. split; auto. rewrite I2. split; auto. pose proof (table_ok _ I1) as H.
    pose proof (fun o => entry_value 16 (n, c) o H) as HV.
    unfold entry_ok in H. cbn [fst snd] in *.
    apply andb_prop in H. destruct H as [H _]. apply andb_prop in H. destruct H as [H _].
    apply andb_prop in H. destruct H as [Hw Hv]. split; [apply wfb_ok; auto|]. split; [lia|auto].
Qed.
Example C24_example :
  match fst (asc_get shipped_asc 3221) with Ok c => chain_run c [1] | _ => [] end = [1; 5; 25; 805; 3221].
Proof. vm_compute. reflexivity. Qed.

Section Ct.
Context {B : backend} {qw : Z} (C : contract B qw).

(* ------------------------------------------------------------------ *)
(** ** C25 *)
Theorem C25_chain_homomorphic : forall c x v, enc_val C x v -> chain_wf 1 c ->
  exists z, fst (asc_eval_ct c x) = Ok z /\ enc_val C z (chain_value c * v).
Proof.
  intros c x v Hx Hc. destruct (asc_eval_ct_ok C c x v Hx Hc) as [z [H1 [H2 _]]]. eauto.
Qed.

(* ------------------------------------------------------------------ *)
(** ** C26 *)

(** both build profiles: either the product, or, with overflow checks, an
    overflow panic *)
Theorem C26_scalar_mul : forall pc k x v, asc_12 pc = shipped_asc ->
  - 2^31 <= k < 2^31 -> enc_val C x v ->
  match fst (pa_scalar_mul pc k x) with
  | Ok z => enc_val C z (k * v) /\ (length z <= length x + 50)%nat
  | Err _ => False
  | Panic e => ovf pc = true /\ e = P_overflow
  end.
Proof.
  intros pc k x v HT Hk Hx.
  assert (HT' : table_valid 16 (asc_12 pc)) by (rewrite HT; apply shipped_valid).
  eapply ovfP_conseq; [apply (scalar_mul_ok C pc 16 k x v HT'); auto; unfold I32_MIN, I32_MAX; lia|].
  intros z [H1 H2]. split; auto. lia.
Qed.
Theorem C26_unchecked : forall pc k x v, asc_12 pc = shipped_asc -> ovf pc = false ->
  - 2^31 <= k < 2^31 -> enc_val C x v ->
  exists z, fst (pa_scalar_mul pc k x) = Ok z /\ enc_val C z (k * v) /\ (length z <= length x + 50)%nat.
Proof.
  intros pc k x v HT Ho Hk Hx. pose proof (C26_scalar_mul pc k x v HT Hk Hx) as H.
  destruct (fst (pa_scalar_mul pc k x)) as [z|e|e]; [exists z; auto|tauto|]. destruct H; congruence.
Qed.
Theorem C26_decrypts : forall cl pc k x v o, client_ok C cl -> asc_12 pc = shipped_asc -> ovf pc = false ->
  - 2^31 <= k < 2^31 -> enc_val C x v -> (length x <= 13)%nat ->
  exists z, fst (pa_scalar_mul pc k x) = Ok z /\ parm_decrypt cl o z = (Ok (k * v), []).
Proof.
  intros cl pc k x v o Hcl HT Ho Hk Hx Hl.
  destruct (C26_unchecked pc k x v HT Ho Hk Hx) as [z [H1 [H2 H3]]]. exists z. split; auto.
  rewrite (decrypt_ok C cl Hcl o z _ H2) by lia. reflexivity.
Qed.
(** "scalar multiplication returns for every scalar" is false with overflow
    checks: k = 91 and k = i32::MIN panic on every ciphertext *)
Theorem C26_total_checked_refuted : forall k pc (x : ciphertext B), k = 91 \/ k = - 2^31 ->
  ovf pc = true -> fst (pa_scalar_mul pc k x) = Panic P_overflow.
Proof.
  intros k pc x [ -> | -> ] Ho; [|apply scalar_mul_min_checked; auto].
  unfold pa_scalar_mul. rewrite fst_analysed. unfold scalar_mul_impl. rewrite Ho. reflexivity.
Qed.

(* ------------------------------------------------------------------ *)
(** ** C27, C44: expressions *)

(** any program: the right value, or one of the documented panics *)
Theorem C27_expressions : forall pc e env vs,
  quad_weight (cparams pc) = qw -> bit_precision (cparams pc) = 5%nat -> asc_12 pc = shipped_asc ->
  consts e -> Forall2 (enc_val C) env vs ->
  match fst (run (arith_ct pc) env e) with
  | Ok z => enc_val C z (zeval vs e)
  | Err _ => False
  | Panic p => ovf pc = true /\ p = P_overflow \/ p = E_mul_long \/ p = E_squ_long
  end.
Proof.
  intros pc e env vs Hq Hb HT Hc Henv.
  assert (HT' : table_valid 16 (asc_12 pc)) by (rewrite HT; apply shipped_valid).
  exact (run_ct_ok C pc 16 Hq Hb HT' e env vs Hc Henv).
Qed.
Theorem C27_decrypts : forall cl pc e env vs z o, client_ok C cl ->
  quad_weight (cparams pc) = qw -> bit_precision (cparams pc) = 5%nat -> asc_12 pc = shipped_asc ->
  consts e -> Forall2 (enc_val C) env vs ->
  fst (run (arith_ct pc) env e) = Ok z -> (length z <= 63)%nat ->
  parm_decrypt cl o z = (Ok (zeval vs e), []).
Proof.
  intros cl pc e env vs z o Hcl Hq Hb HT Hc Henv Hz Hl.
  pose proof (C27_expressions pc e env vs Hq Hb HT Hc Henv) as H. rewrite Hz in H.
  rewrite (decrypt_ok C cl Hcl o z _ H) by lia. reflexivity.
Qed.
(** total correctness: [words 16 ls e] is a bound on the number of words
    computed from the lengths of the inputs; it exists unless some product or
    square could have an operand of more than 32 words *)
Theorem C27_total : forall cl pc e env vs n o, client_ok C cl ->
  quad_weight (cparams pc) = qw -> bit_precision (cparams pc) = 5%nat -> asc_12 pc = shipped_asc ->
  ovf pc = false -> consts e -> Forall2 (enc_val C) env vs ->
  words 16 (map (@length _) env) e = Some n ->
  exists z, fst (run (arith_ct pc) env e) = Ok z /\ enc_val C z (zeval vs e) /\ (length z <= n)%nat /\
    ((n <= 63)%nat -> parm_decrypt cl o z = (Ok (zeval vs e), [])).
Proof.
  intros cl pc e env vs n o Hcl Hq Hb HT Ho Hc Henv Hn.
  assert (HT' : table_valid 16 (asc_12 pc)) by (rewrite HT; apply shipped_valid).
  assert (HB : env_bnd C env vs (map (@length _) env)).
  { intros i. split; [apply env_ok; auto|].
    change 0%nat with (@length (word B) []). rewrite map_nth. auto. }
  pose proof (run_ct_bnd C pc 16 Hq Hb HT' e env vs _ n Hc HB Hn) as H.
  unfold outP in H. destruct (fst (run (arith_ct pc) env e)) as [z|p|p]; [|tauto|].
  - destruct H as [H1 H2]. exists z. split; auto. split; auto. split; auto. intros H63.
    rewrite (decrypt_ok C cl Hcl o z _ H1) by lia. reflexivity.
  - destruct H as [H _]. congruence.
Qed.

(** different representations of the same integers give results of equal value *)
Theorem C44_representations : forall pc e env env' vs z z',
  quad_weight (cparams pc) = qw -> bit_precision (cparams pc) = 5%nat -> asc_12 pc = shipped_asc ->
  consts e -> Forall2 (enc_val C) env vs -> Forall2 (enc_val C) env' vs ->
  fst (run (arith_ct pc) env e) = Ok z -> fst (run (arith_ct pc) env' e) = Ok z' ->
  exists v, enc_val C z v /\ enc_val C z' v.
Proof.
  intros pc e env env' vs z z' Hq Hb HT Hc H1 H2 Hz Hz'. exists (zeval vs e).
  pose proof (C27_expressions pc e env vs Hq Hb HT Hc H1) as E1. rewrite Hz in E1.
  pose proof (C27_expressions pc e env' vs Hq Hb HT Hc H2) as E2. rewrite Hz' in E2. auto.
Qed.

(* ------------------------------------------------------------------ *)
(** ** C28: neural networks on ciphertexts *)
Theorem C28_network : forall pc nn xs vs,
  quad_weight (cparams pc) = qw -> bit_precision (cparams pc) = 5%nat -> asc_12 pc = shipped_asc ->
  nn_consts nn -> Forall2 (enc_val C) xs vs ->
  match fst (nn_eval (arith_ct pc) nn xs) with
  | Ok zs => Forall2 (enc_val C) zs (layers_spec (nn_layers nn) vs)
  | Err _ => False
  | Panic e => ovf pc = true /\ e = P_overflow
  end.
Proof.
  intros pc nn xs vs Hq Hb HT Hn Hx.
  assert (HT' : table_valid 16 (asc_12 pc)) by (rewrite HT; apply shipped_valid).
  exact (nn_eval_ok _ _ _ (sim_ct C pc 16 Hq Hb HT') nn xs vs Hn Hx).
Qed.
(** the same network on ciphertexts and on checked i64 *)
Theorem C28_agrees_with_i64 : forall pc nn xs vs zs vs',
  quad_weight (cparams pc) = qw -> bit_precision (cparams pc) = 5%nat -> asc_12 pc = shipped_asc ->
  nn_consts nn -> Forall2 (enc_val C) xs vs ->
  fst (nn_eval (arith_ct pc) nn xs) = Ok zs -> fst (nn_eval (arith_i64 true) nn vs) = Ok vs' ->
  Forall2 (enc_val C) zs vs'.
Proof.
  intros pc nn xs vs zs vs' Hq Hb HT Hn Hx Ez Ev.
  pose proof (C28_network pc nn xs vs Hq Hb HT Hn Hx) as H. rewrite Ez in H.
  assert (Hv : Forall2 (fun x v : Z => x = v) vs vs) by (clear; induction vs; constructor; auto).
  pose proof (nn_eval_ok _ _ _ sim_i64 nn vs vs Hn Hv) as H'. unfold outP in H'. rewrite Ev in H'.
  assert (E : vs' = layers_spec (nn_layers nn) vs) by (clear - H'; induction H'; congruence).
  rewrite E. auto.
Qed.
Theorem C28_unchecked_total : forall pc nn xs vs,
  quad_weight (cparams pc) = qw -> bit_precision (cparams pc) = 5%nat -> asc_12 pc = shipped_asc ->
  ovf pc = false -> nn_consts nn -> Forall2 (enc_val C) xs vs ->
  exists zs, fst (nn_eval (arith_ct pc) nn xs) = Ok zs /\
    Forall2 (enc_val C) zs (layers_spec (nn_layers nn) vs).
Proof.
  intros pc nn xs vs Hq Hb HT Ho Hn Hx.
  pose proof (C28_network pc nn xs vs Hq Hb HT Hn Hx) as H.
  destruct (fst (nn_eval (arith_ct pc) nn xs)) as [zs|e|e]; [exists zs; auto|tauto|]. destruct H; congruence.
Qed.

(* ------------------------------------------------------------------ *)
(** ** C41: plain and encrypted arithmetic *)
Theorem C41_programs_agree : forall cl pc e env vs z o o', client_ok C cl ->
  quad_weight (cparams pc) = qw -> bit_precision (cparams pc) = 5%nat -> asc_12 pc = shipped_asc ->
  consts e -> fits vs e -> Forall2 (enc_val C) env vs ->
  fst (run (arith_ct pc) env e) = Ok z -> (length z <= 63)%nat ->
  fst (parm_decrypt cl o z) = fst (run (arith_i64 o') vs e).
Proof.
  intros cl pc e env vs z o o' Hcl Hq Hb HT Hc Hf Henv Hz Hl.
  rewrite (C27_decrypts cl pc e env vs z o Hcl Hq Hb HT Hc Henv Hz Hl).
  destruct (run_i64_ok o' e vs Hf) as [r [E ->]]. rewrite E. reflexivity.
Qed.
End Ct.

(** each operation of the i64 instance, in both build profiles *)
Theorem C41_i64 : forall o e vs, fits vs e -> fst (run (arith_i64 o) vs e) = Ok (zeval vs e).
Proof. intros o e vs H. destruct (run_i64_ok o e vs H) as [r [E ->]]. auto. Qed.
Theorem C41_round : forall o x p, - 2^63 <= x < 2^63 -> (p < 63)%nat ->
  - 2^63 <= round_to p x < 2^63 -> a_round_at (arith_i64 o) x p = (Ok (round_to p x), []).
Proof. exact i64_round_ok. Qed.
(** the ciphertext instance rounds at any position, the plain one does not *)
Theorem C41_round_63_refuted : forall o x p, (63 <= p)%nat ->
  fst (a_round_at (arith_i64 o) x p) = Panic P_round_pos.
Proof.
  intros o x [|p] H; [lia|]. cbn [arith_i64 a_round_at]. unfold i64_round_at.
  replace (63 <=? S p)%nat with true by lia. reflexivity.
Qed.

(* ------------------------------------------------------------------ *)
(** ** C42: the loader *)
Theorem C42_accepts_by_count : forall m,
  (fst (map_from_yaml 12 (Some (Some m))) = Ok m <-> length m = 2048%nat) /\
  (length m <> 2048%nat -> fst (map_from_yaml 12 (Some (Some m))) = Err E_asc_count).
Proof.
  intros m. unfold map_from_yaml. change (2 ^ Z.of_nat 12 / 2) with 2048.
  destruct (Z.of_nat (length m) =? 2048) eqn:E.
  - assert (length m = 2048%nat) by lia. split; [split; auto|congruence].
  - assert (length m <> 2048%nat) by lia. split; [split; [discriminate|congruence]|auto].
Qed.
Theorem C42_no_file : fst (map_from_yaml 12 None) = Err E_asc_missing /\
  fst (map_from_yaml 12 (Some None)) = Err E_decode.
Proof. auto. Qed.

(** the chain of 5 in place of the chain of 3 *)
Definition wrong_table : asc_map :=
  (1, []) :: (3, [mkAddShift true 0 true 0 2]) :: skipn 2 shipped_asc.
Theorem C42_valid_table_refuted :
  fst (map_from_yaml 12 (Some (Some wrong_table))) = Ok wrong_table /\
  (forall B qw (C : contract B qw) pc x v, asc_12 pc = wrong_table -> enc_val C x v ->
     exists z, fst (pa_scalar_mul pc 3 x) = Ok z /\ enc_val C z (5 * v)).
Proof.
  split; [apply C42_accepts_by_count; reflexivity|].
  intros B qw C pc x v HT Hx. unfold pa_scalar_mul. apply okP_analysed.
  unfold scalar_mul_impl. replace (chk_i32 (ovf pc) (Z.abs 3)) with (ret 3) by reflexivity.
  rewrite ret_bind. change (u32 3 =? 0) with false. change (u32 3 =? 1) with false. cbv iota.
  replace (wind_shifts (ovf pc) (u32 3) ASC_BITLEN) with (ret [(3, 0%nat)])
    by (destruct (ovf pc); vm_compute; reflexivity).
  rewrite ret_bind. change (window_keys [(3, 0%nat)]) with [3]. cbn [mapM].
  rewrite HT. replace (asc_get wrong_table 3) with (ret [mkAddShift true 0 true 0 2]) by reflexivity.
  change (0 <=? 3) with true. cbv iota.
  eapply okP_bind.
  { eapply okP_bind.
    { rewrite ret_bind. eapply okP_bind.
      { apply okP_expect, (asc_eval_ct_ok C [mkAddShift true 0 true 0 2] x v Hx). cbn. lia. }
      intros wix H. apply okP_ret. 
      refine ((fun H => H) _ : (fun p => exists w, p = (3, w) /\ _) (3, wix)).
      exists wix. split; [reflexivity|exact H]. }
    intros p [w [-> H]]. rewrite ret_bind. apply okP_ret.
    refine ((fun H => H) _ : (fun p => exists w, p = [(3, w)] /\ _) [(3, w)]).
    exists w. split; [reflexivity|exact H]. }
  intros p [w [-> [H _]]]. cbn [map_get mulary_row mapM]. change (Z.abs 3) with 3. rewrite Z.eqb_refl.
  rewrite ret_bind. change (3 <? 0) with false. rewrite !ret_bind. cbn [length Nat.eqb index nth_error pa_shift].
  apply okP_ret. exact H.
Qed.

(* ------------------------------------------------------------------ *)
(** ** C43: degenerate networks, over any arithmetic *)
Theorem C43_no_layers : forall T (A : arith T) n xs, fst (nn_eval A (mkNN [] n) xs) = Ok [].
Proof. reflexivity. Qed.
Theorem C43_empty_max_pool : forall T (A : arith T) w b,
  fst (max_pool A w [] b) = fst (a_add_const A (a_zero A) b) /\
  forall xs, fst (max_pool A [] xs b) = fst (a_add_const A (a_zero A) b).
Proof.
  intros T A w b. unfold max_pool. split; [|intros xs].
  - replace (combine w (@nil T)) with (@nil (Z * T)) by (destruct w; reflexivity).
    cbn [mapM]. rewrite ret_bind. cbn [length max_pool_recursion]. rewrite ret_bind. reflexivity.
  - cbn [combine mapM]. rewrite ret_bind. cbn [length max_pool_recursion]. rewrite ret_bind. reflexivity.
Qed.
(** documented (neural_network.rs:56, 63): the activation function is signum *)
Theorem C43_signum_refuted : exists p xs r, p_t p = ACT /\
  (forall o, fst (eval_perceptron (arith_i64 o) xs p) = Ok r) /\
  r <> Z.sgn (dot (p_w p) xs + p_b p) /\ r = Z.max 0 (dot (p_w p) xs + p_b p).
Proof.
  exists (mkPerceptron ACT [2; -1] 3), [4; 1], 10. split; auto.
  split; [intros []; reflexivity|]. split; [discriminate|reflexivity].
Qed.
Theorem C43_extra_weights : forall T (A : arith T) t w extra b xs, length w = length xs ->
  eval_perceptron A xs (mkPerceptron t (w ++ extra) b) = eval_perceptron A xs (mkPerceptron t w b).
Proof.
  intros T A t w extra b xs Hl.
  assert (E : combine (w ++ extra) xs = combine w xs).
  { revert w Hl. induction xs as [|x xs IH]; intros [|a w] Hl; try discriminate; cbn [combine app].
    - destruct extra; auto.
    - f_equal. apply IH. cbn in Hl. lia. }
  unfold eval_perceptron, max_pool, affine_pool. cbn [p_t p_w p_b]. rewrite E. reflexivity.
Qed.
Theorem C43_extra_inputs : forall T (A : arith T) t w b xs extra, length w = length xs ->
  eval_perceptron A (xs ++ extra) (mkPerceptron t w b) = eval_perceptron A xs (mkPerceptron t w b).
Proof.
  intros T A t w b xs extra Hl.
  assert (E : combine w (xs ++ extra) = combine w xs).
  { revert w Hl. induction xs as [|x xs IH]; intros [|a w] Hl; try discriminate; cbn [combine app]; auto.
    f_equal. apply IH. cbn in Hl. lia. }
  unfold eval_perceptron, max_pool, affine_pool. cbn [p_t p_w p_b]. rewrite E. reflexivity.
Qed.

(* ------------------------------------------------------------------ *)
(** ** Examples *)
(** the hypotheses on parameters, keys and inputs, on noisy LWE encryptions *)
Example hyp_example : forall o,
  quad_weight (cparams (cloud_100 o)) = 100 /\ bit_precision (cparams (cloud_100 o)) = 5%nat /\
  asc_12 (cloud_100 o) = shipped_asc /\ client_ok (noisy_contract 100) noisy_client /\
  Forall2 (enc_val (noisy_contract 100)) [nenc 13 5; nenc (-6) 4] [13; -6] /\
  chain_wf 1 [mkAddShift true 0 false 0 3; mkAddShift false 1 true 0 1].
Proof.
  intros o. repeat split; try reflexivity; try apply noisy_client_ok; try (cbn; lia).
  repeat constructor; apply nenc_ok; lia.
Qed.
Example C26_example : xdec (pa_scalar_mul (cloud_100 true) 3221 (xenc (-5) 4)) = Ok (-16105) /\
  xdec (pa_scalar_mul (cloud_100 true) (-1000000007) (xenc 3 2)) = Ok (-3000000021) /\
  xdec (pa_scalar_mul (cloud_22 false) 91 (xenc 6 3)) = Ok 546.
Proof. vm_compute. auto. Qed.
(** x * y + relu(3x - y), with x named *)
Definition prog : expr :=
  Let (Sub (Var 0) (AddC (Var 1) 2)) (Expr.Add (Mul (Var 0) (Var 2)) (Relu (Sub (ScMul 3 (Var 0)) (Round (Var 2) 2)))).
Example C27_example_hyp : consts prog /\ fits [13; -6] prog /\ zeval [13; -6] prog = -47 /\
  words 16 [5; 4]%nat prog = Some 58%nat.
Proof. unfold prog. repeat split; try reflexivity; try (vm_compute; intros; discriminate); cbn; lia. Qed.
Example C27_example : xdec (run (arith_ct (cloud_100 false)) [xenc 13 5; xenc (-6) 4] prog) = Ok (-47) /\
  fst (run (arith_i64 true) [13; -6] prog) = Ok (-47).
Proof. vm_compute. auto. Qed.
(** 13 as -1 - 2 + 16, and -6 as the trivial words of 2 - 8 *)
Example C44_example :
  xdec (run (arith_ct (cloud_100 false)) [xencv [-1; -1; 0; 0; 1]; xtriv [0; 1; 0; -1]] prog) = Ok (-47).
Proof. vm_compute. reflexivity. Qed.
Definition net : neural_network :=
  mkNN [[mkPerceptron LIN [3; -2] 5; mkPerceptron ACT [-1; 4] (-7); mkPerceptron MAX [2; 9] 1];
        [mkPerceptron MAX [1; -1; 2] 0; mkPerceptron ACT [5; 1; -1] 100]] 2.
Example C28_example_hyp : nn_consts net /\ layers_spec (nn_layers net) [6; -3] = [29; 232].
Proof. split; [|reflexivity]. repeat constructor; cbn; lia. Qed.
Example C28_example :
  match fst (nn_eval (arith_ct (cloud_100 true)) net [xenc 6 3; xenc (-3) 2]) with
  | Ok zs => map (fun z => xdec (ret z)) zs
  | _ => []
  end = [Ok 29; Ok 232].
Proof. vm_compute. reflexivity. Qed.
Example C41_example : fst (run (arith_i64 true) [-22] (Round (Var 0) 2)) = Ok (-20) /\
  xdec (run (arith_ct (cloud_100 true)) [xenc (-22) 5] (Round (Var 0) 2)) = Ok (-20).
Proof. vm_compute. auto. Qed.

Print Assumptions C24_keys.
Print Assumptions C24_chains.
Print Assumptions C25_chain_homomorphic.
Print Assumptions C26_scalar_mul.
Print Assumptions C26_unchecked.
Print Assumptions C26_decrypts.
Print Assumptions C26_total_checked_refuted.
Print Assumptions C27_expressions.
Print Assumptions C27_decrypts.
Print Assumptions C27_total.
Print Assumptions C44_representations.
Print Assumptions C28_network.
Print Assumptions C28_agrees_with_i64.
Print Assumptions C28_unchecked_total.
Print Assumptions C41_programs_agree.
Print Assumptions C41_i64.
Print Assumptions C41_round.
Print Assumptions C41_round_63_refuted.
Print Assumptions C42_accepts_by_count.
Print Assumptions C42_no_file.
Print Assumptions C42_valid_table_refuted.
Print Assumptions C43_no_layers.
Print Assumptions C43_empty_max_pool.
Print Assumptions C43_signum_refuted.
Print Assumptions C43_extra_weights.
Print Assumptions C43_extra_inputs.
