(** More about C46 and C49: the values of the second demo network, and what the tests draw *)
From Verif Require Import Base Backend Words Params Encryption Asc AscTable Arith NeuralNetwork DemoNets Demos
  TestSuite Spec Contract Instances RelProofs Properties1 Properties4 Properties9.
From Coq Require Import ZifyBool ZifyNat.

(* ------------------------------------------------------------------ *)
(** ** C46 *)

(** Without overflow checks the sixteen outputs of the second network are computed and
    hold these values, although none of them can be decrypted (C46_nn_demo_refuted). *)
Theorem C46_arrhythmia_values : forall B qw (C : contract B qw) cl pc seeds, client_ok C cl ->
  quad_weight (cparams pc) = qw -> bit_precision (cparams pc) = 5%nat -> asc_12 pc = shipped_asc -> ovf pc = false ->
  exists cs zs,
    mapM (fun jm : nat * Z => user_encrypt cl pc seeds (fst jm) (snd jm) INPUT_BITLEN)
         (combine (seq 0 (length demo_inputs)) demo_inputs) = ret cs /\
    fst (nn_eval (arith_ct pc) arrhythmia_nn cs) = Ok zs /\
    Forall2 (enc_val C) zs
      [6801147614; -8798847304; -22103215591; -32189258624; -17367811549; -20509893669; -3246205617; -23865670009;
       23320419097; 2732607147; 12110134381; -20118895142; -1042836867; -33397813385; 4827398029; 741488686].
Proof.
  intros B qw C cl pc seeds K Hq Hp HT Ho.
  destruct (nn_inputs_ok B qw C cl pc seeds K) as [cs [E [F [L V]]]].
  pose proof (C28_network C pc arrhythmia_nn cs demo_inputs Hq Hp HT arrhythmia_consts V) as R.
  destruct (fst (nn_eval (arith_ct pc) arrhythmia_nn cs)) as [zs|e|e] eqn:Ez.
  - exists cs, zs. split; [exact E|]. split; [exact Ez|].
    match type of R with Forall2 _ _ ?v => let w := eval vm_compute in v in assert (W : v = w) by (vm_compute; reflexivity) end.
    rewrite W in R. exact R.
  - contradiction.
  - destruct R as [R _]. congruence.
Qed.
Print Assumptions C46_arrhythmia_values.
Example C46_example_values : forall seeds, exists cs zs,
  mapM (fun jm : nat * Z => user_encrypt noisy_client (cloud_100 false) seeds (fst jm) (snd jm) INPUT_BITLEN)
       (combine (seq 0 (length demo_inputs)) demo_inputs) = ret cs /\
  fst (nn_eval (arith_ct (cloud_100 false)) arrhythmia_nn cs) = Ok zs /\ length zs = 16%nat.
Proof.
  intros seeds. destruct (C46_arrhythmia_values _ _ _ _ (cloud_100 false) seeds C01_contract_met eq_refl eq_refl eq_refl eq_refl)
    as [cs [zs [E [R V]]]].
  exists cs, zs. split; [exact E|]. split; [exact R|]. exact (F2_length _ _ _ V).
Qed.

(* ------------------------------------------------------------------ *)
(** ** C49: the lengths and scalars that the tests use *)
Theorem C49_lengths : forall n,
  (In n ADD_LENGTHS <-> (n <= 2)%nat \/ n = 15%nat \/ n = 61%nat) /\
  (In n MUL_LENGTHS <-> (n <= 2)%nat \/ n = 8%nat \/ n = 9%nat) /\
  (In n SQU_LENGTHS <-> (n <= 9)%nat).
Proof. intros n. cbn. lia. Qed.
(** no product or square of the tests is long enough for Karatsuba *)
Theorem C49_no_karatsuba : forall n, In n MUL_LENGTHS \/ In n SQU_LENGTHS -> (n < 16)%nat.
Proof. intros n. cbn. lia. Qed.
Theorem C49_fixed_scalars : forall k, In k scm_scalars <-> k = 0 \/ exists e, In e [0; 1; 2; 8] /\ (k = 2 ^ e \/ k = - 2 ^ e).
Proof.
  intros k. cbn [scm_scalars In]. split.
  - intros H. repeat (destruct H as [H|H]; [subst k; try (left; reflexivity); right;
      first [exists 0; cbn; lia | exists 1; cbn; lia | exists 2; cbn; lia | exists 8; cbn; lia]|]). contradiction.
  - intros [H|[e [He H]]]; [lia|]. cbn in He. repeat (destruct He as [He|He]; [subst e; cbn in H; lia|]). contradiction.
Qed.
(** test_squaring.rs:41-50: all vectors of two bits, and those of three with the top bit set *)
Theorem C49_fixed_squares : forall v, In v squ_2_3_vecs <->
  Forall (fun d => d = 0 \/ d = 1) v /\ (length v = 2%nat \/ length v = 3%nat /\ nth 2 v 0 = 1).
Proof.
  intros v. split.
  - intros H. cbn [squ_2_3_vecs In] in H. repeat (destruct H as [<-|H]; [split; [repeat constructor; lia|cbn; auto]|]). destruct H.
  - intros [F L]. destruct v as [|a [|b [|c [|d v]]]]; cbn [length nth] in L; try lia.
    + inversion F as [|? ? Ha F1]; subst. inversion F1 as [|? ? Hb _]; subst.
      destruct Ha as [-> | ->], Hb as [-> | ->]; cbn; auto 10.
    + inversion F as [|? ? Ha F1]; subst. inversion F1 as [|? ? Hb _]; subst. assert (c = 1) by lia. subst c.
      destruct Ha as [-> | ->], Hb as [-> | ->]; cbn; auto 12.
Qed.
Print Assumptions C49_lengths.
Print Assumptions C49_no_karatsuba.
Print Assumptions C49_fixed_scalars.
Print Assumptions C49_fixed_squares.
Example C49_example_lengths : In 61%nat ADD_LENGTHS /\ ~ In 16%nat MUL_LENGTHS /\ In 5%nat SQU_LENGTHS.
Proof. rewrite (proj1 (C49_lengths 61)), (proj1 (proj2 (C49_lengths 16))), (proj2 (proj2 (C49_lengths 5))). lia. Qed.
