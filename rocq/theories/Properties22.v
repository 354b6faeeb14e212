(** Property C61: the settings at which every program stays within its noise budget *)
From Verif Require Import Base Backend Words Params Pbs Addition Signum Maximum
  Multiplication Squaring Rounding Asc ScalarMul Arith Expr NeuralNetwork Symbolic Weights.
From Verif Require Import BaseProofs DepthProofs WeightProofs WeightMul WeightAll Properties8 Instances.

(* ------------------------------------------------------------------ *)
(** ** Inputs: any shapes; public words are digits -1, 0, 1 *)

(** [Some p] is a public word: the encoding of a digit *)
Definition public_digit (o : option Z) : Prop :=
  match o with None => True | Some p => exists d, -1 <= d <= 1 /\ p = (d * 2 ^ 59) mod 2 ^ 64 end.
Definition digit_shapes (ss : list (list (option Z))) : Prop := Forall (Forall public_digit) ss.

Lemma sinput_fine : forall N n s k, Forall public_digit s -> Forall (fine n) (sinput N k s).
Proof.
  intros N n s k H. revert k. induction H as [|[p|] s H1 H2 IH]; intros k; cbn [sinput]; constructor; auto.
  - destruct H1 as [d [Hd ->]]. split; [exact I|]. split; [exact (@single_triv0 N)|].
    assert (d = -1 \/ d = 0 \/ d = 1) as [ -> |[ -> | -> ]] by lia; cbv; auto.
  - split; [constructor|]. split; [|exact I]. apply (qle_ext (ind (TVar k))); [reflexivity|apply qle_ind].
Qed.
Lemma sinputs_fine : forall N n ss k, digit_shapes ss -> Forall (Forall (fine n)) (sinputs N k ss).
Proof.
  intros N n ss k H. revert k. induction H as [|s ss H1 H2 IH]; intros k; cbn [sinputs]; constructor; auto using sinput_fine.
Qed.
Lemma fines_within : forall N n (z : ciphertext (sym N)), Forall (fine n) z -> within n z.
Proof. intros N n z H. apply within_wb. eapply Forall_impl; [|exact H]. intros w Hw. apply Hw. Qed.

(* ------------------------------------------------------------------ *)
(** ** Enough *)

(** every program: all operations, any reuse of intermediate results, any table of chains *)
Theorem C61_programs : forall pc N ss e, bit_precision (cparams pc) = 5%nat ->
  65 <= quad_weight (cparams pc) <= 84 \/ 225 <= quad_weight (cparams pc) -> digit_shapes ss ->
  keeps pc (run (arith_ct pc) (sinputs N 0 ss) e).
Proof.
  intros pc N ss e Hb HS Hs z Ez. apply fines_within.
  exact (run_kept (fine_kept N pc HS Hb) e _ (sinputs_fine N (budget pc) ss 0 Hs) z Ez).
Qed.
(** every network, with any weights and biases *)
Theorem C61_networks : forall pc N ss nn zs z, bit_precision (cparams pc) = 5%nat ->
  65 <= quad_weight (cparams pc) <= 84 \/ 225 <= quad_weight (cparams pc) -> digit_shapes ss ->
  fst (nn_eval (arith_ct pc) nn (sinputs N 0 ss)) = Ok zs -> In z zs -> within (quad_weight (cparams pc)) z.
Proof.
  intros pc N ss nn zs z Hb HS Hs Ez Hz. apply fines_within.
  pose proof (nn_kept (fine_kept N pc HS Hb) nn _ (sinputs_fine N (budget pc) ss 0 Hs) zs Ez) as K.
  rewrite Forall_forall in K. apply K, Hz.
Qed.

(* ------------------------------------------------------------------ *)
(** ** Needed *)

Lemma beyond_mono : forall n m N (z : ciphertext (sym N)), n <= m -> beyond m z -> beyond n z.
Proof.
  intros n m N z L (t & u & Ht & Hu & l & Hl & Hs). exists t, u. split; auto. split; auto. exists l. split; auto. lia.
Qed.
Lemma beyond_within : forall n N (z : ciphertext (sym N)), beyond n z -> within n z -> False.
Proof.
  intros n N z (t & u & Ht & Hu & l & Hl & Hs) H. specialize (H t u Ht Hu l Hl). lia.
Qed.

(** a fresh bit, and a public 15 *)
Definition bit_fifteen : list (list (option Z)) := [repeat (Some (2 ^ 59)) 4; [None]].
Lemma bit_fifteen_ok : digit_shapes bit_fifteen.
Proof.
  unfold digit_shapes, bit_fifteen. repeat constructor; exists 1; split; [lia|reflexivity|lia|reflexivity|lia|reflexivity|lia|reflexivity].
Qed.
(** 15 b + 15 b: the carry of each word sees 3 (b + b) + (b + b) *)
Definition doubled : expr := Let (Mul (Var 0) (Var 1)) (Add (Var 0) (Var 0)).
(** max (b, b) for a fresh word b: 6 b + 2 b + the sign *)
Definition max_same : expr := Max (Var 0) (Var 0).
(** sgn (15 b): 8 b + 4 b + 2 b + b *)
Definition sign_15 : expr := Sgn (Mul (Var 0) (Var 1)).

Lemma doubled_64 : forall pc, heaviest (run (arith_ct pc) (sinputs 32 0 bit_fifteen) doubled) = Some 64.
Proof. intros pc. vm_compute. reflexivity. Qed.
Lemma max_same_65 : forall pc, 41 <= quad_weight (cparams pc) ->
  heaviest (run (arith_ct pc) (sinputs 32 0 [[None]]) max_same) = Some 65.
Proof.
  intros pc H. cbn [run max_same nth sinputs sinput arith_ct a_max a_zero]. unfold pa_max, max_impl, max_word.
  replace (41 <=? quad_weight (cparams pc)) with true by (symmetry; apply Z.leb_le; lia).
  vm_compute. reflexivity.
Qed.
(** the signum looks at the cloud only to compare the setting with 85 *)
Lemma mapM_ext : forall {S T} (f g : S -> M T) l, (forall a, f a = g a) -> mapM f l = mapM g l.
Proof. intros S T f g l H. induction l as [|a l IH]; cbn [mapM]; [reflexivity|]. rewrite H, IH. reflexivity. Qed.
Lemma sgn_setting : forall {B} pc pc' (x : ciphertext B), 85 <= quad_weight (cparams pc) -> 85 <= quad_weight (cparams pc') ->
  pa_sgn pc x = pa_sgn pc' x.
Proof.
  intros B pc pc' x H H'.
  assert (G : forall (y : ciphertext B) j, sgn_first_group pc y j = sgn_first_group pc' y j).
  { intros y j. unfold sgn_first_group.
    replace (85 <=? quad_weight (cparams pc)) with true by (symmetry; apply Z.leb_le; auto).
    replace (85 <=? quad_weight (cparams pc')) with true by (symmetry; apply Z.leb_le; auto). reflexivity. }
  assert (R : forall fuel (y : ciphertext B) b, sgn_recursion_fuel fuel pc y b = sgn_recursion_fuel fuel pc' y b).
  { induction fuel as [|f IH]; intros y b; cbn [sgn_recursion_fuel]; [reflexivity|].
    destruct (_ =? 0)%nat; [reflexivity|]. destruct (_ =? 1)%nat; [reflexivity|]. f_equal.
    rewrite (mapM_ext _ (fun j => if b then sgn_first_group pc' y j else sgn_next_group y j)).
    - destruct (mapM _ _) as [[c|er|er] t]; cbn [bind]; try reflexivity. rewrite IH. reflexivity.
    - intros j. destruct b; auto. }
  unfold pa_sgn, sgn_impl, sgn_recursion_raw. rewrite R. reflexivity.
Qed.
Lemma sign_15_225 : forall pc, 85 <= quad_weight (cparams pc) ->
  heaviest (run (arith_ct pc) (sinputs 32 0 bit_fifteen) sign_15) = Some 225.
Proof.
  intros pc H.
  assert (E : run (@arith_ct (sym 32) pc) (sinputs 32 0 bit_fifteen) sign_15 =
              run (arith_ct (cloud_100 true)) (sinputs 32 0 bit_fifteen) sign_15).
  { unfold sign_15. cbn [run arith_ct a_sgn a_mul a_zero].
    match goal with |- bind ?m _ = bind ?m _ => destruct m as [[c|er|er] t] end; cbn [bind]; try reflexivity.
    rewrite (sgn_setting pc (cloud_100 true)) by (auto; cbn; lia). reflexivity. }
  rewrite E. vm_compute. reflexivity.
Qed.

(** a program, over digit inputs, with a bootstrap beyond the setting *)
Definition exceeded (pc : cloud) : Prop :=
  exists ss e z, digit_shapes ss /\ fst (run (arith_ct pc) (sinputs 32 0 ss) e) = Ok z /\
    beyond (quad_weight (cparams pc)) z.
Theorem C61_exceeded : forall pc, quad_weight (cparams pc) <= 64 \/ 85 <= quad_weight (cparams pc) <= 224 ->
  exceeded pc.
Proof.
  intros pc H. unfold exceeded.
  assert (C : quad_weight (cparams pc) <= 63 \/ quad_weight (cparams pc) = 64 \/ 85 <= quad_weight (cparams pc) <= 224) by lia.
  destruct C as [C|[C|C]].
  - destruct (heaviest_beyond 63 64 32 _ ltac:(lia) (doubled_64 pc)) as [z [Ez Hz]].
    exists bit_fifteen, doubled, z. split; [apply bit_fifteen_ok|]. split; auto. eapply beyond_mono; [|exact Hz]. lia.
  - destruct (heaviest_beyond 64 65 32 _ ltac:(lia) (max_same_65 pc ltac:(lia))) as [z [Ez Hz]].
    exists [[None]], max_same, z. split; [repeat constructor|]. split; auto. rewrite C. exact Hz.
  - destruct (heaviest_beyond 224 225 32 _ ltac:(lia) (sign_15_225 pc ltac:(lia))) as [z [Ez Hz]].
    exists bit_fifteen, sign_15, z. split; [apply bit_fifteen_ok|]. split; auto. eapply beyond_mono; [|exact Hz]. lia.
Qed.

(** Together: exactly these settings keep every program within the budget. *)
Theorem C61_exactly : forall pc, bit_precision (cparams pc) = 5%nat ->
  ((forall N ss e z, digit_shapes ss -> fst (run (arith_ct pc) (sinputs N 0 ss) e) = Ok z ->
      within (quad_weight (cparams pc)) z) <->
   65 <= quad_weight (cparams pc) <= 84 \/ 225 <= quad_weight (cparams pc)).
Proof.
  intros pc Hb. split.
  - intros H.
    assert (D : quad_weight (cparams pc) <= 64 \/ 85 <= quad_weight (cparams pc) <= 224 \/
                (65 <= quad_weight (cparams pc) <= 84 \/ 225 <= quad_weight (cparams pc))) by lia.
    destruct D as [D|[D|D]]; auto; exfalso;
      (destruct (C61_exceeded pc ltac:(lia)) as (ss & e & z & Hs & Ez & Hz); exact (beyond_within _ _ _ Hz (H _ _ _ _ Hs Ez))).
  - intros HS N ss e z Hs Ez. eapply C61_programs; eauto.
Qed.
(** The minimum that is accepted (22) and the shipped setting (100) are not among
    them; the shipped parameters with 84 are. *)
Definition cloud_84 (o : bool) : cloud :=
  let p := cparams (cloud_100 o) in
  mkCloud (mkParams (concrete_pars p) (bit_precision p) 84) (asc_12 (cloud_100 o)) o.
Theorem C61_shipped : forall o,
  exceeded (cloud_100 o) /\ exceeded (cloud_22 o) /\
  forall N ss e, digit_shapes ss -> keeps (cloud_84 o) (run (arith_ct (cloud_84 o)) (sinputs N 0 ss) e).
Proof.
  intros o. split; [apply C61_exceeded; cbn; lia|]. split; [apply C61_exceeded; cbn; lia|].
  intros N ss e Hs. apply C61_programs; auto. cbn. lia.
Qed.

(* ------------------------------------------------------------------ *)
(** ** Examples *)

(** a program that reuses its inputs and mixes in public words: what it weighs *)
Definition mixed : expr :=
  Let (Mul (Var 0) (Var 1)) (Let (Sub (Var 0) (Var 2)) (Add (Var 0) (Relu (Var 1)))).
Example C61_example_mixed : digit_shapes [[Some (2 ^ 59); Some (31 * 2 ^ 59)]; [None]] /\
  heaviest (run (arith_ct (cloud_84 true)) (sinputs 32 0 [[Some (2 ^ 59); Some (31 * 2 ^ 59)]; [None]]) mixed) = Some 37.
Proof.
  split; [|vm_compute; reflexivity]. repeat constructor; [exists 1|exists (-1)]; split; try lia; reflexivity.
Qed.
Example C61_example_net : exists zs, fst (nn_eval (arith_ct (cloud_84 true))
    (mkNN [[mkPerceptron ACT [2; -1] 1; mkPerceptron MAX [1; 0] 0]] 2) (sinputs 32 0 [[None]; [None]])) = Ok zs /\
  map (fun z : ciphertext (sym 32) => heaviest (ret z)) zs = [Some 37; Some 5].
Proof. eexists. split; [vm_compute; reflexivity|]. vm_compute. reflexivity. Qed.
(** the three witnesses at a setting of each kind *)
Example C61_example_witnesses :
  heaviest (run (arith_ct (cloud_22 true)) (sinputs 32 0 bit_fifteen) doubled) = Some 64 /\
  heaviest (run (arith_ct (cloud_84 true)) (sinputs 32 0 [[None]]) max_same) = Some 65 /\
  heaviest (run (arith_ct (cloud_84 true)) (sinputs 32 0 bit_fifteen) sign_15) = Some 50 /\
  heaviest (run (arith_ct (cloud_100 true)) (sinputs 32 0 bit_fifteen) sign_15) = Some 225.
Proof. vm_compute. repeat split. Qed.

Print Assumptions C61_programs.
Print Assumptions C61_networks.
Print Assumptions C61_exceeded.
Print Assumptions C61_exactly.
Print Assumptions C61_shipped.
