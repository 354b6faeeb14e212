(** Property C45: the arithmetic demo *)
From Verif Require Import Base Backend Words Encryption Params Pbs Addition Signum Maximum
  Multiplication Squaring Naf Asc AscTable ScalarMul Arith NeuralNetwork Demos
  Spec Contract Symbolic BaseProofs EncProofs ValueProofs Expr Instances
  Properties1 Properties2 Properties4 Properties5 Properties9.
From Coq Require Import ZifyBool ZifyNat.

(* ------------------------------------------------------------------ *)
(** ** C45: arith_demo *)

(** the values that the demo announces, row by row (demos.rs:199-294); the
    first three messages are encrypted in 28 words and lose their upper bits *)
Definition demo_values : list Z :=
  let x := 2127116731 mod 2^28 in let y := 842952480 mod 2^28 in
  [x + y; y - x; x - 20; -1; Z.max y x;
   1 * -1; 14 * 9; 151 * 186; 57707 * 50849; 128585 * 102899; 1716237926 * 1268599892;
   14 * 14; 151 * 151; 57707 * 57707; 128585 * 128585; 1716237926 * 1716237926;
   -121 * 57707; -128 * 57707; 3 * 57707].
(** the product and the square of 32-word numbers *)
Definition demo_too_long : list nat := [10; 15]%nat.

Lemma mapM_first_err : forall A R (f : A -> M R) n d l e, (n < length l)%nat ->
  (forall i, (i < n)%nat -> exists v, fst (f (nth i l d)) = Ok v) -> fst (f (nth n l d)) = Err e ->
  fst (mapM f l) = Err e.
Proof.
  intros A R f n d. induction n as [|n IH]; intros [|a l] e Hl H1 H2; cbn [length] in Hl; try lia; cbn [mapM].
  - cbn [nth] in H2. rewrite fst_bind, H2. reflexivity.
  - destruct (H1 0%nat ltac:(lia)) as [v Hv]. cbn [nth] in Hv, H2. rewrite fst_bind, Hv, fst_bind.
    rewrite (IH l e); auto; [lia|]. intros i Hi. apply (H1 (S i)). lia.
Qed.

Section Demo.
Context {B : backend} {qw : Z} (C : contract B qw) (cl : client B) (K : client_ok C cl).

Lemma scalar_dry : forall pc k x v n, asc_12 pc = shipped_asc -> - 2^31 <= k < 2^31 ->
  fresh x -> enc_val C x v ->
  (forall par o, match fst (@pa_scalar_mul dry (mkCloud par shipped_asc o) k (dry_input (length x))) with
     | Ok d => length d = n | _ => False end) ->
  exists z, fst (pa_scalar_mul pc k x) = Ok z /\ enc_val C z (k * v) /\ length z = n.
Proof.
  intros pc k x v n HT Hk Hf Hx D. pose proof (C26_scalar_mul C pc k x v HT Hk Hx) as R.
  destruct (C29_oblivious B dry pc (ScMul k (Var 0)) [x] [dry_input (length x)]) as [_ V].
  { cbn [map]. rewrite <- fresh_shape; auto. }
  cbn [run nth arith_ct a_scalar_mul] in V. rewrite !ret_bind in V.
  destruct pc as [par tab o]. cbn [asc_12 ovf] in *. subst tab. specialize (D par o).
  destruct (fst (@pa_scalar_mul dry _ k _)) as [d|e|e]; try contradiction.
  destruct (fst (pa_scalar_mul _ k x)) as [z|e|e]; cbn [omap] in V; try discriminate.
  exists z. split; auto. split; [apply R|]. inversion V as [V']. rewrite (shape_length _ _ _ _ V'). auto.
Qed.

Lemma Forall2_nth3 : forall A V (R : A -> V -> Prop) l m i a v, Forall2 R l m -> (i < length l)%nat -> 
  R (nth i l a) (nth i m v).
Proof. intros A V R l m i a v H Hi. apply Forall2_nth; auto. Qed.

Lemma demo_inputs_ok : forall pc seeds, exists c, demo_encrypt cl pc seeds = ret c /\ length c = 15%nat /\
  forall i, (i < 15)%nat -> fresh (nth i c ct_empty) /\
    length (nth i c ct_empty) = snd (nth i demo_messages (0, 0%nat)) /\
    enc_val C (nth i c ct_empty) (Z.sgn (fst (nth i demo_messages (0, 0%nat))) *
      (Z.abs (fst (nth i demo_messages (0, 0%nat))) mod 2 ^ Z.of_nat (snd (nth i demo_messages (0, 0%nat))))).
Proof.
  intros pc seeds.
  destruct (encrypt_list B qw C cl pc seeds K demo_messages 0) as [c [E [F [L V]]]].
  { repeat constructor; cbn; lia. }
  exists c. split; [exact E|].
  assert (Lc : length c = 15%nat) by (apply (f_equal (@length nat)) in L; rewrite map_length in L; exact L).
  split; auto. intros i Hi. split; [|split].
  - rewrite Forall_forall in F. apply F, nth_In. unfold ciphertext in *. lia.
  - rewrite <- (map_nth snd demo_messages). rewrite <- L.
    change (snd (0, 0%nat)) with (@length (word B) ct_empty). rewrite (map_nth (@length _)). reflexivity.
  - set (f := fun m : Z * nat => Z.sgn (fst m) * (Z.abs (fst m) mod 2 ^ Z.of_nat (snd m))) in *.
    change (enc_val C (nth i c ct_empty) (f (nth i demo_messages (0, 0%nat)))). rewrite <- (map_nth f).
    apply Forall2_nth3; auto. unfold ciphertext in *. lia.
Qed.

(** all nineteen results are right; all can be decrypted but the two of the
    32-word operands *)
Theorem C45_results : forall pc seeds,
  quad_weight (cparams pc) = qw -> bit_precision (cparams pc) = 5%nat -> asc_12 pc = shipped_asc ->
  exists c r, demo_encrypt cl pc seeds = (Ok c, []) /\ fst (demo_eval pc c) = Ok r /\
    Forall2 (enc_val C) r demo_values /\
    forall o i, (i < 19)%nat -> parm_decrypt cl o (nth i r ct_empty) =
      (if existsb (Nat.eqb i) demo_too_long then (Err E_too_long, []) else (Ok (nth i demo_values 0), [])).
Proof.
  intros pc seeds Hq Hp HT. destruct (demo_inputs_ok pc seeds) as [c [E [_ H]]]. exists c.
  assert (I : forall i, (i < 15)%nat -> 
     fresh (nth i c ct_empty) /\ length (nth i c ct_empty) = snd (nth i demo_messages (0, 0%nat)) /\
     enc_val C (nth i c ct_empty) (nth i (map (fun m => Z.sgn (fst m) *
        (Z.abs (fst m) mod 2 ^ Z.of_nat (snd m))) demo_messages) 0)).
  { intros i Hi. destruct (H i Hi) as [H1 [H2 H3]]. split; auto. split; auto.
    do 15 (destruct i; [exact H3|]). lia. }
  clear H. set (g := fun i => nth i c (@ct_empty B)) in *.
  assert (J : forall i w v, (i < 15)%nat -> w = snd (nth i demo_messages (0, 0%nat)) ->
     v = nth i (map (fun m => Z.sgn (fst m) * (Z.abs (fst m) mod 2 ^ Z.of_nat (snd m))) demo_messages) 0 ->
     fresh (g i) /\ length (g i) = w /\ enc_val C (g i) v).
  { intros i w v Hi -> ->. apply I, Hi. }
  clear I.
  set (x := 2127116731 mod 2^28). set (y := 842952480 mod 2^28).
  destruct (J 0%nat 28%nat x) as [F0 [L0 V0]]; try reflexivity; [lia|].
  destruct (J 1%nat 28%nat y) as [F1 [L1 V1]]; try reflexivity; [lia|].
  destruct (J 2%nat 28%nat (- (1143568405 mod 2^28))) as [F2 [L2 V2]]; try reflexivity; [lia|].
  destruct (J 3%nat 1%nat 1) as [F3 [L3 V3]]; try reflexivity; [lia|].
  destruct (J 4%nat 1%nat (-1)) as [F4 [L4 V4]]; try reflexivity; [lia|].
  destruct (J 5%nat 4%nat 14) as [F5 [L5 V5]]; try reflexivity; [lia|].
  destruct (J 6%nat 4%nat 9) as [F6 [L6 V6]]; try reflexivity; [lia|].
  destruct (J 7%nat 8%nat 151) as [F7 [L7 V7]]; try reflexivity; [lia|].
  destruct (J 8%nat 8%nat 186) as [F8 [L8 V8]]; try reflexivity; [lia|].
  destruct (J 9%nat 16%nat 57707) as [F9 [L9 V9]]; try reflexivity; [lia|].
  destruct (J 10%nat 16%nat 50849) as [F10 [L10 V10]]; try reflexivity; [lia|].
  destruct (J 11%nat 17%nat 128585) as [F11 [L11 V11]]; try reflexivity; [lia|].
  destruct (J 12%nat 17%nat 102899) as [F12 [L12 V12]]; try reflexivity; [lia|].
  destruct (J 13%nat 32%nat 1716237926) as [F13 [L13 V13]]; try reflexivity; [lia|].
  destruct (J 14%nat 32%nat 1268599892) as [F14 [L14 V14]]; try reflexivity; [lia|].
  clear J.
  destruct (C10_growth C _ _ _ _ V0 V1) as [r0 [_ [R0 [_ [S0 [_ [T0 _]]]]]]].
  destruct (C10_growth C _ _ _ _ V1 V0) as [_ [r1 [_ [R1 [_ [S1 [_ T1]]]]]]].
  destruct (C13_add_const C pc _ (-20) _ Hp ltac:(lia) V0) as [r2 [R2 [S2 T2]]].
  specialize (T2 5%nat ltac:(cbn; lia)).
  destruct (C14_sgn C pc _ _ Hq V2) as [r3 [R3 [S3 T3]]].
  destruct (C15_max C pc _ _ _ _ Hq V1 V0) as [r4 [R4 [S4 T4]]].
  assert (M : forall a b va vb, (length a <= 31)%nat -> (length b <= 31)%nat -> enc_val C a va -> enc_val C b vb ->
    exists z, fst (pa_mul a b) = Ok z /\ enc_val C z (va * vb) /\ (length z <= 63)%nat).
  { intros a b va vb La Lb Va Vb. destruct (C17_decrypts C cl K true a b va vb La Lb Va Vb) as [z [H1 [H2 _]]].
    destruct (C16_mul C a b va vb ltac:(lia) ltac:(lia) Va Vb) as [z' [H3 H4]].
    rewrite H1 in H3. inversion H3; subst. eauto. }
  assert (Q : forall a va, (length a <= 30)%nat -> enc_val C a va ->
    exists z, fst (pa_squ a) = Ok z /\ enc_val C z (va * va) /\ (length z <= 63)%nat).
  { intros a va La Va. destruct (C18_decrypts C cl K true a va La Va) as [z [H1 [H2 _]]].
    destruct (C18_squ C a va ltac:(lia) Va) as [z' [H3 H4]].
    rewrite H1 in H3. inversion H3; subst. eauto. }
  destruct (M _ _ _ _ ltac:(rewrite L3; lia) ltac:(rewrite L4; lia) V3 V4) as [r5 [R5 [S5 T5]]].
  destruct (M _ _ _ _ ltac:(rewrite L5; lia) ltac:(rewrite L6; lia) V5 V6) as [r6 [R6 [S6 T6]]].
  destruct (M _ _ _ _ ltac:(rewrite L7; lia) ltac:(rewrite L8; lia) V7 V8) as [r7 [R7 [S7 T7]]].
  destruct (M _ _ _ _ ltac:(rewrite L9; lia) ltac:(rewrite L10; lia) V9 V10) as [r8 [R8 [S8 T8]]].
  destruct (M _ _ _ _ ltac:(rewrite L11; lia) ltac:(rewrite L12; lia) V11 V12) as [r9 [R9 [S9 T9]]].
  destruct (C17_mul_32_undecryptable C cl true _ _ _ _ K L13 L14 F13 F14 V13 V14) as [r10 [R10 [S10 [T10 _]]]].
  destruct (Q _ _ ltac:(rewrite L5; lia) V5) as [r11 [R11 [S11 T11]]].
  destruct (Q _ _ ltac:(rewrite L7; lia) V7) as [r12 [R12 [S12 T12]]].
  destruct (Q _ _ ltac:(rewrite L9; lia) V9) as [r13 [R13 [S13 T13]]].
  destruct (Q _ _ ltac:(rewrite L11; lia) V11) as [r14 [R14 [S14 T14]]].
  destruct (C18_squ_31_32_undecryptable C cl true _ _ 68 K (or_intror (conj L13 eq_refl)) F13 V13) as [r15 [R15 [S15 [T15 _]]]].
  destruct (scalar_dry pc (-121) _ _ 25 HT ltac:(lia) F9 V9) as [r16 [R16 [S16 T16]]].
  { rewrite L9. intros par o. destruct o; vm_compute; reflexivity. }
  destruct (scalar_dry pc (-128) _ _ 23 HT ltac:(lia) F9 V9) as [r17 [R17 [S17 T17]]].
  { rewrite L9. intros par o. destruct o; vm_compute; reflexivity. }
  destruct (scalar_dry pc 3 _ _ 18 HT ltac:(lia) F9 V9) as [r18 [R18 [S18 T18]]].
  { rewrite L9. intros par o. destruct o; vm_compute; reflexivity. }
  exists [r0; r1; r2; r3; r4; r5; r6; r7; r8; r9; r10; r11; r12; r13; r14; r15; r16; r17; r18].
  split; [exact E|]. split.
  { unfold demo_eval. cbv zeta. fold (@ct_empty B).
    unfold g in R0, R1, R2, R3, R4, R5, R6, R7, R8, R9, R10, R11, R12, R13, R14, R15, R16, R17, R18.
    rewrite fst_bind, R0. rewrite fst_bind, R1. rewrite fst_bind. unfold DEMO_ADC. rewrite R2.
    rewrite fst_bind, R3. rewrite fst_bind, R4. rewrite fst_bind, R5. rewrite fst_bind, R6. rewrite fst_bind, R7.
    rewrite fst_bind, R8. rewrite fst_bind, R9. rewrite fst_bind, R10. rewrite fst_bind, R11. rewrite fst_bind, R12.
    rewrite fst_bind, R13. rewrite fst_bind, R14. rewrite fst_bind, R15. rewrite fst_bind, R16. rewrite fst_bind, R17.
    rewrite fst_bind, R18. reflexivity. }
  unfold ciphertext in *. fold x y in S0, S1, S2, S4.
  assert (A : Forall2 (enc_val C) [r0; r1; r2; r3; r4; r5; r6; r7; r8; r9; r10; r11; r12; r13; r14; r15; r16; r17; r18] demo_values).
  { unfold demo_values. cbv zeta. fold x y. repeat (apply Forall2_cons; [assumption|]). apply Forall2_nil. }
  split; [exact A|].
  intros o i Hi. pose proof (Forall2_nth3 _ _ _ _ _ i ct_empty 0 A Hi) as Vi.
  destruct (existsb (Nat.eqb i) demo_too_long) eqn:Et.
  - destruct Vi as [ds [Vi _]]. apply (decrypt_long C cl K o _ ds Vi).
    apply existsb_exists in Et. destruct Et as [j [Hj Ej]]. apply Nat.eqb_eq in Ej. subst j.
    destruct Hj as [ <- |[ <- |[]]]; cbn [nth]; lia.
  - apply (decrypt_ok C cl K o); auto.
    clear - Hi Et T0 T1 T2 T3 T4 T5 T6 T7 T8 T9 T11 T12 T13 T14 T16 T17 T18 L0 L1.
    rewrite L0, L1 in *. cbn [Nat.max Nat.add] in *.
    assert (A : Forall (fun r => length r <= 63)%nat [r0; r1; r2; r3; r4; r5; r6; r7; r8; r9]) by (repeat (apply Forall_cons; [lia|]); apply Forall_nil).
    assert (A' : Forall (fun r => length r <= 63)%nat [r11; r12; r13; r14]) by (repeat (apply Forall_cons; [lia|]); apply Forall_nil).
    assert (A'' : Forall (fun r => length r <= 63)%nat [r16; r17; r18]) by (repeat (apply Forall_cons; [lia|]); apply Forall_nil).
    rewrite Forall_forall in A, A', A''.
    do 10 (destruct i; [apply A; cbn; tauto|]). destruct i; [discriminate|].
    do 4 (destruct i; [apply A'; cbn; tauto|]). destruct i; [discriminate|].
    do 3 (destruct i; [apply A''; cbn; tauto|]). cbn [length] in Hi. lia.
Qed.

(** the column of expected values is the announced one, in both profiles *)
Theorem C45_expected : forall pc,
  fst (m <- mapM (demo_taken pc) (map fst (firstn 3 demo_messages)) ;; demo_expected pc m) = Ok demo_values.
Proof. intros [par tab o]. destruct o; vm_compute; reflexivity. Qed.

(** the demo announces nineteen rows and never prints them: decryption of the
    product of the 32-word numbers fails, in every build, for all keys and all
    randomness *)
Theorem C45_demo_refuted : forall pc seeds,
  quad_weight (cparams pc) = qw -> bit_precision (cparams pc) = 5%nat -> asc_12 pc = shipped_asc ->
  fst (arith_demo cl pc seeds) = Err E_too_long.
Proof.
  intros pc seeds Hq Hp HT. destruct (C45_results pc seeds Hq Hp HT) as [c [r [E [R [A D]]]]].
  unfold arith_demo. rewrite E. fold (ret c). rewrite ret_bind, fst_bind.
  assert (T : exists m, fst (mapM (demo_taken pc) (map fst (firstn 3 demo_messages))) = Ok m).
  { destruct pc as [par tab o]. destruct o; eexists; vm_compute; reflexivity. }
  destruct T as [m ->]. rewrite fst_bind, R, fst_bind.
  pose proof (Forall2_len _ _ _ _ _ A) as Lr. change (length demo_values) with 19%nat in Lr.
  assert (X : fst (mapM (user_decrypt cl pc) r) = Err E_too_long).
  { unfold user_decrypt. specialize (D (ovf pc)).
    apply (mapM_first_err _ _ _ 10 ct_empty).
    - unfold ciphertext in *. lia.
    - intros i Hi. rewrite D by lia. do 10 (destruct i; [eexists; reflexivity|]). lia.
    - rewrite D by lia. reflexivity. }
  rewrite X. reflexivity.
Qed.
End Demo.
Print Assumptions C45_results.
Print Assumptions C45_expected.
Print Assumptions C45_demo_refuted.

(** the hypotheses are met by the noisy backend and the shipped parameters *)
Example C45_example : forall o seeds,
  fst (arith_demo noisy_client (cloud_100 o) seeds) = Err E_too_long.
Proof. intros o seeds. exact (C45_demo_refuted _ _ C01_contract_met (cloud_100 o) seeds eq_refl eq_refl eq_refl). Qed.
Example C45_example_values : nth 0 demo_values 0 = 285714651 /\ nth 10 demo_values 0 = 2177219247569903992 /\
  nth 15 demo_values 0 < 2^63.
Proof. vm_compute. auto. Qed.
