(** Property C46: the growth of ciphertexts, and the network demo *)
From Verif Require Import Base Backend Words Encryption Params Pbs Addition Signum Maximum
  Multiplication Squaring Rounding Naf Asc AscTable ScalarMul Arith NeuralNetwork DemoNets Demos
  Spec Contract Symbolic BaseProofs EncProofs ScalarProofs AscProofs GrowthProofs ValueProofs Expr Instances
  Properties1 Properties2 Properties4 Properties5.
From Coq Require Import ZifyBool ZifyNat.

(* ------------------------------------------------------------------ *)
(** ** A dry run: the same program on words without content *)
Definition dry : backend :=
  mkBackend unit (fun _ _ => tt) (fun _ _ => tt) (fun _ => tt) (fun _ _ => tt) (fun _ _ => tt) 1.
Definition dry_input (n : nat) : ciphertext dry := repeat (@Ct dry tt) n.

Definition fresh {B} (x : ciphertext B) : Prop := Forall (fun w => is_triv w = false) x.

Lemma fresh_shape : forall B (x : ciphertext B), fresh x -> shape x = shape (dry_input (length x)).
Proof.
  intros B x H. induction H as [|w x Hw H IH]; cbn [length dry_input repeat]; auto.
  unfold shape in *. cbn [map]. rewrite IH. destruct w; [reflexivity|discriminate].
Qed.
Lemma fresh_shapes : forall B (xs : list (ciphertext B)), Forall fresh xs ->
  map shape xs = map shape (map (fun x => dry_input (length x)) xs).
Proof.
  intros B xs H. induction H; cbn [map]; auto. f_equal; auto. apply fresh_shape; auto.
Qed.
Lemma shape_length : forall B1 B2 (x : ciphertext B1) (y : ciphertext B2), shape x = shape y -> length x = length y.
Proof. intros B1 B2 x y H. apply (f_equal (@length _)) in H. unfold shape in H. rewrite !map_length in H. auto. Qed.

Section Dry.
Context {B : backend} {qw : Z} (C : contract B qw).

(** the dry run decides how a program on fresh encryptions ends, and whether
    its result can be decrypted *)
Theorem C46_dry_run_program : forall cl pc e env vs o, client_ok C cl ->
  quad_weight (cparams pc) = qw -> bit_precision (cparams pc) = 5%nat -> asc_12 pc = shipped_asc ->
  consts e -> Forall fresh env -> Forall2 (enc_val C) env vs ->
  match fst (run (arith_ct pc) (map (fun x => dry_input (length x)) env) e) with
  | Ok d => exists z, fst (run (arith_ct pc) env e) = Ok z /\ length z = length d /\
      (enc_val C z (zeval vs e)) /\
      fst (parm_decrypt cl o z) = (if (length d <=? 63)%nat then Ok (zeval vs e) else Err E_too_long)
  | Err x => fst (run (arith_ct pc) env e) = Err x
  | Panic x => fst (run (arith_ct pc) env e) = Panic x
  end.
Proof.
  intros cl pc e env vs o K Hq Hp HT Hc Hf He.
  destruct (C29_oblivious B dry pc e env _ (fresh_shapes B env Hf)) as [_ V].
  pose proof (C27_expressions C pc e env vs Hq Hp HT Hc He) as R.
  set (D := fst (run (@arith_ct dry pc) _ e)) in *. clearbody D.
  destruct (fst (run (arith_ct pc) env e)) as [z|x|x] eqn:E; destruct D as [d|x'|x']; cbn [omap] in V; try discriminate;
    inversion V as [V']; subst; auto.
  exists z. split; auto. split; [eapply shape_length; eauto|]. split; auto.
  rewrite <- (shape_length _ _ _ _ V').
  destruct (Nat.leb_spec (length z) 63).
  - rewrite (decrypt_ok C cl K o z _ R) by lia. reflexivity.
  - destruct R as [dz [R _]]. rewrite (decrypt_long C cl K o z dz R) by lia. reflexivity.
Qed.

Definition decrypted (d : nat) (v : Z) : outcome Z := if (d <=? 63)%nat then Ok v else Err E_too_long.

(** the same for networks *)
Theorem C46_dry_run_network : forall cl pc nn xs vs o, client_ok C cl ->
  quad_weight (cparams pc) = qw -> bit_precision (cparams pc) = 5%nat -> asc_12 pc = shipped_asc ->
  nn_consts nn -> Forall fresh xs -> Forall2 (enc_val C) xs vs ->
  match fst (nn_eval (arith_ct pc) nn (map (fun x => dry_input (length x)) xs)) with
  | Ok ds => exists zs, fst (nn_eval (arith_ct pc) nn xs) = Ok zs /\ map (@length _) zs = map (@length _) ds /\
      Forall2 (enc_val C) zs (layers_spec (nn_layers nn) vs) /\
      map (fun z => fst (parm_decrypt cl o z)) zs =
      map (fun dv => decrypted (length (fst dv)) (snd dv)) (combine ds (layers_spec (nn_layers nn) vs))
  | Err x => fst (nn_eval (arith_ct pc) nn xs) = Err x
  | Panic x => fst (nn_eval (arith_ct pc) nn xs) = Panic x
  end.
Proof.
  intros cl pc nn xs vs o K Hq Hp HT Hc Hf He.
  destruct (C29_network B dry pc nn xs _ (fresh_shapes B xs Hf)) as [_ V].
  pose proof (C28_network C pc nn xs vs Hq Hp HT Hc He) as R.
  set (D := fst (nn_eval (@arith_ct dry pc) nn _)) in *. clearbody D.
  destruct (fst (nn_eval (arith_ct pc) nn xs)) as [zs|x|x] eqn:E; destruct D as [ds|x'|x']; cbn [omap] in V; try discriminate;
    inversion V as [V']; subst; auto.
  exists zs. split; auto.
  assert (L : map (@length _) zs = map (@length _) ds).
  { clear - V'. revert ds V'. induction zs as [|z zs IH]; intros [|d ds] V'; cbn [map] in *; try discriminate; auto.
    inversion V' as [[H1 H2]]. f_equal; [eapply shape_length; eauto|auto]. }
  split; auto. split; auto. clear V V' E.
  revert ds L. induction R as [|z v zs vs' Hz R IH]; intros [|d ds] L; cbn [map combine] in *; try discriminate; auto.
  inversion L as [[L1 L2]]. f_equal; auto. cbn [fst snd]. unfold decrypted. rewrite <- L1.
  destruct (Nat.leb_spec (length z) 63).
  - rewrite (decrypt_ok C cl K o z _ Hz) by lia. reflexivity.
  - destruct Hz as [dz [Hz _]]. rewrite (decrypt_long C cl K o z dz Hz) by lia. reflexivity.
Qed.

End Dry.

(* ------------------------------------------------------------------ *)
(** ** C46: growth *)

(** a ciphertext of at least n words, the last one encrypted *)
Definition at_least_words {B} (n : nat) (x : ciphertext B) : Prop :=
  (n <= length x)%nat /\ is_triv (nth (length x - 1) x triv0) = false.

(** Every addition adds a word: a sum of c > 0 operands of n words has at least
    n + c - 1 words, while n + log2 c would do. *)
Theorem C46_sum : forall B n (xs : list (ciphertext B)) z, xs <> [] ->
  Forall (at_least_words n) xs ->
  fst (foldM (fun acc x => pa_add acc x) xs pa_zero) = Ok z ->
  (n + (length xs - 1) <= length z)%nat.
Proof.
  intros B n xs z Hn H.
  assert (G : forall (xs : list (ciphertext B)) (acc : ciphertext B) c, Forall (at_least_words n) xs ->
     (c = 0%nat /\ acc = [] \/ (0 < c)%nat /\ big (n + (c - 1)) acc) ->
     safeP (foldM (fun acc x => pa_add acc x) xs acc)
       (fun z => (c + length xs)%nat = 0%nat \/ big (n + (c + length xs - 1)) z)).
  { clear. intros xs. induction xs as [|x xs IH]; intros acc c H Ha; cbn [foldM].
    - apply safeP_ret. cbn [length]. rewrite Nat.add_0_r. destruct Ha as [[? _]|[_ ?]]; auto.
    - inversion H as [|? ? Hx Hxs]; subst.
      eapply safeP_bind with (P := big (n + c)).
      + destruct Ha as [[ -> -> ]|[Hc Ha]].
        * intros z E. pose proof (add_zero_l x) as Hz. unfold pa_zero, ct_empty in Hz. rewrite Hz in E.
          inversion E; subst. rewrite Nat.add_0_r. exact Hx.
        * eapply safeP_conseq; [apply (big_add _ n _ _ Ha Hx)|]. intros z Hz. eapply big_weaken; [|exact Hz]. lia.
      + intros s Hs. eapply safeP_conseq; [apply (IH s (S c) Hxs)|].
        * right. split; [lia|]. replace (n + (S c - 1))%nat with (n + c)%nat by lia. auto.
        * cbn [length]. intros z [Hz|Hz]; [lia|]. right. replace (c + S (length xs))%nat with (S c + length xs)%nat by lia. auto. }
  intros E. destruct (G xs pa_zero 0%nat H (or_introl (conj eq_refl eq_refl)) z E) as [Hz|[Hz _]].
  - destruct xs; [congruence|cbn [length] in Hz; lia].
  - cbn [Nat.add] in Hz. auto.
Qed.

(** any network whose word count [layers_growth] exceeds 63 has no output that
    can be decrypted, whatever the backend and the inputs *)
Theorem C46_network_growth : forall B (cl : client B) pc nn (xs : list (ciphertext B)) zs n m o,
  asc_12 pc = shipped_asc -> bit_precision (cparams pc) = 5%nat -> nn_layers nn <> [] ->
  Forall (at_least_words n) xs ->
  layers_growth n (length xs) (nn_layers nn) = Some m ->
  fst (nn_eval (arith_ct pc) nn xs) = Ok zs ->
  Forall (at_least_words m) zs /\ length zs = length (last (nn_layers nn) []) /\
  ((63 < m)%nat -> forall z v, In z zs -> fst (parm_decrypt cl o z) <> Ok v).
Proof.
  intros B cl pc nn xs zs n m o HT Hp Hn Hx G E.
  assert (HT' : table_valid 16 (asc_12 pc)) by (rewrite HT; apply shipped_valid).
  destruct (nn_big n pc 16 nn xs m HT' Hp Hx Hn G zs E) as [H1 H2].
  split; auto. split; auto. intros Hm z v Hz. apply decrypt_long_any.
  rewrite Forall_forall in H1. destruct (H1 z Hz). lia.
Qed.

Lemma mapM_outcomes : forall A R (f : A -> M R) l rs, map (fun a => fst (f a)) l = map Ok rs -> fst (mapM f l) = Ok rs.
Proof.
  intros A R f l. induction l as [|a l IH]; intros [|r rs] H; cbn [map] in H; try discriminate; auto.
  inversion H as [[H1 H2]]. cbn [mapM]. rewrite fst_bind, H1, fst_bind, (IH _ H2). reflexivity.
Qed.
Lemma encrypt_list : forall B qw (C : contract B qw) cl pc (seeds : nat -> nat -> seed cl), client_ok C cl ->
  forall ms s, Forall (fun m => - 2^63 < fst m < 2^63 /\ (snd m <= 63)%nat) ms ->
  exists cs, mapM (fun jm : nat * (Z * nat) => user_encrypt cl pc seeds (fst jm) (fst (snd jm)) (snd (snd jm)))
      (combine (seq s (length ms)) ms) = ret cs /\
    Forall fresh cs /\ map (@length _) cs = map snd ms /\
    Forall2 (enc_val C) cs (map (fun m => Z.sgn (fst m) * (Z.abs (fst m) mod 2 ^ Z.of_nat (snd m))) ms).
Proof.
  intros B qw C cl pc seeds K ms. induction ms as [|[m w] ms IH]; intros s H; cbn [length seq combine mapM map].
  - exists []. repeat split; constructor.
  - inversion H as [|? ? [Hm Hw] H']; subst. cbn [fst snd] in *.
    destruct (encrypt_ok C cl K (ovf pc) (seeds s) m w) as [c [Ec [Lc [Vc Fc]]]]; [unfold I64_MIN, I64_MAX; lia|auto|].
    destruct (IH (S s) H') as [cs [Es [Fs [Ls Vs]]]].
    exists (c :: cs). unfold user_encrypt at 1. rewrite Ec, ret_bind, Es, ret_bind.
    split; auto. split; [constructor; auto|]. split; [cbn [map]; congruence|constructor; auto].
Qed.

Lemma nn_inputs_ok : forall B qw (C : contract B qw) cl pc (seeds : nat -> nat -> seed cl), client_ok C cl ->
  exists cs, mapM (fun jm : nat * Z => user_encrypt cl pc seeds (fst jm) (snd jm) INPUT_BITLEN)
               (combine (seq 0 (length demo_inputs)) demo_inputs) = ret cs /\
    Forall fresh cs /\ map (@length _) cs = repeat 11%nat 16 /\ Forall2 (enc_val C) cs demo_inputs.
Proof.
  intros B qw C cl pc seeds K.
  destruct (encrypt_list B qw C cl pc seeds K (map (fun m => (m, INPUT_BITLEN)) demo_inputs) 0) as [cs [E [F [L V]]]].
  { repeat constructor; cbn; lia. }
  exists cs. split; [exact E|]. auto.
Qed.

Lemma arrhythmia_consts : nn_consts arrhythmia_nn.
Proof. unfold nn_consts. repeat constructor; cbn; lia. Qed.

(** With overflow checks a network can only be evaluated if the recoding of
    every weight of its first layer succeeds. *)
Definition recodes (w : Z) : Prop :=
  Z.abs w <= 1 \/ exists ws, fst (wind_shifts true (Z.abs w) 12) = Ok ws.

Lemma scalar_mul_recodes : forall B pc k (x : ciphertext B), ovf pc = true -> - 2^31 < k < 2^31 ->
  safeP (pa_scalar_mul pc k x) (fun _ => recodes k).
Proof.
  intros B pc k x Ho Hk. unfold pa_scalar_mul. apply safeP_analysed. unfold scalar_mul_impl. rewrite Ho.
  intros z E. rewrite fst_bind in E. unfold chk_i32 in E.
  replace (in_i32 (Z.abs k)) with true in E by (unfold in_i32, I32_MIN, I32_MAX; lia).
  cbn [fst ret] in E. unfold u32 in E. rewrite Z.mod_small in E by lia. unfold recodes.
  destruct (Z.abs k =? 0) eqn:E0; [left; lia|]. destruct (Z.abs k =? 1) eqn:E1; [left; lia|]. right.
  rewrite fst_bind in E. change ASC_BITLEN with 12%nat in E.
  destruct (fst (wind_shifts true (Z.abs k) 12)) as [ws|e|e]; try discriminate. eauto.
Qed.

Lemma safe_foldM_all : forall A S (f : S -> A -> M S) (P : A -> Prop) l s,
  (forall s a, In a l -> safeP (f s a) (fun _ => P a)) -> safeP (foldM f l s) (fun _ => Forall P l).
Proof.
  intros A S f P l. induction l as [|a l IH]; intros s H; cbn [foldM]; [apply safeP_ret; auto|].
  eapply safeP_bind; [apply H; left; auto|]. intros s' Ha.
  eapply safeP_conseq; [apply IH; intros; apply H; right; auto|]. intros z Hz. constructor; auto.
Qed.

Lemma perceptron_recodes : forall B pc p (xs : list (ciphertext B)), ovf pc = true ->
  Forall (fun w => - 2^31 < w < 2^31) (p_w p) ->
  safeP (eval_perceptron (arith_ct pc) xs p) (fun _ => Forall recodes (firstn (length xs) (p_w p))).
Proof.
  intros B pc p xs Ho Hw. rewrite Forall_forall in Hw.
  eapply safeP_conseq with (P := fun _ => Forall (fun wa => recodes (fst wa)) (combine (p_w p) xs));
    [|intros z H; rewrite <- combine_fst_firstn; apply Forall_map; exact H].
  assert (Ha : safeP (affine_pool (arith_ct pc) (p_w p) xs (p_b p))
                (fun _ => Forall (fun wa => recodes (fst wa)) (combine (p_w p) xs))).
  { unfold affine_pool. eapply safeP_bind; [apply safe_foldM_all with (P := fun wa => recodes (fst wa))|].
    - intros s [w a] Hin. cbn [arith_ct a_scalar_mul a_add fst snd].
      eapply safeP_bind; [apply scalar_mul_recodes; auto; apply Hw; eapply in_combine_l; eauto|].
      intros z Hz y _. exact Hz.
    - intros z Hz y _. exact Hz. }
  unfold eval_perceptron. apply safeP_measure. destruct (p_t p); auto.
  - unfold max_pool. eapply safeP_bind.
    + apply (safeP_mapM _ _ _ (fun (wa : Z * ciphertext B) _ => recodes (fst wa))).
      intros [w a] Hin. cbn [arith_ct a_scalar_mul fst snd].
      apply scalar_mul_recodes; auto. apply Hw. eapply in_combine_l; eauto.
    + intros zs Hz y _. clear - Hz. induction Hz; constructor; auto.
  - eapply safeP_bind; [apply Ha|]. intros z Hz y _. exact Hz.
Qed.

Theorem C46_weights_recode : forall B pc nn l ls (xs : list (ciphertext B)) zs, ovf pc = true ->
  nn_layers nn = l :: ls -> Forall (fun p => Forall (fun w => - 2^31 < w < 2^31) (p_w p)) l ->
  fst (nn_eval (arith_ct pc) nn xs) = Ok zs ->
  Forall (fun p => Forall recodes (firstn (length xs) (p_w p))) l.
Proof.
  intros B pc nn l ls xs zs Ho Hl Hw E. unfold nn_eval in E. rewrite Hl in E. revert zs E.
  change (safeP (st <- measure (eval_layers (arith_ct pc) (l :: ls) xs) ;; ret (snd st))
    (fun _ => Forall (fun p => Forall recodes (firstn (length xs) (p_w p))) l)).
  eapply safeP_bind with (P := fun _ => Forall (fun p => Forall recodes (firstn (length xs) (p_w p))) l);
    [|intros z Hz y _; exact Hz].
  apply safeP_measure. unfold eval_layers. cbn [foldM].
  eapply safeP_bind with (P := fun _ => Forall (fun p => Forall recodes (firstn (length xs) (p_w p))) l);
    [|intros z Hz y _; exact Hz].
  apply safeP_measure. cbn [fst].
  eapply safeP_bind.
  - unfold eval_layer. apply (safeP_mapM _ _ _ (fun p _ => Forall recodes (firstn (length xs) (p_w p)))).
    intros p Hp. apply perceptron_recodes; auto. rewrite Forall_forall in Hw. apply Hw, Hp.
  - intros zs Hz y _. clear - Hz. induction Hz; constructor; auto.
Qed.

(** demos.rs:304-439: the second network of the demo never finishes. With
    overflow checks the recoding of a weight panics; without them the outputs
    are computed, are correct, and are too long to be decrypted. *)
Theorem C46_nn_demo_refuted : forall B qw (C : contract B qw) cl pc seeds, client_ok C cl ->
  quad_weight (cparams pc) = qw -> bit_precision (cparams pc) = 5%nat -> asc_12 pc = shipped_asc ->
  fst (nn_demo cl pc seeds) = if ovf pc then Panic P_overflow else Err E_too_long.
Proof.
  intros B qw C cl pc seeds K Hq Hp HT. unfold nn_demo, nn_demo_on.
  destruct (nn_inputs_ok B qw C cl pc seeds K) as [cs [E [F [L V]]]]. rewrite E, ret_bind. clear E.
  pose proof (C28_network C pc arrhythmia_nn cs demo_inputs Hq Hp HT arrhythmia_consts V) as R.
  assert (Lc : length cs = 16%nat) by (apply (f_equal (@length nat)) in L; rewrite map_length in L; exact L).
  rewrite fst_bind. destruct (fst (nn_eval (arith_ct pc) arrhythmia_nn cs)) as [zs|e|e] eqn:Ez;
    [|contradiction|destruct R as [ -> -> ]; reflexivity].
  destruct (ovf pc) eqn:Eo.
  - exfalso.
    pose proof (C46_weights_recode B pc arrhythmia_nn arrhythmia_nn_layer1 _ cs zs Eo eq_refl) as H.
    assert (H' : Forall (fun p => Forall recodes (firstn (length cs) (p_w p))) arrhythmia_nn_layer1).
    { apply H; auto. repeat constructor; cbn; lia. }
    rewrite Lc in H'. rewrite Forall_forall in H'.
    assert (H3 : Forall recodes (firstn 16 (p_w (nth 3 arrhythmia_nn_layer1 (mkPerceptron LIN [] 0))))).
    { apply H'. apply nth_In. cbn. lia. }
    rewrite Forall_forall in H3. specialize (H3 183 ltac:(cbn; tauto)). destruct H3 as [H3|[ws H3]].
    + lia.
    + revert H3. vm_compute. discriminate.
  - destruct (C46_network_growth B cl pc arrhythmia_nn cs zs 11 65 (ovf pc) HT Hp) as [G [Lz _]]; auto.
    { discriminate. }
    { apply Forall_forall. intros c Hc. rewrite Forall_forall in F. specialize (F c Hc).
      assert (Lc' : length c = 11%nat).
      { apply (in_map (@length _)) in Hc. rewrite L in Hc. apply repeat_spec in Hc. auto. }
      split; [lia|]. unfold fresh in F. rewrite Forall_forall in F. apply F, nth_In. lia. }
    { rewrite Lc. vm_compute. reflexivity. }
    rewrite fst_bind.
    assert (I : exists vs, fst (nn_eval (arith_i64 false) arrhythmia_nn demo_inputs) = Ok vs).
    { eexists. vm_compute. reflexivity. }
    destruct I as [vs ->].
    destruct zs as [|z zs]; [discriminate|].
    inversion R as [|? ? ? ? Hz _]; subst. inversion G as [|? ? Gz _]; subst. destruct Gz as [Gz _].
    destruct Hz as [dz [Hz _]]. cbn [mapM]. unfold user_decrypt.
    rewrite (decrypt_long C cl K _ z dz Hz) by lia. reflexivity.
Qed.

(** The first network of the demo, with the parameters of the repository, does
    finish, and gives the expected values. *)
Theorem C46_demo_nn : forall B (C : contract B 100) cl o seeds, client_ok C cl ->
  fst (nn_demo_on cl (cloud_100 o) seeds demo_nn) =
    Ok (let v := layers_spec (nn_layers demo_nn) demo_inputs in combine v v).
Proof.
  intros B C cl o seeds K. unfold nn_demo_on.
  destruct (nn_inputs_ok B 100 C cl (cloud_100 o) seeds K) as [cs [E [F [L V]]]]. rewrite E, ret_bind. clear E.
  pose proof (C46_dry_run_network C cl (cloud_100 o) demo_nn cs demo_inputs o K eq_refl eq_refl eq_refl) as R.
  assert (N : nn_consts demo_nn) by (unfold nn_consts; repeat constructor; cbn; lia).
  specialize (R N F V). clear N.
  assert (D : map (fun x => dry_input (length x)) cs = repeat (dry_input 11) 16).
  { rewrite <- (map_map (@length _) dry_input), L. reflexivity. }
  rewrite D in R. clear D.
  assert (D : exists ds, fst (nn_eval (@arith_ct dry (cloud_100 o)) demo_nn (repeat (dry_input 11) 16)) = Ok ds /\
    map (@length _) ds = [13; 16; 16]%nat) by (destruct o; eexists; split; vm_compute; reflexivity).
  destruct D as [ds [D LD]]. rewrite D in R. clear D. destruct R as [zs [Ez [_ [_ Dz]]]].
  rewrite fst_bind, Ez. 
  assert (I : fst (nn_eval (arith_i64 (ovf (cloud_100 o))) demo_nn demo_inputs) =
     Ok (layers_spec (nn_layers demo_nn) demo_inputs)) by (destruct o; vm_compute; reflexivity).
  rewrite fst_bind, I. clear I. rewrite fst_bind.
  set (v := layers_spec (nn_layers demo_nn) demo_inputs) in *.
  assert (P : fst (mapM (user_decrypt cl (cloud_100 o)) zs) = Ok v).
  { assert (Lv : length v = 3%nat) by (vm_compute; reflexivity). clearbody v. clear - Dz LD Lv.
    destruct v as [|v0 [|v1 [|v2 [|]]]]; try discriminate.
    destruct ds as [|d0 [|d1 [|d2 [|]]]]; try discriminate. cbn [map] in LD.
    assert (L0 : length d0 = 13%nat) by congruence. assert (L1 : length d1 = 16%nat) by congruence.
    assert (L2 : length d2 = 16%nat) by congruence.
    cbn [combine map fst snd] in Dz. rewrite L0, L1, L2 in Dz. unfold decrypted in Dz. cbn [Nat.leb] in Dz.
    destruct zs as [|z0 [|z1 [|z2 [|]]]]; try discriminate. cbn [map] in Dz. inversion Dz as [[D0 D1 D2]].
    apply mapM_outcomes. cbn [map]. unfold user_decrypt. change (ovf (cloud_100 o)) with o. rewrite D0, D1, D2. reflexivity. }
  rewrite P. reflexivity.
Qed.
Example C46_demo_nn_values : layers_spec (nn_layers demo_nn) demo_inputs = [-512; -880; 0].
Proof. reflexivity. Qed.
Print Assumptions C46_dry_run_program.
Print Assumptions C46_dry_run_network.
Print Assumptions C46_sum.
Print Assumptions C46_network_growth.
Print Assumptions C46_weights_recode.
Print Assumptions C46_nn_demo_refuted.
Print Assumptions C46_demo_nn.

Example C46_example_nn_demo : forall o seeds,
  fst (nn_demo noisy_client (cloud_100 o) seeds) = if o then Panic P_overflow else Err E_too_long.
Proof. intros o seeds. exact (C46_nn_demo_refuted _ _ _ _ (cloud_100 o) seeds C01_contract_met eq_refl eq_refl eq_refl). Qed.
Example C46_example_growth : layers_growth 11 16 (nn_layers arrhythmia_nn) = Some 65%nat /\
  layers_growth 11 16 (nn_layers demo_nn) = Some 12%nat.
Proof. split; vm_compute; reflexivity. Qed.
(** five operands of 5 words: 9 words, where 8 hold the sum *)
Example C46_example_sum : xlen (foldM (fun acc x => pa_add acc x) (repeat (xenc 13 5) 5) pa_zero) = 9%nat /\
  xdec (foldM (fun acc x => pa_add acc x) (repeat (xenc 13 5) 5) pa_zero) = Ok 65.
Proof. split; vm_compute; reflexivity. Qed.
(** a dry run that ends well, and one whose result is too long *)
Example C46_example_dry :
  omap (@length _) (fst (run (@arith_ct dry (cloud_100 true)) [dry_input 8; dry_input 5] (Expr.Mul (Var 0) (ScMul 3 (Var 1))))) = Ok 16%nat /\
  omap (@length _) (fst (run (@arith_ct dry (cloud_100 true)) [dry_input 31] (Squ (Var 0)))) = Ok 65%nat /\
  omap (@length _) (fst (run (@arith_ct dry (cloud_100 true)) [dry_input 11] (ScMul 183 (Var 0)))) = Panic P_overflow.
Proof. repeat split; vm_compute; reflexivity. Qed.
(** weights that cannot be recoded with overflow checks, and one that can *)
Example C46_example_recode : ~ recodes 183 /\ recodes 1234 /\ recodes (-1).
Proof.
  split; [|split].
  - intros [H|[ws H]]; [lia|]. revert H. vm_compute. discriminate.
  - right. eexists. vm_compute. reflexivity.
  - left. lia.
Qed.
