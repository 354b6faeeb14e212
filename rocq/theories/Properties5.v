(** Properties C29, C31 (trivial operands) and C33: obliviousness and depth *)
From Verif Require Import Base Backend Words Encryption Params Pbs Addition Signum Maximum
  Multiplication Squaring Rounding Naf Asc AscTable ScalarMul Arith NeuralNetwork
  Spec Symbolic BaseProofs RelProofs DepthProofs Instances Expr.
From Coq Require Import ZifyBool ZifyNat.

(* ------------------------------------------------------------------ *)
(** ** C29 *)

(** What an observer of the server sees: the events, how the computation ends,
    and the public shape of its result. *)
Definition same_view {B1 B2 : backend} (m : M (ciphertext B1)) (m' : M (ciphertext B2)) : Prop :=
  snd m = snd m' /\ omap shape (fst m) = omap shape (fst m').
Definition same_views {B1 B2 : backend} (m : M (list (ciphertext B1))) (m' : M (list (ciphertext B2))) : Prop :=
  snd m = snd m' /\ omap (map shape) (fst m) = omap (map shape) (fst m').

Lemma view_of_rel : forall {B1 B2 : backend} X (m : M (ciphertext B1)) (m' : M (ciphertext B2)),
  mrel X (Forall2 (wrel (fun _ _ => True))) m m' -> same_view m m'.
Proof.
  intros B1 B2 X [[a|e|e] t] [[b|e'|e'] t'] [H1 [H2 _]]; cbn [fst snd] in *; try tauto;
    split; cbn; auto; try congruence. f_equal. apply shape_rel; auto.
Qed.
Lemma views_of_rel : forall {B1 B2 : backend} X (m : M (list (ciphertext B1))) (m' : M (list (ciphertext B2))),
  mrel X (Forall2 (Forall2 (wrel (fun _ _ => True)))) m m' -> same_views m m'.
Proof.
  intros B1 B2 X [[a|e|e] t] [[b|e'|e'] t'] [H1 [H2 _]]; cbn [fst snd] in *; try tauto;
    split; cbn; auto; try congruence. f_equal.
  clear - H1. induction H1 as [|x y a b Hxy Hab IH]; cbn; auto. f_equal; auto. apply shape_rel; auto.
Qed.
Lemma shapes_rel : forall {B1 B2 : backend} (env : list (ciphertext B1)) (env' : list (ciphertext B2)),
  map shape env = map shape env' -> Forall2 (Forall2 (wrel (fun _ _ => True))) env env'.
Proof.
  intros B1 B2 env. induction env as [|x env IH]; intros [|y env'] H; try discriminate; constructor; inversion H; auto.
  apply shape_rel; auto.
Qed.

(** any program: ciphertexts of equal public shape, even of two different
    encryption backends, give the same view *)
Theorem C29_oblivious : forall (B1 B2 : backend) pc e (env : list (ciphertext B1)) (env' : list (ciphertext B2)),
  map shape env = map shape env' ->
  same_view (run (arith_ct pc) env e) (run (arith_ct pc) env' e).
Proof.
  intros B1 B2 pc e env env' H. eapply view_of_rel.
  apply (run_rel (arel_ct (sim_shape B1 B2) (tp_only True) pc (fun _ => I))), shapes_rel, H.
Qed.
(** the operations not in expressions *)
Theorem C29_noisy : forall (B1 B2 : backend) (x y : ciphertext B1) (x' y' : ciphertext B2),
  shape x = shape x' -> shape y = shape y' ->
  same_view (pa_add_noisy x y) (pa_add_noisy x' y') /\ same_view (pa_sub_noisy x y) (pa_sub_noisy x' y').
Proof.
  intros B1 B2 x y x' y' Hx Hy. apply shape_rel in Hx. apply shape_rel in Hy.
  split; eapply view_of_rel; [apply (mr_add_noisy (sim_shape B1 B2) (X := tp_only True) (fun _ => I))|apply (mr_sub_noisy (sim_shape B1 B2) (X := tp_only True) (fun _ => I))]; auto.
Qed.
Theorem C29_network : forall (B1 B2 : backend) pc nn (xs : list (ciphertext B1)) (xs' : list (ciphertext B2)),
  map shape xs = map shape xs' ->
  same_views (nn_eval (arith_ct pc) nn xs) (nn_eval (arith_ct pc) nn xs').
Proof.
  intros B1 B2 pc nn xs xs' H. eapply views_of_rel.
  apply (nn_rel (arel_ct (sim_shape B1 B2) (tp_only True) pc (fun _ => I))), shapes_rel, H.
Qed.
(** a fixed circuit, chosen by the public shape: running the program once on
    symbolic inputs of that shape gives the result on all inputs by substitution *)
Theorem C29_circuit : forall (B : backend) pc e (env : list (ciphertext B)) inp,
  (forall i c, nth_error (flat_map secrets env) i = Some c -> inp i = c) ->
  let circuit := run (arith_ct pc) (sinputs (poly_size B) 0 (map shape env)) e in
  run (arith_ct pc) env e = (omap (map (wmap inp)) (fst circuit), snd circuit).
Proof.
  intros B pc e env inp H circuit.
  assert (HE : Forall2 (Forall2 (wrel (fun (t : ct (sym (poly_size B))) c => c = teval B inp t)))
                 (sinputs (poly_size B) 0 (map shape env)) env).
  { assert (G : forall (l : list (ciphertext (sym (poly_size B)))) (l' : list (ciphertext B)),
      map (map (wmap inp)) l = l' ->
      Forall2 (Forall2 (wrel (fun (t : ct (sym (poly_size B))) c => c = teval B inp t))) l l').
    { intros l l' <-. induction l; constructor; auto. apply circuit_rel. reflexivity. }
    apply G. apply sinputs_ok. intros i c Hi. apply H. exact Hi. }
  destruct (run_rel (arel_ct (sim_circuit B inp) (tp_only True) pc (fun _ => I)) e _ _ HE) as [H1 [H2 _]].
  fold circuit in H1, H2. destruct (run (arith_ct pc) env e) as [o t]. cbn [fst snd] in *. subst t.
  f_equal. destruct (fst circuit) as [z|er|er], o as [z'|er'|er']; try tauto; cbn [omap]; try (rewrite H1; reflexivity).
  apply circuit_rel in H1. rewrite H1. reflexivity.
Qed.

(* ------------------------------------------------------------------ *)
(** ** C31: fully trivial computations *)
Definition trivial {B : backend} (x : ciphertext B) : Prop := Forall (fun w => is_triv w = true) x.
Theorem C31_trivial_programs : forall (B : backend) pc e (env : list (ciphertext B)), Forall trivial env ->
  ~ In EPbs (snd (run (arith_ct pc) env e)) /\
  forall z, fst (run (arith_ct pc) env e) = Ok z -> trivial z.
Proof.
  intros B pc e env H.
  assert (HE : Forall2 (Forall2 (wrel (fun (a b : ct B) => False))) env env).
  { induction H; constructor; auto. apply trivial_rel; auto. }
  destruct (run_rel (arel_ct (sim_trivial B B) (tp_only _) pc (fun H => H)) e _ _ HE) as [H1 [_ H3]]. split.
  - intros Hp. destruct (H3 Hp) as [a [b []]].
  - intros z Ez. rewrite Ez in H1. apply (trivial_of_rel _ _ H1).
Qed.
Theorem C31_trivial_networks : forall (B : backend) pc nn (xs : list (ciphertext B)), Forall trivial xs ->
  ~ In EPbs (snd (nn_eval (arith_ct pc) nn xs)).
Proof.
  intros B pc nn xs H.
  assert (HE : Forall2 (Forall2 (wrel (fun (a b : ct B) => False))) xs xs).
  { induction H; constructor; auto. apply trivial_rel; auto. }
  destruct (nn_rel (arel_ct (sim_trivial B B) (tp_only _) pc (fun H => H)) nn _ _ HE) as [_ [_ H3]].
  intros Hp. destruct (H3 Hp) as [a [b []]].
Qed.

(* ------------------------------------------------------------------ *)
(** ** C33: depth of the circuits *)

(** every word depends on chains of at most [d] bootstraps *)
Definition depth_le {N : nat} (d : nat) (x : ciphertext (sym N)) : Prop :=
  Forall (fun w : word (sym N) => match w with Ct t => (tdepth t <= d)%nat | Triv _ => True end) x.

Theorem C33_add : forall N d (x y z : ciphertext (sym N)), depth_le d x -> depth_le d y ->
  fst (pa_add x y) = Ok z \/ fst (pa_sub x y) = Ok z -> depth_le (d + 2) z.
Proof.
  intros N d x y z Hx Hy [E|E]; replace (d + 2)%nat with (S (S d)) by lia.
  - exact (gr_add (depth_grading N) d x y Hx Hy z E).
  - exact (gr_sub (depth_grading N) d x y Hx Hy z E).
Qed.
(** without refreshing: one *)
Theorem C33_add_noisy : forall N d (x y z : ciphertext (sym N)), depth_le d x -> depth_le d y ->
  fst (pa_add_noisy x y) = Ok z \/ fst (pa_sub_noisy x y) = Ok z -> depth_le (d + 1) z.
Proof.
  intros N d x y z Hx Hy [E|E]; replace (d + 1)%nat with (S d) by lia.
  - exact (allP_analysed _ _ (gr_add_sub (depth_grading N) d true x y false Hx Hy) z E).
  - exact (allP_analysed _ _ (gr_add_sub (depth_grading N) d false x y false Hx Hy) z E).
Qed.
(** one more in the narrow variant of the first round (quad_weight below 85) *)
Definition narrow (pc : cloud) : nat := if 85 <=? quad_weight (cparams pc) then 0 else 1.
Theorem C33_sgn : forall N pc d r (x z : ciphertext (sym N)), depth_le d x -> (length x <= 4 ^ r)%nat ->
  fst (pa_sgn pc x) = Ok z -> depth_le (d + r + narrow pc) z.
Proof.
  intros N pc d r x z Hx Hl E. replace (d + r + narrow pc)%nat with (r + first_depth pc + d)%nat
    by (unfold narrow, first_depth; lia).
  exact (gr_sgn (depth_grading N) r d pc x Hl Hx z E).
Qed.
Theorem C33_max : forall N pc d r (x y z : ciphertext (sym N)), depth_le d x -> depth_le d y ->
  (length x < 4 ^ S r)%nat -> (length y < 4 ^ S r)%nat ->
  fst (pa_max pc x y) = Ok z \/ (x = [] /\ fst (pa_relu pc y) = Ok z) -> depth_le (d + r + 4 + narrow pc) z.
Proof.
  intros N pc d r x y z Hx Hy Hlx Hly E. replace (d + r + 4 + narrow pc)%nat with (r + first_depth pc + 4 + d)%nat
    by (unfold narrow, first_depth; lia).
  assert (Hl : (Nat.max (length x) (length y) + 1 <= 4 ^ S r)%nat) by lia.
  destruct E as [E|[-> E]];
    exact (allP_analysed _ _ (gr_max_impl (depth_grading N) r d pc _ y Hl Hx Hy) z E).
Qed.

(* ------------------------------------------------------------------ *)
(** ** Examples *)

(** depth of a result, on symbolic inputs of n and m encrypted words *)
Definition max_depth {N} (m : M (ciphertext (sym N))) : option nat :=
  match fst m with
  | Ok z => Some (fold_right (fun (w : word (sym N)) d => match w with Ct t => Nat.max (tdepth t) d | Triv _ => d end) 0%nat z)
  | _ => None
  end.
Definition sx n := sinput 32 0 (repeat None n).
Definition sy n := sinput 32 1000 (repeat None n).
(** the bounds of C33 are reached *)
Example C33_example : max_depth (pa_add (sx 20) (sy 17)) = Some 2%nat /\
  max_depth (pa_add_noisy (sx 20) (sy 17)) = Some 1%nat /\
  max_depth (pa_sgn (cloud_100 true) (sx 17)) = Some 3%nat /\
  max_depth (pa_sgn (cloud_22 true) (sx 16)) = Some 3%nat /\
  max_depth (pa_max (cloud_100 true) (sx 15) (sy 15)) = Some 5%nat.
Proof. vm_compute. auto. Qed.
Example C33_example_hyp : depth_le 0 (sx 17) /\ length (sx 17) = 17%nat.
Proof. split; [|reflexivity]. unfold sx. repeat constructor. Qed.

(** equal shapes, different contents and different backends *)
Example C29_example_hyp :
  map shape [xenc 5 4; xtriv [1; 0]] = map shape [xenc (-9) 4; xtriv [1; 0]] /\
  map shape [nenc 5 4] = [[None; None; None; None]] /\ shape (xtriv [1; 0]) = [Some (2^59); Some 0].
Proof. vm_compute. auto. Qed.
Example C29_example_circuit :
  match fst (run (arith_ct (cloud_100 true)) (sinputs 32 0 [[None; Some (2^59)]; [None]]) (Opp (Shift (Var 0) 1))) with
  | Ok z => z = [Triv 0; @Ct (sym 32) (TOpp (TVar 0)); Triv (2^64 - 2^59)]
  | _ => False
  end.
Proof. vm_compute. reflexivity. Qed.
Example C31_trivial_example :
  Forall trivial [xtriv [1; -1; 1]; xtriv [0; 1]] /\
  let m := run (arith_ct (cloud_100 true)) [xtriv [1; -1; 1]; xtriv [0; 1]]
             (Max (Mul (Var 0) (Var 1)) (Squ (ScMul 5 (Var 1)))) in
  xdec m = Ok 100 /\ length (filter (fun e => match e with EPbs => true | _ => false end) (snd m)) = 0%nat.
Proof. split; [repeat constructor|]. vm_compute. auto. Qed.

Print Assumptions C29_oblivious.
Print Assumptions C29_noisy.
Print Assumptions C29_network.
Print Assumptions C29_circuit.
Print Assumptions C31_trivial_programs.
Print Assumptions C31_trivial_networks.
Print Assumptions C33_add.
Print Assumptions C33_add_noisy.
Print Assumptions C33_sgn.
Print Assumptions C33_max.
