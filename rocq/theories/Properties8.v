(** Property C34: quadratic weights *)
From Verif Require Import Base Backend Words Params Pbs Addition Signum Maximum
  Multiplication Squaring Rounding Asc ScalarMul Arith Symbolic Weights
  BaseProofs AddProofs DepthProofs WeightProofs WeightMul Instances.
From Verif Require Import Expr.

(* ------------------------------------------------------------------ *)
(** ** Independent fresh inputs *)

Definition fresh_input (lo hi : nat) {N} (w : word (sym N)) : Prop :=
  match w with Ct (TVar v) => (lo <= v < hi)%nat | Ct _ => False | Triv _ => True end.
Lemma sinput_range : forall N s n, Forall (fresh_input n (n + nsecret s)) (sinput N n s).
Proof.
  intros N. induction s as [|[p|] s IH]; intros n; cbn [sinput]; [constructor| |].
  - constructor; [exact I|]. apply IH.
  - assert (E : nsecret (None :: s) = S (nsecret s)) by reflexivity.
    constructor; [cbn [fresh_input]; rewrite E; lia|]. eapply Forall_impl; [|apply IH].
    intros [[v|u1 u2|u1 u2|u1|u1 u2|u1 u2]|p]; cbn [fresh_input]; auto. rewrite E. lia.
Qed.
Lemma sinput_fresh : forall N s n i, fresh (nth i (sinput N n s) triv0).
Proof.
  intros N s n i. apply Forall_nth_triv; [exact I|]. eapply Forall_impl; [|apply sinput_range].
  intros [[v|u1 u2|u1 u2|u1|u1 u2|u1 u2]|p]; cbn; auto.
Qed.
Lemma sinput_var : forall N s n i a, wcoef (nth i (sinput N n s) triv0) a <> 0 ->
  exists v, a = TVar v /\ (n <= v < n + nsecret s)%nat /\ nth i (sinput N n s) triv0 = @Ct (sym N) (TVar v).
Proof.
  intros N s n i a E. destruct (fresh_coef _ _ (sinput_fresh N s n i) E) as [v [Ev ->]]. exists v. split; auto. split; auto.
  pose proof (Forall_nth_triv (fresh_input n (n + nsecret s)) _ i I (sinput_range N s n)) as R. rewrite Ev in R. exact R.
Qed.
Lemma sinput_pos : forall N s n i j v, nth i (sinput N n s) triv0 = @Ct (sym N) (TVar v) ->
  nth j (sinput N n s) triv0 = @Ct (sym N) (TVar v) -> i = j.
Proof.
  intros N. induction s as [|[p|] s IH]; intros n i j v Ei Ej; cbn [sinput] in *.
  - destruct i; discriminate.
  - destruct i, j; cbn [nth] in *; try discriminate. f_equal. eapply IH; eauto.
  - assert (K : forall i, nth i (sinput N (S n) s) triv0 = @Ct (sym N) (TVar n) -> False).
    { intros k Ek. destruct (sinput_var N s (S n) k (TVar n)) as [w [Ew [L _]]].
      - rewrite Ek. cbn. destruct (term_eq_dec (TVar n) (TVar n)); [lia|congruence].
      - injection Ew as <-. lia. }
    destruct i, j; cbn [nth] in *; auto.
    + injection Ei as <-. destruct (K _ Ej).
    + injection Ej as <-. destruct (K _ Ei).
    + f_equal. eapply IH; eauto.
Qed.
Lemma sinput_separate : forall N s n, separate (fun i => nth i (sinput N n s) triv0).
Proof.
  intros N s n i j NE a. cbv beta. destruct (Z.eq_dec (wcoef (nth i (sinput N n s) triv0) a) 0) as [E|E]; auto.
  destruct (Z.eq_dec (wcoef (nth j (sinput N n s) triv0) a) 0) as [E'|E']; auto.
  destruct (sinput_var _ _ _ _ _ E) as [v [-> [_ Ev]]]. destruct (sinput_var _ _ _ _ _ E') as [w [Ew [_ Ew']]].
  injection Ew as <-. destruct NE. eapply sinput_pos; eauto.
Qed.
Lemma sinputs_pair : forall N sx sy, fresh_pair (sinput N 0 sx) (sinput N (nsecret sx) sy).
Proof.
  intros N sx sy. split; [apply sinput_fresh|]. split; [apply sinput_fresh|].
  split; [apply sinput_separate|]. split; [apply sinput_separate|]. intros i j a.
  destruct (Z.eq_dec (wcoef (nth i (sinput N 0 sx) triv0) a) 0) as [E|E]; auto.
  destruct (Z.eq_dec (wcoef (nth j (sinput N (nsecret sx) sy) triv0) a) 0) as [E'|E']; auto.
  destruct (sinput_var _ _ _ _ _ E) as [v [-> [L _]]]. destruct (sinput_var _ _ _ _ _ E') as [w [Ew [L' _]]].
  injection Ew as <-. lia.
Qed.
Lemma sinput_enc : forall N n m, sinput N m (repeat None n) = @enc_words N n m.
Proof.
  intros N. induction n as [|n IH]; intros m; [reflexivity|]. cbn. f_equal. apply IH.
Qed.
Lemma nsecret_enc : forall n, nsecret (repeat None n) = n.
Proof. unfold nsecret. induction n; cbn; auto. Qed.

(** two inputs of any shapes, encrypted words all different and independent *)
Definition input1 N (sx : list (option Z)) : ciphertext (sym N) := sinput N 0 sx.
Definition input2 N (sx sy : list (option Z)) : ciphertext (sym N) := sinput N (nsecret sx) sy.
(** these are the inputs of the circuits of C29 *)
Lemma inputs_12 : forall N sx sy, sinputs N 0 [sx; sy] = [input1 N sx; input2 N sx sy].
Proof. reflexivity. Qed.

(** whatever circuit the model builds, its bootstraps stay within the setting *)
Definition keeps (pc : cloud) {N} (m : M (ciphertext (sym N))) : Prop :=
  forall z, fst m = Ok z -> within (quad_weight (cparams pc)) z.
Lemma keeps_allP : forall pc N (m : M (ciphertext (sym N))), allP m (Forall (wb (budget pc))) -> keeps pc m.
Proof. intros pc N m H z E. apply within_wb, H, E. Qed.
Lemma keeps_words : forall pc N (m : M (ciphertext (sym N))),
  allP m (fun z => forall i, wb (budget pc) (nth i z triv0) /\ single (nth i z triv0)) -> keeps pc m.
Proof.
  intros pc N m H. apply keeps_allP. eapply allP_conseq; [exact H|]. intros z Hz. apply nth_Forall_triv. intros i. apply Hz.
Qed.

(* ------------------------------------------------------------------ *)
(** ** C34: within every accepted setting *)

Theorem C34_add : forall pc N sx sy, MIN_QUAD_WEIGHT <= quad_weight (cparams pc) ->
  keeps pc (pa_add (input1 N sx) (input2 N sx sy)) /\ keeps pc (pa_sub (input1 N sx) (input2 N sx sy)).
Proof.
  intros pc N sx sy H. split; apply keeps_words, allP_analysed, add_weight; auto; apply fresh_operands, sinputs_pair.
Qed.
Theorem C34_add_const : forall pc N sx k, MIN_QUAD_WEIGHT <= quad_weight (cparams pc) ->
  keeps pc (pa_add_const pc (input1 N sx) k).
Proof.
  intros pc N sx k H. apply keeps_allP, allP_analysed. unfold add_const_impl.
  destruct (k =? 0); [apply allP_ret, nth_Forall_triv; intros i; apply fresh_wb, sinput_fresh|].
  destruct (sinputs_pair N sx []) as [F1 [_ [F3 _]]].
  assert (K : forall y : ciphertext (sym N), (forall i, is_triv (nth i y triv0) = true) -> operands (budget pc) (input1 N sx) y).
  { intros y Hy. apply fresh_operands. assert (T : forall i a, wcoef (nth i y triv0) a = 0).
    { intros i a. specialize (Hy i). destruct (nth i y triv0); [discriminate|reflexivity]. }
    split; [exact F1|]. split; [|split; [exact F3|]; split].
    - intros i. specialize (Hy i). destruct (nth i y triv0); [discriminate|exact I].
    - intros i j _ a. cbv beta. rewrite T. auto.
    - intros i j a. rewrite T. auto. }
  eapply allP_bind with (P := fun _ => True); [intros ? ?; exact I|]. intros ka _. cbv zeta.
  eapply allP_bind with (P := fun ck => Forall (fun w : word (sym N) => is_triv w = true) ck).
  - eapply allP_conseq; [apply allP_mapM with (P := fun w : word (sym N) => is_triv w = true)|intros r Hr; apply Hr].
    intros i _. eapply allP_bind with (P := fun _ => True); [intros ? ?; exact I|]. intros ki _. apply allP_ret. reflexivity.
  - intros ck Hck. apply allP_analysed. eapply allP_conseq; [apply (add_weight (budget pc)); [exact H|]|].
    + apply K. intros i. apply Forall_nth_triv; auto.
    + intros z Hz. apply nth_Forall_triv. intros i. apply Hz.
Qed.
Theorem C34_sgn : forall pc N sx, MIN_QUAD_WEIGHT <= quad_weight (cparams pc) ->
  keeps pc (pa_sgn pc (input1 N sx)).
Proof. intros pc N sx H. apply keeps_allP, sgn_weight; auto. apply fresh_sgn_in; [apply sinput_fresh|apply sinput_separate]. Qed.
Theorem C34_max : forall pc N sx sy, MIN_QUAD_WEIGHT <= quad_weight (cparams pc) ->
  keeps pc (pa_max pc (input1 N sx) (input2 N sx sy)) /\ keeps pc (pa_relu pc (input1 N sx)).
Proof.
  intros pc N sx sy H. split; apply keeps_allP, allP_analysed, max_weight; auto; [apply sinputs_pair|].
  exact (sinputs_pair N [] sx).
Qed.
Theorem C34_round : forall pc N sx pos, MIN_QUAD_WEIGHT <= quad_weight (cparams pc) ->
  keeps pc (pa_round_at pc (input1 N sx) pos).
Proof. intros pc N sx pos H. apply keeps_allP, round_weight; auto; [apply sinput_fresh|apply sinput_separate]. Qed.
Theorem C34_squ : forall pc N sx, MIN_QUAD_WEIGHT <= quad_weight (cparams pc) -> (length sx <= 3)%nat ->
  keeps pc (pa_squ (input1 N sx)).
Proof.
  intros pc N sx H HL. apply keeps_allP. unfold pa_squ. cbn [squ_fuel]. apply allP_analysed, squ_short_weight; auto.
  - assert (L : forall n, length (sinput N n sx) = length sx) by (clear; induction sx as [|[p|] s IH]; intros; cbn; auto).
    unfold input1. rewrite L. auto.
  - apply sinput_fresh.
  - apply sinput_separate.
Qed.
(** products of words: both operands encrypted throughout and equally long, as
    long as the schoolbook algorithm is used *)
Theorem C34_mul : forall pc N n, MIN_QUAD_WEIGHT <= quad_weight (cparams pc) -> (n < 16)%nat \/ n = 17%nat ->
  keeps pc (pa_mul (input1 N (repeat None n)) (input2 N (repeat None n) (repeat None n))).
Proof.
  intros pc N n H Hn. apply keeps_allP. unfold input1, input2. rewrite nsecret_enc, !sinput_enc.
  eapply allP_conseq; [apply pa_mul_weight; auto|]. intros z Hz. eapply Forall_impl; [|exact Hz].
  intros [t|p]; cbn; auto. intros K. eapply Forall_impl; [|exact K]. intros u. apply qle_mono. exact H.
Qed.

(** one word by one word, whichever are encrypted *)
Theorem C34_mul_word : forall pc N o1 o2, MIN_QUAD_WEIGHT <= quad_weight (cparams pc) ->
  keeps pc (pa_mul (input1 N [o1]) (input2 N [o1] [o2])).
Proof.
  intros pc N o1 o2 H. destruct (sinputs_pair N [o1] [o2]) as [F1 [F2 _]]. apply keeps_allP. unfold MIN_QUAD_WEIGHT in H.
  assert (E1 : input1 N [o1] = [nth 0 (input1 N [o1]) triv0]) by (destruct o1; reflexivity).
  assert (E2 : input2 N [o1] [o2] = [nth 0 (input2 N [o1] [o2]) triv0]) by (destruct o2; reflexivity).
  rewrite E1, E2. specialize (F1 0%nat). specialize (F2 0%nat).
  change (sinput N 0 [o1]) with (input1 N [o1]) in F1. change (sinput N (nsecret [o1]) [o2]) with (input2 N [o1] [o2]) in F2.
  revert F1 F2. generalize (nth 0 (input1 N [o1]) triv0) (nth 0 (input2 N [o1] [o2]) triv0). intros x y Fx Fy.
  unfold pa_mul. cbn [length Nat.max mul_fuel]. apply allP_analysed. unfold mul_impl. cbn [length app ct_triv repeat Nat.sub Nat.eqb].
  unfold mul_1word. eapply allP_bind with (P := Forall (Forall (wb (budget pc)))); [|intros m Hm; apply allP_index; auto].
  apply allP_measure. unfold fill_mulary. cbn [length Nat.eqb negb app seq combine].
  eapply allP_conseq; [apply allP_mapM with (P := Forall (wb (budget pc)))|intros r Hr; apply Hr].
  intros [j yj] [E|[]]. injection E as <- <-.
  eapply allP_bind with (P := Forall (wb (budget pc))).
  - eapply allP_conseq; [apply allP_mapM with (P := wb (budget pc))|intros r Hr; apply Hr].
    intros xi [<-|[]]. intros w Ew. assert (K : fst (mul_lwe x y) = Ok w).
    { revert Ew. unfold expect. destruct (mul_lwe x y) as [[a|er|er] t]; cbn; intros; congruence. }
    revert K. apply mul_lwe_weight; [unfold budget; lia|apply fresh_wb|apply fresh_wb|apply fresh_single|apply fresh_single]; auto.
  - intros row Hrow. apply allP_ret. cbn [ct_triv repeat app]. apply Forall_app. split; [exact Hrow|]. repeat constructor.
Qed.

(* ------------------------------------------------------------------ *)
(** ** C34: what exceeds it *)

(** the samples a combination is made of, and its weight on them *)
Fixpoint samples (t : term) : list term :=
  match t with
  | TVar _ | TLut _ _ => [t]
  | TAdd u v => samples u ++ samples v
  | TAddPt u _ | TOpp u | TMul u _ => samples u
  end.
Definition weight (t : term) : Z := sq_sum (coef t) (nodup term_eq_dec (samples t)).
Lemma weight_gt : forall n t, n < weight t -> qgt (coef t) n.
Proof. intros n t H. exists (nodup term_eq_dec (samples t)). split; [apply NoDup_nodup|exact H]. Qed.
(** the heaviest bootstrap behind a result *)
Definition heaviest {N} (m : M (ciphertext (sym N))) : option Z :=
  match fst m with
  | Ok z => Some (fold_right Z.max 0 (map weight (flat_map boot_inputs (secrets z))))
  | _ => None
  end.
Lemma heaviest_beyond : forall n k N (m : M (ciphertext (sym N))), 0 <= n < k -> heaviest m = Some k ->
  exists z, fst m = Ok z /\ beyond n z.
Proof.
  intros n k N m L H. unfold heaviest in H. destruct (fst m) as [z|e|e]; try discriminate. exists z. split; auto.
  injection H as H. assert (K : exists u, In u (flat_map boot_inputs (secrets z)) /\ n < weight u).
  { revert H. generalize (flat_map boot_inputs (secrets z)). intros l H. rewrite <- H in L. clear H k.
    induction l as [|u l IH]; cbn [map fold_right] in L; [lia|].
    destruct (Z_lt_le_dec n (weight u)) as [W|W]; [exists u; cbn; auto|].
    destruct IH as [v [Hv Hw]]; [lia|]. exists v. cbn. auto. }
  destruct K as [u [Hu Hw]]. apply in_flat_map in Hu. destruct Hu as [t [Ht Hu]].
  exists t, u. split; auto. split; auto. apply weight_gt, Hw.
Qed.
Definition word2 : ciphertext (sym 32) := sinput 32 0 [None; None].
Definition word3 : ciphertext (sym 32) := sinput 32 0 [None; None; None].


(** The minimum accepted setting is exactly what is needed: the signum of four
    fresh words reaches 22 at that setting. *)
Theorem C34_minimum_needed : quad_weight (cparams (cloud_22 true)) = MIN_QUAD_WEIGHT /\
  exists z, fst (pa_sgn (cloud_22 true) (input1 32 [None; None; None; None])) = Ok z /\ beyond (MIN_QUAD_WEIGHT - 1) z.
Proof.
  split; [reflexivity|]. apply (heaviest_beyond _ 22); [unfold MIN_QUAD_WEIGHT; lia|]. vm_compute. reflexivity.
Qed.
(** Operands that share samples: x + x reaches 40, 3x reaches 26. *)
Theorem C34_sharing_exceeds :
  (exists z, fst (pa_add word2 word2) = Ok z /\ beyond 39 z) /\
  (exists z, fst (pa_scalar_mul (cloud_22 true) 3 word3) = Ok z /\ beyond 25 z).
Proof.
  split; [apply (heaviest_beyond _ 40)|apply (heaviest_beyond _ 26)]; try lia; vm_compute; reflexivity.
Qed.
(** The shipped setting (100) is not safe either. A fresh bit times a public 15,
    held as a trivial ciphertext, is the same sample in four words; its signum
    weighs (1 + 2 + 4 + 8)^2 = 225. *)
Definition fifteen : ciphertext (sym 32) := repeat (Triv (2 ^ 59)) 4.
Theorem C34_shipped_exceeded : quad_weight (cparams (cloud_100 true)) = 100 /\
  exists z, fst (run (arith_ct (cloud_100 true)) [fifteen; sinput 32 0 [None]] (Sgn (Mul (Var 0) (Var 1)))) = Ok z /\
    beyond 224 z.
Proof.
  split; [reflexivity|]. apply (heaviest_beyond _ 225); [lia|]. vm_compute. reflexivity.
Qed.

(* ------------------------------------------------------------------ *)
(** ** Examples: the circuits exist, and how close they come *)

Definition e n : list (option Z) := repeat None n.
Example C34_example_add : heaviest (pa_add (input1 32 (e 4)) (input2 32 (e 4) [None; Some (2^59); None])) = Some 19 /\
  heaviest (pa_sub (input1 32 (e 3)) (input2 32 (e 3) (e 4))) = Some 20 /\
  heaviest (pa_add_const (cloud_22 true) (input1 32 (e 4)) (-11)) = Some 10.
Proof. vm_compute. auto. Qed.
Example C34_example_sgn : heaviest (pa_sgn (cloud_22 true) (input1 32 (e 5))) = Some 22 /\
  heaviest (pa_sgn (cloud_100 true) (input1 32 (e 5))) = Some 85 /\
  heaviest (pa_max (cloud_22 true) (input1 32 (e 2)) (input2 32 (e 2) (e 2))) = Some 21 /\
  heaviest (pa_relu (cloud_22 true) (input1 32 (e 4))) = Some 22 /\
  heaviest (pa_round_at (cloud_22 true) (input1 32 (e 4)) 3) = Some 18.
Proof. vm_compute. auto. Qed.
Example C34_example_mul : heaviest (pa_mul (input1 32 (e 1)) (input2 32 (e 1) (e 1))) = Some 10 /\
  heaviest (pa_mul (input1 32 (e 3)) (input2 32 (e 3) (e 3))) = Some 20 /\
  heaviest (pa_squ (input1 32 (e 3))) = Some 21.
Proof. vm_compute. auto. Qed.

Print Assumptions C34_add.
Print Assumptions C34_add_const.
Print Assumptions C34_sgn.
Print Assumptions C34_max.
Print Assumptions C34_round.
Print Assumptions C34_squ.
Print Assumptions C34_mul.
Print Assumptions C34_mul_word.
Print Assumptions C34_minimum_needed.
Print Assumptions C34_sharing_exceeds.
Print Assumptions C34_shipped_exceeded.
