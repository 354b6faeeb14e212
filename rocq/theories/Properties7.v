(** Property C30: every interleaving *)
From Verif Require Import Base Backend Words Params Pbs Addition Signum Maximum
  Multiplication Squaring Rounding Asc ScalarMul Arith NeuralNetwork Parallel ParallelOps
  BaseProofs ParallelProofs Instances.
From Verif Require Import Expr.

(* ------------------------------------------------------------------ *)
(** ** What is claimed of a parallel program *)

(** bootstraps in a log of the sequential model *)
Definition boots_in (t : list event) : nat :=
  length (filter (fun e => match e with EPbs => true | _ => false end) t).
(** what the memory cell with the result holds in the end: the value, or that
    the main thread panicked *)
Definition final {B A} (inj : A -> val B) (o : outcome A) : val B :=
  match o with Ok a => inj a | _ => VPanic end.
(** a whole program: [m] with its cells below [[0]], leaving its result in cell [[1]] *)
Definition whole {B A} (c : kind A) (m : P A) : @prog (val B) :=
  m [0%nat] (fun o => Write [1%nat] (put c o) Done).

(** From any memory, whichever thread moves at each step: no schedule goes on
    for ever; none gets stuck before the end; and at the end the result cell
    holds the outcome of the sequential model [r], after as many bootstraps. *)
Definition every_schedule {B A} (c : kind A) (m : P A) (r : M A) : Prop :=
  forall st : @state (val B),
    Acc (fun after before => step before after) (whole c m, st) /\
    (forall now, steps (whole c m, st) now -> exists st', steps now (Done, st')) /\
    (forall now, steps (whole c m, st) now -> (forall later, ~ step now later) -> fst now = Done) /\
    (forall st', steps (whole c m, st) (Done, st') ->
       fst st' [1%nat] = final (inj _ c) (fst r) /\
       (forall a, fst r = Ok a -> snd st' = (snd st + boots_in (snd r))%nat)).

Lemma fine_schedules : forall {B A} (c : kind A) (m : P A) (r : M A), fine m r -> @every_schedule B A c m r.
Proof.
  intros B A c m r H st.
  destruct (H (fun _ => False) (fst st) [0%nat]) as [HR [n [Hn HX]]]; [intros x []|].
  assert (F : rf (fun _ => True) (fun _ => True) (whole c m)).
  { apply HR; auto. intros o. apply rf_write; auto. apply rf_done. }
  destruct (schedules _ _ _ st F) as [W [D N]]. split; [exact W|]. split; [|split].
  - intros now Hs. destruct (N now Hs) as [st' [Hs' _]]. eauto.
  - intros now Hs Stuck. destruct (N now Hs) as [st' [Hs' _]]. inversion Hs'; subst; [reflexivity|].
    exfalso. eapply Stuck. eassumption.
  - intros st' Hs. destruct (D st' Hs) as [E1 E2]. destruct st as [s k].
    destruct (HX (fun o => Write [1%nat] (put c o) Done) s k) as [s' [_ EX]]; [intros x []|].
    change (m [0%nat] (fun o => Write [1%nat] (put c o) Done)) with (whole c m) in EX.
    rewrite EX in E1, E2. cbn [exec fst snd] in E1, E2. split.
    + rewrite <- E1, upd_same. destruct (fst r); reflexivity.
    + intros a Ha. rewrite <- E2, (Hn a Ha). reflexivity.
Qed.

(* ------------------------------------------------------------------ *)
(** ** C30 *)

(** Any program of Parmesan operations, of any size, on any backend. *)
Theorem C30_programs : forall B pc (env : list (ciphertext B)) e,
  every_schedule kct (par_run pc env e) (run (arith_ct pc) env e).
Proof. intros. apply fine_schedules, fine_run. Qed.

(** Any neural network. *)
Theorem C30_networks : forall B pc nn (xs : list (ciphertext B)),
  every_schedule kcts (par_nn pc nn xs) (nn_eval (arith_ct pc) nn xs).
Proof. intros. apply fine_schedules, fine_nn. Qed.

(** The operations one by one. *)
Theorem C30_operations : forall B pc (x y : ciphertext B),
  every_schedule kct (par_add x y) (pa_add x y) /\
  every_schedule kct (par_sub x y) (pa_sub x y) /\
  (forall k, every_schedule kct (par_add_const pc x k) (pa_add_const pc x k)) /\
  every_schedule kct (par_sgn pc x) (pa_sgn pc x) /\
  every_schedule kct (par_max pc x y) (pa_max pc x y) /\
  every_schedule kct (par_relu pc x) (pa_relu pc x) /\
  every_schedule kct (par_mul x y) (pa_mul x y) /\
  every_schedule kct (par_squ x) (pa_squ x) /\
  (forall p, every_schedule kct (par_round pc x p) (pa_round_at pc x p)) /\
  (forall k, every_schedule kct (par_scalar_mul pc k x) (pa_scalar_mul pc k x)).
Proof.
  intros B pc x y.
  split; [intros; apply fine_schedules, fine_add|].
  split; [intros; apply fine_schedules, fine_sub|].
  split; [intros; apply fine_schedules, fine_add_const|].
  split; [intros; apply fine_schedules, fine_sgn|].
  split; [intros; apply fine_schedules, fine_max|].
  split; [intros; apply fine_schedules, fine_relu|].
  split; [intros; apply fine_schedules, fine_mul|].
  split; [intros; apply fine_schedules, fine_squ|].
  split; [intros; apply fine_schedules, fine_round|].
  intros; apply fine_schedules, fine_scalar_mul.
Qed.

(** Why: any program whose concurrent threads do not touch what another one
    writes ends in one memory only, that of the sequential execution. *)
Theorem C30_race_free : forall V (R W : path -> Prop) (p : @prog V) st, rf R W p ->
  Acc (fun after before => step before after) (p, st) /\
  forall st', steps (p, st) (Done, st') -> (forall x, fst st' x = fst (exec p st) x) /\ snd st' = snd (exec p st).
Proof.
  intros V R W p st H. destruct (schedules R W p st H) as [A [D _]]. split; auto.
  intros st' Hs. destruct (D st' Hs) as [E1 E2]. split; auto.
Qed.
(** Without that condition the schedule does matter. *)
Theorem C30_race_matters :
  let p := Par (Write [0%nat] 1 Done) (Write [0%nat] 2 Done) Done in
  let st := (fun _ => 0, 0%nat) in
  exists st1 st2, steps (p, st) (Done, st1) /\ steps (p, st) (Done, st2) /\ fst st1 [0%nat] = 1 /\ fst st2 [0%nat] = 2.
Proof.
  cbv zeta. eexists. eexists. split; [|split].
  - eapply sts_cons; [apply st_right, st_write|]. eapply sts_cons; [apply st_left, st_write|].
    eapply sts_cons; [apply st_join|]. apply sts_nil.
  - eapply sts_cons; [apply st_left, st_write|]. eapply sts_cons; [apply st_right, st_write|].
    eapply sts_cons; [apply st_join|]. apply sts_nil.
  - split; reflexivity.
Qed.

(* ------------------------------------------------------------------ *)
(** ** A scheduler, for examples *)

(** one step; where two threads can move, [b] says which *)
Fixpoint move {V} (b : list bool) (p : @prog V) (st : @state V) : option (@prog V * @state V * list bool) :=
  match p with
  | Done => None
  | Read x k => Some (k (fst st x), st, b)
  | Write x v k => Some (k, (upd_cell x v (fst st), snd st), b)
  | Tick k => Some (k, (fst st, S (snd st)), b)
  | Par p q k =>
      let left_first := hd true b in
      match (if left_first then move (tl b) p st else None) with
      | Some (p', st', b') => Some (Par p' q k, st', b')
      | None =>
        match move (tl b) q st with
        | Some (q', st', b') => Some (Par p q' k, st', b')
        | None =>
          match move (tl b) p st with
          | Some (p', st', b') => Some (Par p' q k, st', b')
          | None => Some (k, st, b)
          end
        end
      end
  end.
Lemma move_done : forall {V} (p : @prog V) b st, move b p st = None -> p = Done.
Proof.
  intros V p. induction p as [|x k IH|x v k IH|k IH|p1 IHp q IHq k IHk]; intros b st H; cbn [move] in H; try discriminate; auto.
  destruct (if hd true b then _ else _) as [[[? ?] ?]|]; try discriminate.
  destruct (move (tl b) q st) as [[[? ?] ?]|]; try discriminate.
  destruct (move (tl b) p1 st) as [[[? ?] ?]|]; discriminate.
Qed.
Lemma move_step : forall {V} (p : @prog V) b st p' st' b', move b p st = Some (p', st', b') -> step (p, st) (p', st').
Proof.
  intros V p. induction p as [|x k IH|x v k IH|k IH|p IHp q IHq k IHk]; intros b [s n] p' st' b' H; cbn [move fst snd] in H.
  - discriminate.
  - injection H as <- <- <-. apply st_read.
  - injection H as <- <- <-. apply st_write.
  - injection H as <- <- <-. apply st_tick.
  - destruct (if hd true b then _ else _) as [[[p1 s1] b1]|] eqn:E1.
    { injection H as <- <- <-. destruct (hd true b); [|discriminate]. apply st_left. eapply IHp, E1. }
    destruct (move (tl b) q (s, n)) as [[[p1 s1] b1]|] eqn:E2.
    { injection H as <- <- <-. apply st_right. eapply IHq, E2. }
    destruct (move (tl b) p (s, n)) as [[[p1 s1] b1]|] eqn:E3.
    { injection H as <- <- <-. apply st_left. eapply IHp, E3. }
    injection H as <- <- <-. apply move_done in E2. apply move_done in E3. subst. apply st_join.
Qed.
(** the whole execution, with the bits [b i] at the i-th step *)
Fixpoint play {V} (fuel i : nat) (b : nat -> list bool) (p : @prog V) (st : @state V) : @prog V * @state V :=
  match fuel with
  | O => (p, st)
  | S f => match move (b i) p st with Some (p', st', _) => play f (S i) b p' st' | None => (p, st) end
  end.
Lemma play_steps : forall {V} fuel i b (p : @prog V) st, steps (p, st) (play fuel i b p st).
Proof.
  intros V fuel. induction fuel as [|fuel IH]; intros i b p st; cbn [play]; [apply sts_nil|].
  destruct (move (b i) p st) as [[[p' st'] b']|] eqn:E; [|apply sts_nil].
  eapply sts_cons; [eapply move_step, E|apply IH].
Qed.

(** Two schedules of the same maximum, 3 - (-2), both complete: the last thread
    first, and one that jumps between the threads at every step. *)
Definition last_first (i : nat) : list bool := repeat false 40.
Definition jumping (i : nat) : list bool := map (fun j => Nat.testbit (i * 37 + i / 3) (j mod 7)) (seq 0 40).
Definition result (c : @prog (val exact) * @state (val exact)) : bool * outcome Z * nat :=
  (match fst c with Done => true | _ => false end,
   match fst (snd c) [1%nat] with VCt a => xdec (ret a) | _ => Panic P_fuel end, snd (snd c)).
Definition ex_start : @state (val exact) := (fun _ => VPanic, 0%nat).
Definition ex_max : @prog (val exact) := whole kct (par_max (cloud_100 true) (xencv [1; 1]) (xencv [0; -1])).
Example C30_example :
  result (play 400 0 last_first ex_max ex_start) = (true, Ok 3, 7%nat) /\
  result (play 400 0 jumping ex_max ex_start) = (true, Ok 3, 7%nat) /\
  (* they do differ on the way *)
  (snd (snd (play 8 0 last_first ex_max ex_start)), snd (snd (play 8 0 jumping ex_max ex_start))) = (1, 2)%nat.
Proof. vm_compute. auto. Qed.
(** A panic in a thread reaches the end under every schedule: a missing chain. *)
Example C30_panic_example :
  let p := whole kct (par_scalar_mul (mkCloud (cparams (cloud_100 true)) [] true) 3 (xencv [1; 1])) in
  match fst (snd (play 400 0 last_first p ex_start)) [1%nat] with VPanic => true | _ => false end = true.
Proof. vm_compute. reflexivity. Qed.

Print Assumptions C30_programs.
Print Assumptions C30_networks.
Print Assumptions C30_operations.
Print Assumptions C30_race_free.
Print Assumptions C30_race_matters.
