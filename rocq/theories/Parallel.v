(** Parallel programs over a shared memory: every interleaving of the steps *)
From Verif Require Import Base.

(** A memory cell: the call, task and variable it belongs to. Variables of a
    thread that no other thread can see need no cell. *)
Definition path : Type := list nat.
Definition path_eqb (x y : path) : bool := if list_eq_dec Nat.eq_dec x y then true else false.
(** all cells below [p] *)
Definition under (p x : path) : Prop := exists t, x = p ++ t.

Section Par.
Context {V : Type}.

(** What a thread does next: stop; read or write one cell; bootstrap;
    or run two threads and wait for both (thread::scope with spawn, rayon's
    par_iter), then go on. A read continues with the value found. *)
Inductive prog : Type :=
| Done
| Read (x : path) (k : V -> prog)
| Write (x : path) (v : V) (k : prog)
| Tick (k : prog)
| Par (p q k : prog).

(** memory, and the number of bootstraps so far *)
Definition state : Type := ((path -> V) * nat)%type.
Definition upd_cell (x : path) (v : V) (s : path -> V) : path -> V :=
  fun y => if path_eqb x y then v else s y.

(** One step of any thread that can take one. *)
Inductive step : prog * state -> prog * state -> Prop :=
| st_read : forall x k s n, step (Read x k, (s, n)) (k (s x), (s, n))
| st_write : forall x v k s n, step (Write x v k, (s, n)) (k, (upd_cell x v s, n))
| st_tick : forall k s n, step (Tick k, (s, n)) (k, (s, S n))
| st_left : forall p p' q k st st', step (p, st) (p', st') -> step (Par p q k, st) (Par p' q k, st')
| st_right : forall p q q' k st st', step (q, st) (q', st') -> step (Par p q k, st) (Par p q' k, st')
| st_join : forall k st, step (Par Done Done k, st) (k, st).
(** an execution under some schedule *)
Inductive steps : prog * state -> prog * state -> Prop :=
| sts_nil : forall c, steps c c
| sts_cons : forall c c' c'', step c c' -> steps c' c'' -> steps c c''.

(** Sequential execution (feature seq_analyze, seq_utils/thread.rs:6-10,
    thread_scope.rs:6-8): spawned closures run at once, in order. *)
Fixpoint exec (p : prog) (st : state) : state :=
  match p with
  | Done => st
  | Read x k => exec (k (fst st x)) st
  | Write x v k => exec k (upd_cell x v (fst st), snd st)
  | Tick k => exec k (fst st, S (snd st))
  | Par p q k => exec k (exec q (exec p st))
  end.

(** Race freedom: the program reads only in R and writes only in W, and threads
    that run at the same time do not write what the other reads or writes. *)
Inductive rf : (path -> Prop) -> (path -> Prop) -> prog -> Prop :=
| rf_done : forall R W, rf R W Done
| rf_read : forall (R W : path -> Prop) x k, R x -> (forall v, rf R W (k v)) -> rf R W (Read x k)
| rf_write : forall (R W : path -> Prop) x v k, W x -> rf R W k -> rf R W (Write x v k)
| rf_tick : forall R W k, rf R W k -> rf R W (Tick k)
| rf_par : forall (R W R1 W1 R2 W2 : path -> Prop) p q k,
    rf R1 W1 p -> rf R2 W2 q -> rf R W k ->
    (forall x, R1 x -> R x) -> (forall x, R2 x -> R x) -> (forall x, W1 x -> W x) -> (forall x, W2 x -> W x) ->
    (forall x, W1 x -> ~ R2 x) -> (forall x, W1 x -> ~ W2 x) -> (forall x, W2 x -> ~ R1 x) ->
    rf R W (Par p q k).

(** same memory, same count *)
Definition same (a b : state) : Prop := (forall x, fst a x = fst b x) /\ snd a = snd b.

(* ------------------------------------------------------------------ *)
(** ** Sequential execution of race-free programs *)

Lemma path_eqb_refl : forall x, path_eqb x x = true.
Proof. intros x. unfold path_eqb. destruct (list_eq_dec _ x x); congruence. Qed.
Lemma path_eqb_neq : forall x y, x <> y -> path_eqb x y = false.
Proof. intros x y H. unfold path_eqb. destruct (list_eq_dec _ x y); congruence. Qed.
Lemma upd_same : forall x v s, upd_cell x v s x = v.
Proof. intros. unfold upd_cell. rewrite path_eqb_refl. reflexivity. Qed.
Lemma upd_other : forall x v s y, x <> y -> upd_cell x v s y = s y.
Proof. intros. unfold upd_cell. rewrite path_eqb_neq; auto. Qed.

Lemma same_refl : forall a, same a a.
Proof. split; auto. Qed.
Lemma same_sym : forall a b, same a b -> same b a.
Proof. intros a b [H1 H2]. split; auto. Qed.
Lemma same_trans : forall a b c, same a b -> same b c -> same a c.
Proof. intros a b c [H1 H2] [H3 H4]. split; [|congruence]. intros x. rewrite H1. apply H3. Qed.

Lemma exec_frame : forall R W p, rf R W p -> forall st x, ~ W x -> fst (exec p st) x = fst st x.
Proof.
  induction 1 as [R W|R W x k Hx Hk IH|R W x v k Hx Hk IH|R W k Hk IH
                 |R W R1 W1 R2 W2 p q k Hp IHp Hq IHq Hk IHk H1 H2 H3 H4 H5 H6 H7]; intros st y HW; cbn [exec]; auto.
  - rewrite IH by auto. cbn [fst]. apply upd_other. intros ->. auto.
  - rewrite IH by auto. reflexivity.
  - rewrite IHk, IHq, IHp; auto.
Qed.
Lemma exec_local : forall R W p, rf R W p -> forall st st', (forall x, R x -> fst st x = fst st' x) -> snd st = snd st' ->
  snd (exec p st) = snd (exec p st') /\
  forall x, fst st x = fst st' x -> fst (exec p st) x = fst (exec p st') x.
Proof.
  induction 1 as [R W|R W x k Hx Hk IH|R W x v k Hx Hk IH|R W k Hk IH
                 |R W R1 W1 R2 W2 p q k Hp IHp Hq IHq Hk IHk H1 H2 H3 H4 H5 H6 H7]; intros st st' HR Hn; cbn [exec].
  - auto.
  - rewrite (HR x Hx). apply IH; auto.
  - destruct (IH (upd_cell x v (fst st), snd st) (upd_cell x v (fst st'), snd st')) as [G1 G2]; auto.
    + intros y Hy. cbn [fst]. unfold upd_cell. destruct (path_eqb x y); auto.
    + split; auto. intros y Hy. apply G2. cbn [fst]. unfold upd_cell. destruct (path_eqb x y); auto.
  - apply (IH (fst st, S (snd st)) (fst st', S (snd st'))); cbn; auto.
  - destruct (IHp st st') as [P1 P2]; auto.
    destruct (IHq (exec p st) (exec p st')) as [Q1 Q2]; auto.
    destruct (IHk (exec q (exec p st)) (exec q (exec p st'))) as [K1 K2]; auto.
Qed.
Lemma exec_same : forall R W p, rf R W p -> forall st st', same st st' -> same (exec p st) (exec p st').
Proof. intros R W p H st st' [H1 H2]. destruct (exec_local R W p H st st') as [G1 G2]; auto. split; auto. Qed.

(** what a step does to the state *)
Inductive act : Type := ANone | AWrite (x : path) (v : V) | ATick.
Definition apply_act (a : act) (st : state) : state :=
  match a with
  | ANone => st
  | AWrite x v => (upd_cell x v (fst st), snd st)
  | ATick => (fst st, S (snd st))
  end.
Definition act_in (W : path -> Prop) (a : act) : Prop :=
  match a with AWrite x _ => W x | _ => True end.
Lemma apply_act_same : forall a st st', same st st' -> same (apply_act a st) (apply_act a st').
Proof.
  intros [|x v|] st st' [H1 H2]; split; cbn; auto.
  intros y. unfold upd_cell. destruct (path_eqb x y); auto.
Qed.
Lemma apply_act_other : forall (W : path -> Prop) a st y, act_in W a -> ~ W y -> fst (apply_act a st) y = fst st y.
Proof. intros W [|x v|] st y H1 H2; cbn in *; auto. apply upd_other. intros ->. auto. Qed.

Lemma step_act : forall R W p, rf R W p -> forall p' st st', step (p, st) (p', st') ->
  rf R W p' /\ exists a, act_in W a /\ st' = apply_act a st /\
  forall t, (forall x, R x -> fst st x = fst t x) -> step (p, t) (p', apply_act a t).
Proof.
  induction 1 as [R W|R W x k Hx Hk IH|R W x v k Hx Hk IH|R W k Hk IH
                 |R W R1 W1 R2 W2 p q k Hp IHp Hq IHq Hk IHk H1 H2 H3 H4 H5 H6 H7]; intros p' st st' S.
  - inversion S.
  - inversion S; subst. split; auto. exists ANone. repeat split; auto. intros [t m] Ht. cbn in *. rewrite Ht by auto. constructor.
  - inversion S; subst. split; auto. exists (AWrite x v). repeat split; auto. intros [t m] Ht. constructor.
  - inversion S; subst. split; auto. exists ATick. repeat split; auto. intros [t m] Ht. constructor.
  - inversion S; subst.
    + destruct (IHp _ _ _ H0) as [G1 [a [Ga [Gs Gt]]]]. split; [econstructor; eauto|].
      exists a. split; [destruct a; cbn in *; auto|]. split; auto. intros t Ht. constructor. auto.
    + destruct (IHq _ _ _ H0) as [G1 [a [Ga [Gs Gt]]]]. split; [econstructor; eauto|].
      exists a. split; [destruct a; cbn in *; auto|]. split; auto. intros t Ht. constructor. auto.
    + split; auto. exists ANone. repeat split; auto. intros t Ht. constructor.
Qed.

Lemma exec_act : forall R W p, rf R W p -> forall (W' : path -> Prop) a st, act_in W' a ->
  (forall x, W' x -> ~ R x) -> (forall x, W' x -> ~ W x) ->
  same (exec p (apply_act a st)) (apply_act a (exec p st)).
Proof.
  induction 1 as [R W|R W x k Hx Hk IH|R W x v k Hx Hk IH|R W k Hk IH
                 |R W R1 W1 R2 W2 p q k Hp IHp Hq IHq Hk IHk H1 H2 H3 H4 H5 H6 H7]; intros W' a st Ha D1 D2; cbn [exec].
  - apply same_refl.
  - assert (N : ~ W' x) by firstorder. rewrite (apply_act_other W' a st x Ha N).
    apply IH with (W' := W'); auto.
  - eapply same_trans; [|apply IH with (W' := W'); auto].
    eapply exec_same; [exact Hk|]. destruct a as [|y u|]; try apply same_refl.
    split; auto. intros z. cbn in *. unfold upd_cell. destruct (path_eqb x z) eqn:E1; auto.
    destruct (path_eqb y z) eqn:E2; auto. exfalso.
    unfold path_eqb in *. destruct (list_eq_dec _ x z); [|discriminate]. destruct (list_eq_dec _ y z); [|discriminate].
    subst. eapply D2; eauto.
  - eapply same_trans; [|apply IH with (W' := W'); auto].
    eapply exec_same; [exact Hk|]. destruct a as [|y u|]; apply same_refl.
  - eapply same_trans; [|apply IHk with (W' := W'); auto].
    eapply exec_same; [exact Hk|].
    eapply same_trans; [|apply IHq with (W' := W'); auto].
    + eapply exec_same; [exact Hq|]. apply IHp with (W' := W'); auto.
      * intros x Hx H. exact (D1 x Hx (H1 x H)).
      * intros x Hx H. exact (D2 x Hx (H3 x H)).
    + intros x Hx H. exact (D1 x Hx (H2 x H)).
    + intros x Hx H. exact (D2 x Hx (H4 x H)).
Qed.

(** a step of any thread does not change the sequential result *)
Lemma step_exec : forall R W p, rf R W p -> forall p' st st', step (p, st) (p', st') -> same (exec p st) (exec p' st').
Proof.
  induction 1 as [R W|R W x k Hx Hk IH|R W x v k Hx Hk IH|R W k Hk IH
                 |R W R1 W1 R2 W2 p q k Hp IHp Hq IHq Hk IHk H1 H2 H3 H4 H5 H6 H7]; intros p' st st' S;
    inversion S; subst; try apply same_refl; cbn [exec]; (eapply exec_same; [exact Hk|]).
  - eapply exec_same; [exact Hq|]. apply IHp; auto.
  - destruct (step_act _ _ _ Hq _ _ _ H0) as [Hq' [a [Ga [-> Gt]]]].
    assert (T : step (q, exec p st) (q', apply_act a (exec p st))).
    { apply Gt. intros x Hx. symmetry. eapply exec_frame; [exact Hp|]. intros HW. exact (H5 x HW Hx). }
    eapply same_trans; [apply (IHq _ _ _ T)|]. eapply exec_same; [exact Hq'|].
    apply same_sym. eapply exec_act; [exact Hp|exact Ga|auto|].
    intros x Hx Hy. exact (H6 x Hy Hx).
Qed.

(* ------------------------------------------------------------------ *)
(** ** Termination *)

(** programs one step further, whatever the memory *)
Inductive next : prog -> prog -> Prop :=
| nx_read : forall x k v, next (k v) (Read x k)
| nx_write : forall x v k, next k (Write x v k)
| nx_tick : forall k, next k (Tick k)
| nx_left : forall p p' q k, next p' p -> next (Par p' q k) (Par p q k)
| nx_right : forall p q q' k, next q' q -> next (Par p q' k) (Par p q k)
| nx_join : forall k, next k (Par Done Done k).
Lemma step_next : forall c c', step c c' -> next (fst c') (fst c).
Proof. induction 1; cbn in *; constructor; auto. Qed.

Lemma next_wf : forall p, Acc next p.
Proof.
  induction p as [|x k IH|x v k IH|k IH|p IHp q IHq k IHk].
  - constructor. intros p H. inversion H.
  - constructor. intros p H. inversion H; subst. auto.
  - constructor. intros p H. inversion H; subst. auto.
  - constructor. intros p H. inversion H; subst. auto.
  - revert q IHq. induction IHp as [p Hp IHp]. intros q IHq. induction IHq as [q Hq IHq].
    constructor. intros r H. inversion H; subst.
    + apply IHp; auto. constructor. exact Hq.
    + apply IHq; auto.
    + exact IHk.
Qed.
Lemma step_wf : forall c, Acc (fun a b => step b a) c.
Proof.
  intros [p st]. revert st. induction (next_wf p) as [p Hp IH]. intros st.
  constructor. intros [p' st'] H. apply IH. apply (step_next _ _ H).
Qed.

Lemma progress : forall p st, p <> Done -> exists c, step (p, st) c.
Proof.
  induction p as [|x k IH|x v k IH|k IH|p IHp q IHq k IHk]; intros [s n] H; try (eexists; constructor; fail).
  - tauto.
  - destruct p as [| | | |].
    2-5: destruct (IHp (s, n)) as [[p' st'] S]; [discriminate|]; eexists; apply st_left; exact S.
    destruct q as [| | | |].
    2-5: destruct (IHq (s, n)) as [[q' st'] S]; [discriminate|]; eexists; apply st_right; exact S.
    eexists. apply st_join.
Qed.

(* ------------------------------------------------------------------ *)
(** ** Every schedule *)

Lemma steps_exec : forall R W c c', steps c c' -> rf R W (fst c) ->
  rf R W (fst c') /\ same (exec (fst c) (snd c)) (exec (fst c') (snd c')).
Proof.
  induction 1 as [c|[p st] [p' st'] c'' S Ss IH]; intros H; [split; auto; apply same_refl|].
  destruct (step_act _ _ _ H _ _ _ S) as [H' _]. destruct (IH H') as [G1 G2]. split; auto.
  eapply same_trans; [|exact G2]. eapply step_exec; eauto.
Qed.

(** from any point of any execution, the end is reached, and it is the
    sequential one *)
Lemma schedules : forall R W p st, rf R W p ->
  Acc (fun a b => step b a) (p, st) /\
  (forall st', steps (p, st) (Done, st') -> same (exec p st) st') /\
  (forall c, steps (p, st) c -> exists st', steps c (Done, st') /\ same (exec p st) st').
Proof.
  intros R W p st H. split; [apply step_wf|]. split.
  - intros st' Hs. apply (steps_exec R W _ _ Hs H).
  - intros c Hs. destruct (steps_exec R W _ _ Hs H) as [Hc E]. cbn [fst snd] in E.
    clear Hs H. revert Hc E. induction (step_wf c) as [[q t] _ IH]. cbn [fst snd]. intros Hc E.
    assert (D : q = Done \/ q <> Done) by (destruct q; [left; reflexivity|right; discriminate..]).
    destruct D as [-> | D]; [exists t; split; [constructor|exact E]|].
    destruct (progress q t D) as [[q' t'] S].
    destruct (step_act _ _ _ Hc _ _ _ S) as [Hq' _].
    destruct (IH (q', t') S Hq') as [st' [G1 G2]].
    { eapply same_trans; [exact E|]. eapply step_exec; eauto. }
    exists st'. split; auto. econstructor; eauto.
Qed.
End Par.
Arguments prog V : clear implicits.
Arguments state V : clear implicits.
