(** Call trees: the events of a computation that ends normally (C32, C38) *)
From Verif Require Import Base Misc RelProofs.
From Coq Require Import ZifyBool ZifyNat.

(** bootstraps, analysed operations and measured blocks, in order; each with
    what comes after it *)
Inductive forest : Type :=
| FNil
| FBoot (rest : forest)
| FOp (body rest : forest)
| FMeas (body rest : forest).

Fixpoint flat (f : forest) : list event :=
  match f with
  | FNil => []
  | FBoot r => EPbs :: flat r
  | FOp b r => EStart :: flat b ++ EFinish :: flat r
  | FMeas b r => EEnter :: flat b ++ EExit :: flat r
  end.

(** number of bootstraps *)
Fixpoint boots (f : forest) : nat :=
  match f with
  | FNil => 0
  | FBoot r => S (boots r)
  | FOp b r | FMeas b r => boots b + boots r
  end.
(** bootstraps of every operation, in the order in which they finish *)
Fixpoint op_counts (f : forest) : list nat :=
  match f with
  | FNil => []
  | FBoot r => op_counts r
  | FOp b r => op_counts b ++ boots b :: op_counts r
  | FMeas b r => op_counts b ++ op_counts r
  end.
(** nesting depth of measured blocks *)
Fixpoint nesting (f : forest) : Z :=
  match f with
  | FNil => 0
  | FBoot r => nesting r
  | FOp b r => Z.max (nesting b) (nesting r)
  | FMeas b r => Z.max (1 + nesting b) (nesting r)
  end.
(** level of every measured block, in the order in which they finish *)
Fixpoint block_levels (d : Z) (f : forest) : list Z :=
  match f with
  | FNil => []
  | FBoot r => block_levels d r
  | FOp b r => block_levels d b ++ block_levels d r
  | FMeas b r => block_levels (d + 1) b ++ d :: block_levels d r
  end.

Fixpoint fapp (f g : forest) : forest :=
  match f with
  | FNil => g
  | FBoot r => FBoot (fapp r g)
  | FOp b r => FOp b (fapp r g)
  | FMeas b r => FMeas b (fapp r g)
  end.
Lemma flat_app : forall f g, flat (fapp f g) = flat f ++ flat g.
Proof.
  induction f as [|r IHr|b IHb r IHr|b IHb r IHr]; intros g; cbn; auto; rewrite IHr; auto;
    rewrite <- app_assoc; reflexivity.
Qed.

Lemma counter_run_app : forall s t u, counter_run s (t ++ u) = counter_run (counter_run s t) u.
Proof. intros. unfold counter_run. apply fold_left_app. Qed.
Lemma boots_count : forall f, boots f = length (filter (fun e => match e with EPbs => true | _ => false end) (flat f)).
Proof.
  induction f as [|r IHr|b IHb r IHr|b IHb r IHr]; cbn; auto; rewrite filter_app, app_length; cbn; lia.
Qed.

Definition bump (k : nat) (st : list nat) : list nat :=
  match st with [] => [] | n :: t => (n + k)%nat :: t end.
Lemma bump_0 : forall st, bump 0 st = st.
Proof. intros [|n t]; cbn; auto. f_equal. lia. Qed.
Lemma bump_bump : forall a b st, bump b (bump a st) = bump (a + b) st.
Proof. intros a b [|n t]; cbn; auto. f_equal. lia. Qed.

Lemma counter_forest : forall f st rep,
  counter_run (mkCounter st rep) (flat f) = mkCounter (bump (boots f) st) (rep ++ op_counts f).
Proof.
  induction f as [|r IHr|b IHb r IHr|b IHb r IHr]; intros st rep.
  - cbn. rewrite bump_0, app_nil_r. reflexivity.
  - change (flat (FBoot r)) with ([EPbs] ++ flat r). rewrite counter_run_app.
    replace (counter_run (mkCounter st rep) [EPbs]) with (mkCounter (bump 1 st) rep).
    + rewrite IHr, bump_bump. reflexivity.
    + destruct st; cbn; auto. rewrite Nat.add_1_r. reflexivity.
  - change (flat (FOp b r)) with ([EStart] ++ flat b ++ [EFinish] ++ flat r). rewrite !counter_run_app.
    change (counter_run (mkCounter st rep) [EStart]) with (mkCounter (0%nat :: st) rep).
    rewrite IHb. cbn [bump]. rewrite Nat.add_0_l.
    replace (counter_run (mkCounter (boots b :: st) (rep ++ op_counts b)) [EFinish])
      with (mkCounter (bump (boots b) st) ((rep ++ op_counts b) ++ [boots b])) by (destruct st; reflexivity).
    rewrite IHr, bump_bump. cbn [boots op_counts]. rewrite <- !app_assoc. reflexivity.
  - change (flat (FMeas b r)) with ([EEnter] ++ flat b ++ [EExit] ++ flat r). rewrite !counter_run_app.
    change (counter_run (mkCounter st rep) [EEnter]) with (mkCounter st rep).
    rewrite IHb. change (counter_run ?s [EExit]) with s. rewrite IHr, bump_bump.
    cbn [boots op_counts]. rewrite <- app_assoc. reflexivity.
Qed.

Lemma level_run_app : forall s t u, fold_left level_step (t ++ u) s = fold_left level_step u (fold_left level_step t s).
Proof. intros. apply fold_left_app. Qed.
Lemma nesting_nonneg : forall f, 0 <= nesting f.
Proof. induction f; cbn [nesting]; lia. Qed.
Lemma level_forest : forall f lvl out, 0 <= lvl -> lvl + nesting f <= 255 ->
  fold_left level_step (flat f) (lvl, out) = (lvl, out ++ block_levels lvl f).
Proof.
  induction f as [|r IHr|b IHb r IHr|b IHb r IHr]; intros lvl out H0 H; cbn [nesting] in H.
  - cbn. rewrite app_nil_r. reflexivity.
  - change (flat (FBoot r)) with ([EPbs] ++ flat r). rewrite level_run_app. apply IHr; auto.
  - change (flat (FOp b r)) with ([EStart] ++ flat b ++ [EFinish] ++ flat r). rewrite !level_run_app.
    change (fold_left level_step [EStart] (lvl, out)) with (lvl, out). rewrite IHb by lia.
    change (fold_left level_step [EFinish] ?s) with (level_step s EFinish). cbn [level_step].
    rewrite IHr by lia. cbn [block_levels]. rewrite <- app_assoc. reflexivity.
  - pose proof (nesting_nonneg b).
    change (flat (FMeas b r)) with ([EEnter] ++ flat b ++ [EExit] ++ flat r). rewrite !level_run_app.
    change (fold_left level_step [EEnter] (lvl, out)) with (level_step (lvl, out) EEnter). cbn [level_step].
    replace (lvl <? 255) with true by lia. rewrite IHb by lia.
    change (fold_left level_step [EExit] ?s) with (level_step s EExit). cbn [level_step].
    replace (0 <? lvl + 1) with true by lia. replace (lvl + 1 - 1) with lvl by lia.
    rewrite IHr by lia. cbn [block_levels]. rewrite <- !app_assoc. reflexivity.
Qed.

(** ** Events of computations *)

(** normal end: a forest; otherwise the beginning of one *)
Definition tp_tree : tpred.
Proof.
  refine (mkTpred True (fun b t => if b : bool then exists f, t = flat f
                                   else exists f u, flat f = t ++ u) _ _ _ _ _ _ _ _).
  - intros []; [exists FNil|exists FNil, []]; reflexivity.
  - intros [] t u [f ->].
    + intros [g ->]. exists (fapp f g). rewrite flat_app. reflexivity.
    + intros [g [v H]]. exists (fapp f g), v. rewrite flat_app, H, app_assoc. reflexivity.
  - intros _. exists (FBoot FNil). reflexivity.
  - intros t [f ->]. exists f, []. rewrite app_nil_r. reflexivity.
  - intros t [f ->]. exists (FMeas f FNil). reflexivity.
  - intros t [f [u H]]. exists (FMeas f FNil), (u ++ [EExit]). cbn [flat]. rewrite H. cbn. rewrite <- app_assoc. reflexivity.
  - intros t [f ->]. exists (FOp f FNil). reflexivity.
  - intros t [f [u H]]. exists (FOp f FNil), (u ++ [EFinish]). cbn [flat]. rewrite H. cbn. rewrite <- app_assoc. reflexivity.
Defined.
