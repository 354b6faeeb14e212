(** Properties C54 and C55: the log level and the log file when measured blocks
    run in several threads *)
From Verif Require Import Base Misc LogConcurrent BaseProofs TraceProofs.
From Coq Require Import ZifyBool ZifyNat Permutation.

(* ------------------------------------------------------------------ *)
(** ** C54: the level *)

(** one thread: the accesses amount to what C38 is about *)
Lemma one_event : forall o lvl out e rest r, 0 <= lvl <= 255 ->
  exists n r', (n <= length (accesses e))%nat /\
    level_sched o (mkLevels lvl out false [(accesses e ++ rest, r)]) (repeat 0%nat n) =
      mkLevels (fst (level_step (lvl, out) e)) (snd (level_step (lvl, out) e)) false [(rest, r')] /\
    0 <= fst (level_step (lvl, out) e) <= 255.
Proof.
  intros o lvl out e rest r H. destruct e; try (exists 0%nat, r; cbn; repeat split; lia).
  - cbn [accesses level_step fst snd app length]. destruct (lvl <? 255) eqn:E.
    + exists 3%nat. eexists. split; [lia|]. split; [|lia]. unfold level_sched.
      cbn [repeat fold_left level_turn threads nth_error lv noted panicked set_nth]. rewrite E.
      cbn [fold_left level_turn threads nth_error lv noted panicked set_nth].
      replace ((lvl + 1 <? 0) || (255 <? lvl + 1)) with false by lia. rewrite andb_false_r.
      rewrite Z.mod_small by lia. reflexivity.
    + exists 1%nat. eexists. split; [lia|]. split; [|lia]. unfold level_sched.
      cbn [repeat fold_left level_turn threads nth_error lv noted panicked set_nth]. rewrite E. reflexivity.
  - cbn [accesses level_step fst snd app length]. destruct (0 <? lvl) eqn:E.
    + exists 4%nat. eexists. split; [lia|]. split; [|lia]. unfold level_sched.
      cbn [repeat fold_left level_turn threads nth_error lv noted panicked set_nth]. rewrite E.
      cbn [fold_left level_turn threads nth_error lv noted panicked set_nth].
      replace ((lvl - 1 <? 0) || (255 <? lvl - 1)) with false by lia. rewrite andb_false_r.
      rewrite Z.mod_small by lia. reflexivity.
    + exists 2%nat. eexists. split; [lia|]. split; [|lia]. unfold level_sched.
      cbn [repeat fold_left level_turn threads nth_error lv noted panicked set_nth]. rewrite E. reflexivity.
Qed.
Lemma idle : forall o n lvl out r, level_sched o (mkLevels lvl out false [([], r)]) (repeat 0%nat n) = mkLevels lvl out false [([], r)].
Proof. intros o. induction n; intros lvl out r; auto. apply IHn. Qed.
Lemma one_thread : forall o t lvl out r, 0 <= lvl <= 255 ->
  exists n0, (n0 <= length (flat_map accesses t))%nat /\ exists r',
    level_sched o (mkLevels lvl out false [(flat_map accesses t, r)]) (repeat 0%nat n0) =
      mkLevels (fst (fold_left level_step t (lvl, out))) (snd (fold_left level_step t (lvl, out))) false [([], r')].
Proof.
  intros o. induction t as [|e t IH]; intros lvl out r H; cbn [flat_map fold_left].
  - exists 0%nat. split; [auto|]. exists r. reflexivity.
  - destruct (one_event o lvl out e (flat_map accesses t) r H) as [n [r1 [Hn [E Hr]]]].
    destruct (level_step (lvl, out) e) as [lvl' out'] eqn:Es. cbn [fst snd] in *.
    destruct (IH lvl' out' r1 Hr) as [n1 [Hn1 [r2 E2]]].
    exists (n + n1)%nat. split; [rewrite app_length; lia|]. exists r2.
    unfold level_sched in *. rewrite repeat_app, fold_left_app, E. exact E2.
Qed.
Theorem C54_one_thread : forall o lvl t n, 0 <= lvl <= 255 -> (length (flat_map accesses t) <= n)%nat ->
  let s := level_sched o (level_start lvl [t]) (repeat 0%nat n) in
  (lv s, noted s) = level_run lvl t /\ panicked s = false /\ level_done s = true.
Proof.
  intros o lvl t n H Hn s. destruct (one_thread o t lvl [] 0 H) as [n0 [Hn0 [r' E]]].
  assert (Es : s = mkLevels (fst (level_run lvl t)) (snd (level_run lvl t)) false [([], r')]).
  { unfold s, level_start, thread_of. cbn [map]. replace n with (n0 + (n - n0))%nat by lia.
    unfold level_sched, level_run in *. rewrite repeat_app, fold_left_app.
    etransitivity; [apply f_equal; exact E|apply idle]. }
  rewrite Es. cbn [lv noted panicked]. split; [destruct (level_run lvl t); reflexivity|]. split; reflexivity.
Qed.

(** *** Updates that are not interrupted *)

(** a schedule of whole updates [ws] (thread numbers), as one of accesses *)
Fixpoint expand (ts : list (list event)) (ws : list nat) : list nat :=
  match ws with
  | [] => []
  | i :: ws =>
      match nth_error ts i with
      | Some (e :: t) => repeat i (length (accesses e)) ++ expand (set_nth ts i t) ws
      | _ => expand ts ws
      end
  end.

(** blocks that are open before the events [t] of a thread whose blocks all end *)
Fixpoint still_open (t : list event) : Z :=
  match t with
  | [] => 0
  | EEnter :: t => still_open t - 1
  | EExit :: t => still_open t + 1
  | _ :: t => still_open t
  end.
(** [t] can follow when [n] blocks are open and at most [b] will ever be *)
Fixpoint nested_ok (b : Z) (t : list event) : Prop :=
  0 <= still_open t <= b /\ match t with [] => True | _ :: t => nested_ok b t end.

Lemma still_open_app : forall t u, still_open (t ++ u) = still_open t + still_open u.
Proof. induction t as [|e t IH]; intros u; [reflexivity|]. destruct e; cbn [app still_open]; rewrite IH; lia. Qed.
Lemma still_open_flat : forall f, still_open (flat f) = 0.
Proof.
  induction f as [|r IHr|b IHb r IHr|b IHb r IHr]; cbn [flat still_open]; auto;
    rewrite still_open_app; cbn [still_open]; lia.
Qed.
Lemma nested_app : forall b c t u, nested_ok b t -> nested_ok c u -> b + still_open u <= c -> 0 <= still_open u ->
  nested_ok c (t ++ u).
Proof.
  intros b c. induction t as [|e t IH]; intros u H1 H2 Hc H0; cbn [app]; auto.
  cbn [nested_ok] in *. destruct H1 as [H1 H3]. split; [|apply IH; auto].
  change (e :: t ++ u) with ((e :: t) ++ u). rewrite still_open_app. lia.
Qed.
Lemma nested_le : forall b c t, b <= c -> nested_ok b t -> nested_ok c t.
Proof. intros b c. induction t as [|e t IH]; intros H [H1 H2]; cbn [nested_ok] in *; split; auto; lia. Qed.
Lemma nested_flat_ok : forall f, nested_ok (nesting f) (flat f).
Proof.
  induction f as [|r IHr|b IHb r IHr|b IHb r IHr]; cbn [flat nesting].
  - cbn. lia.
  - cbn [nested_ok still_open]. rewrite still_open_flat. pose proof (nesting_nonneg r). split; [lia|auto].
  - pose proof (nesting_nonneg b). pose proof (nesting_nonneg r). cbn [nested_ok still_open].
    rewrite still_open_app, still_open_flat. cbn [still_open]. rewrite still_open_flat. split; [lia|].
    apply (nested_app (nesting b)); auto; cbn [nested_ok still_open]; rewrite ?still_open_flat; try lia.
    split; [lia|]. apply (nested_le (nesting r)); auto; lia.
  - pose proof (nesting_nonneg b). pose proof (nesting_nonneg r). cbn [nested_ok still_open].
    rewrite still_open_app, still_open_flat. cbn [still_open]. rewrite still_open_flat. split; [lia|].
    apply (nested_app (nesting b)); auto; cbn [nested_ok still_open]; rewrite ?still_open_flat; try lia.
    split; [lia|]. apply (nested_le (nesting r)); auto; lia.
Qed.

(** sums over the threads *)
Definition sumz (l : list Z) : Z := fold_right Z.add 0 l.
Lemma sumz_set : forall (l : list (list event)) i t t' (g : list event -> Z), nth_error l i = Some t ->
  sumz (map g (set_nth l i t')) = sumz (map g l) - g t + g t'.
Proof.
  induction l as [|h l IH]; intros i t t' g H; destruct i; cbn in H; try discriminate.
  - inversion H; subst. cbn. lia.
  - cbn [set_nth map sumz fold_right]. change (fold_right Z.add 0) with sumz. rewrite (IH i t t' g H). lia.
Qed.
Lemma set_nth_F2 : forall A B (R : A -> B -> Prop) l m i a b, Forall2 R l m -> R a b ->
  Forall2 R (set_nth l i a) (set_nth m i b).
Proof.
  intros A B R l m i a b H. revert i. induction H as [|x y l m Hxy H IH]; intros i Hab; cbn [set_nth]; [constructor|].
  destruct i; constructor; auto.
Qed.
Lemma F2_nth_l : forall A B (R : A -> B -> Prop) l m i b, Forall2 R l m -> nth_error m i = Some b ->
  exists a, nth_error l i = Some a /\ R a b.
Proof.
  intros A B R l m i b H. revert i. induction H as [|x y l m Hxy H IH]; intros i E; destruct i; cbn in *; try discriminate.
  - inversion E; subst. eauto.
  - auto.
Qed.

(** the threads of the machine are at the start of the events that remain *)
Definition at_event (th : thread) (t : list event) : Prop := fst th = flat_map accesses t.
(** remaining events with the bound of their thread *)
Definition fits (t : list event) (b : Z) : Prop := nested_ok b t.

Lemma sum_bounds : forall ts bs, Forall2 fits ts bs -> 0 <= sumz (map still_open ts) <= sumz bs.
Proof.
  intros ts bs H. induction H as [|t b ts bs Hf H IH]; [cbn; lia|]. cbn [map sumz fold_right].
  change (fold_right Z.add 0) with sumz. destruct t; destruct Hf as [Hf _]; lia.
Qed.

Lemma nth_error_set : forall A (l : list A) i a b, nth_error l i = Some a -> nth_error (set_nth l i b) i = Some b.
Proof. induction l as [|h l IH]; intros i a b H; destruct i; cbn in *; try discriminate; eauto. Qed.
Lemma set_set : forall A (l : list A) i a b, set_nth (set_nth l i a) i b = set_nth l i b.
Proof. induction l as [|h l IH]; intros i a b; destruct i; cbn; auto. rewrite IH. reflexivity. Qed.
Lemma set_same : forall A (l : list A) i a, nth_error l i = Some a -> set_nth l i a = l.
Proof.
  induction l as [|h l IH]; intros i a H; destruct i; cbn in *; try discriminate; auto.
  - inversion H. reflexivity.
  - rewrite IH; auto.
Qed.

Lemma turn_at : forall o l out (ths : list thread) i a rest r, nth_error ths i = Some (a :: rest, r) ->
  level_turn o (mkLevels l out false ths) i =
    match a with
    | Guard up => if (if up then l <? 255 else 0 <? l) then mkLevels l out false (set_nth ths i (rest, r))
                  else mkLevels l out false (set_nth ths i (skipn 2 rest, r))
    | Fetch => mkLevels l out false (set_nth ths i (rest, l))
    | Store up => let v := if up then r + 1 else r - 1 in
        if o && ((v <? 0) || (255 <? v)) then mkLevels l out true (set_nth ths i ([], r))
        else mkLevels (v mod 256) out false (set_nth ths i (rest, r))
    | Note => mkLevels l (out ++ [l]) false (set_nth ths i (rest, r))
    end.
Proof. intros o l out ths i a rest r H. unfold level_turn. cbn [threads lv noted panicked]. rewrite H. reflexivity. Qed.

Lemma run_enter : forall o l out (ths : list thread) i rest r, 0 <= l < 255 ->
  nth_error ths i = Some (accesses EEnter ++ rest, r) ->
  level_sched o (mkLevels l out false ths) (repeat i 3) = mkLevels (l + 1) out false (set_nth ths i (rest, l)).
Proof.
  intros o l out ths i rest r Hl H. unfold level_sched. cbn [repeat fold_left accesses app] in *.
  rewrite (turn_at _ _ _ _ _ _ _ _ H). replace (l <? 255) with true by lia.
  rewrite (turn_at _ _ _ _ _ _ _ _ (nth_error_set _ _ _ _ _ H)), !set_set.
  rewrite (turn_at _ _ _ _ _ _ _ _ (nth_error_set _ _ _ _ _ H)), !set_set.
  cbv zeta. replace ((l + 1 <? 0) || (255 <? l + 1)) with false by lia. rewrite andb_false_r, Z.mod_small by lia. rewrite ?set_set; rewrite ?set_set; reflexivity.
Qed.
Lemma run_exit : forall o l out (ths : list thread) i rest r, 0 < l <= 255 ->
  nth_error ths i = Some (accesses EExit ++ rest, r) ->
  level_sched o (mkLevels l out false ths) (repeat i 4) = mkLevels (l - 1) (out ++ [l - 1]) false (set_nth ths i (rest, l)).
Proof.
  intros o l out ths i rest r Hl H. unfold level_sched. cbn [repeat fold_left accesses app] in *.
  rewrite (turn_at _ _ _ _ _ _ _ _ H). replace (0 <? l) with true by lia.
  rewrite (turn_at _ _ _ _ _ _ _ _ (nth_error_set _ _ _ _ _ H)), !set_set.
  rewrite (turn_at _ _ _ _ _ _ _ _ (nth_error_set _ _ _ _ _ H)), !set_set.
  cbv zeta. replace ((l - 1 <? 0) || (255 <? l - 1)) with false by lia. rewrite andb_false_r, Z.mod_small by lia.
  rewrite (turn_at _ _ _ _ _ _ _ _ (nth_error_set _ _ _ _ _ H)), !set_set; rewrite ?set_set; reflexivity.
Qed.

Lemma whole_run : forall o lvl ws ts bs s, Forall2 fits ts bs -> Forall2 at_event (threads s) ts ->
  panicked s = false -> lv s = lvl + sumz (map still_open ts) -> 0 <= lvl -> lvl + sumz bs <= 255 ->
  (forall n, In n (noted s) -> lvl <= n <= lvl + sumz bs) ->
  exists ts', let s' := level_sched o s (expand ts ws) in
    Forall2 fits ts' bs /\ Forall2 at_event (threads s') ts' /\ panicked s' = false /\
    lv s' = lvl + sumz (map still_open ts') /\ (forall n, In n (noted s') -> lvl <= n <= lvl + sumz bs).
Proof.
  intros o lvl. induction ws as [|i ws IH]; intros ts bs s Hf Ha Hp Hl H0 H255 Hn; cbn [expand].
  { exists ts. cbv zeta. unfold level_sched. cbn [fold_left]. auto 6. }
  destruct (nth_error ts i) as [[|e t]|] eqn:Ei; [apply IH; auto| |apply IH; auto].
  destruct (F2_nth_l _ _ _ _ _ _ _ Ha Ei) as [[code r] [Ec Eat]]. unfold at_event in Eat. cbn [fst] in Eat.
  assert (Hfit : exists b, fits (e :: t) b /\ Forall2 fits (set_nth ts i t) bs).
  { clear - Hf Ei. revert i Ei. induction Hf as [|t0 b0 ts bs Hf0 Hf IH]; intros i Ei; destruct i; cbn in Ei; try discriminate.
    - inversion Ei; subst. exists b0. split; auto. cbn [set_nth]. constructor; auto. exact (proj2 Hf0).
    - destruct (IH i Ei) as [b [H1 H2]]. exists b. split; auto. cbn [set_nth]. constructor; auto. }
  destruct Hfit as [b [Hfit Hf']].
  pose proof (sum_bounds _ _ Hf) as B1. pose proof (sum_bounds _ _ Hf') as B2.
  pose proof (sumz_set ts i (e :: t) t still_open Ei) as Es.
  assert (Hstep : exists s1, level_sched o s (repeat i (length (accesses e))) = s1 /\
            Forall2 at_event (threads s1) (set_nth ts i t) /\ panicked s1 = false /\
            lv s1 = lvl + sumz (map still_open (set_nth ts i t)) /\
            (forall n, In n (noted s1) -> lvl <= n <= lvl + sumz bs)).
  { eexists. split; [reflexivity|]. rewrite Es. destruct s as [l out pn ths]. cbn [lv noted panicked threads] in *. subst pn.
    set (sum := sumz (map still_open ts)) in *.
    assert (Hsame : accesses e = [] -> still_open (e :: t) = still_open t ->
      Forall2 at_event (threads (level_sched o (mkLevels l out false ths) (repeat i (length (accesses e))))) (set_nth ts i t) /\
      panicked (level_sched o (mkLevels l out false ths) (repeat i (length (accesses e)))) = false /\
      lv (level_sched o (mkLevels l out false ths) (repeat i (length (accesses e)))) = lvl + (sum - still_open (e :: t) + still_open t) /\
      (forall n, In n (noted (level_sched o (mkLevels l out false ths) (repeat i (length (accesses e))))) -> lvl <= n <= lvl + sumz bs)).
    { intros Ea So. rewrite Ea. cbn [length repeat level_sched fold_left threads panicked lv noted]. rewrite So.
      unfold level_sched. cbn [fold_left threads panicked lv noted].
      split; [|split; [reflexivity|split; [lia|exact Hn]]].
      rewrite <- (set_same _ ths i (code, r) Ec). apply set_nth_F2; auto.
      unfold at_event. cbn [fst]. rewrite Eat. cbn [flat_map]. rewrite Ea. reflexivity. }
    destruct e; try (apply Hsame; reflexivity); clear Hsame.
    - cbn [still_open] in *.
      cbn [flat_map] in Eat. rewrite Eat in Ec. change (length (accesses EEnter)) with 3%nat.
      rewrite (run_enter o l out ths i (flat_map accesses t) r); [|lia|exact Ec].
      cbn [threads panicked lv noted]. split; [|split; [reflexivity|split; [lia|exact Hn]]].
      apply set_nth_F2; auto. reflexivity.
    - cbn [still_open] in *. cbn [flat_map] in Eat. rewrite Eat in Ec. change (length (accesses EExit)) with 4%nat.
      rewrite (run_exit o l out ths i (flat_map accesses t) r); [|lia|exact Ec].
      cbn [threads panicked lv noted]. split; [|split; [reflexivity|split; [lia|]]].
      + apply set_nth_F2; auto. reflexivity.
      + intros n Hin. apply in_app_iff in Hin. destruct Hin as [Hin|[<-|[]]]; auto. lia. }
  destruct Hstep as [s1 [E1 [A1 [P1 [L1 N1]]]]].
  destruct (IH (set_nth ts i t) bs s1 Hf' A1 P1 L1 H0 H255 N1) as [ts' H'].
  exists ts'. unfold level_sched in *. rewrite fold_left_app, E1. exact H'.
Qed.

(** if no update is interrupted by another thread, the level is restored
    whatever the order, nothing panics, and every level that is logged is at
    most the sum of the nesting depths above the one at the start *)
Theorem C54_whole_updates : forall o lvl fs ws, 0 <= lvl -> lvl + sumz (map nesting fs) <= 255 ->
  let s := level_sched o (level_start lvl (map flat fs)) (expand (map flat fs) ws) in
  panicked s = false /\ (level_done s = true -> lv s = lvl) /\
  (forall n, In n (noted s) -> lvl <= n <= lvl + sumz (map nesting fs)).
Proof.
  intros o lvl fs ws H0 H. cbv zeta.
  destruct (whole_run o lvl ws (map flat fs) (map nesting fs) (level_start lvl (map flat fs)))
    as [ts' [F [A [P [L N]]]]]; auto.
  - clear. induction fs as [|f fs IH]; cbn [map]; constructor; auto. apply nested_flat_ok.
  - unfold level_start. cbn [threads]. clear. induction (map flat fs) as [|t ts IH]; cbn [map]; constructor; auto. reflexivity.
  - unfold level_start. cbn [lv]. replace (sumz (map still_open (map flat fs))) with 0; [lia|].
    clear. induction fs as [|f fs IH]; [reflexivity|]. cbn [map sumz fold_right]. rewrite still_open_flat.
    change (fold_right Z.add 0) with sumz. lia.
  - unfold level_start. cbn [noted]. intros n [].
  - cbv zeta in *. split; auto. split; auto. intros D. rewrite L.
    replace (sumz (map still_open ts')) with 0; [lia|]. unfold level_done in D.
    clear - D A. revert D. induction A as [|th t ths ts Hat A IH]; intros D; [reflexivity|].
    cbn [forallb] in D. apply andb_prop in D. destruct D as [D1 D2].
    cbn [map sumz fold_right]. change (fold_right Z.add 0) with sumz. rewrite <- (IH D2).
    replace (still_open t) with 0; [lia|]. unfold at_event in Hat. rewrite Hat in D1.
    clear - D1. induction t as [|e t IH]; [reflexivity|]. destruct e; cbn [flat_map accesses app still_open] in *; auto; discriminate.
Qed.

(** *** The accesses as they are *)

(** [n] measured blocks one after the other *)
Fixpoint blocks (n : nat) : forest := match n with O => FNil | S n => FMeas FNil (blocks n) end.
(** both decrements read the same level *)
Definition lost_round : list nat := [0; 0; 0; 1; 1; 1; 0; 0; 1; 1; 0; 1; 0; 1]%nat.
Lemma lost_step : forall o l out ra rb resta restb, 0 <= l -> l + 2 <= 255 ->
  level_sched o (mkLevels l out false
    [(accesses EEnter ++ accesses EExit ++ resta, ra); (accesses EEnter ++ accesses EExit ++ restb, rb)]) lost_round =
  mkLevels (l + 1) (out ++ [l + 1; l + 1]) false [(resta, l + 2); (restb, l + 2)].
Proof.
  intros o l out ra rb resta restb H0 H. unfold level_sched, lost_round, accesses.
  cbn [app fold_left level_turn threads lv noted panicked nth_error set_nth].
  replace (l <? 255) with true by lia.
  cbn [app fold_left level_turn threads lv noted panicked nth_error set_nth].
  replace ((l + 1 <? 0) || (255 <? l + 1)) with false by lia. rewrite andb_false_r, Z.mod_small by lia.
  cbn [app fold_left level_turn threads lv noted panicked nth_error set_nth].
  replace (l + 1 <? 255) with true by lia.
  cbn [app fold_left level_turn threads lv noted panicked nth_error set_nth].
  replace ((l + 1 + 1 <? 0) || (255 <? l + 1 + 1)) with false by lia. rewrite andb_false_r, Z.mod_small by lia.
  cbn [app fold_left level_turn threads lv noted panicked nth_error set_nth].
  replace (0 <? l + 1 + 1) with true by lia.
  cbn [app fold_left level_turn threads lv noted panicked nth_error set_nth].
  replace (0 <? l + 1 + 1) with true by lia.
  cbn [app fold_left level_turn threads lv noted panicked nth_error set_nth].
  replace ((l + 1 + 1 - 1 <? 0) || (255 <? l + 1 + 1 - 1)) with false by lia. rewrite andb_false_r, Z.mod_small by lia.
  cbn [app fold_left level_turn threads lv noted panicked nth_error set_nth].
  replace ((l + 1 + 1 - 1 <? 0) || (255 <? l + 1 + 1 - 1)) with false by lia. rewrite andb_false_r, Z.mod_small by lia.
  cbn [app fold_left level_turn threads lv noted panicked nth_error set_nth].
  rewrite <- app_assoc. cbn [app]. replace (l + 1 + 1 - 1) with (l + 1) by lia. replace (l + 1 + 1) with (l + 2) by lia.
  reflexivity.
Qed.
Lemma sched_app : forall o s a b, level_sched o s (a ++ b) = level_sched o (level_sched o s a) b.
Proof. intros. apply fold_left_app. Qed.
Lemma blocks_accesses : forall n, flat_map accesses (flat (blocks (S n))) =
  accesses EEnter ++ accesses EExit ++ flat_map accesses (flat (blocks n)).
Proof. reflexivity. Qed.
Lemma lost_rounds : forall o n l out ra rb, 0 <= l -> l + Z.of_nat n + 1 <= 255 ->
  exists s, level_sched o (mkLevels l out false [(flat_map accesses (flat (blocks n)), ra); (flat_map accesses (flat (blocks n)), rb)])
             (concat (repeat lost_round n)) = s /\
  lv s = l + Z.of_nat n /\ panicked s = false /\ level_done s = true.
Proof.
  intros o. induction n as [|n IH]; intros l out ra rb H0 H.
  - eexists. split; [reflexivity|]. cbn. repeat split; lia.
  - cbn [repeat concat]. rewrite sched_app, blocks_accesses, lost_step by lia.
    destruct (IH (l + 1) (out ++ [l + 1; l + 1]) (l + 2) (l + 2)) as [s [I0 [I1 [I2 I3]]]]; try lia.
    exists s. split; [exact I0|]. split; [rewrite I1; lia|]. auto.
Qed.
(** the level is not restored: two threads with [n] blocks each can leave it
    [n] higher, for good *)
Theorem C54_lost_update_refuted : forall o n lvl, 0 <= lvl -> lvl + Z.of_nat n + 1 <= 255 ->
  exists sched, let s := level_sched o (level_start lvl [flat (blocks n); flat (blocks n)]) sched in
    level_done s = true /\ panicked s = false /\ lv s = lvl + Z.of_nat n.
Proof.
  intros o n lvl H0 H. exists (concat (repeat lost_round n)). cbv zeta.
  destruct (lost_rounds o n lvl [] 0 0 H0 H) as [s [E [L [P D]]]].
  unfold level_start, thread_of. cbn [map]. unfold thread. rewrite E. auto.
Qed.
(** nor is it safe: with one block each, started at level 0, the guard against
    a negative level does not help. A checked build panics; an unchecked one
    goes on at level 255. *)
Theorem C54_underflow_refuted : exists sched,
  panicked (level_sched true (level_start 0 [flat (blocks 1); flat (blocks 1)]) sched) = true /\
  (let s := level_sched false (level_start 0 [flat (blocks 1); flat (blocks 1)]) sched in
   level_done s = true /\ lv s = 255).
Proof.
  exists [0; 0; 1; 1; 0; 1; 0; 1; 0; 0; 0; 1; 1; 1]%nat. vm_compute. auto.
Qed.
(** even without interrupted updates a block is not logged at its own depth:
    two blocks in threads of their own, both of depth 0 *)
Theorem C54_depth_refuted : exists ws,
  let ts := [flat (blocks 1); flat (blocks 1)] in
  let s := level_sched true (level_start 0 ts) (expand ts ws) in
  level_done s = true /\ noted s = [1; 0] /\
  map (fun t => snd (level_run 0 t)) ts = [[0]; [0]].
Proof. exists [0; 1; 0; 1]%nat. vm_compute. auto. Qed.

(* ------------------------------------------------------------------ *)
(** ** C55: the file *)

Definition line (m : list Z) : list Z := m ++ [10].

(** steps of a call that is not interrupted *)
Definition alone (s : logs) (i : nat) : logs := log_sched s (repeat i 8).

(** a call on its own, without the others *)
Fixpoint solo (n : nat) (m : list Z) (x : log_stage * bool * disk) : log_stage * bool * disk :=
  match n with O => x | S n => solo n m (let '(st, ini, d) := x in log_step m st ini d) end.
Lemma log_solo : forall n m st ini d cs i, nth_error cs i = Some (m, st) ->
  log_sched (mkLogs ini d cs) (repeat i n) =
    let '(st', ini', d') := solo n m (st, ini, d) in mkLogs ini' d' (set_nth cs i (m, st')).
Proof.
  induction n as [|n IH]; intros m st ini d cs i H; cbn [solo repeat].
  - cbn. rewrite set_same; auto.
  - unfold log_sched. cbn [fold_left]. unfold log_turn at 2. cbn [calls inited files]. rewrite H.
    destruct (log_step m st ini d) as [[st1 ini1] d1].
    change (log_sched (mkLogs ini1 d1 (set_nth cs i (m, st1))) (repeat i n) =
      (let '(st', ini', d') := solo n m (st1, ini1, d1) in mkLogs ini' d' (set_nth cs i (m, st')))).
    rewrite (IH m st1) by (apply (nth_error_set _ _ _ _ _ H)).
    destruct (solo n m (st1, ini1, d1)) as [[st' ini'] d']. rewrite set_set. reflexivity.
Qed.
Lemma nth_set_eq : forall A (l : list A) n a d, (n < length l)%nat -> nth n (set_nth l n a) d = a.
Proof. intros A l n a d H. rewrite nth_set_nth by auto. rewrite Nat.eqb_refl. reflexivity. Qed.

(** a name that stands for a file there is *)
Definition sound (d : disk) : Prop := match entry d with Some n => (n < length (store d))%nat | None => True end.

Lemma alone_inited : forall d cs i m n c, nth_error cs i = Some (m, AtInited) ->
  entry d = Some n -> nth_error (store d) n = Some c ->
  exists st, alone (mkLogs true d cs) i = mkLogs true (mkDisk st (Some n)) (set_nth cs i (m, LogDone)) /\
    nth_error st n = Some (c ++ line m).
Proof.
  intros [st en] cs i m n c H En Ec. cbn [entry store] in *. subst en. unfold alone. rewrite (log_solo _ _ _ _ _ _ _ H).
  assert (Hn : (n < length st)%nat) by (apply nth_error_Some; rewrite Ec; discriminate).
  exists (set_nth st n (c ++ line m)). split.
  2:{ apply (nth_error_set _ _ _ c). exact Ec. }
  cbn [solo log_step entry pieces]. unfold change. cbn [store entry].
  rewrite set_set, nth_set_eq by auto. rewrite (nth_error_nth _ _ [] Ec), <- app_assoc. reflexivity.
Qed.
Lemma overwrite_new : forall m, overwrite (0 + length m) [10] (overwrite 0 m []) = line m.
Proof.
  intros m. unfold overwrite, line. cbn [firstn app repeat Nat.sub length Nat.add].
  rewrite skipn_nil, app_nil_r, firstn_all, Nat.sub_diag, skipn_all2 by lia. reflexivity.
Qed.
Lemma alone_first : forall d cs i m, nth_error cs i = Some (m, AtInited) ->
  exists st n, alone (mkLogs false d cs) i = mkLogs true (mkDisk st (Some n)) (set_nth cs i (m, LogDone)) /\
    nth_error st n = Some (line m).
Proof.
  intros [st en] cs i m H. unfold alone. rewrite (log_solo _ _ _ _ _ _ _ H).
  exists (set_nth (st ++ [[]]) (length st) (line m)), (length st). split.
  2:{ apply (nth_error_set _ _ _ []). rewrite nth_error_app2, Nat.sub_diag by lia. reflexivity. }
  assert (Hlen : (length st < length (st ++ [[]]))%nat) by (rewrite app_length; cbn; lia).
  destruct en as [n|]; cbn [solo log_step entry store pieces]; unfold change; cbn [store entry];
    rewrite set_set, nth_set_eq by auto; rewrite app_nth2, Nat.sub_diag by lia; cbn [nth];
    rewrite overwrite_new; reflexivity.
Qed.
(** calls one after the other, in a fresh process: the file holds their lines,
    in order, whatever was there before *)
Lemma alone_rest : forall ms pre d n c cs, entry d = Some n -> nth_error (store d) n = Some c ->
  cs = pre ++ map (fun m => (m, AtInited)) ms -> forallb (fun c => ended (snd c)) pre = true ->
  let s := log_sched (mkLogs true d cs) (flat_map (fun i => repeat i 8) (seq (length pre) (length ms))) in
  content (files s) = Some (c ++ concat (map line ms)) /\ log_done s = true.
Proof.
  induction ms as [|m ms IH]; intros pre d n c cs En Ec Ecs Hp; cbn [length seq flat_map map concat].
  - cbv zeta. unfold log_sched. cbn [fold_left files]. unfold content, log_done. rewrite En, app_nil_r. split; [exact Ec|].
    cbn [calls]. rewrite Ecs. cbn [map]. rewrite app_nil_r. exact Hp.
  - cbv zeta. unfold log_sched. rewrite fold_left_app.
    change (fold_left log_turn (repeat (length pre) 8) (mkLogs true d cs)) with (alone (mkLogs true d cs) (length pre)).
    assert (Hi : nth_error cs (length pre) = Some (m, AtInited)).
    { rewrite Ecs, nth_error_app2, Nat.sub_diag by lia. reflexivity. }
    destruct (alone_inited d cs (length pre) m n c Hi En Ec) as [st [Ea Est]]. rewrite Ea.
    destruct (IH (pre ++ [(m, LogDone)]) (mkDisk st (Some n)) n (c ++ line m) (set_nth cs (length pre) (m, LogDone))) as [I1 I2]; auto.
    + rewrite Ecs. clear. induction pre as [|h pre IH]; cbn [length app map set_nth]; [reflexivity|]. cbn [map] in IH. rewrite IH. reflexivity.
    + rewrite forallb_app, Hp. reflexivity.
    + rewrite app_length, Nat.add_1_r in I1, I2. cbv zeta in *. unfold log_sched in *.
      split; [rewrite I1, <- app_assoc; reflexivity|exact I2].
Qed.
Theorem C55_one_by_one : forall d m ms,
  let s := log_sched (log_begin false d (m :: ms)) (flat_map (fun i => repeat i 8) (seq 0 (length (m :: ms)))) in
  content (files s) = Some (concat (map line (m :: ms))) /\ log_done s = true.
Proof.
  intros d m ms. cbv zeta. unfold log_begin. cbn [map length seq flat_map]. unfold log_sched. rewrite fold_left_app.
  set (cs := (m, AtInited) :: map (fun m => (m, AtInited)) ms).
  change (fold_left log_turn (repeat 0%nat 8) (mkLogs false d cs)) with (alone (mkLogs false d cs) 0).
  destruct (alone_first d cs 0 m eq_refl) as [st [n [Ea Est]]]. rewrite Ea.
  destruct (alone_rest ms [(m, LogDone)] (mkDisk st (Some n)) n (line m) (set_nth cs 0 (m, LogDone)) eq_refl Est eq_refl eq_refl) as [I1 I2].
  cbv zeta in *. unfold log_sched in *. cbn [length concat map] in *. auto.
Qed.

(** *** At the same time, when the file is there and known to be *)

(** what a call still has to write *)
Definition to_write (c : list Z * log_stage) : list (list Z) :=
  match snd c with
  | AtInited | AtOpen => pieces (fst c)
  | Appending _ ps => ps
  | _ => []
  end.
(** stages of a call that found LOG_INITED to be true *)
Definition appends (n : nat) (st : log_stage) : Prop :=
  match st with AtInited | AtOpen | LogDone => True | Appending k _ => k = n | _ => False end.

Lemma to_write_set : forall cs i m st st' ps, nth_error cs i = Some (m, st) ->
  to_write (m, st) = ps ++ to_write (m, st') ->
  Permutation (flat_map to_write cs) (ps ++ flat_map to_write (set_nth cs i (m, st'))).
Proof.
  induction cs as [|c cs IH]; intros i m st st' ps H E; destruct i; cbn in H; try discriminate.
  - inversion H; subst. cbn [set_nth flat_map]. rewrite E, <- app_assoc. apply Permutation_refl.
  - cbn [set_nth flat_map]. rewrite (IH i m st st' ps H E). apply Permutation_app_swap_app.
Qed.
Lemma Forall_set : forall A (P : A -> Prop) l i a, Forall P l -> P a -> Forall P (set_nth l i a).
Proof. intros A P l i a H. revert i. induction H; intros i Ha; destruct i; cbn; constructor; auto. Qed.

Lemma shared_run : forall sched c n ms s ps, inited s = true -> entry (files s) = Some n ->
  nth_error (store (files s)) n = Some (c ++ concat ps) ->
  Forall (fun x => appends n (snd x)) (calls s) -> Permutation (ps ++ flat_map to_write (calls s)) (flat_map pieces ms) ->
  exists ps', let s' := log_sched s sched in
    content (files s') = Some (c ++ concat ps') /\ Forall (fun x => appends n (snd x)) (calls s') /\
    Permutation (ps' ++ flat_map to_write (calls s')) (flat_map pieces ms).
Proof.
  induction sched as [|i sched IH]; intros c n ms s ps Hi En Ec Ha Hp; cbv zeta.
  { exists ps. unfold log_sched. cbn [fold_left]. unfold content. rewrite En. auto. }
  unfold log_sched. cbn [fold_left].
  destruct (nth_error (calls s) i) as [[m st]|] eqn:E.
  2:{ replace (log_turn s i) with s by (unfold log_turn; rewrite E; reflexivity). apply (IH c n ms s ps); auto. }
  assert (Hst : appends n st).
  { rewrite Forall_forall in Ha. apply (Ha (m, st)). apply (nth_error_In _ _ E). }
  unfold log_turn. rewrite E, Hi.
  assert (Hn : (n < length (store (files s)))%nat) by (apply nth_error_Some; rewrite Ec; discriminate).
  destruct st as [| |k [|p todo]| | | | | | | |]; cbn [appends] in Hst; try contradiction; cbn [log_step].
  - apply (IH c n ms _ ps); auto; cbn [calls files inited].
    + apply Forall_set; auto; exact I.
    + rewrite <- Hp. apply Permutation_app_head. symmetry. apply (to_write_set _ _ _ AtInited _ []); auto.
  - rewrite En. apply (IH c n ms _ ps); auto; cbn [calls files inited].
    + apply Forall_set; auto; reflexivity.
    + rewrite <- Hp. apply Permutation_app_head. symmetry. apply (to_write_set _ _ _ AtOpen _ []); auto.
  - apply (IH c n ms _ ps); auto; cbn [calls files inited].
    + apply Forall_set; auto; exact I.
    + rewrite <- Hp. apply Permutation_app_head. symmetry. apply (to_write_set _ _ _ (Appending k []) _ []); auto.
  - subst k. apply (IH c n ms _ (ps ++ [p])); auto; cbn [calls files inited].
    + unfold change. cbn [store]. rewrite (nth_error_set _ _ _ _ _ Ec), (nth_error_nth _ _ [] Ec), concat_app.
      cbn [concat]. rewrite app_nil_r, app_assoc. reflexivity.
    + apply Forall_set; auto; reflexivity.
    + rewrite <- Hp, <- app_assoc. apply Permutation_app_head. symmetry.
      apply (to_write_set _ _ _ (Appending n (p :: todo)) (Appending n todo) [p]); auto.
  - apply (IH c n ms _ ps); auto; cbn [calls files inited].
    + apply Forall_set; auto.
    + rewrite set_same by exact E. exact Hp.
Qed.
(** no schedule panics; when all calls have ended, nothing is lost: what was
    there is followed by all messages and line feeds, in some order *)
Theorem C55_initialised : forall d n c ms sched, entry d = Some n -> nth_error (store d) n = Some c ->
  let s := log_sched (log_begin true d ms) sched in
  (forall m st, In (m, st) (calls s) -> st <> OpenPanic /\ st <> RemovePanic) /\
  (log_done s = true -> exists ps, content (files s) = Some (c ++ concat ps) /\ Permutation ps (flat_map pieces ms)).
Proof.
  intros d n c ms sched En Ec. cbv zeta.
  destruct (shared_run sched c n ms (log_begin true d ms) []) as [ps' [H1 [H2 H3]]]; auto.
  - cbn [concat]. rewrite app_nil_r. exact Ec.
  - unfold log_begin. cbn [calls]. clear. induction ms; cbn; constructor; auto. exact I.
  - unfold log_begin. cbn [calls app]. clear. induction ms as [|m ms IH]; cbn [map flat_map]; auto.
    apply Permutation_app; auto.
  - cbv zeta in *. split.
    + intros m st Hin. rewrite Forall_forall in H2. pose proof (H2 _ Hin) as Hst.
      split; intros ->; exact Hst.
    + intros D. exists ps'. split; auto. rewrite <- H3. unfold log_done in D.
      replace (flat_map to_write _) with (@nil (list Z)); [rewrite app_nil_r; reflexivity|].
      clear - D. induction (calls _) as [|[m st] cs IH]; [reflexivity|]. cbn [forallb snd] in D.
      apply andb_prop in D. destruct D as [D1 D2]. cbn [flat_map]. rewrite <- (IH D2). destruct st; try discriminate. reflexivity.
Qed.

(** *** What can go wrong *)

(** lines are not kept whole even then: two messages end up on one line *)
Theorem C55_lines_refuted : forall m1 m2 : list Z, exists sched,
  let s := log_sched (log_begin true (mkDisk [[]] (Some 0%nat)) [m1; m2]) sched in
  log_done s = true /\ content (files s) = Some (m1 ++ m2 ++ [10; 10]).
Proof.
  intros m1 m2. exists [0; 0; 0; 1; 1; 1; 0; 1; 0; 1]%nat. split; [reflexivity|].
  cbn. rewrite <- !app_assoc. reflexivity.
Qed.
(** the first calls of a process, an older file being there *)
Definition two_calls (sched : list nat) : logs :=
  log_sched (log_begin false (mkDisk [[7; 10]] (Some 0%nat)) [[1]; [2]]) sched.
(** both see the old file, one removes it: the other panics *)
Theorem C55_remove_refuted : exists sched m, In (m, RemovePanic) (calls (two_calls sched)).
Proof. exists [0; 0; 1; 1; 0; 1]%nat, [2]. vm_compute. auto. Qed.
(** LOG_INITED is set before the file is there: a call in between panics *)
Theorem C55_open_refuted : exists sched m, In (m, OpenPanic) (calls (two_calls sched)).
Proof. exists [0; 0; 0; 0; 1; 1]%nat, [2]. vm_compute. auto. Qed.
(** both calls end and a line is lost: one file is removed by the other call *)
Theorem C55_lost_refuted : exists sched,
  log_done (two_calls sched) = true /\ content (files (two_calls sched)) = Some [2; 10].
Proof. exists [0; 1; 0; 0; 0; 0; 0; 0; 1; 1; 1; 1; 1; 1; 0; 1]%nat. vm_compute. auto. Qed.
(** or is overwritten: the first call does not append *)
Theorem C55_overwritten_refuted : exists sched,
  log_done (two_calls sched) = true /\ content (files (two_calls sched)) = Some [1; 10].
Proof. exists [0; 0; 0; 0; 0; 1; 1; 1; 1; 1; 0; 0; 0]%nat. vm_compute. auto. Qed.

(* ------------------------------------------------------------------ *)
(** ** Examples *)

(** the hypotheses of C54_whole_updates with three threads, one nested; the
    order of the updates matters for the log only *)
Definition three : list forest := [blocks 2; FMeas (FMeas FNil FNil) FNil; FMeas (FBoot FNil) FNil].
Example C54_example : 3 + sumz (map nesting three) = 7 /\
  (let s := level_sched true (level_start 3 (map flat three)) (expand (map flat three) [0; 1; 1; 2; 2; 1; 2; 0; 0; 1; 0]%nat) in
   level_done s = true /\ lv s = 3 /\ noted s = [6; 5; 4; 4; 3]).
Proof. vm_compute. auto. Qed.
Example C54_example_one : level_run 254 (flat (blocks 2)) = (254, [254; 254]) /\
  level_run 255 (flat (blocks 1)) = (254, [254]) /\
  lv (level_sched true (level_start 255 [flat (blocks 1)]) (repeat 0%nat 7)) = 254.
Proof. vm_compute. auto. Qed.
(** drift of 200 levels *)
Example C54_example_drift : 0 + Z.of_nat 200 + 1 <= 255.
Proof. lia. Qed.
Example C55_example : (* three calls at the same time on a file that is there *)
  let s := log_sched (log_begin true (mkDisk [[9]; [8; 10]] (Some 1%nat)) [[1]; [2; 2]; [3]])
             [2; 0; 1; 1; 0; 2; 1; 0; 0; 1; 2; 2; 0; 1; 2]%nat in
  log_done s = true /\ content (files s) = Some [8; 10; 2; 2; 1; 10; 10; 3; 10].
Proof. vm_compute. auto. Qed.

Print Assumptions C54_one_thread.
Print Assumptions C54_whole_updates.
Print Assumptions C54_lost_update_refuted.
Print Assumptions C54_underflow_refuted.
Print Assumptions C54_depth_refuted.
Print Assumptions C55_one_by_one.
Print Assumptions C55_initialised.
Print Assumptions C55_lines_refuted.
Print Assumptions C55_remove_refuted.
Print Assumptions C55_open_refuted.
Print Assumptions C55_lost_refuted.
Print Assumptions C55_overwritten_refuted.
