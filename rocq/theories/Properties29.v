(** More about C55: calls that create the log file, in any state and any schedule *)
From Verif Require Import Base LogConcurrent BaseProofs Properties16.
From Coq Require Import Permutation.

(** A call that is about to create the file and is not interrupted leaves exactly its own
    line, even if another call has created the file and written to it meanwhile. *)
Theorem C55_create : forall s i m, nth_error (calls s) i = Some (m, AtNew) -> sound (files s) ->
  let s' := log_sched s (repeat i 4) in
  content (files s') = Some (m ++ [10]) /\ nth_error (calls s') i = Some (m, LogDone) /\ inited s' = inited s.
Proof.
  intros [ini [st en] cs] i m H S. cbn [calls files] in *. cbv zeta. rewrite (log_solo 4 m _ _ _ _ _ H).
  destruct en as [n|]; cbn [solo log_step entry store pieces]; unfold change; cbn [store entry calls inited files].
  - unfold sound in S. cbn [entry store] in S. rewrite !set_set, !nth_set_eq by (rewrite ?set_nth_length; auto).
    rewrite overwrite_new. unfold content. cbn [entry store]. split; [|split; [apply (nth_error_set _ _ _ _ _ H)|reflexivity]].
    destruct (nth_error st n) as [c|] eqn:E; [apply (nth_error_set _ _ _ _ _ E)|apply nth_error_None in E; lia].
  - assert (Hlen : (length st < length (st ++ [[]]))%nat) by (rewrite app_length; cbn; lia).
    rewrite set_set, nth_set_eq by auto. rewrite app_nth2, Nat.sub_diag by lia. cbn [nth]. rewrite overwrite_new.
    unfold content. cbn [entry store]. split; [|split; [apply (nth_error_set _ _ _ _ _ H)|reflexivity]].
    apply (nth_error_set _ _ _ []). rewrite nth_error_app2, Nat.sub_diag by lia. reflexivity.
Qed.

(** Interrupted, it can even leave bytes that nobody has written: one call writes its message,
    another one truncates the file and ends, and the line feed of the first one goes where its
    message ended. *)
Theorem C55_hole_refuted : forall m1 m2 : list Z, (length m2 < length m1)%nat -> exists sched,
  let s := log_sched (log_begin false (mkDisk [] None) [m1; m2]) sched in
  log_done s = true /\
  content (files s) = Some (m2 ++ [10] ++ repeat 0 (length m1 - length m2 - 1) ++ [10]).
Proof.
  intros m1 m2 H. exists [0; 1; 0; 1; 0; 1; 0; 0; 1; 1; 1; 1; 0; 0]%nat. cbv zeta. split; [reflexivity|].
  cbn [log_sched log_begin map fold_left log_turn calls nth_error log_step inited files entry store set_nth pieces length app change nth content].
  change (overwrite 0 m2 []) with (overwrite 0 m2 (@nil Z)). rewrite overwrite_new. f_equal. unfold overwrite, line. cbn [Nat.add].
  rewrite firstn_all2, skipn_all2 by (rewrite app_length; cbn [length]; lia).
  rewrite app_length, app_nil_r, <- app_assoc. cbn [length app].
  replace (length m1 - length m2 - 1)%nat with (length m1 - (length m2 + 1))%nat by lia. reflexivity.
Qed.

(** In every schedule of the first calls every byte of the file is a byte of one of the
    messages, a line feed, or such a zero; nothing of an older file is left in a new one. *)
Definition from (ms : list (list Z)) (b : Z) : Prop := b = 10 \/ b = 0 \/ exists m, In m ms /\ In b m.

Section Bytes.
Variable ms : list (list Z).
Variable d0 : disk.
Notation N := (length (store d0)).

(** stages before the old file is out of the way *)
Definition early (st : log_stage) : Prop := match st with AtInited | AtExists | AtRemove => True | _ => False end.
(** the files that a call writes are new, and it writes its message *)
Definition stage_ok (d : disk) (st : log_stage) : Prop :=
  match st with
  | Appending n ps | WritingAt n _ ps => (N <= n < length (store d))%nat /\ Forall (Forall (from ms)) ps
  | _ => True
  end.
Definition new_entry (d : disk) : Prop := match entry d with Some n => (N <= n < length (store d))%nat | None => True end.
Record inv (s : logs) : Prop := mkInv {
  i_len : (N <= length (store (files s)))%nat;
  i_old : forall n, (n < N)%nat -> nth_error (store (files s)) n = nth_error (store d0) n;
  i_new : forall n c, (N <= n)%nat -> nth_error (store (files s)) n = Some c -> Forall (from ms) c;
  i_calls : Forall (fun x => In (fst x) ms /\ stage_ok (files s) (snd x)) (calls s);
  i_entry : new_entry (files s) \/
    (files s = d0 /\ inited s = false /\ Forall (fun x => early (snd x)) (calls s))
}.
Lemma pieces_from : forall m, In m ms -> Forall (Forall (from ms)) (pieces m).
Proof.
  intros m H. unfold pieces. constructor; [|constructor; [|constructor]].
  - apply Forall_forall. intros b Hb. right. right. eauto.
  - constructor; [left; reflexivity|constructor].
Qed.
Lemma from_overwrite : forall i b c, Forall (from ms) b -> Forall (from ms) c -> Forall (from ms) (overwrite i b c).
Proof.
  intros i b c Hb Hc. unfold overwrite. rewrite !Forall_app. repeat split; auto.
  - rewrite <- (firstn_skipn i c) in Hc. apply Forall_app in Hc. apply Hc.
  - apply Forall_forall. intros x Hx. apply repeat_spec in Hx. right. left. exact Hx.
  - rewrite <- (firstn_skipn (i + length b) c) in Hc. apply Forall_app in Hc. apply Hc.
Qed.
Lemma nth_error_set_nth : forall A (l : list A) i j a, nth_error (set_nth l i a) j =
  if ((i =? j) && (j <? length l))%nat then Some a else nth_error l j.
Proof.
  intros A l. induction l as [|x l IH]; intros [|i] [|j] a; cbn; try reflexivity.
  - rewrite andb_false_r. reflexivity.
  - rewrite IH. reflexivity.
Qed.
Lemma stage_grow : forall d d' st, (length (store d) <= length (store d'))%nat -> stage_ok d st -> stage_ok d' st.
Proof. intros d d' [] H; cbn; auto; intros [? ?]; split; auto; lia. Qed.

Lemma inv_step : forall s i, inv s -> inv (log_turn s i).
Proof.
  intros [ini d cs] i [I1 I2 I3 I4 I5].  unfold log_turn. cbn [calls inited files] in *.
  destruct (nth_error cs i) as [[m st]|] eqn:E; [|constructor; auto].
  assert (Hin : In (m, st) cs) by (eapply nth_error_In; eauto).
  assert (Hm : In m ms /\ stage_ok d st) by (rewrite Forall_forall in I4; apply (I4 _ Hin)). destruct Hm as [Hm Hst].
  (* steps that leave the disk alone *)
  assert (K : forall st' ini', stage_ok d st' ->
    (new_entry d \/ (d = d0 /\ ini' = false /\ early st' /\ Forall (fun x => early (snd x)) cs)) ->
    inv (mkLogs ini' d (set_nth cs i (m, st')))).
  { intros st' ini' S J. constructor; cbn [calls inited files]; auto.
    - apply Forall_set; auto.
    - destruct J as [J|[J1 [J2 [J3 J4]]]]; [left; exact J|right]. repeat split; auto. apply Forall_set; auto. }
  (* writing to a new file *)
  assert (W : forall n g st', (N <= n < length (store d))%nat -> (forall c, Forall (from ms) c -> Forall (from ms) (g c)) ->
    stage_ok d st' -> new_entry d -> inv (mkLogs ini (change d n g) (set_nth cs i (m, st')))).
  { intros n g st' Hn Hg S J. assert (L : length (store (change d n g)) = length (store d)) by apply set_nth_length.
    constructor; cbn [calls inited files].
    - lia.
    - intros k Hk. unfold change. cbn [store]. rewrite nth_error_set_nth. replace (n =? k)%nat with false by (symmetry; apply Nat.eqb_neq; lia). cbn [andb]. auto.
    - intros k c Hk. unfold change. cbn [store]. rewrite nth_error_set_nth. destruct (_ && _)%bool eqn:X; [|eauto].
      intros Y. injection Y as <-. apply Hg. destruct (nth_error (store d) n) as [c|] eqn:Z.
      + rewrite (nth_error_nth _ _ [] Z). eapply I3; [|exact Z]. lia.
      + apply nth_error_None in Z. lia.
    - apply Forall_set.
      + rewrite Forall_forall in *. intros x Hx. destruct (I4 x Hx). split; auto. eapply stage_grow; [|eauto]. lia.
      + split; auto. eapply stage_grow; [|exact S]. lia.
    - left. unfold new_entry in *. rewrite L. exact J. }
  assert (NEW : ~ early st -> new_entry d).
  { intros X. destruct I5 as [J|[_ [_ J]]]; [exact J|]. exfalso. apply X. rewrite Forall_forall in J. apply (J _ Hin). }
  destruct st as [| |n ps| | | | |n j ps| | |]; cbn [log_step].
  - (* AtInited *) destruct I5 as [J|[J1 [J2 J3]]].
    + destruct ini; apply K; cbn; auto.
    + subst ini. apply K; cbn; auto 10.
  - (* AtOpen *) specialize (NEW (fun x => x)). apply K; auto. unfold new_entry in NEW. destruct (entry d); cbn; auto.
    split; auto. apply pieces_from; auto.
  - (* Appending *) specialize (NEW (fun x => x)). destruct Hst as [Hn Hp]. destruct ps as [|p ps].
    + apply K; cbn; auto.
    + inversion_clear Hp. apply W; cbn; auto. intros c Hc. apply Forall_app. auto.
  - (* AtExists *) destruct I5 as [J|[J1 [J2 J3]]].
    + apply K; auto. destruct (entry d); cbn; auto.
    + destruct (entry d) as [k|] eqn:Ee.
      * apply K; cbn; auto 10.
      * apply K; cbn; auto. left. unfold new_entry. rewrite Ee. exact I.
  - (* AtRemove *) destruct (entry d) as [k|] eqn:Ee.
    + constructor; cbn [calls inited files store entry]; auto.
      * apply Forall_set; cbn; auto.
    + apply K; cbn; auto. left. unfold new_entry. rewrite Ee. exact I.
  - (* AtSet *) specialize (NEW (fun x => x)). apply K; cbn; auto.
  - (* AtNew *) specialize (NEW (fun x => x)). pose proof NEW as NEW'. unfold new_entry in NEW. destruct (entry d) as [k|] eqn:Ee.
    + apply W; cbn; auto. split; auto. apply pieces_from; auto.
    + assert (L : length (store d ++ [[]]) = S (length (store d))) by (rewrite app_length; cbn; lia).
      constructor; cbn [calls inited files store entry].
      * lia.
      * intros n Hn. rewrite nth_error_app1 by lia. auto.
      * intros n c Hn. destruct (Nat.ltb_spec n (length (store d))) as [X|X].
        -- rewrite nth_error_app1 by lia. eauto.
        -- rewrite nth_error_app2 by lia. destruct (n - length (store d))%nat as [|[|r]]; cbn; try discriminate.
           intros Y. injection Y as <-. constructor.
      * apply Forall_set.
        -- rewrite Forall_forall in *. intros x Hx. destruct (I4 x Hx). split; auto. eapply stage_grow; [|eauto]. cbn [store]. lia.
        -- split; auto. cbn. split; [lia|]. apply pieces_from; auto.
      * left. unfold new_entry. cbn [entry store]. lia.
  - (* WritingAt *) specialize (NEW (fun x => x)). destruct Hst as [Hn Hp]. destruct ps as [|p ps].
    + apply K; cbn; auto.
    + inversion_clear Hp. apply W; cbn; auto. intros c Hc. apply from_overwrite; auto.
  - apply K; cbn; auto.
  - apply K; cbn; auto.
  - apply K; cbn; auto.
Qed.
Lemma inv_run : forall sched s, inv s -> inv (log_sched s sched).
Proof. induction sched as [|i sched IH]; intros s H; [exact H|]. unfold log_sched. cbn [fold_left]. apply IH, inv_step, H. Qed.
Lemma inv_begin : inv (log_begin false d0 ms).
Proof.
  constructor; cbn [log_begin files calls inited]; auto.
  - intros n c H E. assert (n < N)%nat by (apply nth_error_Some; rewrite E; discriminate). lia.
  - apply Forall_forall. intros x Hx. apply in_map_iff in Hx. destruct Hx as [m [<- Hm]]. cbn. auto.
  - right. repeat split. apply Forall_forall. intros x Hx. apply in_map_iff in Hx. destruct Hx as [m [<- Hm]]. exact I.
Qed.
End Bytes.

Theorem C55_bytes : forall d ms sched, let s := log_sched (log_begin false d ms) sched in
  (* older files are never written to *)
  (forall n, (n < length (store d))%nat -> nth_error (store (files s)) n = nth_error (store d) n) /\
  (* once a call has ended or is writing, the name stands for a new file or none *)
  ((exists m st, In (m, st) (calls s) /\ ~ early st) -> forall n c, entry (files s) = Some n ->
    nth_error (store (files s)) n = Some c -> (length (store d) <= n)%nat /\ Forall (from ms) c).
Proof.
  intros d ms sched s. destruct (inv_run ms d sched _ (inv_begin ms d)) as [I1 I2 I3 I4 I5]. fold s in I1, I2, I3, I4, I5.
  split; [exact I2|]. intros [m [st [Hin He]]] n c En Ec.
  destruct I5 as [J|[_ [_ J]]].
  - unfold new_entry in J. rewrite En in J. split; [lia|]. eapply I3; [|exact Ec]. lia.
  - exfalso. apply He. rewrite Forall_forall in J. apply (J _ Hin).
Qed.
Print Assumptions C55_create.
Print Assumptions C55_hole_refuted.
Print Assumptions C55_bytes.

(** a log with a hole of two bytes *)
Example C55_example_hole : exists sched, content (files (log_sched (log_begin false (mkDisk [] None) [[65; 66; 67]; []]) sched)) =
  Some [10; 0; 0; 10].
Proof. destruct (C55_hole_refuted [65; 66; 67] [] ltac:(cbn; lia)) as [sched [_ E]]. exists sched. exact E. Qed.
(** a call that creates the file after another call did *)
Example C55_example_create :
  let s := log_sched (log_begin false (mkDisk [[7]] (Some 0%nat)) [[1]; [2]]) [0; 0; 1; 0; 0; 0; 0; 0; 0; 1; 1; 1]%nat in
  nth_error (calls s) 1 = Some ([2], AtNew) /\ store (files s) = [[7]; [1; 10]] /\
  content (files (log_sched s (repeat 1%nat 4))) = Some [2; 10].
Proof. vm_compute. auto. Qed.
