(** C69: windows of 13 digits instead of 12 *)
From Verif Require Import Base Params Asc AscTable Asc13 Encryption Naf ChainSpec Spec BaseProofs NafProofs ScalarProofs
  AscProofs OptProofs Opt13 KtLocal KtWindows Kt13 Properties15.
From Coq Require Import ZifyBool ZifyNat.

(* ------------------------------------------------------------------ *)
(** ** Specification *)

(** lib.rs:181 "13-bit chains are mostly in 4 additions, but those in 5 additions
    might not occur in the K-T recoding => check it out!" *)

(** [k], or its opposite, in [n] additions and not in fewer *)
Definition needs (k : Z) (n : nat) : Prop :=
  (exists vals, chain vals /\ In k vals /\ steps vals = n) /\
  forall vals, chain vals -> In k vals \/ In (- k) vals -> (n <= steps vals)%nat.
(** [v] is the value of a window of the 32-bit scalar [k], the windows of 13 digits *)
Definition occurs13 (k v : Z) : Prop :=
  exists ws w sh, fst (wind_shifts false k 13) = Ok ws /\ In (w, sh) ws /\ v = Z.abs w.

(* ------------------------------------------------------------------ *)
(** ** The table *)

Lemma keys13_ok : odds_from 1 all13 = true.
Proof. vm_compute. reflexivity. Qed.
Lemma count13_ok : length all13 = 4096%nat.
Proof. vm_compute. reflexivity. Qed.
Definition entry13 (e : Z * asc) : bool := wfb 1 (snd e) && (chain_value (snd e) =? fst e).
Lemma table13 : forallb entry13 all13 = true.
Proof. vm_compute. reflexivity. Qed.

Lemma entry13_attained : forall e, entry13 e = true ->
  exists vals, chain vals /\ In (fst e) vals /\ steps vals = length (snd e).
Proof.
  intros [k c] H. unfold entry13 in H. cbn [fst snd] in *. apply andb_prop in H. destruct H as [Hw Hv]. apply wfb_ok in Hw.
  destruct (run_chain c [1] ltac:(cbn; constructor) Hw) as [R1 R2].
  exists (rev (chain_run c [1])). split; auto. split.
  - apply in_rev. rewrite rev_involutive. unfold chain_value in Hv. apply Z.eqb_eq in Hv. rewrite <- Hv.
    destruct (exists_last (l := chain_run c [1])) as [l [b E]].
    { intros E. rewrite E in R2. cbn [length] in R2. lia. }
    rewrite E, last_last. apply in_app_iff. right. left. reflexivity.
  - unfold steps. rewrite rev_length, R2. cbn [length]. lia.
Qed.
Lemma table13_needs : forall k c, In (k, c) all13 -> needs k (length c).
Proof.
  intros k c Hin. split.
  - exact (entry13_attained (k, c) (proj1 (forallb_forall _ _) table13 _ Hin)).
  - intros vals Hc Hk. destruct (cost_ok k c Hin) as [Ec Hl]. unfold steps.
    pose proof (chain_nonempty _ Hc) as Hne.
    assert (Hr : 0 < k < 8192).
    { pose proof (odds_keys _ _ keys13_ok) as Hkeys.
      apply (in_map fst) in Hin. rewrite Hkeys, count13_ok in Hin. cbn [fst] in Hin. apply in_map_iff in Hin.
      destruct Hin as [i [<- Hi]]. apply in_seq in Hi. lia. }
    destruct (Nat.le_gt_cases (length vals) 4) as [H4|H4]; [|lia].
    pose proof (chain_cost vals k Hc Hk Hr H4). lia.
Qed.
Lemma table13_has : forall k, 0 < k < 2^13 -> Z.odd k = true -> exists c, In (k, c) all13.
Proof.
  intros k Hk Ho. destruct (odds_get all13 1 k keys13_ok) as [c [I _]].
  - rewrite count13_ok. change (2 * Z.of_nat 4096) with 8192. lia.
  - exact Ho.
  - eauto.
Qed.

(* ------------------------------------------------------------------ *)
(** ** C69 *)

(** Four additions are enough for every odd number below 2^13. *)
Theorem C69_four : forall k, 0 < k < 2^13 -> Z.odd k = true ->
  exists vals, chain vals /\ In k vals /\ (steps vals <= 4)%nat.
Proof.
  intros k Hk Ho. destruct (table13_has k Hk Ho) as [c Hc].
  destruct (table13_needs k c Hc) as [[vals [H1 [H2 H3]]] _]. exists vals. split; auto. split; auto.
  rewrite H3. apply (cost_ok k c Hc).
Qed.

(** So no such number takes five, whether it occurs in the recoding or not. *)
Theorem C69_five_refuted : ~ exists k, 0 < k < 2^13 /\ Z.odd k = true /\ needs k 5.
Proof.
  intros [k [Hk [Ho [_ N]]]]. destruct (C69_four k Hk Ho) as [vals [H1 [H2 H3]]].
  pose proof (N vals H1 (or_introl H2)). lia.
Qed.

(** How many of the 4096 odd numbers need 0, 1, 2, 3 and 4 additions. *)
Definition taking13 (n : nat) : list Z := map fst (filter (fun e => (length (snd e) =? n)%nat) all13).
Lemma taking13_in : forall n k, In k (taking13 n) <-> exists c, In (k, c) all13 /\ length c = n.
Proof.
  assert (G : forall m n k, In k (map fst (filter (fun e : Z * asc => (length (snd e) =? n)%nat) m)) <->
    exists c, In (k, c) m /\ length c = n).
  { intros m n k. rewrite in_map_iff. split.
    - intros [[k' c] [<- H]]. apply filter_In in H. destruct H as [H E]. cbn [fst snd] in *. exists c. split; auto.
      apply Nat.eqb_eq. exact E.
    - intros [c [H E]]. exists (k, c). split; auto. apply filter_In. split; auto. cbn [snd]. apply Nat.eqb_eq. exact E. }
  exact (G all13).
Qed.
Lemma needs_unique : forall k n m, needs k n -> needs k m -> n = m.
Proof.
  intros k n m [[v [V1 [V2 V3]]] N] [[w [W1 [W2 W3]]] M].
  pose proof (N w W1 (or_introl W2)). pose proof (M v V1 (or_introl V2)). lia.
Qed.
Lemma all13_nodup : NoDup (map fst all13).
Proof.
  rewrite (odds_keys _ _ keys13_ok). apply FinFun.Injective_map_NoDup; [|apply seq_NoDup]. intros a b H. lia.
Qed.
Lemma filter_keys_nodup : forall (f : Z * asc -> bool) m, NoDup (map fst m) -> NoDup (map fst (filter f m)).
Proof.
  intros f. induction m as [|e m IH]; intros H; cbn [filter map] in *; [constructor|].
  inversion H as [|? ? H1 H2]; subst. destruct (f e); [|auto]. cbn [map]. constructor; [|auto].
  intros K. apply H1. apply in_map_iff in K. destruct K as [e' [E K]]. apply filter_In in K. apply in_map_iff. exists e'. tauto.
Qed.
Lemma counts_in : forall (f : nat -> nat) a b c d e n m, map f [0; 1; 2; 3; 4]%nat = [a; b; c; d; e] ->
  In (n, m) [(0, a); (1, b); (2, c); (3, d); (4, e)]%nat -> f n = m.
Proof.
  intros f a b c d e n m E H. cbn [map] in E. injection E as <- <- <- <- <-.
  repeat (destruct H as [H|H]; [inversion H; reflexivity|]). destruct H.
Qed.
Lemma taking13_counts : map (fun n => length (taking13 n)) [0; 1; 2; 3; 4]%nat = [1; 23; 279; 2089; 1704]%nat.
Proof. vm_compute. reflexivity. Qed.
Theorem C69_lengths : forall n count, In (n, count) [(0, 1); (1, 23); (2, 279); (3, 2089); (4, 1704)]%nat ->
  exists l, NoDup l /\ length l = count /\
    forall k, In k l <-> (0 < k < 2^13 /\ Z.odd k = true /\ needs k n).
Proof.
  intros n count H. exists (taking13 n). split; [apply filter_keys_nodup, all13_nodup|]. split.
  - exact (counts_in (fun n => length (taking13 n)) _ _ _ _ _ n count taking13_counts H).
  - intros k. rewrite taking13_in. split.
    + intros [c [Hc <-]]. pose proof (table13_needs k c Hc) as N.
      pose proof (in_map fst _ _ Hc) as Hk. rewrite (odds_keys _ _ keys13_ok), count13_ok in Hk. cbn [fst] in Hk.
      apply in_map_iff in Hk. destruct Hk as [i [<- Hi]]. apply in_seq in Hi.
      split; [lia|]. split; [rewrite Z.odd_add, Z.odd_mul; reflexivity|exact N].
    + intros [Hk [Ho N]]. destruct (table13_has k Hk Ho) as [c Hc]. exists c. split; auto.
      exact (needs_unique k _ _ (table13_needs k c Hc) N).
Qed.

(** Exactly 3600 numbers occur as windows of 13 digits in 32-bit scalars. *)
Lemma windows13_in : forall v, In v windows13 -> 0 < v < 2^13 /\ Z.odd v = true.
Proof. intros v H. exact (proj1 (in_odds13 v) (proj1 (proj1 (windows13_spec v) H))). Qed.
Definition finds13 (v : Z) : bool :=
  match fst (wind_shifts false v 13) with Ok ws => existsb (fun w => Z.abs (fst w) =? v) ws | _ => false end.
Lemma finds13_all : forallb finds13 windows13 = true.
Proof. vm_compute. reflexivity. Qed.
Lemma finds13_occurs : forall v, finds13 v = true -> occurs13 v v.
Proof.
  intros v H. unfold finds13 in H. unfold occurs13.
  destruct (fst (wind_shifts false v 13)) as [ws|e|e]; try discriminate.
  apply existsb_exists in H as [[w sh] [HI H]]. exists ws, w, sh. cbn [fst] in H. repeat split; auto. lia.
Qed.
Lemma occurs13_in : forall k v, 0 < k < 2^32 -> occurs13 k v -> In v windows13.
Proof.
  intros k v Hk [ws [w [sh [E [HI ->]]]]]. pose proof (wind_shifts_in13 false k Hk) as W. unfold ovfP in W.
  rewrite E in W. exact (proj1 (Forall_forall _ _) W _ HI).
Qed.
Theorem C69_windows : exists l, NoDup l /\ length l = 3600%nat /\
  forall v, In v l <-> exists k, 0 < k < 2^32 /\ occurs13 k v.
Proof.
  exists windows13. split; [exact windows13_nodup|]. split; [exact windows13_count|]. intros v. split.
  - intros H. exists v. destruct (windows13_in v H) as [H1 _]. split; [lia|].
    exact (finds13_occurs v (proj1 (forallb_forall finds13 windows13) finds13_all v H)).
  - intros [k [Hk O]]. exact (occurs13_in k v Hk O).
Qed.

(** How many of those need 0, 1, 2, 3 and 4 additions. *)
Definition used13 (n : nat) : list Z := filter (fun v => (cost v =? n)%nat) windows13.
Lemma used13_counts : map (fun n => length (used13 n)) [0; 1; 2; 3; 4]%nat = [1; 22; 256; 1858; 1463]%nat.
Proof. vm_compute. reflexivity. Qed.
Lemma cost_needs : forall v, 0 < v < 2^13 -> Z.odd v = true -> needs v (cost v).
Proof.
  intros v Hv Ho. destruct (table13_has v Hv Ho) as [c Hc]. destruct (cost_ok v c Hc) as [-> _]. apply table13_needs, Hc.
Qed.
Theorem C69_used : forall n count, In (n, count) [(0, 1); (1, 22); (2, 256); (3, 1858); (4, 1463)]%nat ->
  exists l, NoDup l /\ length l = count /\
    forall v, In v l <-> ((exists k, 0 < k < 2^32 /\ occurs13 k v) /\ needs v n).
Proof.
  intros n count H. exists (used13 n). split.
  { assert (G : forall l, NoDup l -> NoDup (filter (fun v => (cost v =? n)%nat) l)) by (intros l Hl; apply NoDup_filter, Hl).
    exact (G windows13 windows13_nodup). }
  split.
  - exact (counts_in (fun n => length (used13 n)) _ _ _ _ _ n count used13_counts H).
  - intros v.
    assert (G : forall l, In v (filter (fun v => (cost v =? n)%nat) l) <-> In v l /\ cost v = n).
    { intros l. rewrite filter_In, Nat.eqb_eq. tauto. }
    rewrite (G windows13). split.
    + intros [Hv <-]. destruct (windows13_in v Hv) as [V1 V2]. split; [|apply cost_needs; auto].
      exists v. split; [lia|]. exact (finds13_occurs v (proj1 (forallb_forall finds13 windows13) finds13_all v Hv)).
    + intros [[k [Hk O]] N]. pose proof (occurs13_in k v Hk O) as Hv. destruct (windows13_in v Hv) as [V1 V2].
      split; auto. exact (needs_unique v _ _ (cost_needs v V1 V2) N).
Qed.

(** The one number that the search of the target up to 2^13 leaves without a
    chain (scripts/add-sub-special-chains/limit-14_v2.log) does occur, and has one. *)
Example C69_example : occurs13 5517 5517 /\ needs 5517 4 /\
  fst (int_eval [mkAddShift true 0 true 0 7; mkAddShift true 1 true 0 8; mkAddShift false 2 true 2 4;
    mkAddShift true 3 false 1 1]) = Ok 5517 /\
  chain [5517; 5775; 385; 129; 1].
Proof.
  split; [apply finds13_occurs; vm_compute; reflexivity|]. split; [|split; [vm_compute; reflexivity|]].
  - assert (E : cost 5517 = 4%nat) by (vm_compute; reflexivity). rewrite <- E. apply cost_needs; [lia|reflexivity].
  - change 5517 with (1 * 5775 + (-1) * (2^1 * 129)). constructor; try (cbn; lia).
    change 5775 with ((-1) * 385 + 1 * (2^4 * 385)) at 1. constructor; try (cbn; lia).
    change 385 with (1 * 129 + 1 * (2^8 * 1)) at 1. constructor; try (cbn; lia).
    change 129 with (1 * 1 + 1 * (2^7 * 1)) at 1. constructor; try (cbn; lia). constructor.
Qed.
(** an odd number that is a window of no scalar: 8191 is recoded as 2^13 - 1 *)
Example C69_example_not : ~ exists k, 0 < k < 2^32 /\ occurs13 k 8191.
Proof.
  intros [k [Hk O]]. pose proof (occurs13_in k _ Hk O) as H.
  pose proof (proj2 (proj1 (windows13_spec 8191) H)) as E. vm_compute in E. discriminate.
Qed.

Print Assumptions C69_four.
Print Assumptions C69_five_refuted.
Print Assumptions C69_lengths.
Print Assumptions C69_windows.
Print Assumptions C69_used.
