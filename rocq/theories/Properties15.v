(** Property C53: the shipped addition chains are shortest *)
From Verif Require Import Base Params Asc AscTable Arith Demos Naf ChainSpec Spec BaseProofs NafProofs ScalarProofs
  AscProofs OptProofs Properties11.
From Coq Require Import ZifyBool ZifyNat.

(* ------------------------------------------------------------------ *)
(** ** C53 *)

(** experiments.rs:8 "optimal ASC's for 12-bit sliding windows": no chain that
    reaches a number or its opposite, with shifts of any size and any
    intermediate values, has fewer steps than the shipped one *)
Theorem C53_shortest : forall k c vals, In (k, c) shipped_asc ->
  chain vals -> In k vals \/ In (- k) vals -> (length c <= steps vals)%nat.
Proof.
  intros k c vals Hin Hc Hk. destruct (cost_ok k c Hin) as [Ec Hl]. unfold steps.
  pose proof (chain_nonempty _ Hc) as Hne.
  assert (Hr : 0 < k < 4096).
  { pose proof (odds_keys _ _ keys_ok) as Hkeys.
    apply (in_map fst) in Hin. rewrite Hkeys, count_ok in Hin. cbn [fst] in Hin. apply in_map_iff in Hin.
    destruct Hin as [i [<- Hi]]. apply in_seq in Hi. lia. }
  destruct (Nat.le_gt_cases (length vals) 4) as [H4|H4]; [|lia].
  pose proof (chain_cost vals k Hc Hk Hr H4). lia.
Qed.

(** the shipped chain is such a chain *)
Lemma run_chain : forall c vals, chain (rev vals) -> chain_wf (length vals) c ->
  chain (rev (chain_run c vals)) /\ length (chain_run c vals) = (length vals + length c)%nat.
Proof.
  induction c as [|a c IH]; intros vals H W; cbn [chain_run length].
  - split; [auto|lia].
  - destruct W as [W1 [W2 W3]]. destruct (IH (vals ++ [chain_next vals a])) as [I1 I2].
    + rewrite rev_app_distr. cbn [rev app]. unfold chain_next.
      replace (nth (r_idx a) vals 0 * 2 ^ Z.of_nat (r_shift a))
        with (2 ^ Z.of_nat (r_shift a) * nth (r_idx a) vals 0) by ring.
      constructor; auto.
      * apply in_rev. rewrite rev_involutive. apply nth_In; auto.
      * apply in_rev. rewrite rev_involutive. apply nth_In; auto.
      * lia.
      * destruct (l_pos a); cbn [sg]; lia.
      * destruct (r_pos a); cbn [sg]; lia.
    + rewrite app_length. cbn [length]. rewrite Nat.add_1_r. auto.
    + split; auto. rewrite I2, app_length. cbn [length]. lia.
Qed.
Theorem C53_attained : forall k c, In (k, c) shipped_asc ->
  exists vals, chain vals /\ In k vals /\ steps vals = length c.
Proof.
  intros k c Hin. pose proof (table_ok _ Hin) as H. unfold entry_ok in H. cbn [fst snd] in H.
  apply andb_prop in H. destruct H as [H _]. apply andb_prop in H. destruct H as [H _].
  apply andb_prop in H. destruct H as [Hw Hv]. apply wfb_ok in Hw.
  destruct (run_chain c [1] ltac:(cbn; constructor) Hw) as [R1 R2].
  exists (rev (chain_run c [1])). split; auto. split.
  - apply in_rev. rewrite rev_involutive. unfold chain_value in Hv. apply Z.eqb_eq in Hv. rewrite <- Hv.
    destruct (exists_last (l := chain_run c [1])) as [l [b E]].
    { intros E. rewrite E in R2. cbn [length] in R2. lia. }
    rewrite E, last_last. apply in_app_iff. right. left. reflexivity.
  - unfold steps. rewrite rev_length, R2. cbn [length]. lia.
Qed.

(** in terms of the program's own evaluation (asc.rs:37-67), over integers *)
Definition int_eval (c : asc) : M Z :=
  asc_eval (fun x => ret (- x)) (fun x s => ret (x * 2 ^ Z.of_nat s)) (fun x y => ret (x + y)) c 1.
Lemma int_run : forall c vals w,
  fst (foldM (asc_step (fun x => ret (- x)) (fun x s => ret (x * 2 ^ Z.of_nat s)) (fun x y => ret (x + y))) c vals) = Ok w ->
  chain_wf (length vals) c /\ w = chain_run c vals.
Proof.
  induction c as [|a c IH]; intros vals w H; cbn [foldM chain_run chain_wf] in *.
  - cbn [fst ret] in H. inversion H. auto.
  - rewrite fst_bind in H.
    destruct (fst (asc_step (fun x => ret (- x)) (fun x s => ret (x * 2 ^ Z.of_nat s)) (fun x y => ret (x + y)) vals a)) as [l|e|e] eqn:E;
      try discriminate.
    unfold asc_step in E.
    destruct (Nat.lt_ge_cases (l_idx a) (length vals)) as [Hl|Hl].
    2:{ unfold index in E. rewrite (proj2 (nth_error_None vals (l_idx a)) Hl) in E. discriminate. }
    rewrite (index_ok _ vals (l_idx a) 0), ret_bind, ret_bind in E by auto.
    destruct (Nat.lt_ge_cases (r_idx a) (length vals)) as [Hr|Hr].
    2:{ unfold index in E. rewrite (proj2 (nth_error_None vals (r_idx a)) Hr) in E. discriminate. }
    rewrite (index_ok _ vals (r_idx a) 0), !ret_bind in E by auto. cbn [fst ret] in E. inversion E as [E']. clear E.
    assert (El : l = vals ++ [chain_next vals a]).
    { rewrite <- E'. f_equal. f_equal. unfold chain_next. destruct (l_pos a), (r_pos a); cbn [sg]; ring. }
    rewrite El in H. destruct (IH _ _ H) as [W E]. rewrite app_length in W. cbn [length] in W. rewrite Nat.add_1_r in W.
    split; auto.
Qed.
Theorem C53_program : forall k c c' v, In (k, c) shipped_asc ->
  fst (int_eval c') = Ok v -> Z.abs v = k -> (length c <= length c')%nat.
Proof.
  intros k c c' v Hin Hv Ea. unfold int_eval, asc_eval in Hv. rewrite fst_bind in Hv.
  destruct (fst (foldM _ c' [1])) as [w|e|e] eqn:E; try discriminate. cbn [fst ret] in Hv. inversion Hv as [Hv']. clear Hv.
  apply int_run in E. destruct E as [W ->].
  destruct (run_chain c' [1] ltac:(cbn; constructor) W) as [R1 R2].
  assert (Hlast : In v (rev (chain_run c' [1]))).
  { apply in_rev. rewrite rev_involutive, <- Hv'. destruct (exists_last (l := chain_run c' [1])) as [l [b E]].
    { intros E. rewrite E in R2. cbn [length] in R2. lia. }
    rewrite E, last_last. apply in_app_iff. right. left. reflexivity. }
  assert (Hk : In k (rev (chain_run c' [1])) \/ In (- k) (rev (chain_run c' [1]))).
  { destruct (Z.abs_spec v) as [[_ A]|[_ A]]; [left|right].
    - replace k with v by lia. auto.
    - replace (- k) with v by lia. auto. }
  pose proof (C53_shortest k c _ Hin R1 Hk) as H. unfold steps in H. rewrite rev_length, R2 in H. cbn [length] in H. lia.
Qed.

(** how many of the 2048 odd numbers take 0, 1, 2, 3 and 4 additions: four
    are always enough, and 512 numbers need them *)
Definition taking (n : nat) : list (Z * asc) := filter (fun e => (length (snd e) =? n)%nat) shipped_asc.
Theorem C53_lengths : map (fun n => length (taking n)) [0; 1; 2; 3; 4]%nat = [1; 21; 224; 1290; 512]%nat /\
  forall k c, In (k, c) shipped_asc -> (length c <= 4)%nat.
Proof.
  split; [vm_compute; reflexivity|]. intros k c H. apply (cost_ok k c H).
Qed.

(** the total that the experiment prints (experiments.rs:42,55) cannot be
    lowered by choosing other chains for the windows *)
Definition total (pick : Z -> list Z) (ks : list Z) : nat := list_sum (map (fun k => steps (pick k)) ks).
Definition experiment_costs (r : M (list (Z * (Z * nat)) * Z * nat)) : bool :=
  match fst r with
  | Ok (m, _, opt) => (opt =? list_sum (map (fun e => cost (fst e)) m))%nat &&
      (forallb (fun e => Z.odd (fst e) && (0 <? fst e) && (fst e <? 4096)) m && existsb (Z.eqb 1365) (map fst m))
  | _ => false
  end.
Lemma experiment_costs_ok : experiment_costs (avg_adds false shipped_asc) = true.
Proof. vm_compute. reflexivity. Qed.
Lemma experiment_costs_sum : forall r m nai opt, experiment_costs r = true -> fst r = Ok (m, nai, opt) ->
  opt = list_sum (map (fun e => cost (fst e)) m) /\
  forallb (fun e => Z.odd (fst e) && (0 <? fst e) && (fst e <? 4096)) m = true.
Proof.
  intros r m nai opt H E. unfold experiment_costs in H. rewrite E in H.
  apply andb_prop in H. destruct H as [H1 H2]. apply andb_prop in H2. destruct H2 as [H2 _].
  apply Nat.eqb_eq in H1. auto.
Qed.
Lemma picked_total : forall (m : list (Z * (Z * nat))) pick,
  forallb (fun e => Z.odd (fst e) && (0 <? fst e) && (fst e <? 4096)) m = true ->
  (forall k, In k (map fst m) -> chain (pick k) /\ In k (pick k)) ->
  (list_sum (map (fun e => cost (fst e)) m) <= total pick (map fst m))%nat.
Proof.
  intros m pick H2 Hp. unfold total. rewrite map_map.
  induction m as [|e m IH]; [cbn; lia|].
  cbn [forallb] in H2. apply andb_prop in H2. destruct H2 as [H2 H3]. cbn [map list_sum fold_right].
  assert (He : (cost (fst e) <= steps (pick (fst e)))%nat).
  { destruct (Hp (fst e)) as [C1 C2]; [left; reflexivity|].
    apply andb_prop in H2. destruct H2 as [H2 H5]. apply andb_prop in H2. destruct H2 as [H2 H4].
    destruct (odds_get shipped_asc 1 (fst e) keys_ok) as [c [Hc _]]; [rewrite count_ok; lia|rewrite H2; reflexivity|].
    destruct (cost_ok _ _ Hc) as [-> _]. apply (C53_shortest _ _ _ Hc C1). auto. }
  assert (IHm : (list_sum (map (fun e => cost (fst e)) m) <= list_sum (map (fun x => steps (pick (fst x))) m))%nat).
  { apply IH; auto. intros k Hk. apply Hp. right. exact Hk. }
  unfold list_sum in *. lia.
Qed.
Theorem C53_experiment : forall m nai opt pick, fst (avg_adds false shipped_asc) = Ok (m, nai, opt) ->
  (forall k, In k (map fst m) -> chain (pick k) /\ In k (pick k)) ->
  (opt <= total pick (map fst m))%nat.
Proof.
  intros m nai opt pick E Hp.
  destruct (experiment_costs_sum _ m nai opt experiment_costs_ok E) as [-> H2].
  apply picked_total; auto.
Qed.

(* ------------------------------------------------------------------ *)
(** ** Examples *)

Lemma chain_step : forall z vals x y s e f, chain vals -> In x vals -> In y vals -> 0 <= s ->
  (e = 1 \/ e = -1) -> (f = 1 \/ f = -1) -> z = e * x + f * (2 ^ s * y) -> chain (z :: vals).
Proof. intros z vals x y s e f H1 H2 H3 H4 H5 H6 ->. constructor; auto. Qed.
(** 1365 takes three additions; a longer chain that also passes numbers
    outside the table *)
Definition detour : list Z := [1365; 85; 5; 16389; 16385; 1].
Example C53_example : (exists c, In (1365, c) shipped_asc /\ length c = 3%nat) /\
  chain detour /\ In 1365 detour /\ steps detour = 5%nat.
Proof.
  split.
  { set (c := match fst (asc_get shipped_asc 1365) with Ok c => c | _ => [] end).
    assert (E : fst (asc_get shipped_asc 1365) = Ok c) by (vm_compute; reflexivity).
    exists c. split; [apply asc_get_in; exact E|vm_compute; reflexivity]. }
  split; [|split; [left; reflexivity|reflexivity]]. unfold detour.
  apply (chain_step _ _ 5 85 4 1 1); try (cbn [In]; lia).
  apply (chain_step _ _ 5 5 4 1 1); try (cbn [In]; lia).
  apply (chain_step _ _ 16389 1 14 1 (-1)); try (cbn [In]; lia).
  apply (chain_step _ _ 16385 1 2 1 1); try (cbn [In]; lia).
  apply (chain_step _ _ 1 1 14 1 1); try (cbn [In]; lia).
  constructor.
Qed.
(** the program's evaluation of a chain of its own kind: 91 = -(1 - 4 * 23) *)
Example C53_example_program :
  fst (int_eval [mkAddShift true 0 true 0 1; mkAddShift false 0 true 1 3; mkAddShift true 0 false 2 2]) = Ok (-91) /\
  exists c, In (91, c) shipped_asc /\ length c = 3%nat.
Proof.
  split; [vm_compute; reflexivity|].
  set (c := match fst (asc_get shipped_asc 91) with Ok c => c | _ => [] end).
  assert (E : fst (asc_get shipped_asc 91) = Ok c) by (vm_compute; reflexivity).
  exists c. split; [apply asc_get_in; exact E|vm_compute; reflexivity].
Qed.
(** a window that the experiment meets *)
Lemma meets_1365 : forall r, experiment_costs r = true ->
  exists m nai opt, fst r = Ok (m, nai, opt) /\ In 1365 (map fst m).
Proof.
  intros r H. unfold experiment_costs in H. destruct (fst r) as [[[m nai] opt]|e|e]; try discriminate.
  exists m, nai, opt. split; auto. apply andb_prop in H. destruct H as [_ H]. apply andb_prop in H.
  destruct H as [_ H]. apply existsb_exists in H. destruct H as [k' [Hk Ek]].
  apply Z.eqb_eq in Ek. subst. exact Hk.
Qed.
Example C53_example_pick : exists m nai opt, fst (avg_adds false shipped_asc) = Ok (m, nai, opt) /\ In 1365 (map fst m).
Proof. exact (meets_1365 _ experiment_costs_ok). Qed.

Print Assumptions C53_shortest.
Print Assumptions C53_attained.
Print Assumptions C53_program.
Print Assumptions C53_lengths.
Print Assumptions C53_experiment.
