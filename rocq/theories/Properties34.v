(** C63, continued: the experiment of experiments.rs in a build with overflow checks *)
From Verif Require Import Base Encryption Params Naf Asc AscTable Demos Spec BaseProofs ValueProofs EncProofs NafProofs Properties24.
From Verif Require Properties18.
From Coq Require Import ZifyBool ZifyNat.

(** The rounds of the experiment (22-41) stop for the refused numbers; for all
    other odd numbers they are the same in both builds: [hw - 1] never underflows. *)
Theorem C63_rounds : forall table st k, 0 < k < 2^32 -> Z.odd k = true ->
  (borrows k -> fst (adds_step true table st k) = Panic P_overflow) /\
  (~ borrows k -> adds_step true table st k = adds_step false table st k).
Proof.
  intros table [[m nai] opt] k Hk Ho. destruct (C63_recoding k ltac:(lia)) as [I S]. unfold adds_step. split; intros H.
  - rewrite fst_bind, (proj2 I H). reflexivity.
  - rewrite (S H). apply Properties18.bind_same. intros kv E. cbv zeta.
    pose proof (kt_ok false k ltac:(lia)) as K. apply ovfP_okP in K. destruct K as [kv' [E' [D [V _]]]].
    assert (kv' = kv) by congruence. subst kv'.
    set (w := firstn ASC_BITLEN kv).
    assert (Dw : digits w) by (apply digits_firstn; exact D).
    assert (Lw : (length w <= 12)%nat) by (unfold w; rewrite firstn_length; change ASC_BITLEN with 12%nat; lia).
    rewrite !(convert_from_vec_ok _ w) by (auto; lia). change (expect (ret (value w))) with (ret (value w)). rewrite !ret_bind.
    destruct (ads_mem (Z.abs (value w)) m); [reflexivity|].
    rewrite !(bin_hw_ok _ w) by (auto; lia). change (expect (ret (hw w))) with (ret (hw w)). rewrite !ret_bind.
    assert (NZ : hw w <> 0).
    { destruct kv as [|d kv]; [cbn in V; subst k; discriminate|].
      unfold w. change (firstn ASC_BITLEN (d :: kv)) with (d :: firstn 11 kv).
      assert (Hd : d <> 0).
      { intros ->. cbn [value] in V. rewrite <- V, Z.add_0_l, Z.odd_mul in Ho. discriminate. }
      cbn [hw]. pose proof (hw_bound (firstn 11 kv)). rewrite (proj2 (Z.eqb_neq d 0) Hd). lia. }
    replace (hw w =? 0) with false by lia. reflexivity.
Qed.

(** A build with checks does not get through the experiment (22-25, k = 1, 3, ...):
    it does the first rounds like the other build and stops at the first refused number. *)
Definition odd_numbers (n : nat) : list Z := map (fun i => 1 + 2 * Z.of_nat i) (seq 0 n).
Lemma below_91 : forall k, In k (odd_numbers 45) -> ~ borrows k.
Proof.
  intros k Hk HB. apply (proj1 (C63_recoding k ltac:(apply in_map_iff in Hk; destruct Hk as [i [<- Hi]]; apply in_seq in Hi; lia))) in HB.
  assert (C : forallb (fun k => match fst (koyama_tsuruoka_vec true k) with Ok _ => true | _ => false end) (odd_numbers 45) = true)
    by (vm_compute; reflexivity).
  pose proof (proj1 (forallb_forall _ _) C k Hk) as E. cbv beta in E. rewrite HB in E. discriminate.
Qed.
Lemma rounds_same : forall table ks, (forall k, In k ks -> 0 < k < 2^32 /\ Z.odd k = true /\ ~ borrows k) ->
  forall st, foldM (adds_step true table) ks st = foldM (adds_step false table) ks st.
Proof.
  intros table. induction ks as [|k ks IH]; intros H st; cbn [foldM]; [reflexivity|].
  destruct (H k (or_introl eq_refl)) as [H1 [H2 H3]]. rewrite (proj2 (C63_rounds table st k H1 H2) H3).
  apply Properties18.bind_same. intros st' _. apply IH. intros k' Hk'. apply H. right. exact Hk'.
Qed.
Theorem C63_experiment :
  (forall table n st, (n <= 45)%nat ->
    foldM (adds_step true table) (odd_numbers n) st = foldM (adds_step false table) (odd_numbers n) st) /\
  borrows (1 + 2 * 45) /\ fst (avg_adds true shipped_asc) = Panic P_overflow.
Proof.
  split; [|split].
  - intros table n st Hn. apply rounds_same. intros k Hk. split; [|split].
    + apply in_map_iff in Hk. destruct Hk as [i [<- Hi]]. apply in_seq in Hi. lia.
    + apply in_map_iff in Hk. destruct Hk as [i [<- Hi]]. rewrite Z.odd_add, Z.odd_mul. reflexivity.
    + apply below_91. apply in_map_iff in Hk. destruct Hk as [i [<- Hi]]. apply in_seq in Hi.
      apply in_map_iff. exists i. split; [reflexivity|]. apply in_seq. lia.
  - exact (proj2 C63_example_91).
  - vm_compute. reflexivity.
Qed.
(** the entries after those rounds *)
Example C63_example_rounds : exists m nai opt,
  fst (foldM (adds_step true shipped_asc) (odd_numbers 45) ([], 0, 0%nat)) = Ok (m, nai, opt) /\
  length m = 45%nat /\ nai = 92 /\ opt = 84%nat.
Proof. do 3 eexists. split; [vm_compute; reflexivity|]. vm_compute. auto. Qed.

Print Assumptions C63_rounds.
Print Assumptions C63_experiment.
