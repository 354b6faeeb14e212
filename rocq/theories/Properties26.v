(** Property C64: the list of short chains that gen-chains.rb prints *)
From Verif Require Import Base Spec GenChains GenChainsProofs.
From Coq Require Import ZifyBool ZifyNat Sorting.Sorted.

(** ** Spec *)
(** a signed power of two below 2^L, as sign and exponent *)
Definition term (L : nat) (x : Z * nat) : Prop := (fst x = 1 \/ fst x = -1) /\ (snd x < L)%nat.
Definition term_value (x : Z * nat) : Z := fst x * 2 ^ Z.of_nat (snd x).
Definition sum_of (l : list (Z * nat)) : Z := fold_right (fun x a => term_value x + a) 0 l.
(** the digits of a signed power *)
Definition digits_of (L : nat) (x : Z * nat) : list Z := map (fun j => if (j =? snd x)%nat then fst x else 0) (seq 0 L).
(** the summands of an entry *)
Fixpoint leaves (p : entry) : list (list Z) :=
  match p with NumRepre b => [b] | ASPair a b _ => leaves a ++ leaves b end.

(** The script ends, and what it dumps is in increasing order, each value once. *)
Theorem C64_sorted : forall L, exists skipped dumped, gen_chains L = Some (skipped, dumped) /\ StronglySorted Z.lt (map fst dumped).
Proof. intros L. destruct (gen_ok L) as [d [E [S _]]]. eauto. Qed.

(** The values are exactly the sums of one or two signed powers of two below 2^L, but for 2^L and -2^L. *)
Theorem C64_values : forall L skipped dumped v, gen_chains L = Some (skipped, dumped) ->
  (In v (map fst dumped) <->
   Z.abs v < 2 ^ Z.of_nat L /\ exists l, Forall (term L) l /\ (1 <= length l <= 2)%nat /\ v = sum_of l).
Proof.
  intros L sk d v E. destruct (gen_ok L) as [d' [E' [_ [G [U K]]]]]. rewrite E in E'. injection E' as _ <-. split.
  - intros H. apply in_map_iff in H. destruct H as [[w p] [Ew H]]. cbn [fst] in Ew. subst w.
    rewrite Forall_forall in G. specialize (G _ H). cbn [fst snd] in G.
    destruct G as [[i [s [Hi [Hs [_ ->]]]]]|[_ [i [s [j [t [Hi [Hj [Hs [Ht [_ [-> Hn]]]]]]]]]]]].
    + split; [|exists [(s, i)]; split; [constructor; [split; assumption|constructor]|split; [cbn; lia|cbn; unfold term_value; cbn [fst snd]; lia]]].
      pose proof (pow_lt i L Hi). destruct Hs as [-> | ->]; lia.
    + split; [|exists [(s, i); (t, j)]; split; [constructor; [split; assumption|constructor; [split; assumption|constructor]]|split; [cbn; lia|cbn; unfold term_value; cbn [fst snd]; lia]]].
      pose proof (pow_lt i L Hi). pose proof (pow_lt j L Hj).
      destruct (Nat.lt_trichotomy i j) as [Q|[Q|Q]].
      * pose proof (pow_lt i j Q). assert (2 * 2 ^ Z.of_nat j <= 2 ^ Z.of_nat L).
        { rewrite <- Z.pow_succ_r by lia. apply Z.pow_le_mono_r; lia. }
        destruct Hs as [-> | ->], Ht as [-> | ->]; lia.
      * subst j. destruct Hs as [-> | ->], Ht as [-> | ->]; lia.
      * pose proof (pow_lt j i Q). assert (2 * 2 ^ Z.of_nat i <= 2 ^ Z.of_nat L).
        { rewrite <- Z.pow_succ_r by lia. apply Z.pow_le_mono_r; lia. }
        destruct Hs as [-> | ->], Ht as [-> | ->]; lia.
  - intros [Hv [l [Hl [Ll ->]]]]. destruct l as [|[s i] [|[t j] [|]]]; cbn in Ll; try lia.
    + inversion Hl as [|? ? [Hs Hi] _]; subst. cbn [fst snd] in *. apply U. exists i, s. cbn. unfold term_value. cbn [fst snd].
      split; [exact Hi|split; [exact Hs|lia]].
    + inversion Hl as [|? ? [Hs Hi] Hl']; subst. inversion Hl' as [|? ? [Ht Hj] _]; subst. cbn [fst snd] in *.
      replace (sum_of [(s, i); (t, j)]) with (s * 2 ^ Z.of_nat i + t * 2 ^ Z.of_nat j) in *
        by (cbn; unfold term_value; cbn [fst snd]; lia).
      assert (X : (i = j /\ s = t) \/ (i <> j \/ s <> t)) by lia. destruct X as [[<- <-]|X]; [|apply K; auto].
      apply U. exists (S i), s. rewrite Nat2Z.inj_succ, Z.pow_succ_r by lia. split; [|split; [exact Hs|lia]].
      assert (2 ^ Z.of_nat (S i) < 2 ^ Z.of_nat L).
      { rewrite Nat2Z.inj_succ, Z.pow_succ_r by lia. destruct Hs as [-> | ->]; lia. }
      destruct (Nat.lt_ge_cases (S i) L) as [Q|Q]; [exact Q|].
      pose proof (Z.pow_le_mono_r 2 (Z.of_nat L) (Z.of_nat (S i))). lia.
Qed.

(** What stands beside a value adds up to it, out of signed powers of two, and with as few
    additions as any such sum. *)
Theorem C64_entries : forall L skipped dumped v p, gen_chains L = Some (skipped, dumped) -> In (v, p) dumped ->
  eval p = v /\
  (exists l, Forall (term L) l /\ leaves p = map (digits_of L) l /\ sum_of l = v /\ length l = S (nops p)) /\
  (forall l, Forall (term L) l -> l <> [] -> sum_of l = v -> (S (nops p) <= length l)%nat).
Proof.
  intros L sk d v p E H. destruct (gen_ok L) as [d' [E' [_ [G _]]]]. rewrite E in E'. injection E' as _ <-.
  rewrite Forall_forall in G. specialize (G _ H). cbn [fst snd] in G.
  destruct G as [[i [s [Hi [Hs [-> ->]]]]]|[Np [i [s [j [t [Hi [Hj [Hs [Ht [-> [-> Hn]]]]]]]]]]]].
  - split; [|split].
    + unfold eval. cbn [nrep]. rewrite eval_num_value, one_at_value by exact Hi. reflexivity.
    + exists [(s, i)]. split; [constructor; [split; assumption|constructor]|]. split; [reflexivity|]. split; [|reflexivity].
      cbn. unfold term_value. cbn [fst snd]. lia.
    + intros l _ Hl _. destruct l; [congruence|]. cbn. lia.
  - split; [|split].
    + unfold eval. cbn [nrep]. rewrite eval_num_value, plus_value by (rewrite !one_at_length; reflexivity).
      rewrite !one_at_value by auto. reflexivity.
    + exists [(s, i); (t, j)]. split; [constructor; [split; assumption|constructor; [split; assumption|constructor]]|]. split; [reflexivity|]. split; [|reflexivity].
      cbn. unfold term_value. cbn [fst snd]. lia.
    + intros l Hl Hl0 El. cbn [nops]. destruct l as [|[u a] [|y l]]; [congruence| |cbn; lia].
      exfalso. apply Np. inversion Hl as [|? ? [Hu Ha] _]; subst. cbn [fst snd] in *. exists a, u. rewrite <- El.
      split; [exact Ha|split; [exact Hu|]]. cbn. unfold term_value. cbn [fst snd]. lia.
Qed.

(** It skips each signed power added to itself, in this order, and nothing else. *)
Theorem C64_skipped : forall L skipped dumped, gen_chains L = Some (skipped, dumped) ->
  skipped = flat_map (fun i => [(NumRepre (digits_of L (1, i)), NumRepre (digits_of L (1, i)));
                                (NumRepre (digits_of L (-1, i)), NumRepre (digits_of L (-1, i)))]) (seq 0 L).
Proof.
  intros L sk d E. destruct (gen_ok L) as [d' [E' _]]. rewrite E in E'. injection E' as -> _.
  unfold units. induction (seq 0 L) as [|i l IH]; [reflexivity|]. cbn [flat_map both app map snd]. do 2 f_equal. exact IH.
Qed.

(** With LIMIT_LOG = 10, as in the script: 20 pairs skipped, 167 values, 20 of which need no addition. *)
Theorem C64_shipped : exists skipped dumped, gen_chains 10 = Some (skipped, dumped) /\
  length skipped = 20%nat /\ length dumped = 167%nat /\ length (filter (fun e => nops (snd e) =? 0)%nat dumped) = 20%nat /\
  (forall v p, In (v, p) dumped -> (nops p <= 1)%nat).
Proof.
  destruct (gen_ok 10) as [d [E [_ [G _]]]]. eexists. exists d. split; [exact E|].
  assert (X : option_map (fun r => (length (fst r), length (snd r), length (filter (fun e => nops (snd e) =? 0)%nat (snd r)))) (gen_chains 10)
              = Some (20, 167, 20)%nat) by (vm_compute; reflexivity).
  rewrite E in X. cbn [option_map fst snd] in X. injection X as X2 X3. split; [vm_compute; reflexivity|]. split; [exact X2|]. split; [exact X3|].
  intros v p H. rewrite Forall_forall in G. apply (good_nops 10 v p (G _ H)).
Qed.
Print Assumptions C64_sorted.
Print Assumptions C64_values.
Print Assumptions C64_entries.
Print Assumptions C64_skipped.
Print Assumptions C64_shipped.

Example C64_example_3 : option_map (fun r => map fst (snd r)) (gen_chains 3) = Some [-6; -5; -4; -3; -2; -1; 0; 1; 2; 3; 4; 5; 6] /\
  sum_of [(1, 2%nat); (-1, 0%nat)] = 3 /\ Forall (term 3) [(1, 2%nat); (-1, 0%nat)].
Proof. split; [vm_compute; reflexivity|]. split; [reflexivity|]. constructor; [split; cbn; lia|]. constructor; [split; cbn; lia|constructor]. Qed.
(** 11 needs three summands and is not listed; 7 = 8 - 1 needs the place 3 *)
Example C64_example_11 : exists skipped dumped, gen_chains 10 = Some (skipped, dumped) /\ ~ In 11 (map fst dumped) /\
  In (7, ASPair (NumRepre [-1; 0; 0; 0; 0; 0; 0; 0; 0; 0]) (NumRepre [0; 0; 0; 1; 0; 0; 0; 0; 0; 0]) [-1; 0; 0; 1; 0; 0; 0; 0; 0; 0]) dumped.
Proof.
  destruct (gen_chains 10) as [[sk d]|] eqn:E; [|vm_compute in E; discriminate]. exists sk, d. split; [reflexivity|].
  vm_compute in E. injection E as <- <-. split; [cbn; lia|]. cbn. tauto.
Qed.
