(** Lemmas about gen-chains.rb *)
From Verif Require Import Base Spec GenChains.
From Coq Require Import ZifyBool ZifyNat Sorting.Permutation Sorting.Sorted.

Section Limit.
Variable L : nat.

(** ** digits *)
Lemma eval_from_value : forall b ei v, eval_from ei b v = v + 2 ^ Z.of_nat ei * value b.
Proof.
  induction b as [|e t IH]; intros ei v; cbn [eval_from value]; [lia|].
  rewrite IH, Z.shiftl_1_l, Nat2Z.inj_succ, Z.pow_succ_r by lia. lia.
Qed.
Lemma eval_num_value : forall b, eval_num b = value b.
Proof. intros b. unfold eval_num. rewrite eval_from_value. cbn [Z.of_nat]. rewrite Z.pow_0_r. lia. Qed.

Definition one_at (i : nat) (s : Z) : list Z := map (fun j => if (j =? i)%nat then s else 0) (seq 0 L).
Lemma zeros_map : forall i s a n, (i < a \/ a + n <= i)%nat -> map (fun j => if (j =? i)%nat then s else 0) (seq a n) = repeat 0 n.
Proof.
  intros i s a n. revert a. induction n as [|n IH]; intros a H; [reflexivity|]. cbn [seq map repeat].
  replace (a =? i)%nat with false by lia. f_equal. apply IH. lia.
Qed.
Lemma unit_ary_eq : forall i s, (i < L)%nat -> unit_ary L i s = one_at i s.
Proof.
  intros i s Hi. unfold unit_ary, one_at. replace L with (i + S (L - S i))%nat at 2 by lia.
  rewrite seq_app, map_app, (zeros_map i s 0 i) by lia. cbn [seq map plus]. rewrite Nat.eqb_refl, zeros_map by lia. reflexivity.
Qed.
Lemma one_at_length : forall i s, length (one_at i s) = L.
Proof. intros. unfold one_at. rewrite map_length. apply seq_length. Qed.
Lemma value_zeros : forall n, value (repeat 0 n) = 0.
Proof. induction n; cbn [repeat value]; lia. Qed.
Lemma value_shift : forall n l, value (repeat 0 n ++ l) = 2 ^ Z.of_nat n * value l.
Proof.
  induction n as [|n IH]; intros l; cbn [repeat app value]; [cbn [Z.of_nat]; rewrite Z.pow_0_r; lia|].
  rewrite IH, Nat2Z.inj_succ, Z.pow_succ_r by lia. lia.
Qed.
Lemma one_at_value : forall i s, (i < L)%nat -> value (one_at i s) = s * 2 ^ Z.of_nat i.
Proof.
  intros i s Hi. rewrite <- unit_ary_eq by exact Hi. unfold unit_ary. rewrite value_shift. cbn [value]. rewrite value_zeros. lia.
Qed.
Definition plus (a b : list Z) : list Z := map (fun e => fst e + snd e) (combine a b).
Lemma plus_value : forall a b, length a = length b -> value (plus a b) = value a + value b.
Proof.
  induction a as [|x a IH]; intros [|y b] H; try discriminate; [reflexivity|].
  cbn in H. unfold plus. cbn [combine map value fst snd]. fold (plus a b). rewrite IH by lia. lia.
Qed.
Lemma plus_length : forall a b, length (plus a b) = Nat.min (length a) (length b).
Proof. intros. unfold plus. rewrite map_length. apply combine_length. Qed.
Lemma plus_units : forall i s j t,
  plus (one_at i s) (one_at j t) = map (fun k => (if (k =? i)%nat then s else 0) + (if (k =? j)%nat then t else 0)) (seq 0 L).
Proof.
  intros. unfold plus, one_at. induction (seq 0 L) as [|k l IH]; [reflexivity|]. cbn [map combine fst snd]. f_equal. exact IH.
Qed.

Definition sign (s : Z) : Prop := s = 1 \/ s = -1.
Lemma new_num_ok : forall b, length b = L -> (0 < L)%nat -> Forall (fun d => -1 <= d <= 1) b -> new_num L b = Some b.
Proof.
  intros b Hl HL Hd. unfold new_num. rewrite Hl, Nat.eqb_refl. destruct b as [|d b]; [cbn in Hl; lia|].
  replace (forallb _ (d :: b)) with true; [reflexivity|]. symmetry. apply forallb_forall. intros e He.
  rewrite Forall_forall in Hd. specialize (Hd e He). lia.
Qed.
Lemma new_num_digits : forall b b', new_num L b = Some b' -> b' = b /\ Forall (fun d => -1 <= d <= 1) b.
Proof.
  intros b b'. unfold new_num. destruct (length b =? L)%nat; [|discriminate]. destruct b as [|d b]; [discriminate|].
  destruct (forallb _ (d :: b)) eqn:E; [|discriminate]. intros [= <-]. split; [reflexivity|].
  rewrite forallb_forall in E. apply Forall_forall. intros e He. specialize (E e He). lia.
Qed.
Lemma unit_digits : forall i s, sign s -> Forall (fun d => -1 <= d <= 1) (one_at i s).
Proof.
  intros i s Hs. apply Forall_forall. intros d Hd. unfold one_at in Hd. apply in_map_iff in Hd. destruct Hd as [k [E _]].
  destruct (k =? i)%nat; unfold sign in Hs; lia.
Qed.

(** the sum of two units is out of the alphabet only for twice the same *)
Lemma pair_none : forall i s, (i < L)%nat -> sign s -> new_pair L (NumRepre (one_at i s)) (NumRepre (one_at i s)) = None.
Proof.
  intros i s Hi Hs. unfold new_pair, add_num. cbn [nrep]. fold (plus (one_at i s) (one_at i s)).
  destruct (new_num L (plus (one_at i s) (one_at i s))) as [b|] eqn:E; [|reflexivity]. exfalso.
  apply new_num_digits in E. destruct E as [_ E]. rewrite plus_units, Forall_forall in E.
  specialize (E (s + s)). assert (-1 <= s + s <= 1); [|unfold sign in Hs; lia]. apply E. apply in_map_iff.
  exists i. rewrite Nat.eqb_refl. split; [reflexivity|]. apply in_seq. lia.
Qed.
Lemma pair_some : forall i s j t, (i < L)%nat -> (j < L)%nat -> sign s -> sign t -> i <> j \/ s <> t ->
  new_pair L (NumRepre (one_at i s)) (NumRepre (one_at j t)) =
    Some (ASPair (NumRepre (one_at i s)) (NumRepre (one_at j t)) (plus (one_at i s) (one_at j t))).
Proof.
  intros i s j t Hi Hj Hs Ht H. unfold new_pair, add_num. cbn [nrep]. fold (plus (one_at i s) (one_at j t)).
  rewrite new_num_ok; [reflexivity| |lia|].
  - rewrite plus_length, !one_at_length. lia.
  - rewrite plus_units. apply Forall_forall. intros d Hd. apply in_map_iff in Hd. destruct Hd as [k [E _]].
    unfold sign in Hs, Ht. destruct (k =? i)%nat eqn:E1, (k =? j)%nat eqn:E2; lia.
Qed.

(** ** the hash *)
Lemma get_in : forall d k p, db_get d k = Some p -> In (k, p) d.
Proof.
  induction d as [|[k' p'] d IH]; intros k p; cbn [db_get]; [discriminate|].
  destruct (k =? k') eqn:E; [intros [= <-]; left; f_equal; lia|intros H; right; auto].
Qed.
Lemma get_none : forall d k, db_get d k = None <-> ~ In k (map fst d).
Proof.
  induction d as [|[k' p'] d IH]; intros k; cbn [db_get map fst In]; [tauto|].
  destruct (k =? k') eqn:E.
  - split; [discriminate|]. intros H. exfalso. apply H. left. lia.
  - rewrite IH. split; [intros H [H'|H']; [lia|auto]|auto].
Qed.
Lemma set_new : forall d k p, ~ In k (map fst d) -> db_set d k p = d ++ [(k, p)].
Proof.
  induction d as [|[k' p'] d IH]; intros k p H; cbn [db_set app]; [reflexivity|].
  cbn [map fst In] in H. replace (k =? k') with false by lia. f_equal. apply IH. tauto.
Qed.

(** ** the start *)
Definition both (i : nat) : db :=
  [(2 ^ Z.of_nat i, NumRepre (one_at i 1)); (- 2 ^ Z.of_nat i, NumRepre (one_at i (-1)))].
Definition units (n : nat) : db := flat_map both (seq 0 n).
Lemma units_S : forall n, units (S n) = units n ++ both n.
Proof. intros n. unfold units. rewrite seq_S, flat_map_app. cbn [flat_map plus]. rewrite app_nil_r. reflexivity. Qed.
Lemma in_units : forall n k p, In (k, p) (units n) <->
  exists i s, (i < n)%nat /\ sign s /\ k = s * 2 ^ Z.of_nat i /\ p = NumRepre (one_at i s).
Proof.
  intros n k p. unfold units. rewrite in_flat_map. split.
  - intros [i [Hi H]]. apply in_seq in Hi. cbn [both In] in H.
    destruct H as [H|[H|[]]]; injection H as <- <-; exists i; [exists 1|exists (-1)];
      (split; [lia|split; [unfold sign; lia|split; [lia|reflexivity]]]).
  - intros [i [s [Hi [Hs [-> ->]]]]]. exists i. split; [apply in_seq; lia|]. cbn [both In].
    destruct Hs as [-> | ->]; [left|right; left]; f_equal; lia.
Qed.
Lemma pow_lt : forall i j, (i < j)%nat -> 0 < 2 ^ Z.of_nat i < 2 ^ Z.of_nat j.
Proof. intros i j H. split; [apply Z.pow_pos_nonneg; lia|apply Z.pow_lt_mono_r; lia]. Qed.
Lemma pow_pos : forall i, 0 < 2 ^ Z.of_nat i.
Proof. intros i. apply Z.pow_pos_nonneg; lia. Qed.
Lemma fresh_key : forall n s, sign s -> ~ In (s * 2 ^ Z.of_nat n) (map fst (units n)).
Proof.
  intros n s Hs H. apply in_map_iff in H. destruct H as [[k p] [E H]]. cbn [fst] in E. subst k.
  apply in_units in H. destruct H as [i [t [Hi [Ht [E _]]]]]. pose proof (pow_lt i n Hi).
  destruct Hs as [-> | ->], Ht as [-> | ->]; lia.
Qed.
Lemma units_nodup : forall n, NoDup (map fst (units n)).
Proof.
  induction n as [|n IH]; [constructor|]. rewrite units_S, map_app. cbn [both map fst].
  pose proof (fresh_key n 1 ltac:(left; reflexivity)) as H1. pose proof (fresh_key n (-1) ltac:(right; reflexivity)) as H2.
  pose proof (pow_pos n). rewrite <- (rev_involutive (_ ++ _)). apply NoDup_rev. rewrite rev_app_distr. cbn [rev app].
  constructor; [|constructor].
  - intros [H3|H3]; [lia|]. apply in_rev in H3. apply H2. replace (-1 * 2 ^ Z.of_nat n) with (- 2 ^ Z.of_nat n) by lia. exact H3.
  - intros H3. apply in_rev in H3. apply H1. rewrite Z.mul_1_l. exact H3.
  - apply NoDup_rev. exact IH.
Qed.
Lemma add_unit_ok : forall s i d, (i < L)%nat -> sign s -> ~ In (s * 2 ^ Z.of_nat i) (map fst d) ->
  add_unit L s i (Some d) = Some (d ++ [(s * 2 ^ Z.of_nat i, NumRepre (one_at i s))]).
Proof.
  intros s i d Hi Hs H. unfold add_unit. rewrite unit_ary_eq by exact Hi.
  rewrite new_num_ok; [|apply one_at_length|lia|apply unit_digits, Hs].
  rewrite eval_num_value, one_at_value by exact Hi. rewrite set_new by exact H. reflexivity.
Qed.
Lemma init_ok : init_db L = Some (units L).
Proof.
  unfold init_db. assert (G : forall n, (n <= L)%nat ->
    fold_left (fun d i => add_unit L (-1) i (add_unit L 1 i d)) (seq 0 n) (Some []) = Some (units n)).
  { induction n as [|n IH]; intros Hn; [reflexivity|]. rewrite seq_S, fold_left_app, IH by lia. cbn [fold_left Nat.add].
    rewrite (add_unit_ok 1) by (auto using fresh_key; try lia; try (left; reflexivity); apply fresh_key; left; reflexivity).
    rewrite (add_unit_ok (-1)).
    - rewrite units_S, <- app_assoc. cbn [app both]. rewrite Z.mul_1_l. replace (-1 * 2 ^ Z.of_nat n) with (- 2 ^ Z.of_nat n) by lia. reflexivity.
    - lia.
    - right; reflexivity.
    - rewrite map_app. cbn [map fst]. intros H. apply in_app_or in H. destruct H as [H|[H|[]]].
      + revert H. apply fresh_key. right; reflexivity.
      + pose proof (pow_pos n). lia. }
  apply G. lia.
Qed.

(** ** the pairs *)
Definition is_unit (p : entry) : Prop := exists i s, (i < L)%nat /\ sign s /\ p = NumRepre (one_at i s).
Definition power (v : Z) : Prop := exists i s, (i < L)%nat /\ sign s /\ v = s * 2 ^ Z.of_nat i.
Definition good (v : Z) (p : entry) : Prop :=
  (exists i s, (i < L)%nat /\ sign s /\ p = NumRepre (one_at i s) /\ v = s * 2 ^ Z.of_nat i) \/
  (~ power v /\ exists i s j t, (i < L)%nat /\ (j < L)%nat /\ sign s /\ sign t /\
     p = ASPair (NumRepre (one_at i s)) (NumRepre (one_at j t)) (plus (one_at i s) (one_at j t)) /\
     v = s * 2 ^ Z.of_nat i + t * 2 ^ Z.of_nat j /\ (i <> j \/ s <> t)).
Record inv (d : db) : Prop := mkInv {
  inv_nodup : NoDup (map fst d);
  inv_good : Forall (fun e => good (fst e) (snd e)) d;
  inv_units : forall v, power v -> In v (map fst d) }.

Lemma good_nops : forall v p, good v p -> (nops p <= 1)%nat.
Proof.
  intros v p [[i [s [_ [_ [-> _]]]]]|[_ [i [s [j [t [_ [_ [_ [_ [-> _]]]]]]]]]]]; cbn [nops]; lia.
Qed.
Lemma units_inv : inv (units L).
Proof.
  split; [apply units_nodup| |].
  - apply Forall_forall. intros [v p] H. apply in_units in H. destruct H as [i [s [Hi [Hs [E Ep]]]]]. left. exists i, s. auto.
  - intros v [i [s [Hi [Hs E]]]]. apply in_map_iff. exists (v, NumRepre (one_at i s)). split; [reflexivity|].
    apply in_units. exists i, s. auto.
Qed.

Definition same (uv : entry * entry) : bool :=
  match new_pair L (fst uv) (snd uv) with None => true | Some _ => false end.
Lemma try_ok : forall d sk i s j t, inv d -> (i < L)%nat -> (j < L)%nat -> sign s -> sign t ->
  let u := NumRepre (one_at i s) in let v := NumRepre (one_at j t) in
  exists d', try_pair L (d, sk) u v = (d', sk ++ if same (u, v) then [(u, v)] else []) /\ inv d' /\
    incl (map fst d) (map fst d') /\
    (i <> j \/ s <> t -> In (s * 2 ^ Z.of_nat i + t * 2 ^ Z.of_nat j) (map fst d')).
Proof.
  intros d sk i s j t I Hi Hj Hs Ht u v. unfold try_pair, same. cbn [fst snd].
  assert (X : (i = j /\ s = t) \/ (i <> j \/ s <> t)) by (unfold sign in *; lia). destruct X as [[<- <-]|X].
  - unfold u, v. rewrite pair_none by auto. exists d. split; [reflexivity|]. split; [exact I|]. split; [apply incl_refl|]. lia.
  - unfold u, v. rewrite pair_some by auto. fold u v. rewrite app_nil_r.
    set (p := ASPair u v (plus (one_at i s) (one_at j t))).
    assert (Ev : eval p = s * 2 ^ Z.of_nat i + t * 2 ^ Z.of_nat j).
    { unfold eval, p. cbn [nrep]. rewrite eval_num_value, plus_value by (rewrite !one_at_length; reflexivity).
      rewrite !one_at_value by auto. reflexivity. }
    rewrite Ev. set (w := s * 2 ^ Z.of_nat i + t * 2 ^ Z.of_nat j) in *.
    destruct (db_get d w) as [q|] eqn:G.
    + apply get_in in G. assert (Q := inv_good d I). rewrite Forall_forall in Q. specialize (Q _ G). cbn [fst snd] in Q.
      apply good_nops in Q. assert (N : nops p = 1%nat) by reflexivity.
      replace (nops p <? nops q)%nat with false by lia. exists d. split; [reflexivity|]. split; [exact I|].
      split; [apply incl_refl|]. intros _. apply in_map_iff. exists (w, q). auto.
    + apply get_none in G. rewrite set_new by exact G. exists (d ++ [(w, p)]). split; [reflexivity|]. split; [|split].
      * split.
        -- rewrite map_app. cbn [map fst].
           rewrite <- (rev_involutive (_ ++ _)). apply NoDup_rev. rewrite rev_app_distr. cbn [rev app]. constructor.
           ++ intros H. apply G. apply in_rev. exact H.
           ++ apply NoDup_rev. apply (inv_nodup d I).
        -- apply Forall_app. split; [apply (inv_good d I)|]. constructor; [|constructor]. right. cbn [fst snd].
           split; [intros P; apply G; apply (inv_units d I w P)|]. exists i, s, j, t. repeat split; auto.
        -- intros x P. rewrite map_app. apply in_or_app. left. apply (inv_units d I x P).
      * rewrite map_app. apply incl_appl, incl_refl.
      * intros _. rewrite map_app. apply in_or_app. right. left. reflexivity.
Qed.

Lemma pow_inj : forall i s j t, sign s -> sign t -> s * 2 ^ Z.of_nat i = t * 2 ^ Z.of_nat j -> i = j /\ s = t.
Proof.
  intros i s j t Hs Ht E. pose proof (pow_pos i). pose proof (pow_pos j).
  destruct (Nat.lt_trichotomy i j) as [Q|[Q|Q]].
  - pose proof (pow_lt _ _ Q). destruct Hs as [-> | ->], Ht as [-> | ->]; lia.
  - subst j. destruct Hs as [-> | ->], Ht as [-> | ->]; lia.
  - pose proof (pow_lt _ _ Q). destruct Hs as [-> | ->], Ht as [-> | ->]; lia.
Qed.
Lemma unit_inj : forall i s j t, (i < L)%nat -> (j < L)%nat -> sign s -> sign t -> one_at i s = one_at j t -> i = j /\ s = t.
Proof.
  intros i s j t Hi Hj Hs Ht E. apply (f_equal value) in E. rewrite !one_at_value in E by auto. apply pow_inj; auto.
Qed.
Lemma nested : forall (l m : db) s,
  fold_left (fun s u => fold_left (fun s v => try_pair L s (snd u) (snd v)) m s) l s =
  fold_left (fun s uv => try_pair L s (fst uv) (snd uv)) (list_prod (map snd l) (map snd m)) s.
Proof.
  induction l as [|u l IH]; intros m s; [reflexivity|]. cbn [fold_left map list_prod]. rewrite fold_left_app, <- IH. f_equal.
  generalize s. clear. induction m as [|v m IH]; intros s; [reflexivity|]. cbn [fold_left map fst snd]. apply IH.
Qed.
Lemma run_pairs : forall ps d sk, inv d -> Forall (fun uv => is_unit (fst uv) /\ is_unit (snd uv)) ps ->
  exists d', fold_left (fun s uv => try_pair L s (fst uv) (snd uv)) ps (d, sk) = (d', sk ++ filter same ps) /\ inv d' /\
    incl (map fst d) (map fst d') /\
    (forall i s j t, (i < L)%nat -> (j < L)%nat -> sign s -> sign t -> i <> j \/ s <> t ->
       In (NumRepre (one_at i s), NumRepre (one_at j t)) ps -> In (s * 2 ^ Z.of_nat i + t * 2 ^ Z.of_nat j) (map fst d')).
Proof.
  induction ps as [|[u v] ps IH]; intros d sk I H.
  - exists d. cbn [fold_left filter]. rewrite app_nil_r. split; [reflexivity|]. split; [exact I|]. split; [apply incl_refl|].
    intros i s j t _ _ _ _ _ [].
  - inversion H as [|? ? [[i [s [Hi [Hs Eu]]]] [j [t [Hj [Ht Ev]]]]] Hps]; subst. cbn [fst snd] in *. subst u v.
    cbn [fold_left fst snd]. destruct (try_ok d sk i s j t I Hi Hj Hs Ht) as [d1 [E1 [I1 [N1 K1]]]]. rewrite E1.
    destruct (IH d1 (sk ++ if same (NumRepre (one_at i s), NumRepre (one_at j t)) then [(NumRepre (one_at i s), NumRepre (one_at j t))] else []) I1 Hps)
      as [d2 [E2 [I2 [N2 K2]]]].
    exists d2. split; [|split; [exact I2|split; [eapply incl_tran; eauto|]]].
    + rewrite E2, <- app_assoc. cbn [filter]. destruct (same _); reflexivity.
    + intros a b c e Ha Hc Hb He Hn [H0|H0]; [|apply K2; auto].
      injection H0 as E3 E4. apply N2.
      apply unit_inj in E3; auto. apply unit_inj in E4; auto. destruct E3 as [<- <-], E4 as [<- <-]. apply K1, Hn.
Qed.

(** ** which pairs are skipped *)
Lemma same_iff : forall u v, is_unit u -> is_unit v -> same (u, v) = true <-> u = v.
Proof.
  intros u v [i [s [Hi [Hs ->]]]] [j [t [Hj [Ht ->]]]]. unfold same. cbn [fst snd].
  assert (X : (i = j /\ s = t) \/ (i <> j \/ s <> t)) by (unfold sign in *; lia). destruct X as [[<- <-]|X].
  - rewrite pair_none by auto. tauto.
  - rewrite pair_some by auto. split; [discriminate|]. intros E. injection E as E. apply unit_inj in E; auto. lia.
Qed.
Lemma row : forall u us, Forall is_unit us -> is_unit u -> NoDup us ->
  filter same (map (pair u) us) = if existsb (fun v => same (u, v)) us then [(u, u)] else [].
Proof.
  intros u us Hus Hu. induction Hus as [|v us Hv Hus IH]; intros ND; [reflexivity|]. inversion ND as [|? ? Nv ND']; subst.
  cbn [map filter existsb]. rewrite IH by exact ND'. destruct (same (u, v)) eqn:E; [|reflexivity].
  cbn [orb]. apply same_iff in E; auto. subst v. replace (existsb _ us) with false; [reflexivity|].
  symmetry. apply not_true_is_false. intros H. apply existsb_exists in H. destruct H as [w [Hw E]].
  rewrite Forall_forall in Hus. apply same_iff in E; auto. congruence.
Qed.
Lemma diagonal : forall us vs, Forall is_unit us -> Forall is_unit vs -> NoDup vs -> incl us vs ->
  filter same (list_prod us vs) = map (fun u => (u, u)) us.
Proof.
  induction us as [|u us IH]; intros vs H Hv ND Hi; [reflexivity|]. inversion H as [|? ? Hu Hus]; subst.
  cbn [list_prod map]. rewrite filter_app, row, IH by (auto; intros x Hx; apply Hi; right; exact Hx).
  replace (existsb _ vs) with true; [reflexivity|]. symmetry. apply existsb_exists. exists u.
  split; [apply Hi; left; reflexivity|]. apply same_iff; auto.
Qed.
Lemma units_are : Forall is_unit (map snd (units L)).
Proof.
  apply Forall_forall. intros p H. apply in_map_iff in H. destruct H as [[v q] [<- H]]. apply in_units in H.
  destruct H as [i [s [Hi [Hs [_ ->]]]]]. exists i, s. auto.
Qed.
Lemma units_distinct : NoDup (map snd (units L)).
Proof.
  pose proof (units_nodup L) as H. assert (G : forall x y, In x (units L) -> In y (units L) -> snd x = snd y -> fst x = fst y).
  { intros [v p] [w q] Hx Hy. cbn [fst snd]. intros <-. apply in_units in Hx, Hy.
    destruct Hx as [i [s [Hi [Hs [-> ->]]]]], Hy as [j [t [Hj [Ht [-> E]]]]]. injection E as E. apply unit_inj in E; auto.
    destruct E as [-> ->]. reflexivity. }
  induction (units L) as [|x l IH]; [constructor|]. cbn [map] in *. inversion H as [|? ? Hn Hl]; subst. constructor.
  - intros Hx. apply Hn. apply in_map_iff in Hx. destruct Hx as [y [E Hy]]. apply in_map_iff. exists y. split; [|exact Hy].
    apply G; cbn [In]; auto.
  - apply IH; auto. intros a b Ha Hb. apply G; right; assumption.
Qed.

(** ** sorting *)
Lemma insert_perm : forall x l, Permutation (insert x l) (x :: l).
Proof.
  intros x l. induction l as [|y l IH]; cbn [insert]; [constructor; constructor|]. destruct (fst x <=? fst y); [apply Permutation_refl|].
  eapply Permutation_trans; [apply perm_skip, IH|apply perm_swap].
Qed.
Lemma sort_perm : forall d, Permutation (sort_by d) d.
Proof.
  induction d as [|x d IH]; [constructor|]. change (Permutation (insert x (sort_by d)) (x :: d)).
  eapply Permutation_trans; [apply insert_perm|apply perm_skip, IH].
Qed.
Lemma insert_sorted : forall x l, ~ In (fst x) (map fst l) -> StronglySorted Z.lt (map fst l) -> StronglySorted Z.lt (map fst (insert x l)).
Proof.
  intros x l. induction l as [|y l IH]; intros N S; cbn [insert map]; [constructor; constructor|].
  inversion S as [|? ? S1 F1]; subst. cbn [map In] in N. destruct (fst x <=? fst y) eqn:E.
  - cbn [map]. constructor; [exact S|]. constructor; [lia|]. eapply Forall_impl; [|exact F1]. intros a; lia.
  - cbn [map]. constructor; [apply IH; tauto|].
    assert (P : Permutation (map fst (insert x l)) (fst x :: map fst l)) by (apply (Permutation_map fst (insert_perm x l))).
    apply Permutation_sym in P. eapply Permutation_Forall; [exact P|]. constructor; [lia|exact F1].
Qed.
Lemma sort_sorted : forall d, NoDup (map fst d) -> StronglySorted Z.lt (map fst (sort_by d)).
Proof.
  induction d as [|x d IH]; intros N; [constructor|]. change (sort_by (x :: d)) with (insert x (sort_by d)).
  cbn [map] in N. inversion N as [|? ? N1 N2]; subst. apply insert_sorted; [|apply IH, N2].
  intros H. apply N1. eapply Permutation_in; [apply (Permutation_map fst (sort_perm d))|exact H].
Qed.

(** ** the script *)
Lemma gen_ok : exists dumped, gen_chains L = Some (map (fun u => (u, u)) (map snd (units L)), dumped) /\
  StronglySorted Z.lt (map fst dumped) /\
  Forall (fun e => good (fst e) (snd e)) dumped /\
  (forall v, power v -> In v (map fst dumped)) /\
  (forall i s j t, (i < L)%nat -> (j < L)%nat -> sign s -> sign t -> i <> j \/ s <> t ->
     In (s * 2 ^ Z.of_nat i + t * 2 ^ Z.of_nat j) (map fst dumped)).
Proof.
  unfold gen_chains. rewrite init_ok. cbn [option_map]. unfold all_pairs. rewrite nested.
  pose proof units_are as U. destruct (run_pairs (list_prod (map snd (units L)) (map snd (units L))) (units L) [] units_inv) as [d [E [I [N K]]]].
  { apply Forall_forall. intros [u v] H. apply in_prod_iff in H. rewrite Forall_forall in U. split; apply U; apply H. }
  rewrite E. cbn [fst snd app]. rewrite diagonal; auto using units_distinct, incl_refl.
  exists (sort_by d). split; [reflexivity|]. pose proof (sort_perm d) as P. apply Permutation_sym in P.
  assert (PF := Permutation_map fst P). split; [apply sort_sorted, (inv_nodup d I)|].
  split; [eapply Permutation_Forall; [exact P|apply (inv_good d I)]|].
  split; [intros v Hv; eapply Permutation_in; [exact PF|apply (inv_units d I v Hv)]|].
  intros i s j t Hi Hj Hs Ht H. eapply Permutation_in; [exact PF|]. apply K; auto.
  apply in_prod; apply in_map_iff; [exists (s * 2 ^ Z.of_nat i, NumRepre (one_at i s))|exists (t * 2 ^ Z.of_nat j, NumRepre (one_at j t))];
    (split; [reflexivity|]; apply in_units); [exists i, s|exists j, t]; auto.
Qed.
End Limit.
