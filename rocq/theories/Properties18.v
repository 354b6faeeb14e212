(** C56: the recoding of scalars is local *)
From Verif Require Import Base Backend Words Encryption Params Addition Naf Asc AscTable ScalarMul Demos Spec
  BaseProofs ValueProofs EncProofs NafProofs KtLocal KtWindows Properties11.
From Coq Require Import ZifyBool ZifyNat.

(* ------------------------------------------------------------------ *)
(** ** Specification *)

(** [v] is the value of a window of the 32-bit scalar [k] *)
Definition occurs (k v : Z) : Prop :=
  exists ws w sh, fst (wind_shifts false k ASC_BITLEN) = Ok ws /\ In (w, sh) ws /\ v = Z.abs w.
(** [v] is what experiments.rs looks up for [k]: the first 12 digits *)
Definition leads (k v : Z) : Prop :=
  exists kv, fst (koyama_tsuruoka_vec false k) = Ok kv /\ v = Z.abs (value (firstn ASC_BITLEN kv)).

Lemma own_leads : forall v, own v = true -> leads v v.
Proof.
  intros v H. unfold own, first_window in H. unfold leads.
  destruct (fst (koyama_tsuruoka_vec false v)) as [kv|e|e]; try discriminate.
  exists kv. split; [reflexivity|]. change ASC_BITLEN with 12%nat. lia.
Qed.
Lemma leads_own : forall v, leads v v -> own v = true.
Proof.
  intros v [kv [E H]]. unfold own, first_window. rewrite E. change ASC_BITLEN with 12%nat in H. lia.
Qed.
Lemma windows_in : forall v, In v windows -> (0 < v < 2^12 /\ Z.odd v = true) /\ leads v v.
Proof.
  intros v H. destruct (proj1 (windows_spec v) H) as [H1 H2]. split; [exact (proj1 (in_odds v) H1)|exact (own_leads v H2)].
Qed.
Lemma in_windows : forall v, 0 < v < 2^12 -> Z.odd v = true -> leads v v -> In v windows.
Proof.
  intros v H1 H2 H3. apply (proj2 (windows_spec v)). split; [exact (proj2 (in_odds v) (conj H1 H2))|exact (leads_own v H3)].
Qed.

(* ------------------------------------------------------------------ *)
(** ** Windows *)

(** Every window of every 32-bit scalar is the first window of an odd number
    below 2^12; that number is the window itself. Where a checked build computes
    the windows at all, they are the same. *)
Theorem C56_windows : forall o k ws w sh, 0 < k < 2^32 ->
  fst (wind_shifts o k ASC_BITLEN) = Ok ws -> In (w, sh) ws ->
  0 < Z.abs w < 2^12 /\ Z.odd w = true /\ leads (Z.abs w) (Z.abs w).
Proof.
  intros o k ws w sh Hk E HI. pose proof (wind_shifts_in o k Hk) as W. unfold ovfP in W.
  change ASC_BITLEN with 12%nat in E. rewrite E in W.
  pose proof (proj1 (Forall_forall _ _) W _ HI) as V. destruct (windows_in _ V) as [[V1 V2] V3].
  split; [exact V1|]. split; [|exact V3].
  change (fst (w, sh)) with w in V2. destruct (Z.abs_eq_or_opp w) as [A|A]; rewrite A in V2; [exact V2|].
  rewrite Z.odd_opp in V2. exact V2.
Qed.

Definition finds (v : Z) : bool :=
  match fst (wind_shifts false v 12) with Ok ws => existsb (fun w => Z.abs (fst w) =? v) ws | _ => false end.
Lemma finds_all : forallb finds windows = true.
Proof. vm_compute. reflexivity. Qed.
Lemma finds_occurs : forall v, finds v = true -> occurs v v.
Proof.
  intros v H. unfold finds in H. unfold occurs. change ASC_BITLEN with 12%nat.
  destruct (fst (wind_shifts false v 12)) as [ws|e|e]; try discriminate.
  apply existsb_exists in H as [[w sh] [HI H]]. exists ws, w, sh. cbn [fst] in H. repeat split; auto. lia.
Qed.
(** Of the 2048 odd numbers below 2^12, exactly 1792 occur as windows of 32-bit
    scalars. *)
Theorem C56_count : exists l, NoDup l /\ length l = 1792%nat /\
  forall v, In v l <-> exists k, 0 < k < 2^32 /\ occurs k v.
Proof.
  exists windows. split; [exact windows_nodup|]. split; [exact windows_count|]. intros v. split.
  - intros H. exists v. destruct (windows_in v H) as [[H1 _] _]. split; [lia|].
    exact (finds_occurs v (proj1 (forallb_forall finds windows) finds_all v H)).
  - intros [k [Hk [ws [w [sh [E [HI ->]]]]]]].
    destruct (C56_windows false k ws w sh Hk E HI) as [V1 [V2 V3]].
    apply in_windows; [exact V1| |exact V3].
    destruct (Z.abs_eq_or_opp w) as [A|A]; rewrite A; [exact V2|]. rewrite Z.odd_opp. exact V2.
Qed.

(* ------------------------------------------------------------------ *)
(** ** The chains that are read *)

Lemma mapM_same : forall A C (f g : A -> M C) l, (forall a, In a l -> f a = g a) -> mapM f l = mapM g l.
Proof.
  intros A C f g l. induction l as [|a l IH]; intros H; [reflexivity|]. cbn [mapM].
  rewrite (H a) by (left; reflexivity). rewrite IH by (intros b Hb; apply H; right; exact Hb). reflexivity.
Qed.
Lemma bind_same : forall A C (m : M A) (f g : A -> M C), (forall a, fst m = Ok a -> f a = g a) -> bind m f = bind m g.
Proof.
  intros A C [[a|e|e] ev] f g H; [|reflexivity|reflexivity]. unfold bind. cbn [fst] in H. rewrite (H a eq_refl). reflexivity.
Qed.
Lemma insert_in : forall k l x, In x (insert_key k l) -> x = k \/ In x l.
Proof.
  intros k l x. induction l as [|h t IH]; cbn [insert_key]; [intros [H|[]]; auto|].
  destruct (k <? h); [intros [H|H]; auto|]. destruct (k =? h); [auto|].
  intros [H|H]; [right; left; exact H|]. destruct (IH H) as [E|E]; auto. right. right. exact E.
Qed.
Lemma window_keys_in : forall ws x, In x (window_keys ws) -> exists w sh, In (w, sh) ws /\ x = Z.abs w.
Proof.
  intros ws x H. unfold window_keys in H.
  assert (G : forall (ws : list (Z * nat)) l, In x (fold_left (fun l wsh => insert_key (Z.abs (fst wsh)) l) ws l) ->
    In x l \/ exists w sh, In (w, sh) ws /\ x = Z.abs w).
  { clear H ws. induction ws as [|[w sh] ws IH]; intros l H; cbn [fold_left] in H; auto.
    destruct (IH _ H) as [K|[w' [sh' [K ->]]]].
    - cbn [fst] in K. destruct (insert_in _ _ _ K) as [->|K']; auto. right. exists w, sh. split; auto. left. reflexivity.
    - right. exists w', sh'. split; auto. right. exact K. }
  destruct (G ws [] H) as [[]|K]. exact K.
Qed.

(** Multiplication by any i32 reads only chains of numbers that are their own
    first window: tables that agree there give the same result, the same panics
    and the same events. *)
Theorem C56_table : forall (B : backend) (pc pc' : cloud) k (x : ciphertext B),
  - 2^31 <= k < 2^31 -> ovf pc = ovf pc' ->
  (forall v, 0 < v < 2^12 -> Z.odd v = true -> leads v v -> asc_get (asc_12 pc) v = asc_get (asc_12 pc') v) ->
  pa_scalar_mul pc k x = pa_scalar_mul pc' k x.
Proof.
  intros B pc pc' k x Hk Ho Ht. unfold pa_scalar_mul. f_equal. unfold scalar_mul_impl. rewrite Ho.
  apply bind_same. intros ka Ea.
  assert (Ku : 0 <= u32 ka < 2^32) by (unfold u32; apply Z.mod_pos_bound; lia).
  destruct (u32 ka =? 0) eqn:E0; [reflexivity|]. destruct (u32 ka =? 1) eqn:E1; [reflexivity|].
  apply bind_same. intros ws Ew.
  replace (mapM (fun wiabs => c <- asc_get (asc_12 pc) wiabs;; wix <- expect (asc_eval_ct c (if 0 <=? k then x else map w_opp x));; ret (wiabs, wix)) (window_keys ws))
    with (mapM (fun wiabs => c <- asc_get (asc_12 pc') wiabs;; wix <- expect (asc_eval_ct c (if 0 <=? k then x else map w_opp x));; ret (wiabs, wix)) (window_keys ws)); [reflexivity|].
  apply mapM_same. intros v Hv. destruct (window_keys_in ws v Hv) as [w [sh [HI ->]]].
  assert (Kp : 0 < u32 ka < 2^32) by lia.
  destruct (C56_windows _ _ ws w sh Kp Ew HI) as [V1 [V2 V3]].
  rewrite Ht; [reflexivity|exact V1| |exact V3].
  destruct (Z.abs_eq_or_opp w) as [A|A]; rewrite A; [exact V2|]. rewrite Z.odd_opp. exact V2.
Qed.

(** without the chains for [dead] *)
Definition without (dead : list Z) (t : asc_map) : asc_map :=
  filter (fun e => negb (existsb (Z.eqb (fst e)) dead)) t.
Lemma asc_get_without : forall dead t v, ~ In v dead -> asc_get (without dead t) v = asc_get t v.
Proof.
  intros dead t v H. induction t as [|[k c] t IH]; [reflexivity|]. unfold without. cbn [filter fst].
  fold (without dead t). destruct (existsb (Z.eqb k) dead) eqn:E; cbn [negb asc_get].
  - apply existsb_exists in E as [y [Hy E]]. assert (k = y) by lia. subst y.
    replace (v =? k) with false; [exact IH|]. symmetry. apply Z.eqb_neq. intros ->. auto.
  - rewrite IH. reflexivity.
Qed.
Definition dead_keys : list Z := filter (fun v => negb (own v)) odds.
Definition table_trie (t : asc_map) : trie := fold_right put_z Leaf (map fst t).
Lemma dead_spec : forall v, In v dead_keys -> own v = false.
Proof.
  assert (G : forall l v, In v (filter (fun v => negb (own v)) l) -> own v = false).
  { intros l v H. apply filter_In in H as [_ H]. destruct (own v); [discriminate|reflexivity]. }
  exact (G odds).
Qed.
Lemma dead_nodup : NoDup dead_keys.
Proof.
  assert (G : forall l, NoDup l -> NoDup (filter (fun v => negb (own v)) l)) by (intros l H; apply NoDup_filter, H).
  exact (G odds odds_nodup).
Qed.
Lemma dead_count : length dead_keys = 256%nat.
Proof. vm_compute. reflexivity. Qed.
Lemma dead_shipped : forall t, table_trie shipped_asc = t -> forallb (fun v => has_z v t) dead_keys = true.
Proof. intros t <-. vm_compute. reflexivity. Qed.

(** 256 of the 2048 shipped chains are never read: without them every scalar
    multiplication is the same. *)
Theorem C56_unused : exists dead, NoDup dead /\ length dead = 256%nat /\
  (forall v, In v dead -> In v (map fst shipped_asc)) /\
  forall (B : backend) p o t k (x : ciphertext B), - 2^31 <= k < 2^31 ->
    pa_scalar_mul (mkCloud p (without dead t) o) k x = pa_scalar_mul (mkCloud p t o) k x.
Proof.
  exists dead_keys. split; [exact dead_nodup|]. split; [exact dead_count|]. split.
  - intros v Hv. apply has_windows. exact (proj1 (forallb_forall _ _) (dead_shipped _ eq_refl) v Hv).
  - intros B p o t k x Hk. apply C56_table; [exact Hk|reflexivity|]. intros v V1 V2 V3.
    change (asc_get (without dead_keys t) v = asc_get t v). apply asc_get_without. intros D.
    pose proof (dead_spec v D) as N. rewrite (leads_own v V3) in N. discriminate.
Qed.

(* ------------------------------------------------------------------ *)
(** ** The experiment with more bits *)

(** experiments.rs:14-41 with another [gen_bits] (line 16); [k] is a u32, so
    gen_bits is at most 31 *)
Definition avg_adds_bits (o : bool) (table : asc_map) (gen_bits : nat) : M (list (Z * (Z * nat)) * Z * nat) :=
  foldM (adds_step o table) (map (fun i => 1 + 2 * Z.of_nat i) (seq 0 (2 ^ (gen_bits - 1)))) ([], 0, 0%nat).

Lemma foldM_app_fst : forall A S (f : S -> A -> M S) l1 l2 s a, fst (foldM f l1 s) = Ok a ->
  fst (foldM f (l1 ++ l2) s) = fst (foldM f l2 a).
Proof.
  intros A S f l1 l2. induction l1 as [|x l1 IH]; intros s a H; cbn [foldM app] in *.
  - injection H as ->. reflexivity.
  - destruct (f s x) as [[b|e|e] ev]; cbn in *; try discriminate.
    destruct (foldM f l1 b) as [r1 e1] eqn:E1. cbn [fst] in H.
    specialize (IH b a). rewrite E1 in IH. cbn [fst] in IH.
    destruct (foldM f (l1 ++ l2) b) as [r2 e2]. cbn [fst] in *. apply IH. exact H.
Qed.
Lemma foldM_still : forall A S (f : S -> A -> M S) l s, (forall a, In a l -> fst (f s a) = Ok s) -> fst (foldM f l s) = Ok s.
Proof.
  intros A S f l s. induction l as [|x l IH]; intros H; cbn [foldM]; [reflexivity|].
  pose proof (H x (or_introl eq_refl)) as Hx. destruct (f s x) as [r ev]. cbn [fst] in Hx. subst r.
  specialize (IH (fun a Ha => H a (or_intror Ha))). unfold bind. destruct (foldM f l s) as [r e]. cbn [fst] in *. exact IH.
Qed.
Lemma fold_more : forall S (f : S -> Z -> M S) g n m s a, fst (foldM f (map g (seq 0 n)) s) = Ok a -> (n <= m)%nat ->
  (forall i, (n <= i < m)%nat -> fst (f a (g i)) = Ok a) -> fst (foldM f (map g (seq 0 m)) s) = Ok a.
Proof.
  intros S f g n m s a E Hn H. replace m with (n + (m - n))%nat by lia. rewrite seq_app, map_app.
  rewrite (foldM_app_fst _ _ _ _ _ _ _ E). apply foldM_still. intros k Hk. apply in_map_iff in Hk as [i [<- Hi]].
  apply in_seq in Hi. apply H. lia.
Qed.
Lemma adds_still : forall (W : Z -> Prop) table m nai opt k,
  okP (koyama_tsuruoka_vec false k) (fun kv => digits kv /\ W (Z.abs (value (firstn 12 kv))) /\ nth 0 kv 0 <> 0) ->
  (forall v, W v -> ads_mem v m = true) ->
  fst (adds_step false table (m, nai, opt) k) = Ok (m, nai, opt).
Proof.
  intros W table m nai opt k F Hm. unfold adds_step.
  destruct (koyama_tsuruoka_vec false k) as [r ev]. destruct F as [kv [E [F1 [F2 F3]]]]. cbn [fst] in E. subst r.
  unfold bind at 1. change ASC_BITLEN with 12%nat.
  pose proof (firstn_length 12 kv) as Hlen.
  rewrite convert_from_vec_ok; [|apply digits_firstn; exact F1|lia].
  change (expect (ret ?x)) with (ret x). rewrite ret_bind. rewrite (Hm _ F2). reflexivity.
Qed.
(** the keys of the map: windows, without repetition *)
Lemma ads_mem_in : forall m v, In v (map fst m) -> ads_mem v m = true.
Proof.
  induction m as [|[k' r] m IH]; intros v H; [destruct H|]. cbn [ads_mem]. destruct (v =? k') eqn:E; [reflexivity|].
  destruct H as [H|H]; [cbn in H; lia|]. exact (IH v H).
Qed.
Lemma adds_keys : forall (W : Z -> Prop) table,
  (forall k, 0 < k < 2^32 -> Z.odd k = true ->
    okP (koyama_tsuruoka_vec false k) (fun kv => digits kv /\ W (Z.abs (value (firstn 12 kv))) /\ nth 0 kv 0 <> 0)) ->
  forall l st m nai opt, (forall k, In k l -> 0 < k < 2^32 /\ Z.odd k = true) ->
  NoDup (map fst (fst (fst st))) -> (forall v, In v (map fst (fst (fst st))) -> W v) ->
  fst (foldM (adds_step false table) l st) = Ok (m, nai, opt) ->
  NoDup (map fst m) /\ forall v, In v (map fst m) -> W v.
Proof.
  intros W table HW. induction l as [|k l IH]; intros [[m0 n0] o0] m nai opt Hl HN HV E; cbn [foldM] in E.
  - cbn in E. injection E as <- <- <-. cbn [fst] in *. split; assumption.
  - cbn [fst] in HN, HV. destruct (Hl k (or_introl eq_refl)) as [Hk Ho]. pose proof (HW k Hk Ho) as F.
    unfold bind at 1 in E. unfold adds_step in E at 1.
    destruct (koyama_tsuruoka_vec false k) as [r ev]. destruct F as [kv [E' [F1 [F2 F3]]]]. cbn [fst] in E'. subst r.
    unfold bind at 1 in E. change ASC_BITLEN with 12%nat in E. pose proof (firstn_length 12 kv) as Hlen.
    rewrite convert_from_vec_ok in E; [|apply digits_firstn; exact F1|lia].
    change (expect (ret (value (firstn 12 kv)))) with (ret (value (firstn 12 kv))) in E. rewrite ret_bind in E.
    set (w := Z.abs (value (firstn 12 kv))) in *. clearbody w.
    assert (Hl' : forall k, In k l -> 0 < k < 2^32 /\ Z.odd k = true) by (intros k' H; apply Hl; right; exact H).
    destruct (ads_mem w m0) eqn:Em.
    + cbn [ret fst snd app] in E. eapply (IH (m0, n0, o0) m nai opt); cbn [fst]; auto.
      destruct (foldM (adds_step false table) l (m0, n0, o0)) as [r e]. exact E.
    + destruct (expect (bin_hw false (firstn 12 kv))) as [[hw|e|e] eh]; cbn [bind fst] in E; try discriminate.
      rewrite Bool.andb_false_r in E.
      destruct (asc_get table w) as [[c|e|e] ec]; cbn [bind ret fst snd app] in E; try discriminate.
      eapply (IH ((w, (u64 (hw - 1), length c)) :: m0, u64 (n0 + u64 (hw - 1)), (o0 + length c)%nat) m nai opt); cbn [fst map]; auto.
      * constructor; [|exact HN]. intros H. apply ads_mem_in in H. congruence.
      * intros v [<-|H]; auto.
      * destruct (foldM (adds_step false table) l _) as [r e]. exact E.
Qed.
Lemma avg_adds_12 : forall o t, avg_adds o t = avg_adds_bits o t ASC_BITLEN.
Proof. reflexivity. Qed.
Lemma avg_more : forall (W : Z -> Prop) table n b m nai opt, (1 <= n <= b)%nat -> (b <= 32)%nat ->
  (forall k, 0 < k < 2^32 -> Z.odd k = true ->
    okP (koyama_tsuruoka_vec false k) (fun kv => digits kv /\ W (Z.abs (value (firstn 12 kv))) /\ nth 0 kv 0 <> 0)) ->
  (forall v, W v -> ads_mem v m = true) ->
  fst (avg_adds_bits false table n) = Ok (m, nai, opt) -> fst (avg_adds_bits false table b) = Ok (m, nai, opt).
Proof.
  intros W table n b m nai opt Hn Hb HW Hm E. unfold avg_adds_bits in *.
  assert (P : (2 ^ (n - 1) <= 2 ^ (b - 1))%nat) by (apply Nat.pow_le_mono_r; lia).
  assert (Q : Z.of_nat (2 ^ (b - 1)) <= 2^31).
  { rewrite Nat2Z.inj_pow. apply Z.pow_le_mono_r; lia. }
  refine (fold_more _ _ _ _ _ _ _ E P _). intros i Hi.
  assert (O : Z.odd (1 + 2 * Z.of_nat i) = true) by (rewrite Z.odd_add, Z.odd_mul; reflexivity).
  assert (K : 0 < 1 + 2 * Z.of_nat i < 2^32) by lia.
  exact (adds_still W _ _ _ _ _ (HW _ K O) Hm).
Qed.

Lemma avg_keys : forall (W : Z -> Prop) table n m nai opt, (n <= 32)%nat ->
  (forall k, 0 < k < 2^32 -> Z.odd k = true ->
    okP (koyama_tsuruoka_vec false k) (fun kv => digits kv /\ W (Z.abs (value (firstn 12 kv))) /\ nth 0 kv 0 <> 0)) ->
  fst (avg_adds_bits false table n) = Ok (m, nai, opt) -> NoDup (map fst m) /\ forall v, In v (map fst m) -> W v.
Proof.
  intros W table n m nai opt Hn HW E. unfold avg_adds_bits in E.
  refine (adds_keys W table HW _ ([], 0, 0%nat) m nai opt _ _ _ E).
  - intros k Hk. apply in_map_iff in Hk as [i [<- Hi]]. apply in_seq in Hi.
    assert (Q : Z.of_nat (2 ^ (n - 1)) <= 2^31) by (rewrite Nat2Z.inj_pow; apply Z.pow_le_mono_r; lia).
    split; [lia|]. rewrite Z.odd_add, Z.odd_mul. reflexivity.
  - constructor.
  - intros v [].
Qed.
Lemma L12 : (ASC_BITLEN <= 32)%nat.
Proof. change ASC_BITLEN with 12%nat. lia. Qed.

(** "generates the same with higher bitlen (KT is local)" *)
Theorem C56_experiment : forall gen_bits, (12 <= gen_bits <= 31)%nat ->
  fst (avg_adds_bits false shipped_asc gen_bits) = fst (avg_adds false shipped_asc).
Proof.
  intros b Hb. destruct C47_experiment as [m [nai [opt [E [Lm _]]]]]. rewrite E.
  rewrite avg_adds_12 in E.
  assert (L : (1 <= ASC_BITLEN <= b)%nat) by (change ASC_BITLEN with 12%nat; lia).
  destruct (avg_keys (fun v => In v windows) shipped_asc ASC_BITLEN m nai opt L12 first_in E) as [N V].
  assert (Hm : forall v, In v windows -> ads_mem v m = true).
  { intros v Hv. apply ads_mem_in. refine (NoDup_length_incl N _ V v Hv). rewrite map_length, Lm, windows_count. constructor. }
  exact (avg_more (fun v => In v windows) shipped_asc ASC_BITLEN b m nai opt L ltac:(lia) first_in Hm E).
Qed.

(* ------------------------------------------------------------------ *)
(** ** Examples *)

(** 559038737 has three windows; 3415 is a key of the table that never occurs:
    its own first window is 681 *)
Example C56_three : exists w0 w1 w2, fst (wind_shifts false 559038737 ASC_BITLEN) = Ok [w0; w1; w2] /\
  leads (Z.abs (fst w0)) (Z.abs (fst w0)) /\ leads (Z.abs (fst w1)) (Z.abs (fst w1)) /\ leads (Z.abs (fst w2)) (Z.abs (fst w2)).
Proof.
  eexists _, _, _. split; [vm_compute; reflexivity|]. repeat split; apply own_leads; vm_compute; reflexivity.
Qed.
Example C56_3415 : In 3415 (map fst shipped_asc) /\ leads 3415 681 /\ forall k, 0 < k < 2^32 -> ~ occurs k 3415.
Proof.
  split; [apply has_windows; vm_compute; reflexivity|]. split; [eexists; split; vm_compute; reflexivity|].
  intros k Hk [ws [w [sh [E [HI V]]]]]. destruct (C56_windows false k ws w sh Hk E HI) as [_ [_ L]]. rewrite <- V in L.
  apply leads_own in L. revert L. vm_compute. discriminate.
Qed.
(** the table without its chain for 3415 and the shipped one, times 559038737 *)
Example C56_table_3415 : forall (B : backend) p (x : ciphertext B),
  pa_scalar_mul (mkCloud p (without [3415] shipped_asc) false) 559038737 x = pa_scalar_mul (mkCloud p shipped_asc false) 559038737 x.
Proof.
  intros B p x. apply C56_table; [lia|reflexivity|]. intros v V1 V2 V3.
  change (asc_get (without [3415] shipped_asc) v = asc_get shipped_asc v). apply asc_get_without.
  intros [<-|[]]. apply leads_own in V3. revert V3. vm_compute. discriminate.
Qed.

Print Assumptions C56_windows.
Print Assumptions C56_count.
Print Assumptions C56_table.
Print Assumptions C56_unused.
Print Assumptions C56_experiment.
