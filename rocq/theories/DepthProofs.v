(** Simulations used by C29, C31 and C33: shapes, trivial words, circuits, depth *)
From Verif Require Import Base Backend Words Encryption Params Pbs Addition Signum Maximum
  Multiplication Squaring Rounding Naf Asc ScalarMul Arith NeuralNetwork Spec Expr Symbolic
  BaseProofs RelProofs.
From Coq Require Import ZifyBool ZifyNat.

(** ** Everything encrypted is related *)
Lemma sim_shape : forall B1 B2, simulation B1 B2 (fun _ _ => True).
Proof. constructor; auto. Qed.
Lemma shape_rel : forall {B1 B2 : backend} (x : ciphertext B1) (y : ciphertext B2),
  shape x = shape y <-> Forall2 (wrel (fun _ _ => True)) x y.
Proof.
  intros B1 B2 x y. split.
  - revert y. induction x as [|a x IH]; intros [|b y] H; try discriminate; constructor; cbn in H; inversion H; auto.
    destruct a, b; cbn in *; try discriminate; auto. congruence.
  - induction 1 as [|a b x y H1 H2 IH]; auto. cbn. f_equal; auto.
    destruct a, b; cbn in *; try tauto. congruence.
Qed.

(** ** Nothing encrypted is related *)
Lemma sim_trivial : forall B1 B2, simulation B1 B2 (fun _ _ => False).
Proof. constructor; intros; tauto. Qed.
Lemma trivial_rel : forall {B : backend} (x : ciphertext B),
  Forall (fun w => is_triv w = true) x <-> Forall2 (wrel (fun _ _ => False)) x x.
Proof.
  intros B x. split.
  - induction 1 as [|a x H1 H2 IH]; constructor; auto. destruct a; cbn in *; [discriminate|auto].
  - induction x as [|a x IH]; intros H; constructor; inversion H; subst; auto.
    destruct a; cbn in *; tauto.
Qed.
Lemma trivial_of_rel : forall {B : backend} (x y : ciphertext B),
  Forall2 (wrel (fun _ _ => False)) x y -> Forall (fun w => is_triv w = true) x.
Proof. induction 1 as [|a b x y H1 H2 IH]; constructor; auto. destruct a, b; cbn in *; tauto. Qed.

(** ** A circuit and its value *)
Lemma sim_circuit : forall B inp, simulation (sym (poly_size B)) B (fun t c => c = teval B inp t).
Proof. intros B inp. constructor; cbn; intros; subst; auto. Qed.
Lemma circuit_rel : forall (B : backend) N inp (x : ciphertext (sym N)) (y : ciphertext B),
  Forall2 (wrel (fun (t : ct (sym N)) c => c = teval B inp t)) x y <-> y = map (wmap inp) x.
Proof.
  intros B N inp x y. split.
  - induction 1 as [|a b x y H1 H2 IH]; auto. cbn. f_equal; auto.
    destruct a, b; cbn in *; try tauto; congruence.
  - intros ->. induction x as [|a x IH]; constructor; auto. destruct a; cbn; auto.
Qed.
Lemma nsecret_secrets : forall {B : backend} (x : ciphertext B), nsecret (shape x) = length (secrets x).
Proof. intros B x. induction x as [|[c|p] x IH]; unfold nsecret in *; cbn; auto. Qed.
Lemma sinput_ok : forall (B : backend) N (x : ciphertext B) n (inp : nat -> ct B),
  (forall i c, nth_error (secrets x) i = Some c -> inp (n + i)%nat = c) ->
  map (wmap inp) (sinput N n (shape x)) = x.
Proof.
  intros B N x. induction x as [|[c|p] x IH]; intros n inp H; auto.
  - cbn. f_equal.
    + f_equal. rewrite <- (Nat.add_0_r n). apply H. reflexivity.
    + apply (IH (S n) inp). intros i d Hi. replace (S n + i)%nat with (n + S i)%nat by lia. apply H. exact Hi.
  - cbn. f_equal. apply IH. exact H.
Qed.
Lemma sinputs_ok : forall (B : backend) N (env : list (ciphertext B)) n (inp : nat -> ct B),
  (forall i c, nth_error (flat_map secrets env) i = Some c -> inp (n + i)%nat = c) ->
  map (map (wmap inp)) (sinputs N n (map shape env)) = env.
Proof.
  intros B N env. induction env as [|x env IH]; intros n inp H; auto. cbn. f_equal.
  - apply sinput_ok. intros i c Hi. apply H. cbn. rewrite nth_error_app1; auto.
    apply nth_error_Some. congruence.
  - apply IH. intros i c Hi. rewrite nsecret_secrets. rewrite <- Nat.add_assoc. apply H. cbn.
    rewrite nth_error_app2 by lia. replace (length (secrets x) + i - length (secrets x))%nat with i by lia. auto.
Qed.

(** ** Predicates graded by bootstrapping depth *)
Definition allP {A} (m : M A) (P : A -> Prop) : Prop := forall a, fst m = Ok a -> P a.
Lemma allP_ret : forall {A} (a : A) (P : A -> Prop), P a -> allP (ret a) P.
Proof. intros A a P H b E. injection E as <-. auto. Qed.
Lemma allP_panic : forall {A} e (P : A -> Prop), allP (panic e) P.
Proof. intros A e P b E. discriminate. Qed.
Lemma allP_err : forall {A} e (P : A -> Prop), allP (err_ e) P.
Proof. intros A e P b E. discriminate. Qed.
Lemma allP_bind : forall {A C} (m : M A) (f : A -> M C) P Q,
  allP m P -> (forall a, P a -> allP (f a) Q) -> allP (bind m f) Q.
Proof.
  intros A C [[a|e|e] t] f P Q H Hf c E; cbn [bind] in E; try discriminate.
  apply (Hf a (H a eq_refl)). destruct (f a). exact E.
Qed.
Lemma allP_measure : forall {A} (m : M A) P, allP m P -> allP (measure m) P.
Proof. intros A [[a|e|e] t] P H c E; cbn in E; try discriminate. apply H. exact E. Qed.
Lemma allP_analysed : forall {A} (m : M A) P, allP m P -> allP (analysed m) P.
Proof. intros A [[a|e|e] t] P H c E; cbn in E; try discriminate. apply H. exact E. Qed.
Lemma allP_expect : forall {A} (m : M A) P, allP m P -> allP (expect m) P.
Proof. intros A [[a|e|e] t] P H c E; cbn in E; try discriminate. apply H. exact E. Qed.
Lemma allP_mapM : forall {A C} (f : A -> M C) (P : C -> Prop) l,
  (forall a, In a l -> allP (f a) P) -> allP (mapM f l) (fun r => Forall P r /\ length r = length l).
Proof.
  intros A C f P l. induction l as [|a l IH]; intros H; cbn [mapM].
  - apply allP_ret. split; [constructor|reflexivity].
  - eapply allP_bind; [apply H; left; auto|]. intros b Hb.
    eapply allP_bind; [apply IH; intros; apply H; right; auto|]. intros r [Hr Hl].
    apply allP_ret. split; [constructor; auto|cbn; lia].
Qed.
Lemma allP_foldM : forall {A S} (P : S -> Prop) (f : S -> A -> M S) l s,
  P s -> (forall s a, In a l -> P s -> allP (f s a) P) -> allP (foldM f l s) P.
Proof.
  intros A S P f l. induction l as [|a l IH]; intros s Hs H; cbn [foldM]; [apply allP_ret; auto|].
  eapply allP_bind; [apply H; [left; auto|exact Hs]|]. intros s' Hs'. apply IH; auto.
  intros; apply H; auto. right; auto.
Qed.
Lemma allP_index : forall {A} (l : list A) i (P : A -> Prop), Forall P l -> allP (index l i) P.
Proof.
  intros A l i P H a E. unfold index in E. destruct (nth_error l i) eqn:N; [|discriminate].
  injection E as <-. rewrite Forall_forall in H. apply H. eapply nth_error_In; eauto.
Qed.
Lemma allP_conseq : forall {A} (m : M A) (P Q : A -> Prop), allP m P -> (forall a, P a -> Q a) -> allP m Q.
Proof. intros A m P Q H HQ a E. auto. Qed.

Record grading (B : backend) (P : nat -> ct B -> Prop) : Prop := {
  g_mono : forall k l a, (k <= l)%nat -> P k a -> P l a;
  g_add : forall k a b, P k a -> P k b -> P k (ct_add B a b);
  g_add_pt : forall k a p, P k a -> P k (ct_add_pt B a p);
  g_opp : forall k a, P k a -> P k (ct_opp B a);
  g_mul : forall k a c, P k a -> P k (ct_mul B a c);
  g_lut : forall k a acc, P k a -> P (S k) (ct_lut B acc a)
}.
Lemma depth_grading : forall N, grading (sym N) (fun k t => (tdepth t <= k)%nat).
Proof. intros N. constructor; cbn; intros; lia. Qed.

Section Graded.
Context {B : backend} {P : nat -> ct B -> Prop} (G : grading B P).
Definition wP (k : nat) (w : word B) : Prop := match w with Ct c => P k c | Triv _ => True end.
Notation cP k := (Forall (wP k)).

Lemma wP_mono : forall k l w, (k <= l)%nat -> wP k w -> wP l w.
Proof. intros k l [c|p] H; cbn; auto. apply (g_mono _ _ G); auto. Qed.
Lemma cP_mono : forall k l x, (k <= l)%nat -> cP k x -> cP l x.
Proof. intros k l x H. apply Forall_impl. intros w. apply wP_mono; auto. Qed.
Lemma wP_triv : forall k p, wP k (Triv p).
Proof. intros. exact I. Qed.
Lemma wP_triv0 : forall k, wP k triv0.
Proof. intros. exact I. Qed.
Lemma wP_add : forall k a b, wP k a -> wP k b -> wP k (w_add a b).
Proof.
  intros k [a|p] [b|q] H1 H2; cbn in *; auto; [apply (g_add _ _ G)|apply (g_add_pt _ _ G)|apply (g_add_pt _ _ G)]; auto.
Qed.
Lemma wP_opp : forall k a, wP k a -> wP k (w_opp a).
Proof. intros k [a|p] H; cbn in *; auto. apply (g_opp _ _ G); auto. Qed.
Lemma wP_sub : forall k a b, wP k a -> wP k b -> wP k (w_sub a b).
Proof. intros. apply wP_add; auto. apply wP_opp; auto. Qed.
Lemma wP_mul : forall k a c, wP k a -> wP k (w_mul_const a c).
Proof.
  intros k [a|p] c H; unfold w_mul_const; destruct (c <? 0); cbn in *; auto; try apply (g_opp _ _ G);
    apply (g_mul _ _ G); auto.
Qed.
Lemma wP_half : forall k a, wP k a -> wP k (w_add_half a).
Proof. intros k [a|p] H; cbn in *; auto. apply (g_add_pt _ _ G); auto. Qed.
Lemma wP_nth : forall k i x, cP k x -> wP k (nth i x triv0).
Proof.
  intros k i x H. destruct (nth_in_or_default i x triv0) as [Hi|E]; [|rewrite E; apply wP_triv0].
  rewrite Forall_forall in H. auto.
Qed.
Lemma cP_triv : forall k n, cP k (ct_triv n).
Proof. intros k n. unfold ct_triv. induction n; cbn; constructor; auto. apply wP_triv0. Qed.
Lemma cP_firstn : forall k n x, cP k x -> cP k (firstn n x).
Proof. intros k n x H. revert n. induction H; intros [|n]; cbn; constructor; auto. Qed.
Lemma cP_skipn : forall k n x, cP k x -> cP k (skipn n x).
Proof. intros k n x H. revert n. induction H; intros [|n]; cbn; auto. Qed.
Lemma cP_app : forall k x y, cP k x -> cP k y -> cP k (x ++ y).
Proof. intros. apply Forall_app; auto. Qed.
Lemma cP_opp : forall k x, cP k x -> cP k (pa_opp x).
Proof. intros k x H. induction H; cbn; constructor; auto using wP_opp. Qed.
Lemma cP_shift : forall k x n, cP k x -> cP k (pa_shift x n).
Proof. intros k x [|n] H; cbn [pa_shift]; auto using cP_app, cP_triv. Qed.
Lemma cP_last : forall k x, cP k x -> wP k (last x triv0).
Proof.
  intros k x H. induction H as [|a x H1 H2 IH]; [apply wP_triv0|]. cbn. destruct x; auto.
Qed.

Lemma gr_lut_half : forall k a h, wP k a -> allP (eval_LUT_5_half a h) (wP (S k)).
Proof.
  intros k [a|p] h H; unfold eval_LUT_5_half.
  - intros r E. injection E as <-. cbn. apply (g_lut _ _ G); auto.
  - eapply allP_bind with (P := fun _ => True); [intros ? ?; exact I|]. intros z _. apply allP_ret.
    destruct (_ =? 1); exact I.
Qed.
Lemma gr_lut : forall k a l, wP k a -> allP (eval_LUT_5_uint a l) (wP (S k)).
Proof. intros. apply gr_lut_half; auto. Qed.

Lemma cP_zip : forall k (f : word B -> word B -> word B) x y, cP k x -> cP k y ->
  (forall a b, wP k a -> wP k b -> wP k (f a b)) -> cP k (zip_inplace f x y).
Proof.
  intros k f x y Hx Hy Hf. revert y Hy. induction Hx; intros y Hy; cbn [zip_inplace]; [constructor|].
  destruct Hy; constructor; auto.
Qed.
Lemma gr_add_sub : forall k b x y r, cP k x -> cP k y ->
  allP (add_sub_impl b x y r) (fun z => cP (if r then S (S k) else S k) z).
Proof.
  intros k b x y r Hx Hy. unfold add_sub_impl.
  destruct (_ =? length x)%nat.
  { apply allP_ret. destruct b; [|apply cP_opp]; (eapply cP_mono; [|exact Hy]); destruct r; lia. }
  destruct (_ =? length y)%nat.
  { apply allP_ret. eapply cP_mono; [|exact Hx]. destruct r; lia. }
  apply allP_measure. set (rt := Nat.max (count_triv_zeros x) _). set (wlen := Nat.max (length x - _) _).
  assert (HW : cP k (zip_inplace (if b then w_add else w_sub) (firstn wlen x ++ ct_triv (wlen - length x)) y)).
  { apply cP_zip; auto using cP_app, cP_firstn, cP_triv. intros. destruct b; auto using wP_add, wP_sub. }
  set (w := zip_inplace _ _ y) in *. clearbody w.
  destruct (wlen <=? rt)%nat; [apply allP_err|].
  eapply allP_bind.
  { apply allP_mapM with (P := wP (S k)). intros i _. apply gr_lut.
    destruct (0 <? i)%nat; auto using wP_add, wP_mul, wP_nth. }
  intros q [Hq _]. assert (HQ : cP (S k) (ct_triv rt ++ q)) by (apply cP_app; auto using cP_triv).
  set (q1 := ct_triv rt ++ q) in *. clearbody q1. clear Hq.
  set (u := map _ (seq 0 wlen)).
  assert (HF : cP (S k) u).
  { apply Forall_forall. intros v Hv. apply in_map_iff in Hv. destruct Hv as [i [<- _]].
    assert (HWi : wP (S k) (nth i w triv0)) by (apply (wP_mono k); [lia|apply wP_nth; auto]).
    destruct (0 <? i)%nat; auto using wP_add, wP_sub, wP_mul, wP_nth. }
  clearbody u.
  eapply allP_bind with (P := fun z => cP (if r then S (S k) else S k) z).
  { destruct r; [|apply allP_ret, cP_skipn; auto].
    eapply allP_conseq; [apply allP_mapM with (P := wP (S (S k)))|intros z [H _]; exact H].
    intros a Ha. apply gr_lut. pose proof (cP_skipn (S k) rt u HF) as H. rewrite Forall_forall in H. auto. }
  intros z Hz. apply allP_ret. repeat apply cP_app; auto.
  - apply (cP_mono (S k)); [destruct r; lia|]. apply cP_firstn; auto.
  - constructor; [|constructor]. apply (wP_mono (S k)); [destruct r; lia|]. apply cP_last; auto.
Qed.
Lemma gr_add : forall k x y, cP k x -> cP k y -> allP (pa_add x y) (cP (S (S k))).
Proof. intros k x y Hx Hy. apply allP_analysed. apply (gr_add_sub k true x y true); auto. Qed.
Lemma gr_sub : forall k x y, cP k x -> cP k y -> allP (pa_sub x y) (cP (S (S k))).
Proof. intros k x y Hx Hy. apply allP_analysed. apply (gr_add_sub k false x y true); auto. Qed.

(** bootstraps of the first round: one in the narrow variant *)
Definition first_depth (pc : cloud) : nat := if 85 <=? quad_weight (cparams pc) then 0 else 1.

Lemma gr_first_group : forall k pc x j, cP k x -> allP (sgn_first_group pc x j) (wP (first_depth pc + k)).
Proof.
  intros k pc x j Hx. unfold sgn_first_group, first_depth.
  eapply allP_bind with (P := wP ((if 85 <=? quad_weight (cparams pc) then 0 else 1) + k)).
  - destruct (_ <? _)%nat; [|apply allP_ret, wP_triv0].
    eapply allP_bind with (P := wP ((if 85 <=? quad_weight (cparams pc) then 0 else 1) + k)).
    + destruct (85 <=? _); [apply allP_ret|apply gr_lut]; auto using wP_mul, wP_nth.
    + intros s Hs. apply allP_ret, wP_add; auto using wP_triv0.
  - intros b Hb. apply allP_ret. cbn [fold_left].
    assert (HX : forall i, wP ((if 85 <=? quad_weight (cparams pc) then 0 else 1) + k) (nth i x triv0)).
    { intros i. apply (wP_mono k); [lia|apply wP_nth; auto]. }
    repeat match goal with |- context [(?a <? ?l)%nat] => destruct (a <? l)%nat end;
      repeat apply wP_add; auto; cbn; auto using wP_mul.
Qed.
Lemma gr_next_group : forall k x j, cP k x -> allP (sgn_next_group x j) (wP (S k)).
Proof.
  intros k x j Hx. unfold sgn_next_group. eapply allP_bind.
  - apply allP_mapM with (P := wP (S k)). intros i _. destruct (_ <? _)%nat; [|apply allP_ret, wP_triv0].
    apply gr_lut, wP_nth; auto.
  - intros s [Hs _]. apply allP_ret. generalize (wP_triv0 (S k)). generalize (@triv0 B).
    induction Hs; intros b Hb; cbn [fold_left]; auto using wP_add.
Qed.
(** [r] further rounds; each divides the length by four *)
Lemma gr_next_rounds : forall fuel r k pc x, (length x <= 4 ^ r)%nat -> cP k x ->
  allP (sgn_recursion_fuel fuel pc x false) (cP (r + k)).
Proof.
  induction fuel as [|fuel IH]; intros r k pc x Hl Hx; cbn [sgn_recursion_fuel]; [apply allP_panic|].
  destruct (length x =? 0)%nat eqn:E0; [apply allP_ret, cP_triv|].
  destruct (length x =? 1)%nat eqn:E1; [apply allP_ret, (cP_mono k); auto; lia|].
  apply allP_measure. eapply allP_bind.
  - apply allP_mapM with (P := wP (S k)). intros j _. apply gr_next_group; auto.
  - intros b [Hb Hbl]. rewrite seq_length in Hbl.
    destruct r as [|r]; [change (4 ^ 0)%nat with 1%nat in Hl; lia|].
    replace (S r + k)%nat with (r + S k)%nat by lia. apply IH; auto.
    rewrite Hbl. unfold GAMMA. assert (4 ^ S r = 4 * 4 ^ r)%nat by reflexivity.
    pose proof (Nat.div_mod (length x - 1) 4 ltac:(lia)). pose proof (Nat.mod_upper_bound (length x - 1) 4 ltac:(lia)).
    lia.
Qed.
Lemma gr_sgn_raw : forall r k pc x, (length x <= 4 ^ S r)%nat -> cP k x ->
  allP (sgn_recursion_raw pc x true) (cP (r + first_depth pc + k)).
Proof.
  intros r k pc x Hl Hx. unfold sgn_recursion_raw. cbn [sgn_recursion_fuel].
  destruct (length x =? 0)%nat eqn:E0; [apply allP_ret, cP_triv|].
  destruct (length x =? 1)%nat eqn:E1; [apply allP_ret, (cP_mono k); auto; lia|].
  apply allP_measure. eapply allP_bind.
  - apply allP_mapM with (P := wP (first_depth pc + k)). intros j _. apply gr_first_group; auto.
  - intros b [Hb Hbl]. rewrite seq_length in Hbl.
    replace (r + first_depth pc + k)%nat with (r + (first_depth pc + k))%nat by lia.
    apply gr_next_rounds; auto.
    rewrite Hbl. unfold GAMMA. assert (4 ^ S r = 4 * 4 ^ r)%nat by reflexivity.
    pose proof (Nat.div_mod (length x - 1) 4 ltac:(lia)). pose proof (Nat.mod_upper_bound (length x - 1) 4 ltac:(lia)).
    lia.
Qed.
Lemma gr_sgn : forall r k pc x, (length x <= 4 ^ r)%nat -> cP k x -> allP (pa_sgn pc x) (cP (r + first_depth pc + k)).
Proof.
  intros r k pc x Hl Hx. apply allP_analysed. unfold sgn_impl.
  destruct (length x =? 0)%nat eqn:E0; [apply allP_ret; constructor|].
  destruct (length x =? 1)%nat eqn:E1; [apply allP_ret, (cP_mono k); auto; lia|].
  destruct r as [|r]; [change (4 ^ 0)%nat with 1%nat in Hl; lia|].
  eapply allP_bind with (P := wP (S (r + first_depth pc + k))).
  - apply allP_measure. eapply allP_bind; [apply gr_sgn_raw; eauto|]. intros s Hs.
    eapply allP_bind; [apply allP_index, Hs|]. intros s0 H0. apply gr_lut; auto.
  - intros s Hs. apply allP_ret. constructor; auto.
Qed.
(** length of a difference, at most one more *)
Lemma gr_sub_len : forall x y : ciphertext B,
  allP (pa_sub x y) (fun z => (length z <= Nat.max (length x) (length y) + 1)%nat).
Proof.
  intros x y. apply allP_analysed. unfold add_sub_impl.
  destruct (_ =? length x)%nat; [apply allP_ret; unfold pa_opp, opposite_impl; rewrite map_length; lia|].
  destruct (_ =? length y)%nat; [apply allP_ret; lia|]. apply allP_measure.
  set (rt := Nat.max (count_triv_zeros x) _). set (wlen := Nat.max (length x - _) _).
  destruct (wlen <=? rt)%nat eqn:E; [apply allP_err|].
  eapply allP_bind with (P := fun _ => True); [intros ? ?; exact I|]. intros q _.
  eapply allP_bind.
  { apply allP_mapM with (P := fun _ => True). intros ? _ ? ?. exact I. }
  intros z [_ Hz]. apply allP_ret. rewrite !app_length, Hz, firstn_length, skipn_length, map_length, seq_length.
  cbn [length]. unfold wlen. lia.
Qed.
Lemma gr_max_impl : forall r k pc x y, (Nat.max (length x) (length y) + 1 <= 4 ^ S r)%nat -> cP k x -> cP k y ->
  allP (max_impl pc x y) (cP (r + first_depth pc + 4 + k)).
Proof.
  intros r k pc x y Hl Hx Hy. apply allP_measure.
  apply allP_bind with (P := fun z => cP (S (S k)) z /\ (length z <= Nat.max (length x) (length y) + 1)%nat).
  { intros z Ez. split; [exact (gr_sub k x y Hx Hy z Ez)|exact (gr_sub_len x y z Ez)]. }
  intros d [Hd Hdl]. eapply allP_bind; [apply (gr_sgn_raw r); [|exact Hd]; lia|]. intros s Hs.
  eapply allP_bind; [apply allP_index, Hs|]. intros s0 H0.
  eapply allP_bind with (P := wP (r + first_depth pc + 3 + k)).
  { eapply allP_bind; [apply gr_lut_half, H0|]. intros h Hh. apply allP_ret, wP_half.
    eapply wP_mono; [|exact Hh]. lia. }
  intros t Ht.
  eapply allP_conseq; [apply allP_mapM with (P := wP (S (r + first_depth pc + 3 + k)))|].
  - intros [a b] Hab.
    assert (Ha : wP k a).
    { apply in_combine_l in Hab. apply in_app_or in Hab. destruct Hab as [H|H].
      - rewrite Forall_forall in Hx. auto.
      - pose proof (cP_triv k (length y - length x)) as HT. rewrite Forall_forall in HT. auto. }
    assert (Hb : wP k b).
    { apply in_combine_r in Hab. apply in_app_or in Hab. destruct Hab as [H|H].
      - rewrite Forall_forall in Hy. auto.
      - pose proof (cP_triv k (length x - length y)) as HT. rewrite Forall_forall in HT. auto. }
    unfold max_word. eapply allP_bind with (P := wP (r + first_depth pc + 3 + k)).
    + destruct (41 <=? _).
      * apply allP_ret, wP_mul. apply (wP_mono k); auto; lia.
      * eapply allP_conseq; [apply gr_lut, Hb|]. intros u Hu. eapply wP_mono; [|exact Hu]. lia.
    + intros u Hu. apply gr_lut. apply wP_add; auto. apply wP_add; auto. apply wP_mul, (wP_mono k); auto. lia.
  - intros z [Hz _]. eapply cP_mono; [|exact Hz]. lia.
Qed.
End Graded.
