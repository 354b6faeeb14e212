(** Quadratic weights: squares, roundings and products. Proofs only. *)
From Verif Require Import Base Backend Words Params Pbs Addition Signum Maximum Multiplication Squaring Rounding Symbolic Weights.
From Verif Require Import BaseProofs AddProofs DepthProofs WeightProofs.

Section WM.
Context {N : nat}.
Notation B := (sym N).

Lemma nth_triv_app : forall k (x : ciphertext B) i,
  nth i (ct_triv k ++ x) triv0 = if (i <? k)%nat then triv0 else nth (i - k)%nat x triv0.
Proof.
  intros k x i. unfold ct_triv. destruct (Nat.ltb_spec i k) as [L|L].
  - rewrite app_nth1 by (rewrite repeat_length; auto). change (encrypt_word_triv 0) with (@triv0 B). apply nth_repeat.
  - rewrite app_nth2; rewrite repeat_length; auto.
Qed.
Lemma nth_shift : forall (x : ciphertext B) k i,
  nth i (pa_shift x k) triv0 = if (i <? k)%nat then triv0 else nth (i - k)%nat x triv0.
Proof.
  intros x [|k] i; [cbn; rewrite Nat.sub_0_r; reflexivity|]. unfold pa_shift. apply nth_triv_app.
Qed.

(* ------------------------------------------------------------------ *)
(** ** Squares *)

Lemma squ_short_weight : forall rec n (x : ciphertext B), 22 <= n -> (length x <= 3)%nat ->
  (forall i, fresh (nth i x triv0)) -> separate (fun i => nth i x triv0) ->
  allP (squ_impl rec x) (Forall (wb n)).
Proof.
  intros rec n x Hn HL HF HS. unfold squ_impl.
  destruct (Nat.eqb_spec (length x) 0) as [E0|E0]; [apply allP_ret; constructor|].
  destruct (Nat.eqb_spec (length x) 1) as [E1|E1].
  { unfold squ_1word. eapply allP_bind with (P := wb n).
    - apply allP_measure. eapply allP_bind with (P := fun w => fresh w).
      + apply allP_index. eapply nth_Forall_triv; auto.
      + intros w Hw. eapply allP_conseq; [apply (lut_ok n); [apply fresh_wb; auto|]|intros r Hr; apply Hr].
        eapply qle_mono; [|apply fresh_single; auto]. lia.
    - intros r Hr. apply allP_ret. constructor; [auto|constructor]. }
  destruct (Nat.leb_spec (length x) 3) as [L|L]; [|lia]. unfold squ_2_3word.
  destruct (negb _); [apply allP_panic|].
  set (xv := if (length x =? 2)%nat then _ else _).
  assert (HX : wb n xv /\ qle (wcoef xv) 21).
  { assert (D : forall i j, i <> j -> disj (wcoef (nth i x triv0)) (wcoef (nth j x triv0))) by exact HS.
    assert (S : forall i, qle (wcoef (nth i x triv0)) 1) by (intros; apply fresh_single; auto).
    assert (F : forall i, wb n (nth i x triv0)) by (intros; apply fresh_wb; auto).
    subst xv. destruct (length x =? 2)%nat.
    - split; [apply wb_add; [apply wb_mul|]; auto|].
      apply qle_mono with (n := 2 * 2 * 1 + 1); [lia|].
      apply qle_w with (f := fun a => 2 * wcoef (nth 1 x triv0) a + wcoef (nth 0 x triv0) a).
      { intros a. rewrite wc_add, wc_mul by lia. reflexivity. }
      apply qle_disj; auto; [|apply qle_scale; auto]. intros a. destruct (D 1%nat 0%nat ltac:(lia) a); lia.
    - split; [cbv zeta; repeat first [apply wb_add | apply wb_mul]; auto|].
      apply qle_mono with (n := 4 * 4 * 1 + 2 * 2 * 1 + 1); [lia|].
      apply qle_w with (f := fun a => 4 * wcoef (nth 2 x triv0) a + 2 * wcoef (nth 1 x triv0) a + wcoef (nth 0 x triv0) a).
      { intros a. cbv zeta. rewrite wc_add, wc_mul, wc_add, wc_mul by lia. ring. }
      apply qle_disj; auto.
      + intros a. destruct (D 1%nat 0%nat ltac:(lia) a); destruct (D 2%nat 0%nat ltac:(lia) a); lia.
      + apply qle_disj; [|apply qle_scale; auto|apply qle_scale; auto].
        intros a. destruct (D 2%nat 1%nat ltac:(lia) a); lia. }
  destruct HX as [X1 X2].
  eapply allP_bind with (P := Forall (wb n)).
  - apply allP_measure. eapply allP_conseq; [apply allP_mapM with (P := wb n)|intros r Hr; apply Hr].
    intros i _. assert (K : forall l, allP (eval_LUT_5_uint xv l) (wb n)).
    { intros l. eapply allP_conseq; [apply (lut_ok n); auto|intros r Hr; apply Hr]. eapply qle_mono; [|exact X2]. lia. }
    unfold squ_3_bit_pi_5. destruct (if (i <? 1)%nat then i else (i + 1)%nat) as [|[|[|[|[|[|k]]]]]]; auto; try apply allP_panic.
    apply allP_ret, wb_triv0.
  - intros b Hb. eapply allP_bind; [apply allP_index; exact Hb|]. intros r0 Hr. apply allP_ret.
    constructor; [auto|]. constructor; [apply wb_triv0|]. destruct Hb; [constructor|auto].
Qed.

(* ------------------------------------------------------------------ *)
(** ** Rounding *)

Lemma round_weight : forall pc (x : ciphertext B) pos, 22 <= budget pc ->
  (forall i, fresh (nth i x triv0)) -> separate (fun i => nth i x triv0) ->
  allP (pa_round_at pc x pos) (Forall (wb (budget pc))).
Proof.
  intros pc x pos Hn HF HS. apply allP_analysed. unfold round_at_impl. destruct pos as [|pos1].
  { apply allP_ret, nth_Forall_triv. intros i. apply fresh_wb; auto. }
  destruct (_ <=? _)%nat; [apply allP_ret; repeat constructor|].
  set (n := budget pc) in *.
  assert (FN : forall i, nth i (firstn pos1 x) triv0 = if (i <? pos1)%nat then nth i x triv0 else triv0).
  { intros i. destruct (Nat.ltb_spec i pos1); [apply nth_firstn_lt; auto|].
    apply nth_overflow. rewrite firstn_length. lia. }
  eapply allP_bind with (P := fun sr => fst sr = pa_shift (skipn (S pos1) x) (S pos1) /\
    exists acc w rw, snd sr = ct_triv (S pos1) ++ [rw] /\ lut_of acc w rw /\ wb n rw).
  - apply allP_measure. eapply allP_bind; [apply sgn_single; auto; apply fresh_sgn_in|].
    + intros i. rewrite FN. destruct (i <? pos1)%nat; [apply HF|exact I].
    + intros i j NE a. cbv beta. rewrite !FN. destruct (i <? pos1)%nat; [|left; reflexivity].
      destruct (j <? pos1)%nat; [|right; reflexivity]. apply (HS i j NE a).
    + intros s Hs. cbv zeta. set (yy := match s with [] => _ | _ => _ end).
      assert (Y : wb n yy /\ qle (wcoef yy) 10).
      { assert (F1 : wb n (w_mul_const (nth pos1 x triv0) 2)) by (apply wb_mul, fresh_wb; auto).
        assert (F2 : qle (wcoef (w_mul_const (nth pos1 x triv0) 2)) (2 * 2 * 1)).
        { eapply qle_w; [intros a; apply wc_mul; lia|]. apply qle_scale, fresh_single; auto. }
        subst yy. destruct Hs as [|s0 s [S1 S2] Hs].
        - split; auto. eapply qle_mono; [|exact F2]. lia.
        - split; [apply wb_add; auto|]. eapply qle_mono; [|eapply qle_w; [intros a; apply wc_add|]; apply qle_add; [exact F2|exact S2]]. lia. }
      destruct Y as [Y1 Y2]. eapply allP_bind; [apply lut_shape|]. intros rw Hrw. apply allP_ret. split; [reflexivity|].
      exists (@lut_acc N lut_round), yy, rw. split; [reflexivity|]. split; auto.
      eapply lut_wb; eauto. eapply qle_mono; [|exact Y2]. lia.
  - intros [slx r] [E1 (acc & w & rw & E2 & HL & HW)]. cbn [fst snd] in E1, E2. subst slx r.
    apply allP_analysed.
    assert (SX : forall i, fresh (nth i (pa_shift (skipn (S pos1) x) (S pos1)) triv0)).
    { intros i. rewrite nth_shift. destruct (i <? S pos1)%nat; [exact I|]. rewrite nth_skipn_add. apply HF. }
    assert (SR : forall i, nth i (ct_triv (S pos1) ++ [rw]) triv0 = if (i =? S pos1)%nat then rw else triv0).
    { intros i. rewrite nth_triv_app. destruct (Nat.ltb_spec i (S pos1)); destruct (Nat.eqb_spec i (S pos1)); try lia; auto.
      - subst i. rewrite Nat.sub_diag. reflexivity.
      - destruct (i - S pos1)%nat as [|[|k]] eqn:E; [lia| |]; reflexivity. }
    eapply allP_conseq; [apply add_weight with (n := n); auto|intros z Hz; apply nth_Forall_triv; intros i; apply Hz].
    split; [|split; [|split; [|split]]].
    + intros i. split; [apply fresh_wb|apply fresh_single]; auto.
    + intros i. rewrite SR. destruct (i =? S pos1)%nat; [split; [auto|eapply lut_single; eauto]|].
      split; [apply wb_triv0|apply single_triv0].
    + intros i j NE a. cbv beta. rewrite !nth_shift. destruct (Nat.ltb_spec i (S pos1)); [left; reflexivity|].
      destruct (Nat.ltb_spec j (S pos1)); [right; reflexivity|]. rewrite !nth_skipn_add. apply HS. lia.
    + intros i j NE a. cbv beta. rewrite !SR. destruct (Nat.eqb_spec i (S pos1)); [|left; reflexivity].
      destruct (Nat.eqb_spec j (S pos1)); [lia|right; reflexivity].
    + intros i j a. rewrite SR. destruct (j =? S pos1)%nat; [|right; reflexivity].
      destruct (Z.eq_dec (wcoef (nth i (pa_shift (skipn (S pos1) x) (S pos1)) triv0) a) 0) as [E|E]; [left; auto|right].
      destruct (fresh_coef _ _ (SX i) E) as [v [_ ->]].
      destruct (Z.eq_dec (wcoef rw (TVar v)) 0) as [E'|E']; auto.
      destruct (lut_coef _ _ _ _ HL E') as [t [_ Et]]. discriminate.
Qed.

(* ------------------------------------------------------------------ *)
(** ** Products of encrypted words *)

(** properties of circuits that a circuit has once a part of it has them *)
Record upward (H : term -> Prop) : Prop := {
  u_add : forall u v, H u \/ H v -> H (TAdd u v);
  u_add_pt : forall u p, H u -> H (TAddPt u p);
  u_opp : forall u, H u -> H (TOpp u);
  u_mul : forall u k, H u -> H (TMul u k)
}.
Definition wH (H : term -> Prop) (w : word B) : Prop := match w with Ct t => H t | Triv _ => False end.
Lemma coef_up : forall H, upward H -> forall t a, coef t a <> 0 -> H a -> H t.
Proof.
  intros H HU. induction t as [v|u IHu v IHv|u IHu p|u IHu|u IHu k|acc u IHu]; intros a E Ha; cbn [coef] in E.
  - destruct (term_eq_dec (TVar v) a); [subst; auto|lia].
  - apply (u_add _ HU). destruct (Z.eq_dec (coef u a) 0); [right; apply (IHv a); auto; lia|left; apply (IHu a); auto].
  - apply (u_add_pt _ HU), (IHu a); auto.
  - apply (u_opp _ HU), (IHu a); auto. lia.
  - apply (u_mul _ HU), (IHu a); auto. intros E'. rewrite E' in E. lia.
  - destruct (term_eq_dec (TLut acc u) a); [subst; auto|lia].
Qed.
Lemma wcoef_up : forall H, upward H -> forall w a, wcoef w a <> 0 -> H a -> wH H w.
Proof. intros H HU [t|p] a E Ha; cbn in *; [apply (coef_up H HU t a); auto|lia]. Qed.
Lemma wH_add : forall H, upward H -> forall v w, wH H v \/ wH H w -> wH H (w_add v w).
Proof.
  intros H HU [v|p] [w|q] K; cbn in *; try (destruct K as [K|K]; try contradiction); auto;
    try (apply (u_add _ HU); auto); try (apply (u_add_pt _ HU); auto).
Qed.
Lemma wH_sub : forall H, upward H -> forall v w, wH H v -> wH H (w_sub v w).
Proof.
  intros H HU [v|p] [w|q] K; cbn in *; try contradiction; auto;
    try (apply (u_add _ HU); auto); try (apply (u_add_pt _ HU); auto).
Qed.
Lemma wH_mul : forall H, upward H -> forall w k, wH H w -> wH H (w_mul_const w k).
Proof. intros H HU [w|p] k K; unfold wH, w_mul_const in *; [|contradiction].
  destruct (k <? 0); [apply (u_opp _ HU)|]; apply (u_mul _ HU); auto.
Qed.

Fixpoint uses (v : nat) (t : term) : Prop :=
  match t with
  | TVar i => i = v
  | TAdd a b => uses v a \/ uses v b
  | TAddPt a _ | TOpp a | TMul a _ | TLut _ a => uses v a
  end.
Lemma uses_up : forall v, upward (uses v).
Proof. intros v. constructor; cbn; auto. Qed.
Lemma deep_up : upward (fun t => (1 <= tdepth t)%nat).
Proof. constructor; cbn; intros; lia. Qed.
Lemma unused_grading : forall v, grading B (fun _ t => ~ uses v t).
Proof. intros v. constructor; cbn; intros; tauto. Qed.

Section Product.
Variable n : nat.
Hypothesis Hpos : (0 < n)%nat.
(** operands: n encrypted words each, numbered from 0 and from n *)
Definition prod_lut : list Z := @lut_acc N lut_mul_bit.
Definition cell (i j : nat) : term := TLut prod_lut (TAdd (TMul (TVar i) 3) (TVar (n + j))).
(** row j of the schoolbook array *)
Definition is_row (j : nat) (r : ciphertext B) : Prop :=
  length r = (2 * n)%nat /\
  forall i, nth i r triv0 = if (i <? j)%nat then triv0 else if (i <? j + n)%nat then @Ct B (cell (i - j) j) else triv0.

(** the sum of the rows up to k *)
Record inv (k : nat) (a : ciphertext B) : Prop := {
  i_words : forall i, wb 22 (nth i a triv0) /\ single (nth i a triv0);
  i_samp : forall i, samp (nth i a triv0);
  i_sep : separate (fun i => nth i a triv0);
  i_vars : forall j i t, (k < j)%nat -> nth i a triv0 = @Ct B t -> ~ uses (n + j) t;
  i_len : (elen a <= n + k + 1)%nat
}.

Lemma cell_coef : forall i j a, coef (cell i j) a = ind (cell i j) a.
Proof. reflexivity. Qed.
Lemma cell_inj : forall i j i' j', cell i j = cell i' j' -> i = i' /\ j = j'.
Proof. intros i j i' j' E. unfold cell in E. injection E. intros. lia. Qed.
Lemma cell_wb : forall i j, wb 22 (@Ct B (cell i j)).
Proof.
  intros i j. cbn [wb cell boot_inputs app]. constructor; [|constructor].
  apply qle_mono with (n := 2 * (3 * 3 * 1) + 2 * 1); [lia|].
  apply (qle_ext (fun a => 3 * ind (TVar i) a + ind (TVar (n + j)) a)); [reflexivity|].
  apply qle_add; [apply qle_scale|]; apply qle_ind.
Qed.
Lemma row_word : forall j r i, is_row j r ->
  nth i r triv0 = triv0 \/ ((j <= i < j + n)%nat /\ nth i r triv0 = @Ct B (cell (i - j) j)).
Proof.
  intros j r i [_ H]. rewrite H. destruct (Nat.ltb_spec i j); auto. destruct (Nat.ltb_spec i (j + n)); auto.
Qed.
Lemma row_coef : forall j r i a, is_row j r -> wcoef (nth i r triv0) a <> 0 -> (j <= i < j + n)%nat /\ a = cell (i - j) j.
Proof.
  intros j r i a H E. destruct (row_word j r i H) as [K|[L K]]; rewrite K in E; [cbn in E; lia|]. split; auto.
  cbn [wcoef] in E. rewrite cell_coef in E. unfold ind in E. destruct (term_eq_dec (cell (i - j) j) a); [auto|lia].
Qed.
Lemma row_separate : forall j r, is_row j r -> separate (fun i => nth i r triv0).
Proof.
  intros j r H i i' NE a. cbv beta. destruct (Z.eq_dec (wcoef (nth i r triv0) a) 0) as [E|E]; auto. right.
  destruct (Z.eq_dec (wcoef (nth i' r triv0) a) 0) as [E'|E']; auto.
  destruct (row_coef _ _ _ _ H E) as [L ->]. destruct (row_coef _ _ _ _ H E') as [L' Q]. apply cell_inj in Q. lia.
Qed.
Lemma row_inv : forall j k r, is_row j r -> (j <= k)%nat -> inv k r.
Proof.
  intros j k r H Hk. constructor.
  - intros i. destruct (row_word j r i H) as [K|[L K]]; rewrite K; [split; [apply wb_triv0|apply single_triv0]|].
    split; [apply cell_wb|]. apply (qle_ext (ind (cell (i - j) j))); [reflexivity|apply qle_ind].
  - intros i. destruct (row_word j r i H) as [K|[L K]]; rewrite K; [exact I|]. exists (cell (i - j) j), 1. split; auto.
    intros b. rewrite cell_coef. lia.
  - eapply row_separate; eauto.
  - intros m i t Hm E. destruct (row_word j r i H) as [K|[L K]]; rewrite K in E; [discriminate|]. injection E as <-. cbn. lia.
  - apply elen_le. intros i Hi. destruct (row_word j r i H) as [K|[L K]]; [rewrite K; reflexivity|lia].
Qed.
Lemma ctz_at_least : forall (x : ciphertext B) m, (m <= length x)%nat ->
  (forall i, (i < m)%nat -> is_triv_zero (nth i x triv0) = true) -> (m <= count_triv_zeros x)%nat.
Proof.
  intros x m Hm H. destruct (Nat.le_gt_cases m (count_triv_zeros x)) as [L|L]; auto.
  destruct (ctz_spec x) as [_ [_ H3]]. rewrite H in H3 by lia. specialize (H3 ltac:(lia)). discriminate.
Qed.
Lemma inv_mono : forall k l a, (k <= l)%nat -> inv k a -> inv l a.
Proof.
  intros k l a H [I1 I2 I3 I4 I5]. constructor; auto; [|lia]. intros j i t Hj. apply I4. lia.
Qed.
Lemma Forall_wP_nth : forall v (a : ciphertext B), (forall i t, nth i a triv0 = @Ct B t -> ~ uses v t) ->
  Forall (@wP B (fun _ t => ~ uses v t) 0) a.
Proof.
  intros v a H. apply nth_Forall_triv. intros i. destruct (nth i a triv0) as [t|p] eqn:E; cbn; eauto.
Qed.
Lemma wP_Forall_nth : forall v k (a : ciphertext B), Forall (@wP B (fun _ t => ~ uses v t) k) a ->
  forall i t, nth i a triv0 = @Ct B t -> ~ uses v t.
Proof.
  intros v k a H i t E. pose proof (Forall_nth_triv (@wP B (fun _ t => ~ uses v t) k) a i I H) as K. rewrite E in K. exact K.
Qed.

Lemma step_inv : forall k a r, (S k < n)%nat -> inv k a -> is_row (S k) r -> allP (pa_add a r) (inv (S k)).
Proof.
  intros k a r Hk HI HR.
  assert (VR : allP (pa_add a r) (fun z => forall j i t, (S k < j)%nat -> nth i z triv0 = @Ct B t -> ~ uses (n + j) t)).
  { intros z Ez j i t Hj E. revert i t E. apply (wP_Forall_nth (n + j) 2).
    refine (gr_add (unused_grading (n + j)) 0 a r _ _ z Ez); apply Forall_wP_nth; intros i t.
    - apply (i_vars _ _ HI). lia.
    - apply (i_vars _ _ (row_inv (S k) (S k) r HR ltac:(lia))). auto. }
  assert (ST : allP (pa_add a r) (fun z => z = r \/ z = a \/
    exists rt wlen W V Q U Z, parts true a r rt wlen W V Q U Z /\ assembled rt wlen Q U Z z)).
  { apply allP_analysed. exact (sum_parts true a r). }
  intros z Ez. specialize (VR z Ez). specialize (ST z Ez). cbv beta in ST.
  destruct ST as [ -> |[ -> |(rt & wlen & W & V & Q & U & Z & HP & HZ)]].
  { eapply row_inv; eauto. }
  { eapply inv_mono; [|eauto]; lia. }
  assert (HO : operands 22 a r).
  { pose proof (row_inv (S k) (S k) r HR ltac:(lia)) as HI'.
    split; [apply HI|]. split; [apply HI'|]. split; [apply HI|]. split; [apply HI'|].
    intros i j b. destruct (Z.eq_dec (wcoef (nth j r triv0) b) 0) as [E|E]; auto. left.
    destruct (row_coef _ _ _ _ HR E) as [L ->].
    destruct (Z.eq_dec (wcoef (nth i a triv0) (cell (j - S k) (S k))) 0) as [E'|E']; auto.
    destruct (nth i a triv0) as [t|p] eqn:ET; [|cbn in E'; lia].
    destruct (i_vars _ _ HI (S k) i t ltac:(lia) ET). apply (coef_up _ (uses_up _) t _ E'). cbn. lia. }
  assert (RT : (S k <= rt)%nat).
  { rewrite (p_rt _ _ _ _ _ _ _ _ _ _ HP). assert (S k <= count_triv_zeros r)%nat; [|lia].
    apply ctz_at_least; [destruct HR as [-> _]; lia|]. intros i Hi. destruct HR as [_ HR]. rewrite HR.
    destruct (Nat.ltb_spec i (S k)); [reflexivity|lia]. }
  assert (WL : (wlen <= n + S k)%nat).
  { rewrite (p_wlen _ _ _ _ _ _ _ _ _ _ HP). pose proof (i_len _ _ HI). assert (elen r <= n + S k)%nat; [|lia].
    apply elen_le. intros i Hi. destruct (row_word _ _ i HR) as [K|[L K]]; [rewrite K; reflexivity|lia]. }
  assert (WC : forall j, (rt <= j < wlen)%nat -> wcoef (W j) (cell (j - S k) (S k)) <> 0).
  { intros j Hj. rewrite (p_W _ _ _ _ _ _ _ _ _ _ HP). destruct (row_word _ _ j HR) as [K|[L K]].
    { destruct HR as [_ HR]. rewrite HR in K. destruct (Nat.ltb_spec j (S k)); [lia|].
      destruct (Nat.ltb_spec j (S k + n)); [discriminate|lia]. }
    assert (E1 : wcoef (nth j r triv0) (cell (j - S k) (S k)) = 1) by (rewrite K; cbn [wcoef]; rewrite cell_coef; apply ind_same).
    destruct HO as [_ [_ [_ [_ D]]]]. destruct (D j j (cell (j - S k) (S k))) as [E|E]; rewrite ?E, ?E1 in *; lia. }
  assert (UP : forall H, upward H -> (forall j, H (cell (j - S k) (S k))) -> forall j t, (rt <= j < wlen)%nat ->
    V j = @Ct B t \/ U j = @Ct B t -> H t).
  { intros H HU HC j t Hj E. assert (HW : wH H (W j)) by (apply (wcoef_up _ HU _ _ (WC j Hj)), HC).
    assert (KV : wH H (V j)).
    { rewrite (p_V _ _ _ _ _ _ _ _ _ _ HP). destruct (rt <? j)%nat; [apply wH_add; auto; left|]; apply wH_mul; auto. }
    assert (KU : wH H (U j)).
    { rewrite (p_U _ _ _ _ _ _ _ _ _ _ HP). destruct (0 <? j)%nat; [apply wH_add; auto; left|]; apply wH_sub; auto. }
    destruct E as [E|E]; [rewrite E in KV; exact KV|rewrite E in KU; exact KU]. }
  assert (HN : forall i j acc t, (rt <= j < wlen)%nat -> V j = @Ct B t \/ U j = @Ct B t ->
    wcoef (nth i a triv0) (TLut acc t) = 0 /\ wcoef (nth i r triv0) (TLut acc t) = 0).
  { intros i j acc t Hj E. split.
    - destruct (Z.eq_dec (wcoef (nth i a triv0) (TLut acc t)) 0) as [E'|E']; auto.
      destruct (nth i a triv0) as [u|p] eqn:EU; [|cbn in E'; lia].
      destruct (i_vars _ _ HI (S k) i u ltac:(lia) EU). apply (coef_up _ (uses_up _) u _ E').
      cbn [uses]. apply (UP _ (uses_up (n + S k)) ltac:(intros; cbn; lia) j t Hj E).
    - destruct (Z.eq_dec (wcoef (nth i r triv0) (TLut acc t)) 0) as [E'|E']; auto.
      destruct (row_coef _ _ _ _ HR E') as [_ Q']. unfold cell in Q'. injection Q' as _ ->.
      pose proof (UP _ deep_up ltac:(intros; cbn; lia) j _ Hj E) as K. cbn in K. lia. }
  pose proof (row_inv (S k) (S k) r HR ltac:(lia)) as HI'.
  constructor.
  - eapply sum_words; eauto. lia.
  - eapply z_samp; eauto; [apply HI|apply HI'].
  - eapply z_separate; eauto; [apply HI|apply HI'].
  - exact VR.
  - apply elen_le. intros i Hi. destruct HZ as [Lz _]. unfold ciphertext in *. lia.
Qed.

Lemma fold_inv : forall rows k a, (forall i, (i < length rows)%nat -> is_row (S k + i) (nth i rows [])) ->
  (S k + length rows <= n)%nat -> inv k a -> allP (foldM (fun acc row => pa_add acc row) rows a) (fun z => exists m, inv m z).
Proof.
  induction rows as [|r rows IH]; intros k a HR HL HI; cbn [foldM].
  - apply allP_ret. eauto.
  - cbn [length] in HL. eapply allP_bind; [apply (step_inv k); [lia|auto|]|].
    + specialize (HR 0%nat ltac:(cbn; lia)). rewrite Nat.add_0_r in HR. exact HR.
    + intros z Hz. apply (IH (S k)); auto; [|lia]. intros i Hi. specialize (HR (S i) ltac:(cbn; lia)).
      cbn [nth] in HR. replace (S (S k) + i)%nat with (S k + S i)%nat by lia. exact HR.
Qed.

Definition enc_words (m : nat) : ciphertext B := map (fun i => @Ct B (TVar i)) (seq m n).

Lemma fill_rows : allP (fill_mulary (enc_words 0) (enc_words n))
  (fun m => length m = n /\ forall j, (j < n)%nat -> is_row j (nth j m [])).
Proof.
  unfold fill_mulary, enc_words. rewrite !map_length, !seq_length, Nat.eqb_refl. cbn [negb].
  set (ys := combine _ _).
  assert (Ly : length ys = n) by (unfold ys; rewrite combine_length, map_length, !seq_length; lia).
  eapply allP_conseq; [apply (allP_mapM_nth (N:=N) _ (fun j r => is_row j r) ys (0%nat, @Ct B (TVar n)) [])|].
  - intros j Hj. rewrite Ly in Hj. unfold ys. rewrite combine_nth by (rewrite map_length, !seq_length; auto).
    rewrite seq_nth by auto.
    replace (nth j (map (fun i => @Ct B (TVar i)) (seq n n)) (@Ct B (TVar n))) with (@Ct B (TVar (n + j))).
    2:{ change (@Ct B (TVar n)) with ((fun i => @Ct B (TVar i)) n) at 1. rewrite map_nth, seq_nth by auto. reflexivity. }
    cbn [Nat.add]. eapply allP_bind.
    + apply (allP_mapM_nth (N:=N) _ (fun i w => w = @Ct B (cell i j)) _ (@Ct B (TVar 0)) triv0).
      intros i Hi. rewrite map_length, seq_length in Hi.
      replace (nth i (map (fun i => @Ct B (TVar i)) (seq 0 n)) (@Ct B (TVar 0))) with (@Ct B (TVar i)).
      2:{ change (@Ct B (TVar 0)) with ((fun i => @Ct B (TVar i)) 0%nat) at 1. rewrite map_nth, seq_nth by auto. reflexivity. }
      intros w Ew. injection Ew as <-. reflexivity.
    + intros row [Lr Hr]. apply allP_ret. rewrite map_length, seq_length in Lr, Hr. unfold ciphertext in *. split.
      { unfold ct_triv. rewrite !app_length, !repeat_length, Lr. lia. }
      intros i. rewrite nth_triv_app. destruct (Nat.ltb_spec i j) as [L|L]; auto.
      destruct (Nat.ltb_spec i (j + n)) as [L'|L'].
      * rewrite app_nth1 by lia. apply Hr. lia.
      * rewrite app_nth2 by lia. unfold ct_triv. apply nth_repeat.
  - intros m [Lm Hm]. rewrite Ly in *. split; auto.
Qed.

Lemma schoolbook_inv : (2 <= n)%nat -> allP (mul_schoolbook (enc_words 0) (enc_words n)) (fun z => exists m, inv m z).
Proof.
  intros H2. apply allP_measure. eapply allP_bind; [apply fill_rows|]. intros m [Lm Hm]. unfold reduce_mulsquary.
  destruct m as [|m0 [|m1 m]]; cbn [length] in Lm; try lia.
  pose proof (Hm 0%nat ltac:(lia)) as R0. pose proof (Hm 1%nat ltac:(lia)) as R1. cbn [nth] in R0, R1.
  eapply allP_bind with (P := fun r => r = m0); [apply allP_ret; reflexivity|]. intros r0 ->.
  eapply allP_bind with (P := fun r => r = m1); [apply allP_ret; reflexivity|]. intros r1 ->.
  eapply allP_bind; [apply (step_inv 0); [lia|eapply row_inv; eauto|exact R1]|].
  intros a Ha. cbn [skipn]. unfold ciphertext in *. apply (fold_inv m 1); [|lia|auto]. intros i Hi. apply (Hm (S (S i))). lia.
Qed.
Lemma one_word_weight : n = 1%nat -> allP (mul_1word (enc_words 0) (enc_words n)) (Forall (wb 22)).
Proof.
  intros E1. unfold mul_1word. eapply allP_bind; [apply allP_measure, fill_rows|]. intros m [Lm Hm].
  destruct m as [|m0 m]; cbn in Lm; [lia|]. unfold index. cbn [nth_error]. apply allP_ret.
  apply nth_Forall_triv. intros i. apply (i_words _ _ (row_inv 0 0 m0 (Hm 0%nat ltac:(lia)) ltac:(lia))).
Qed.
End Product.

Lemma mul_weight : forall rec n, (n < 16)%nat \/ n = 17%nat ->
  allP (mul_impl rec (enc_words n 0) (enc_words n n)) (Forall (wb 22)).
Proof.
  intros rec n Hn. unfold mul_impl.
  assert (L : forall m, length (enc_words n m) = n) by (intros m; unfold enc_words; rewrite map_length, seq_length; reflexivity).
  rewrite !L, Nat.sub_diag. cbn [ct_triv repeat]. unfold ct_triv. cbn [repeat]. rewrite !app_nil_r, !L.
  destruct (Nat.eqb_spec n 0); [apply allP_ret; constructor|].
  destruct (Nat.eqb_spec n 1); [apply one_word_weight; lia|].
  destruct (Nat.ltb_spec n 16); cbn [orb].
  2:{ destruct (Nat.eqb_spec n 17); [|lia]. eapply allP_conseq; [apply schoolbook_inv; lia|].
      intros z [m Hm]. apply nth_Forall_triv. intros i. apply Hm. }
  eapply allP_conseq; [apply schoolbook_inv; lia|]. intros z [m Hm]. apply nth_Forall_triv. intros i. apply Hm.
Qed.
Lemma pa_mul_weight : forall n, (n < 16)%nat \/ n = 17%nat ->
  allP (pa_mul (enc_words n 0) (enc_words n n)) (Forall (wb 22)).
Proof. intros n Hn. unfold pa_mul. cbn [mul_fuel]. apply allP_analysed, mul_weight, Hn. Qed.
End WM.
