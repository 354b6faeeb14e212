(** Quadratic weights of the operations on independent inputs *)
From Verif Require Import Base Backend Words Params Pbs Addition Signum Maximum
  Multiplication Squaring Rounding Symbolic Weights BaseProofs AddProofs DepthProofs.

(* ------------------------------------------------------------------ *)
(** ** Combinations *)

Lemma sq_cons : forall f a l, sq_sum f (a :: l) = f a * f a + sq_sum f l.
Proof. reflexivity. Qed.
Lemma sq_nil : forall f, sq_sum f [] = 0.
Proof. reflexivity. Qed.
Lemma qle_ext : forall f g n, (forall a, f a = g a) -> qle f n -> qle g n.
Proof.
  intros f g n E H l Hl. specialize (H l Hl). revert H.
  replace (sq_sum g l) with (sq_sum f l); auto. clear Hl. induction l; rewrite ?sq_nil, ?sq_cons; auto. rewrite IHl, E. reflexivity.
Qed.
Lemma qle_mono : forall f n m, n <= m -> qle f n -> qle f m.
Proof. intros f n m L H l Hl. specialize (H l Hl). lia. Qed.
Lemma sq_sum_nonneg : forall f l, 0 <= sq_sum f l.
Proof. intros f l. induction l; rewrite ?sq_nil, ?sq_cons; nia. Qed.
Lemma qle_zero : qle (fun _ => 0) 0.
Proof. intros l _. induction l; rewrite ?sq_nil, ?sq_cons; lia. Qed.
Lemma qle_scale : forall f n c, qle f n -> qle (fun a => c * f a) (c * c * n).
Proof.
  intros f n c H l Hl. specialize (H l Hl).
  replace (sq_sum (fun a => c * f a) l) with (c * c * sq_sum f l); [nia|].
  clear. induction l; rewrite ?sq_nil, ?sq_cons; [lia|]. rewrite <- IHl. ring.
Qed.
Lemma qle_opp : forall f n, qle f n -> qle (fun a => - f a) n.
Proof.
  intros f n H. apply (qle_ext (fun a => -1 * f a)); [intros; lia|].
  replace n with (-1 * -1 * n) by lia. apply qle_scale, H.
Qed.
(** without a common sample *)
Definition disj (f g : term -> Z) : Prop := forall a, f a = 0 \/ g a = 0.
Lemma qle_disj : forall f g n m, disj f g -> qle f n -> qle g m -> qle (fun a => f a + g a) (n + m).
Proof.
  intros f g n m D Hf Hg l Hl. specialize (Hf l Hl). specialize (Hg l Hl).
  replace (sq_sum (fun a => f a + g a) l) with (sq_sum f l + sq_sum g l); [lia|].
  clear - D. induction l as [|a l IH]; rewrite ?sq_nil, ?sq_cons; [lia|]. rewrite <- IH. destruct (D a) as [E|E]; rewrite E; ring.
Qed.
(** in general *)
Lemma qle_add : forall f g n m, qle f n -> qle g m -> qle (fun a => f a + g a) (2 * n + 2 * m).
Proof.
  intros f g n m Hf Hg l Hl. specialize (Hf l Hl). specialize (Hg l Hl).
  assert (sq_sum (fun a => f a + g a) l <= 2 * sq_sum f l + 2 * sq_sum g l); [|lia].
  clear. induction l as [|a l IH]; rewrite ?sq_nil, ?sq_cons; cbv beta; [lia|].
  generalize dependent (sq_sum (fun a => f a + g a) l). generalize (sq_sum f l) (sq_sum g l) (f a) (g a). intros p q u v r H.
  pose proof (Z.square_nonneg (u - v)). nia.
Qed.
(** a sample *)
Definition ind (t a : term) : Z := if term_eq_dec t a then 1 else 0.
Lemma ind_same : forall t, ind t t = 1.
Proof. intros t. unfold ind. destruct (term_eq_dec t t); congruence. Qed.
Lemma ind_other : forall t a, t <> a -> ind t a = 0.
Proof. intros t a H. unfold ind. destruct (term_eq_dec t a); congruence. Qed.
Lemma qle_ind : forall t, qle (ind t) 1.
Proof.
  intros t l Hl. induction Hl as [|a l Ha Hl IH]; rewrite ?sq_nil, ?sq_cons; [lia|].
  unfold ind at 1 2. destruct (term_eq_dec t a) as [ -> |N]; [|lia].
  assert (E : sq_sum (ind a) l = 0); [|lia]. clear - Ha. induction l as [|b l IH]; auto. rewrite sq_cons. rewrite IH by (intros H; apply Ha; right; auto). rewrite ind_other; [lia|].
  intros ->. apply Ha. left. reflexivity.
Qed.

(** ** Words *)
Section W.
Context {N : nat}.
Notation B := (sym N).

Definition wcoef (w : word B) : term -> Z := match w with Ct t => coef t | Triv _ => fun _ => 0 end.
Lemma wc_add : forall v w a, wcoef (w_add v w) a = wcoef v a + wcoef w a.
Proof. intros [v|p] [w|q] a; cbn; lia. Qed.
Lemma wc_opp : forall w a, wcoef (w_opp w) a = - wcoef w a.
Proof. intros [w|p] a; cbn; lia. Qed.
Lemma wc_sub : forall v w a, wcoef (w_sub v w) a = wcoef v a - wcoef w a.
Proof. intros v w a. unfold w_sub. rewrite wc_add, wc_opp. lia. Qed.
Lemma wc_mul : forall w k a, 0 <= k < 2^63 -> wcoef (w_mul_const w k) a = k * wcoef w a.
Proof.
  intros w k a Hk. unfold w_mul_const. replace (u64 (Z.abs k)) with k.
  - replace (k <? 0) with false by (symmetry; apply Z.ltb_ge; lia). destruct w; cbn; lia.
  - unfold u64. rewrite Z.abs_eq by lia. rewrite Z.mod_small; lia.
Qed.
Lemma wc_triv0 : forall a, wcoef triv0 a = 0.
Proof. reflexivity. Qed.

(** all bootstraps behind it within n *)
Definition wb (n : Z) (w : word B) : Prop :=
  match w with Ct t => Forall (fun u => qle (coef u) n) (boot_inputs t) | Triv _ => True end.
Lemma wb_add : forall n v w, wb n v -> wb n w -> wb n (w_add v w).
Proof. intros n [v|p] [w|q] Hv Hw; cbn in *; auto. apply Forall_app; auto. Qed.
Lemma wb_opp : forall n w, wb n w -> wb n (w_opp w).
Proof. intros n [w|p] H; cbn in *; auto. Qed.
Lemma wb_sub : forall n v w, wb n v -> wb n w -> wb n (w_sub v w).
Proof. intros. apply wb_add; auto. apply wb_opp; auto. Qed.
Lemma wb_mul : forall n w k, wb n w -> wb n (w_mul_const w k).
Proof. intros n [w|p] k H; unfold w_mul_const; destruct (k <? 0); cbn in *; auto. Qed.
Lemma wb_triv0 : forall n, wb n triv0.
Proof. intros. exact I. Qed.
Lemma within_wb : forall n (z : ciphertext B), Forall (wb n) z -> within n z.
Proof.
  intros n z H t u Ht Hu. apply in_flat_map in Ht. destruct Ht as [[t'|p] [Hw Ht]]; [|destruct Ht].
  destruct Ht as [ -> |[]]. rewrite Forall_forall in H. specialize (H _ Hw). cbn in H.
  rewrite Forall_forall in H. apply H, Hu.
Qed.

(** the output of a bootstrap: a sample, or trivial if the input is *)
Definition lut_of (acc : list Z) (w r : word B) : Prop :=
  match w with Ct t => r = @Ct B (TLut acc t) | Triv _ => exists p, r = Triv p end.
Lemma lut_half_shape : forall c h, allP (eval_LUT_5_half c h) (lut_of (gen_no_padding_acc N h) c).
Proof.
  intros c h. unfold eval_LUT_5_half. destruct c as [t|p].
  - intros r E. injection E as <-. reflexivity.
  - eapply allP_bind with (P := fun _ => True); [intros ? ?; exact I|]. intros z _. apply allP_ret.
    destruct (_ =? 1); cbn [lut_of w_add_half encrypt_word_triv]; eexists; reflexivity.
Qed.
Definition lut_acc (l : list Z) : list Z := gen_no_padding_acc N (map (fun v => 2 * v) l).
Lemma lut_shape : forall c l, allP (eval_LUT_5_uint c l) (lut_of (lut_acc l) c).
Proof. intros. apply lut_half_shape. Qed.
(** a word that is at most one sample *)
Definition single (w : word B) : Prop := qle (wcoef w) 1.
Lemma lut_single : forall acc w r, lut_of acc w r -> single r.
Proof.
  intros acc [t|p] r H; cbn in H.
  - subst r. apply (qle_ext (ind (TLut acc t))); [|apply qle_ind]. reflexivity.
  - destruct H as [q ->]. eapply qle_mono; [|apply qle_zero]. lia.
Qed.
Lemma lut_wb : forall n acc w r, lut_of acc w r -> wb n w -> qle (wcoef w) n -> wb n r.
Proof. intros n acc [t|p] r H Hw Q; cbn in H; [|destruct H as [q ->]; exact I]. subst r. constructor; auto. Qed.
Lemma lut_coef : forall acc w r a, lut_of acc w r -> wcoef r a <> 0 -> exists t, w = @Ct B t /\ a = TLut acc t.
Proof.
  intros acc [t|p] r a H E; cbn in H; [subst r|destruct H as [q ->]; cbn in E; lia].
  exists t. split; auto. cbn in E. destruct (term_eq_dec (TLut acc t) a); [auto|lia].
Qed.
Lemma lut_ok : forall n c l, wb n c -> qle (wcoef c) n -> allP (eval_LUT_5_uint c l) (fun r => wb n r /\ single r).
Proof.
  intros n c l H Q. eapply allP_conseq; [apply lut_shape|].
  intros r Hr. split; [eapply lut_wb; eauto|eapply lut_single; eauto].
Qed.
Lemma single_triv0 : single triv0.
Proof. eapply qle_mono; [|apply qle_zero]. lia. Qed.

(** no sample in two words *)
Definition separate (x : nat -> word B) : Prop := forall i j, i <> j -> disj (wcoef (x i)) (wcoef (x j)).

(* ------------------------------------------------------------------ *)
(** ** Signum *)
Lemma qle_w : forall w f n, (forall a, wcoef w a = f a) -> qle f n -> qle (wcoef w) n.
Proof. intros w f n E H. eapply qle_ext; [|exact H]. intros. symmetry. auto. Qed.

Lemma first_group_narrow : forall n pc (x : ciphertext B) j, 22 <= n -> quad_weight (cparams pc) < 85 ->
  (forall i, wb n (nth i x triv0) /\ single (nth i x triv0)) -> separate (fun i => nth i x triv0) ->
  (forall acc i k t, nth i x triv0 = Ct t -> wcoef (nth k x triv0) (TLut acc t) = 0) ->
  allP (sgn_first_group pc x j) (fun b => wb n b /\ qle (wcoef b) n).
Proof.
  intros n pc x j Hn Hq Hx Sx Nx. unfold sgn_first_group.
  replace (85 <=? _) with false by (symmetry; apply Z.leb_gt; lia).
  eapply allP_bind with (P := fun b => wb n b /\ single b /\ forall k, disj (wcoef b) (wcoef (nth k x triv0))).
  - destruct (_ <? _)%nat.
    + eapply allP_bind; [apply lut_shape|]. intros s Hs. apply allP_ret. destruct (Hx (GAMMA * j + 3)%nat) as [H1 H2].
      split; [apply wb_add; [apply wb_triv0|]; eapply lut_wb; eauto; eapply qle_mono; [|exact H2]; lia|].
      split; [eapply qle_w; [|eapply lut_single; exact Hs]; intros; rewrite wc_add; reflexivity|].
      intros k a. rewrite wc_add. cbn [wcoef triv0 encrypt_word_triv].
      destruct (Z.eq_dec (wcoef s a) 0) as [E|E]; [left; cbn; lia|right].
      destruct (lut_coef _ _ _ _ Hs E) as [t [Et ->]]. eapply Nx, Et.
    + apply allP_ret. split; [exact I|]. split; [apply single_triv0|]. intros k a. left. reflexivity.
  - intros b [B1 [B2 B3]]. apply allP_ret. cbn [fold_left].
    set (X := fun i => if (GAMMA * j + i <? length x)%nat then nth (GAMMA * j + i) x triv0 else triv0).
    assert (HX : forall i, wb n (X i) /\ single (X i)).
    { intros i. unfold X. destruct (_ <? _)%nat; auto. split; [exact I|apply single_triv0]. }
    assert (SX : forall i k, i <> k -> disj (wcoef (X i)) (wcoef (X k))).
    { intros i k N0. unfold X. destruct (_ <? _)%nat; [|intros a; left; reflexivity].
      destruct (_ <? _)%nat; [|intros a; right; reflexivity]. apply Sx. lia. }
    assert (BX : forall k, disj (wcoef b) (wcoef (X k))).
    { intros k. unfold X. destruct (_ <? _)%nat; auto. intros a; right; reflexivity. }
    split.
    + repeat (destruct (_ <? _)%nat; [apply wb_add; [|try apply wb_mul; apply Hx]|]); auto.
    + apply qle_w with (f := fun a => ((wcoef b a + wcoef (X 0%nat) a) + 2 * wcoef (X 1%nat) a) + 4 * wcoef (X 2%nat) a).
      { intros a. unfold X. cbn [Nat.eqb].
        repeat (match goal with |- context [(?u <? length x)%nat] => destruct (u <? length x)%nat end);
          rewrite ?wc_add, ?wc_mul by (cbn; lia); rewrite ?wc_triv0; change (2 ^ Z.of_nat 1) with 2; change (2 ^ Z.of_nat 2) with 4; lia. }
      apply qle_mono with (n := ((1 + 1) + 2 * 2 * 1) + 4 * 4 * 1); [lia|].
      assert (D : forall i k, i <> k -> forall a, wcoef (X i) a = 0 \/ wcoef (X k) a = 0) by (intros i k N0; apply SX; auto).
      apply qle_disj; [|apply qle_disj; [|apply qle_disj|]|].
      * intros a. destruct (BX 2%nat a) as [E|E], (D 0%nat 2%nat ltac:(lia) a) as [E'|E'], (D 1%nat 2%nat ltac:(lia) a) as [E2|E2];
          rewrite ?E, ?E', ?E2; lia.
      * intros a. destruct (BX 1%nat a) as [E|E], (D 0%nat 1%nat ltac:(lia) a) as [E'|E']; rewrite ?E, ?E'; lia.
      * apply BX.
      * exact B2.
      * apply HX.
      * apply qle_scale, HX.
      * apply qle_scale, HX.
Qed.

Lemma qle_sum4 : forall f g h k, qle f 1 -> qle g 1 -> qle h 1 -> qle k 1 -> qle (fun a => f a + g a + (h a + k a)) 16.
Proof.
  intros f g h k Hf Hg Hh Hk. apply (qle_add (fun a => f a + g a) (fun a => h a + k a) 4 4);
    [apply (qle_add f g 1 1)|apply (qle_add h k 1 1)]; auto.
Qed.
(** 2 f - g, with 6 f^2 + 3 g^2 - (2 f - g)^2 = 2 (f + g)^2 *)
Lemma qle_2_1 : forall f g, qle f 1 -> qle g 1 -> qle (fun a => g a - 2 * f a) 9.
Proof.
  intros f g Hf Hg l Hl. specialize (Hf l Hl). specialize (Hg l Hl).
  assert (sq_sum (fun a => g a - 2 * f a) l <= 6 * sq_sum f l + 3 * sq_sum g l); [|lia].
  clear. induction l as [|a l IH]; rewrite ?sq_nil, ?sq_cons; cbv beta; [lia|].
  generalize dependent (sq_sum (fun a => g a - 2 * f a) l). generalize (sq_sum f l) (sq_sum g l) (f a) (g a). intros p q u v r H.
  pose proof (Z.square_nonneg (u + v)). nia.
Qed.

(** what signum needs of its input *)
Definition sgn_in (n : Z) (x : ciphertext B) : Prop :=
  (forall i, wb n (nth i x triv0) /\ single (nth i x triv0)) /\ separate (fun i => nth i x triv0) /\
  (forall acc i k t, nth i x triv0 = Ct t -> wcoef (nth k x triv0) (TLut acc t) = 0).

Lemma first_group_wide : forall n pc (x : ciphertext B) j, 85 <= n -> 85 <= quad_weight (cparams pc) ->
  (forall i, wb n (nth i x triv0) /\ single (nth i x triv0)) -> separate (fun i => nth i x triv0) ->
  allP (sgn_first_group pc x j) (fun b => wb n b /\ qle (wcoef b) n).
Proof.
  intros n pc x j Hn Hq Hx Sx. unfold sgn_first_group.
  replace (85 <=? _) with true by (symmetry; apply Z.leb_le; lia).
  set (X := fun i => if (GAMMA * j + i <? length x)%nat then nth (GAMMA * j + i) x triv0 else triv0).
  assert (HX : forall i, wb n (X i) /\ single (X i)).
  { intros i. unfold X. destruct (_ <? _)%nat; auto. split; [exact I|apply single_triv0]. }
  assert (SX : forall i k, i <> k -> forall a, wcoef (X i) a = 0 \/ wcoef (X k) a = 0).
  { intros i k N0 a. unfold X. destruct (_ <? _)%nat; [|left; reflexivity].
    destruct (_ <? _)%nat; [|right; reflexivity]. apply Sx. lia. }
  eapply allP_bind with (P := fun b => wb n b /\ forall a, wcoef b a = 8 * wcoef (X 3%nat) a).
  - unfold X. destruct (_ <? _)%nat.
    + rewrite ret_bind. apply allP_ret. split; [apply wb_add; [exact I|apply wb_mul, Hx]|].
      intros a. rewrite wc_add, wc_mul, wc_triv0 by lia. lia.
    + apply allP_ret. split; [exact I|]. intros a. rewrite wc_triv0. lia.
  - intros b [B1 B2]. apply allP_ret. cbn [fold_left]. split.
    + repeat (destruct (_ <? _)%nat; [apply wb_add; [|try apply wb_mul; apply Hx]|]); auto.
    + apply qle_w with (f := fun a => ((8 * wcoef (X 3%nat) a + wcoef (X 0%nat) a) + 2 * wcoef (X 1%nat) a) + 4 * wcoef (X 2%nat) a).
      { intros a. rewrite <- B2. clear B2 SX HX. unfold X. cbn [Nat.eqb].
        repeat (match goal with |- context [(?u <? length x)%nat] => destruct (u <? length x)%nat end);
          rewrite ?wc_add, ?wc_mul by (cbn; lia); rewrite ?wc_triv0; change (2 ^ Z.of_nat 1) with 2; change (2 ^ Z.of_nat 2) with 4; lia. }
      apply qle_mono with (n := ((8 * 8 * 1 + 1) + 2 * 2 * 1) + 4 * 4 * 1); [lia|].
      pose proof (SX 0%nat 1%nat ltac:(lia)) as D1. pose proof (SX 0%nat 2%nat ltac:(lia)) as D2.
      pose proof (SX 0%nat 3%nat ltac:(lia)) as D3. pose proof (SX 1%nat 2%nat ltac:(lia)) as D4.
      pose proof (SX 1%nat 3%nat ltac:(lia)) as D5. pose proof (SX 2%nat 3%nat ltac:(lia)) as D6.
      apply qle_disj; [|apply qle_disj; [|apply qle_disj|]|].
      * intros a. specialize (D2 a). specialize (D4 a). specialize (D6 a). lia.
      * intros a. specialize (D1 a). specialize (D5 a). lia.
      * intros a. specialize (D3 a). lia.
      * apply qle_scale, HX.
      * apply HX.
      * apply qle_scale, HX.
      * apply qle_scale, HX.
Qed.
Lemma next_group_ok : forall n (x : ciphertext B) j, 16 <= n ->
  (forall i, wb n (nth i x triv0) /\ qle (wcoef (nth i x triv0)) n) ->
  allP (sgn_next_group x j) (fun b => wb n b /\ qle (wcoef b) n).
Proof.
  intros n x j Hn Hx. unfold sgn_next_group.
  eapply allP_bind with (P := fun r => Forall (fun w => wb n w /\ single w) r /\ length r = length (seq 0 GAMMA)).
  - apply allP_mapM. intros i _. destruct (_ <? _)%nat; [|apply allP_ret; split; [exact I|apply single_triv0]].
    destruct (Hx (GAMMA * j + i)%nat) as [H1 H2]. apply lut_ok; auto.
  - intros r [Hr Hl]. apply allP_ret. unfold GAMMA in Hl. cbn [seq length] in Hl.
    destruct r as [|r0 [|r1 [|r2 [|r3 [|r4 r]]]]]; try discriminate Hl.
    inversion Hr as [|? ? [A0 S0] Hr0]; subst. inversion Hr0 as [|? ? [A1 S1] Hr1]; subst.
    inversion Hr1 as [|? ? [A2 S2] Hr2]; subst. inversion Hr2 as [|? ? [A3 S3] Hr3]; subst.
    cbn [fold_left]. split; [repeat apply wb_add; auto; exact I|].
    apply qle_mono with (n := 16); [lia|].
    apply qle_w with (f := fun a => wcoef r0 a + wcoef r1 a + (wcoef r2 a + wcoef r3 a)); [|apply qle_sum4; auto].
    intros a. rewrite !wc_add, wc_triv0. lia.
Qed.
Lemma Forall_nth_triv : forall (P : word B -> Prop) x i, P triv0 -> Forall P x -> P (nth i x triv0).
Proof.
  intros P x i H0 H. destruct (Nat.lt_ge_cases i (length x)) as [L|L].
  - rewrite Forall_forall in H. apply H, nth_In, L.
  - rewrite nth_overflow; auto.
Qed.
Lemma nth_Forall_triv : forall (P : word B -> Prop) x, (forall i, P (nth i x triv0)) -> Forall P x.
Proof.
  intros P x H. apply Forall_forall. intros w Hw. destruct (In_nth x w triv0 Hw) as [i [_ <-]]. apply H.
Qed.
Definition load (n : Z) (w : word B) : Prop := wb n w /\ qle (wcoef w) n.
Lemma load_triv0 : forall n, 0 <= n -> load n triv0.
Proof. intros n Hn. split; [exact I|]. eapply qle_mono; [|apply qle_zero]. lia. Qed.
Lemma rec_next_ok : forall fuel n pc (x : ciphertext B), 16 <= n -> Forall (load n) x ->
  allP (sgn_recursion_fuel fuel pc x false) (Forall (load n)).
Proof.
  induction fuel as [|fuel IH]; intros n pc x Hn Hx; cbn [sgn_recursion_fuel]; [apply allP_panic|].
  destruct (_ =? 0)%nat; [apply allP_ret; constructor; [apply load_triv0; lia|constructor]|].
  destruct (_ =? 1)%nat; [apply allP_ret; auto|]. apply allP_measure.
  eapply allP_bind with (P := fun r => Forall (load n) r /\ length r = length (seq 0 ((length x - 1) / GAMMA + 1))).
  - apply allP_mapM. intros j _. apply next_group_ok; auto. intros i. apply Forall_nth_triv; auto. apply load_triv0; lia.
  - intros b [Hb _]. apply IH; auto.
Qed.
Definition budget (pc : cloud) : Z := quad_weight (cparams pc).
Lemma rec_first_ok : forall pc (x : ciphertext B), 22 <= budget pc -> sgn_in (budget pc) x ->
  allP (sgn_recursion_raw pc x true) (Forall (load (budget pc))).
Proof.
  intros pc x Hn Hx. unfold sgn_recursion_raw. cbn [sgn_recursion_fuel].
  destruct (_ =? 0)%nat; [apply allP_ret; constructor; [apply load_triv0; lia|constructor]|].
  destruct Hx as [H1 [H2 H3]].
  destruct (_ =? 1)%nat.
  { apply allP_ret, nth_Forall_triv. intros i. destruct (H1 i) as [A S]. split; auto. eapply qle_mono; [|exact S]. lia. }
  apply allP_measure.
  eapply allP_bind with (P := fun r => Forall (load (budget pc)) r /\ length r = length (seq 0 ((length x - 1) / GAMMA + 1))).
  - apply allP_mapM. intros j _. unfold budget in *. destruct (Z_lt_le_dec (quad_weight (cparams pc)) 85) as [L|L].
    + apply first_group_narrow; auto.
    + apply first_group_wide; auto.
  - intros b [Hb _]. apply rec_next_ok; auto. lia.
Qed.
Lemma sgn_single : forall pc (x : ciphertext B), 22 <= budget pc -> sgn_in (budget pc) x ->
  allP (pa_sgn pc x) (Forall (fun w => wb (budget pc) w /\ single w)).
Proof.
  intros pc x Hn Hx. apply allP_analysed. unfold sgn_impl.
  destruct (_ =? 0)%nat; [apply allP_ret; constructor|].
  destruct (_ =? 1)%nat; [apply allP_ret, nth_Forall_triv; intros i; apply Hx|].
  eapply allP_bind with (P := fun w => wb (budget pc) w /\ single w).
  - apply allP_measure. eapply allP_bind; [apply rec_first_ok; auto|]. intros s Hs.
    eapply allP_bind; [apply allP_index; exact Hs|]. intros s0 [A Q].
    apply lut_ok; eauto.
  - intros s Hs. apply allP_ret. constructor; auto.
Qed.
Lemma sgn_weight : forall pc (x : ciphertext B), 22 <= budget pc -> sgn_in (budget pc) x ->
  allP (pa_sgn pc x) (Forall (wb (budget pc))).
Proof.
  intros pc x Hn Hx. eapply allP_conseq; [apply sgn_single; auto|]. intros s Hs.
  eapply Forall_impl; [|exact Hs]. intros w Hw. apply Hw.
Qed.

(* ------------------------------------------------------------------ *)
(** ** Addition *)

Lemma allP_mapM_nth : forall {A C} (f : A -> M C) (P : nat -> C -> Prop) l d e,
  (forall i, (i < length l)%nat -> allP (f (nth i l d)) (P i)) ->
  allP (mapM f l) (fun r => length r = length l /\ forall i, (i < length l)%nat -> P i (nth i r e)).
Proof.
  intros A C f P l d e. revert P. induction l as [|a l IH]; intros P H; cbn [mapM].
  - apply allP_ret. split; auto. cbn. lia.
  - eapply allP_bind; [apply (H 0%nat); cbn; lia|]. intros b Hb.
    eapply allP_bind; [apply (IH (fun i => P (S i))); intros i Hi; apply (H (S i)); cbn; lia|].
    intros r [Hl Hr]. apply allP_ret. split; [cbn; lia|]. intros [|i] Hi; [exact Hb|]. apply Hr. cbn in Hi. lia.
Qed.

(** the pieces of a sum that are no early exit *)
Record parts (add : bool) (x y : ciphertext B) (rt wlen : nat) (W V Q U Z : nat -> word B) : Prop := mkParts {
  p_low : forall i, (i < rt)%nat -> is_triv_zero (nth i x triv0) = true \/ is_triv_zero (nth i y triv0) = true;
  p_W : forall i a, wcoef (W i) a = wcoef (nth i x triv0) a + (if add then 1 else -1) * wcoef (nth i y triv0) a;
  p_Wb : forall n i, wb n (nth i x triv0) -> wb n (nth i y triv0) -> wb n (W i);
  p_We : forall i, (exists t, W i = @Ct B t) -> (exists t, nth i x triv0 = @Ct B t) \/ (exists t, nth i y triv0 = @Ct B t);
  p_V : forall i, V i = if (rt <? i)%nat then w_add (w_mul_const (W i) 3) (W (i - 1)%nat) else w_mul_const (W i) 3;
  p_Q0 : forall i, (i < rt)%nat -> Q i = triv0;
  p_Q : forall i, (rt <= i < wlen)%nat -> lut_of (lut_acc lut_f_4) (V i) (Q i);
  p_U : forall i, U i = if (0 <? i)%nat then w_add (w_sub (W i) (w_mul_const (Q i) 2)) (Q (i - 1)%nat)
                        else w_sub (W i) (w_mul_const (Q i) 2);
  p_Z : forall i, (rt <= i < wlen)%nat -> lut_of (lut_acc lut_id) (U i) (Z i);
  p_len : (rt < wlen)%nat;
  p_rt : rt = Nat.max (count_triv_zeros x) (count_triv_zeros y);
  p_wlen : wlen = Nat.max (elen x) (elen y);
  p_Wf : forall i, W i = (if add then w_add else w_sub) (nth i x triv0) (nth i y triv0) \/
                   (W i = nth i x triv0 /\ nth i y triv0 = triv0)
}.
Definition assembled (rt wlen : nat) (Q U Z : nat -> word B) (z : ciphertext B) : Prop :=
  length z = S wlen /\
  forall i, nth i z triv0 =
    if (i <? rt)%nat then U i else if (i <? wlen)%nat then Z i else if (i =? wlen)%nat then Q (wlen - 1)%nat else triv0.

Lemma wcoef_triv : forall (w : word B) a, is_triv_zero w = true -> wcoef w a = 0.
Proof. intros [t|p] a H; [discriminate|reflexivity]. Qed.

Lemma nth_firstn_lt : forall {A} n (l : list A) i d, (i < n)%nat -> nth i (firstn n l) d = nth i l d.
Proof.
  intros A n. induction n as [|n IH]; intros l i d H; [lia|]. destruct l as [|a l]; [reflexivity|].
  destruct i as [|i]; [reflexivity|]. cbn. apply IH. lia.
Qed.
Lemma nth_skipn_add : forall {A} n (l : list A) i d, nth i (skipn n l) d = nth (n + i) l d.
Proof. intros A n. induction n as [|n IH]; intros l i d; [reflexivity|]. destruct l as [|a l]; [destruct i; reflexivity|]. cbn. apply IH. Qed.

Definition all_zero (x : ciphertext B) : Prop := forall i, is_triv_zero (nth i x triv0) = true.
Lemma ctz_all : forall x : ciphertext B, count_triv_zeros x = length x -> all_zero x.
Proof.
  intros x E i. destruct (Nat.lt_ge_cases i (length x)) as [L|L].
  - apply ctz_spec. lia.
  - rewrite nth_overflow by auto. reflexivity.
Qed.
Lemma sum_parts_exact : forall add (x y : ciphertext B),
  allP (add_sub_impl add x y true) (fun z =>
    (all_zero x /\ z = (if add then y else pa_opp y)) \/ (all_zero y /\ z = x) \/
    exists rt wlen W V Q U Z, parts add x y rt wlen W V Q U Z /\ assembled rt wlen Q U Z z).
Proof.
  intros add x y. unfold add_sub_impl.
  set (rt := Nat.max (count_triv_zeros x) (count_triv_zeros y)).
  set (wlen := Nat.max (length x - count_triv_zeros (rev x)) (length y - count_triv_zeros (rev y))).
  destruct (Nat.eqb_spec (count_triv_zeros x) (length x)) as [Ex|Ex]; [apply allP_ret; left; split; auto using ctz_all|].
  destruct (Nat.eqb_spec (count_triv_zeros y) (length y)) as [Ey|Ey]; [apply allP_ret; right; left; split; auto using ctz_all|].
  apply allP_measure.
  destruct (wlen <=? rt)%nat eqn:El; [apply allP_err|]. apply Nat.leb_gt in El.
  set (w := zip_inplace _ _ y).
  assert (Lw : length w = wlen).
  { unfold w. rewrite zip_length, app_length, firstn_length. unfold ct_triv. rewrite repeat_length. lia. }
  assert (Ew : forall i, (i < wlen)%nat -> nth i (firstn wlen x ++ ct_triv (wlen - length x)) triv0 = nth i x triv0).
  { intros i Hi. destruct (Nat.lt_ge_cases i (length x)) as [L|L].
    - rewrite app_nth1 by (rewrite firstn_length; lia). apply nth_firstn_lt, Hi.
    - rewrite app_nth2 by (rewrite firstn_length; lia). rewrite ct_triv_nth, nth_overflow; auto. }
  set (W := fun i => nth i w triv0).
  set (V := fun i => if (rt <? i)%nat then w_add (w_mul_const (W i) 3) (W (i - 1)%nat) else w_mul_const (W i) 3).
  set (low := fun (i : nat) => True).
  eapply allP_bind.
  { apply (allP_mapM_nth _ (fun i r => lut_of (lut_acc lut_f_4) (V (i + rt)%nat) r) (seq 0 (wlen - rt)) 0%nat triv0).
    rewrite seq_length. intros i Hi. rewrite seq_nth by lia. rewrite Nat.add_0_l.
    replace (if (0 <? i)%nat then w_add (w_mul_const (nth (i + rt) w triv0) 3) (nth (i + rt - 1) w triv0)
             else w_mul_const (nth (i + rt) w triv0) 3) with (V (i + rt)%nat).
    - apply lut_shape.
    - unfold V. destruct (Nat.ltb_spec 0 i), (Nat.ltb_spec rt (i + rt)); try lia; reflexivity. }
  intros qh [Lq Hq]. rewrite seq_length in Lq, Hq. cbv zeta.
  set (Q := fun i => nth i (ct_triv rt ++ qh) (@triv0 B)).
  assert (Q1 : forall i, (i < rt)%nat -> Q i = triv0).
  { intros i Hi. unfold Q. rewrite app_nth1 by (rewrite ct_triv_length; auto). apply ct_triv_nth. }
  assert (Q2 : forall i, (rt <= i < wlen)%nat -> lut_of (lut_acc lut_f_4) (V i) (Q i)).
  { intros i Hi. unfold Q. rewrite app_nth2 by (rewrite ct_triv_length; lia). rewrite ct_triv_length.
    replace i with (i - rt + rt)%nat at 1 by lia. apply Hq. lia. }
  set (U := fun i => if (0 <? i)%nat then w_add (w_sub (W i) (w_mul_const (Q i) 2)) (Q (i - 1)%nat)
                     else w_sub (W i) (w_mul_const (Q i) 2)).
  set (w' := map _ (seq 0 wlen)).
  assert (Lw' : length w' = wlen) by (unfold w'; rewrite map_length, seq_length; auto).
  assert (EU : forall i, (i < wlen)%nat -> nth i w' triv0 = U i).
  { intros i Hi. unfold w'.
    set (g := fun i0 : nat => if (0 <? i0)%nat then _ else _).
    rewrite (nth_indep _ triv0 (g 0%nat)) by (rewrite map_length, seq_length; auto).
    rewrite map_nth, seq_nth by auto. reflexivity. }
  eapply allP_bind.
  { apply (allP_mapM_nth id_pi_5 (fun i r => lut_of (lut_acc lut_id) (U (i + rt)%nat) r) (skipn rt w') triv0 triv0).
    rewrite skipn_length, Lw'. intros i Hi. rewrite nth_skipn_add, EU by lia. rewrite Nat.add_comm. apply lut_shape. }
  intros zh [Lz Hz]. rewrite skipn_length, Lw' in Lz, Hz. apply allP_ret. right. right.
  exists rt, wlen, (fun i => if (i <? wlen)%nat then W i else w_add (nth i x triv0) (if add then nth i y triv0 else w_opp (nth i y triv0))).
  set (W2 := fun i => if (i <? wlen)%nat then _ else _).
  exists (fun i => if (rt <? i)%nat then w_add (w_mul_const (W2 i) 3) (W2 (i - 1)%nat) else w_mul_const (W2 i) 3).
  exists Q, (fun i => if (0 <? i)%nat then w_add (w_sub (W2 i) (w_mul_const (Q i) 2)) (Q (i - 1)%nat)
                     else w_sub (W2 i) (w_mul_const (Q i) 2)), (fun i => nth (i - rt) zh triv0).
  assert (EW : forall i, (i < wlen)%nat -> W2 i = W i).
  { intros i Hi. unfold W2. apply Nat.ltb_lt in Hi. rewrite Hi. reflexivity. }
  split.
  - constructor.
    + intros i Hi. unfold rt in Hi. apply Nat.max_lt_iff in Hi. destruct Hi as [Hi|Hi]; [left|right]; apply ctz_spec, Hi.
    + intros i a. unfold W2. destruct (Nat.ltb_spec i wlen) as [L|L].
      * unfold W, w. rewrite zip_nth by (fold w; rewrite <- zip_length with (f := if add then w_add else w_sub) (y := y); fold w; lia).
        rewrite Ew by auto. destruct (Nat.ltb_spec i (length y)) as [L'|L'].
        -- destruct add; rewrite ?wc_add, ?wc_sub; lia.
        -- rewrite (nth_overflow y) by auto. rewrite wc_triv0. lia.
      * destruct add; rewrite wc_add, ?wc_opp; lia.
    + intros n i Hx Hy. unfold W2. destruct (Nat.ltb_spec i wlen) as [L|L].
      * unfold W, w. rewrite zip_nth by (rewrite <- zip_length with (f := if add then w_add else w_sub) (y := y); fold w; lia).
        rewrite Ew by auto. destruct (Nat.ltb_spec i (length y)) as [L'|L']; auto.
        destruct add; [apply wb_add|apply wb_sub]; auto.
      * destruct add; apply wb_add; auto; apply wb_opp; auto.
    + intros i [t Ht]. revert Ht. unfold W2. destruct (Nat.ltb_spec i wlen) as [L|L].
      * unfold W, w. rewrite zip_nth by (rewrite <- zip_length with (f := if add then w_add else w_sub) (y := y); fold w; lia).
        rewrite Ew by auto. destruct (Nat.ltb_spec i (length y)) as [L'|L']; [|eauto].
        destruct (nth i x triv0) as [t1|p1]; [eauto|]. destruct (nth i y triv0) as [t2|p2]; [eauto|].
        destruct add; discriminate.
      * destruct (nth i x triv0) as [t1|p1]; [eauto|]. destruct (nth i y triv0) as [t2|p2]; [eauto|].
        destruct add; discriminate.
    + reflexivity.
    + exact Q1.
    + intros i Hi. rewrite !EW by lia. apply Q2, Hi.
    + reflexivity.
    + intros i Hi. rewrite EW by lia. change (lut_of (lut_acc lut_id) (U i) (nth (i - rt) zh triv0)).
      replace i with (i - rt + rt)%nat at 1 by lia. apply Hz. lia.
    + exact El.
    + reflexivity.
    + reflexivity.
    + intros i. unfold W2. destruct (Nat.ltb_spec i wlen) as [L|L].
      * unfold W, w. rewrite zip_nth by (rewrite <- zip_length with (f := if add then w_add else w_sub) (y := y); fold w; lia).
        rewrite Ew by auto. destruct (Nat.ltb_spec i (length y)) as [L'|L']; [left; reflexivity|].
        right. split; [reflexivity|]. apply nth_overflow; auto.
      * left. destruct add; reflexivity.
  - split.
    + rewrite !app_length, firstn_length, Lw', Lz. cbn. lia.
    + intros i. destruct (Nat.ltb_spec i rt) as [L|L].
      * rewrite app_nth1 by (rewrite firstn_length; lia). rewrite nth_firstn_lt by auto.
        rewrite EU by lia. unfold U. rewrite EW by lia. reflexivity.
      * rewrite app_nth2 by (rewrite firstn_length; lia). rewrite firstn_length, Lw', Nat.min_l by lia.
        destruct (Nat.ltb_spec i wlen) as [L'|L'].
        -- rewrite app_nth1 by lia. reflexivity.
        -- rewrite app_nth2 by lia. rewrite Lz. destruct (Nat.eqb_spec i wlen) as [E|E].
           ++ subst i. replace (wlen - rt - (wlen - rt))%nat with 0%nat by lia. cbn [nth]. unfold Q.
              rewrite <- nth_last. f_equal. rewrite app_length, ct_triv_length. lia.
           ++ apply nth_overflow. cbn. lia.
Qed.

Lemma sum_parts : forall add (x y : ciphertext B),
  allP (add_sub_impl add x y true) (fun z =>
    z = (if add then y else pa_opp y) \/ z = x \/
    exists rt wlen W V Q U Z, parts add x y rt wlen W V Q U Z /\ assembled rt wlen Q U Z z).
Proof.
  intros add x y. eapply allP_conseq; [apply sum_parts_exact|]. intros z [[_ H]|[[_ H]|H]]; auto.
Qed.

(** what is needed of the operands: bootstraps behind them, samples, no sample twice *)
Definition operands (n : Z) (x y : ciphertext B) : Prop :=
  (forall i, wb n (nth i x triv0) /\ single (nth i x triv0)) /\
  (forall i, wb n (nth i y triv0) /\ single (nth i y triv0)) /\
  separate (fun i => nth i x triv0) /\ separate (fun i => nth i y triv0) /\
  (forall i j, disj (wcoef (nth i x triv0)) (wcoef (nth j y triv0))).

Section Sum.
Variables (n : Z) (add : bool) (x y : ciphertext B).
Hypothesis Hn : 22 <= n.
Hypothesis Hxy : operands n x y.
Variables (rt wlen : nat) (W V Q U Z : nat -> word B).
Hypothesis HP : parts add x y rt wlen W V Q U Z.

Lemma W_2 : forall i, qle (wcoef (W i)) 2.
Proof.
  intros i. destruct Hxy as [Hx [Hy [Sx [Sy D]]]].
  apply qle_w with (f := fun a => wcoef (nth i x triv0) a + (if add then 1 else -1) * wcoef (nth i y triv0) a); [apply (p_W _ _ _ _ _ _ _ _ _ _ HP)|].
  apply (qle_disj _ _ 1 1); [|apply Hx|].
  - intros a. destruct (D i i a) as [E|E]; auto. right. rewrite E. destruct add; reflexivity.
  - eapply qle_mono; [|apply qle_scale, Hy]. destruct add; lia.
Qed.
Lemma W_sep : forall i j, i <> j -> disj (wcoef (W i)) (wcoef (W j)).
Proof.
  intros i j E a. destruct Hxy as [Hx [Hy [Sx [Sy D]]]]. rewrite !(p_W _ _ _ _ _ _ _ _ _ _ HP).
  pose proof (Sx i j E a) as S1. pose proof (Sy i j E a) as S2. cbv beta in S1, S2.
  pose proof (D i i a). pose proof (D i j a). pose proof (D j i a). pose proof (D j j a).
  destruct add; nia.
Qed.
Lemma W_wb : forall i, wb n (W i).
Proof. intros i. destruct Hxy as [Hx [Hy _]]. apply (p_Wb _ _ _ _ _ _ _ _ _ _ HP); [apply Hx|apply Hy]. Qed.
Lemma V_coef : forall i a, wcoef (V i) a = 3 * wcoef (W i) a + (if (rt <? i)%nat then wcoef (W (i - 1)%nat) a else 0).
Proof.
  intros i a. rewrite (p_V _ _ _ _ _ _ _ _ _ _ HP). destruct (rt <? i)%nat; rewrite ?wc_add, wc_mul by lia; lia.
Qed.
(** 9 + 9 + 1 + 1 *)
Lemma V_20 : forall i, qle (wcoef (V i)) 20.
Proof.
  intros i. eapply qle_w; [apply V_coef|]. destruct (Nat.ltb_spec rt i) as [L|L].
  - apply (qle_disj _ _ 18 2); [|apply (qle_scale _ 2 3), W_2|apply W_2].
    intros a. destruct (W_sep i (i - 1)%nat ltac:(lia) a) as [E|E]; [left|right]; lia.
  - apply (qle_ext (fun a => 3 * wcoef (W i) a)); [intros; lia|]. eapply qle_mono; [|apply qle_scale, W_2]. lia.
Qed.
Lemma V_wb : forall i, wb n (V i).
Proof.
  intros i. rewrite (p_V _ _ _ _ _ _ _ _ _ _ HP). destruct (rt <? i)%nat; [apply wb_add|]; try apply wb_mul; apply W_wb.
Qed.
Lemma Q_ok : forall i, (i < wlen)%nat -> wb n (Q i) /\ single (Q i).
Proof.
  intros i Hi. destruct (Nat.lt_ge_cases i rt) as [L|L].
  - rewrite (p_Q0 _ _ _ _ _ _ _ _ _ _ HP) by auto. split; [exact I|apply single_triv0].
  - pose proof (p_Q _ _ _ _ _ _ _ _ _ _ HP i ltac:(lia)) as H. split; [|eapply lut_single, H].
    eapply lut_wb; [exact H|apply V_wb|]. eapply qle_mono; [|apply V_20]. lia.
Qed.
Lemma U_coef : forall i a, wcoef (U i) a = wcoef (W i) a + ((if (0 <? i)%nat then wcoef (Q (i - 1)%nat) a else 0) - 2 * wcoef (Q i) a).
Proof.
  intros i a. rewrite (p_U _ _ _ _ _ _ _ _ _ _ HP). destruct (0 <? i)%nat; rewrite ?wc_add, wc_sub, wc_mul by lia; lia.
Qed.
Lemma U_22 : forall i, (i < wlen)%nat -> qle (wcoef (U i)) 22.
Proof.
  intros i Hi. eapply qle_w; [apply U_coef|].
  apply (qle_add (wcoef (W i)) _ 2 9); [apply W_2|].
  apply (qle_2_1 (wcoef (Q i)) (fun a => if (0 <? i)%nat then wcoef (Q (i - 1)%nat) a else 0)); [apply Q_ok, Hi|].
  destruct (0 <? i)%nat; [apply Q_ok; lia|]. eapply qle_mono; [|apply qle_zero]. lia.
Qed.
Lemma U_wb : forall i, (i < wlen)%nat -> wb n (U i).
Proof.
  intros i Hi. rewrite (p_U _ _ _ _ _ _ _ _ _ _ HP). destruct (0 <? i)%nat; [apply wb_add; [|apply Q_ok; lia]|];
    (apply wb_sub; [apply W_wb|apply wb_mul, Q_ok, Hi]).
Qed.
Lemma Z_ok : forall i, (rt <= i < wlen)%nat -> wb n (Z i) /\ single (Z i).
Proof.
  intros i Hi. pose proof (p_Z _ _ _ _ _ _ _ _ _ _ HP i Hi) as H. split; [|eapply lut_single, H].
  eapply lut_wb; [exact H|apply U_wb; lia|]. eapply qle_mono; [|apply U_22; lia]. lia.
Qed.
Lemma U_low : forall i a, (i < rt)%nat -> wcoef (U i) a = wcoef (W i) a.
Proof.
  intros i a Hi. rewrite U_coef. rewrite (p_Q0 _ _ _ _ _ _ _ _ _ _ HP i) by auto.
  destruct (0 <? i)%nat; [rewrite (p_Q0 _ _ _ _ _ _ _ _ _ _ HP (i - 1)%nat) by lia|]; rewrite ?wc_triv0; lia.
Qed.
Lemma U_low_single : forall i, (i < rt)%nat -> single (U i).
Proof.
  intros i Hi. destruct Hxy as [Hx [Hy _]].
  destruct (p_low _ _ _ _ _ _ _ _ _ _ HP i Hi) as [T|T].
  - apply qle_w with (f := fun a => (if add then 1 else -1) * wcoef (nth i y triv0) a).
    + intros a. rewrite U_low, (p_W _ _ _ _ _ _ _ _ _ _ HP), (wcoef_triv _ a T) by auto. lia.
    + eapply qle_mono; [|apply qle_scale, Hy]. destruct add; lia.
  - apply qle_w with (f := wcoef (nth i x triv0)); [|apply Hx].
    intros a. rewrite U_low, (p_W _ _ _ _ _ _ _ _ _ _ HP), (wcoef_triv _ a T) by auto. lia.
Qed.
Lemma sum_words : forall z, assembled rt wlen Q U Z z -> forall i, wb n (nth i z triv0) /\ single (nth i z triv0).
Proof.
  intros z [_ Hz] i. rewrite Hz. pose proof (p_len _ _ _ _ _ _ _ _ _ _ HP).
  destruct (Nat.ltb_spec i rt) as [L|L]; [split; [apply U_wb; lia|apply U_low_single, L]|].
  destruct (Nat.ltb_spec i wlen) as [L'|L']; [apply Z_ok; lia|].
  destruct (i =? wlen)%nat; [apply Q_ok; lia|]. split; [exact I|apply single_triv0].
Qed.
End Sum.

Lemma opp_nth : forall (y : ciphertext B) i, nth i (pa_opp y) triv0 = w_opp (nth i y triv0).
Proof. intros y i. unfold pa_opp, opposite_impl. change (@triv0 B) with (@w_opp B triv0) at 1. apply map_nth. Qed.
Lemma add_weight : forall n add (x y : ciphertext B), 22 <= n -> operands n x y ->
  allP (add_sub_impl add x y true) (fun z => forall i, wb n (nth i z triv0) /\ single (nth i z triv0)).
Proof.
  intros n add x y Hn H. eapply allP_conseq; [apply sum_parts|].
  intros z [ -> |[ -> |(rt & wlen & W & V & Q & U & Z & HP & HZ)]].
  - destruct add; [apply H|]. intros i. rewrite opp_nth. destruct H as [_ [Hy _]]. destruct (Hy i) as [H1 H2]. split; [apply wb_opp, H1|].
    eapply qle_w; [intros; apply wc_opp|]. apply qle_opp, H2.
  - apply H.
  - eapply sum_words; eauto.
Qed.

(* ------------------------------------------------------------------ *)
(** ** The difference inside the maximum: no sample twice *)

(** trivial, or a fresh encryption *)
Definition fresh (w : word B) : Prop := match w with Ct (TVar _) | Triv _ => True | _ => False end.
Lemma fresh_coef : forall w a, fresh w -> wcoef w a <> 0 -> exists v, w = @Ct B (TVar v) /\ a = TVar v.
Proof.
  intros [[v|u1 u2|u1 u2|u1|u1 u2|u1 u2]|p] a H E; try destruct H; cbn in E; [|lia]. exists v. split; auto.
  destruct (term_eq_dec (TVar v) a); [auto|lia].
Qed.
Definition fresh_pair (x y : ciphertext B) : Prop :=
  (forall i, fresh (nth i x triv0)) /\ (forall i, fresh (nth i y triv0)) /\
  separate (fun i => nth i x triv0) /\ separate (fun i => nth i y triv0) /\
  (forall i j, disj (wcoef (nth i x triv0)) (wcoef (nth j y triv0))).
Lemma fresh_wb : forall n w, fresh w -> wb n w.
Proof. intros n [[v|u1 u2|u1 u2|u1|u1 u2|u1 u2]|p] H; try destruct H; cbn; auto. Qed.
Lemma fresh_single : forall w, fresh w -> single w.
Proof.
  intros [[v|u1 u2|u1 u2|u1|u1 u2|u1 u2]|p] H; try destruct H; [|eapply qle_mono; [|apply qle_zero]; lia].
  apply (qle_ext (ind (TVar v))); [reflexivity|apply qle_ind].
Qed.
Lemma fresh_operands : forall n x y, fresh_pair x y -> operands n x y.
Proof.
  intros n x y [H1 [H2 [H3 [H4 H5]]]]. repeat split; auto using fresh_wb, fresh_single.
Qed.
(** terms that are not samples *)
Definition compound (t : term) : Prop := match t with TAdd _ _ | TAddPt _ _ | TMul _ _ => True | _ => False end.
Lemma add_compound : forall v w t, w_add v w = @Ct B t -> compound t.
Proof. intros [v|p] [w|q] t E; try discriminate; injection E as <-; exact I. Qed.

(** a word that is trivial, or one sample up to sign *)
Definition samp (w : word B) : Prop :=
  match w with Triv _ => True | Ct t => exists a c, (c = 1 \/ c = -1) /\ forall b, coef t b = c * ind a b end.

Section Distinct.
Variables (add : bool) (x y : ciphertext B).
Hypothesis HO : operands 22 x y.
Hypothesis HSx : forall i, samp (nth i x triv0).
Hypothesis HSy : forall i, samp (nth i y triv0).
Variables (rt wlen : nat) (W V Q U Z : nat -> word B).
Hypothesis HP : parts add x y rt wlen W V Q U Z.
(** the bootstraps of the sum are not among its operands *)
Hypothesis HN : forall i j acc t, (rt <= j < wlen)%nat -> V j = @Ct B t \/ U j = @Ct B t ->
  wcoef (nth i x triv0) (TLut acc t) = 0 /\ wcoef (nth i y triv0) (TLut acc t) = 0.

Lemma W_new : forall i j acc t, (rt <= j < wlen)%nat -> V j = @Ct B t \/ U j = @Ct B t -> wcoef (W i) (TLut acc t) = 0.
Proof.
  intros i j acc t Hj E. rewrite (p_W _ _ _ _ _ _ _ _ _ _ HP). destruct (HN i j acc t Hj E) as [ -> -> ]. lia.
Qed.
Lemma W_small : forall i a, -1 <= wcoef (W i) a <= 1.
Proof.
  intros i a. rewrite (p_W _ _ _ _ _ _ _ _ _ _ HP). pose proof HO as [_ [_ [_ [_ D]]]].
  assert (F : forall w, samp w -> -1 <= wcoef w a <= 1).
  { intros [t|p] H; cbn in *; [|lia]. destruct H as [b [c [Hc E]]]. rewrite E. unfold ind. destruct (term_eq_dec b a); lia. }
  pose proof (F _ (HSx i)). pose proof (F _ (HSy i)). destruct (D i i a) as [E|E]; rewrite E; destruct add; lia.
Qed.
(** an encrypted word of the sum has a sample *)
Lemma W_enc : forall i t, W i = @Ct B t -> exists a, wcoef (W i) a = 1 \/ wcoef (W i) a = -1.
Proof.
  intros i t E. destruct (p_We _ _ _ _ _ _ _ _ _ _ HP i (ex_intro _ t E)) as [[t' Et]|[t' Et]]; pose proof HO as [_ [_ [_ [_ D]]]].
  - pose proof (HSx i) as F. rewrite Et in F. destruct F as [b [c [Hc F]]].
    exists b. rewrite (p_W _ _ _ _ _ _ _ _ _ _ HP). pose proof (D i i b) as D'. rewrite Et in D' |- *. cbn [wcoef] in *.
    rewrite F, ind_same in D' |- *. destruct D' as [D'|D']; [lia|]. rewrite D'. destruct add; lia.
  - pose proof (HSy i) as F. rewrite Et in F. destruct F as [b [c [Hc F]]].
    exists b. rewrite (p_W _ _ _ _ _ _ _ _ _ _ HP). pose proof (D i i b) as D'. rewrite Et in D' |- *. cbn [wcoef] in *.
    rewrite F, ind_same in D' |- *. destruct D' as [D'|D']; [|lia]. rewrite D'. destruct add; lia.
Qed.
Lemma W_sep' : forall i j a, i <> j -> wcoef (W i) a <> 0 -> wcoef (W j) a = 0.
Proof. intros i j a N0 E. destruct (W_sep 22 add x y HO rt wlen W V Q U Z HP i j N0 a); auto. contradiction. Qed.

Lemma V_enc : forall i t, V i = @Ct B t ->
  (exists t', W i = @Ct B t') \/ ((rt < i)%nat /\ exists t', W (i - 1)%nat = @Ct B t').
Proof.
  intros i t E. rewrite (p_V _ _ _ _ _ _ _ _ _ _ HP) in E. destruct (W i) as [u|p]; [eauto|].
  destruct (Nat.ltb_spec rt i) as [L|L]; [|discriminate]. right. split; auto.
  destruct (W (i - 1)%nat) as [u|q]; [eauto|discriminate].
Qed.
Lemma V_compound : forall i t, V i = @Ct B t -> compound t.
Proof.
  intros i t E. rewrite (p_V _ _ _ _ _ _ _ _ _ _ HP) in E. destruct (rt <? i)%nat; [eapply add_compound, E|].
  destruct (W i); [|discriminate]. injection E as <-. exact I.
Qed.
Lemma V_distinct : forall i j t, V i = @Ct B t -> V j = @Ct B t -> i = j.
Proof.
  intros i j t Ei Ej. destruct (Nat.eq_dec i j) as [E|NE]; auto. exfalso.
  pose proof (V_coef add x y rt wlen W V Q U Z HP) as VC.
  assert (SA : forall a, wcoef (V i) a = wcoef (V j) a) by (intros; rewrite Ei, Ej; reflexivity).
  destruct (V_enc i t Ei) as [[t' Et]|[L [t' Et]]]; destruct (W_enc _ _ Et) as [a Ha];
    specialize (SA a); rewrite !VC in SA.
  - assert (E1 : wcoef (W j) a = 0) by (apply (W_sep' i j); lia).
    assert (E2 : (rt < i)%nat -> wcoef (W (i - 1)%nat) a = 0) by (intros; apply (W_sep' i); lia).
    pose proof (W_small (j - 1) a). rewrite E1 in SA.
    destruct (Nat.ltb_spec rt i), (Nat.ltb_spec rt j); rewrite ?E2 in SA by auto; lia.
  - assert (E1 : wcoef (W i) a = 0) by (apply (W_sep' (i - 1)); lia).
    replace (rt <? i)%nat with true in SA by (symmetry; apply Nat.ltb_lt; lia). rewrite E1 in SA.
    destruct (Nat.ltb_spec rt j) as [L'|L'].
    + assert (E2 : wcoef (W (j - 1)%nat) a = 0) by (apply (W_sep' (i - 1)); lia). rewrite E2 in SA. lia.
    + lia.
Qed.
Lemma Q_enc : forall i t, (i < wlen)%nat -> Q i = @Ct B t ->
  (rt <= i)%nat /\ exists v, V i = @Ct B v /\ t = TLut (lut_acc lut_f_4) v.
Proof.
  intros i t Hi E. destruct (Nat.lt_ge_cases i rt) as [L|L].
  - rewrite (p_Q0 _ _ _ _ _ _ _ _ _ _ HP) in E by auto. discriminate.
  - split; auto. pose proof (p_Q _ _ _ _ _ _ _ _ _ _ HP i ltac:(lia)) as H. destruct (V i) as [v|p]; cbn in H.
    + exists v. split; auto. rewrite E in H. injection H as ->. reflexivity.
    + destruct H as [q H]. rewrite E in H. discriminate.
Qed.
Lemma Q_enc' : forall i t, Q i = @Ct B t -> (i < wlen)%nat ->
  (rt <= i)%nat /\ exists v, V i = @Ct B v /\ t = TLut (lut_acc lut_f_4) v.
Proof. intros. apply Q_enc; auto. Qed.
Lemma W_Q : forall i j q, Q j = @Ct B q -> (j < wlen)%nat -> wcoef (W i) q = 0.
Proof. intros i j q E Hj. destruct (Q_enc j q Hj E) as [L [v [Ev ->]]]. apply (W_new i j); auto. Qed.
Lemma Q_atom : forall i a, (i < wlen)%nat -> wcoef (Q i) a <> 0 ->
  (rt <= i)%nat /\ exists v, V i = @Ct B v /\ a = TLut (lut_acc lut_f_4) v /\ Q i = @Ct B a.
Proof.
  intros i a Hi E. destruct (Q i) as [t|p] eqn:EQ; [|cbn in E; lia]. destruct (Q_enc i t Hi EQ) as [L [v [Ev ->]]].
  split; auto. cbn in E. destruct (term_eq_dec _ a) as [<-|]; [|lia]. eauto.
Qed.
Lemma Q_one : forall i t, Q i = @Ct B t -> (i < wlen)%nat -> wcoef (Q i) t = 1.
Proof.
  intros i t E Hi. destruct (Q_enc i t Hi E) as [_ [v [_ ->]]]. rewrite E. cbn.
  destruct (term_eq_dec _ _); congruence.
Qed.
Lemma Q_01 : forall i a, (i < wlen)%nat -> 0 <= wcoef (Q i) a <= 1.
Proof.
  intros i a Hi. destruct (Z.eq_dec (wcoef (Q i) a) 0) as [E|E]; [lia|].
  destruct (Q_atom i a Hi E) as [_ [v [_ [_ EQ]]]]. rewrite (Q_one i a EQ Hi). lia.
Qed.
Lemma Q_sep : forall i j a, (i < wlen)%nat -> (j < wlen)%nat -> i <> j -> wcoef (Q i) a <> 0 -> wcoef (Q j) a = 0.
Proof.
  intros i j a Hi Hj NE E. destruct (Z.eq_dec (wcoef (Q j) a) 0) as [E'|E']; auto. exfalso.
  destruct (Q_atom i a Hi E) as [_ [v [Ev [Ea _]]]]. destruct (Q_atom j a Hj E') as [_ [v' [Ev' [Ea' _]]]].
  rewrite Ea in Ea'. injection Ea' as <-. apply NE. eapply V_distinct; eauto.
Qed.
Lemma U_compound : forall i t, U i = @Ct B t -> compound t.
Proof.
  intros i t E. rewrite (p_U _ _ _ _ _ _ _ _ _ _ HP) in E. destruct (0 <? i)%nat; eapply add_compound, E.
Qed.
(** an encrypted input of the second bootstrap has a carry in it *)
Lemma U_enc : forall i t, (rt <= i < wlen)%nat -> U i = @Ct B t ->
  (exists q, Q i = @Ct B q) \/ ((0 < i)%nat /\ (exists p, Q i = Triv p) /\ exists q, Q (i - 1)%nat = @Ct B q).
Proof.
  intros i t Hi E. rewrite (p_U _ _ _ _ _ _ _ _ _ _ HP) in E.
  destruct (Q i) as [q|p] eqn:EQ; [eauto|]. right.
  assert (TW : exists p, W i = Triv p).
  { destruct (W i) as [u|p'] eqn:EW; [|eauto]. exfalso. pose proof (p_Q _ _ _ _ _ _ _ _ _ _ HP i Hi) as H.
    rewrite (p_V _ _ _ _ _ _ _ _ _ _ HP), EW, EQ in H.
    assert (exists v, (if (rt <? i)%nat then w_add (w_mul_const (@Ct B u) 3) (W (i - 1)%nat) else w_mul_const (@Ct B u) 3) = @Ct B v) as [v Ev].
    { destruct (rt <? i)%nat; [destruct (W (i - 1)%nat)|]; cbn; eauto. }
    rewrite Ev in H. cbn in H. discriminate. }
  destruct TW as [p' EW]. rewrite EW in E. destruct (Nat.ltb_spec 0 i) as [L|L]; [|discriminate].
  split; auto. split; eauto. destruct (Q (i - 1)%nat) as [q|q] eqn:EQ'; [eauto|discriminate].
Qed.
Lemma U_carry : forall i t, (rt <= i < wlen)%nat -> U i = @Ct B t ->
  exists q, (Q i = @Ct B q /\ wcoef (U i) q = -2) \/
            ((0 < i)%nat /\ Q (i - 1)%nat = @Ct B q /\ wcoef (Q i) q = 0 /\ wcoef (U i) q = 1).
Proof.
  intros i t Hi E. pose proof (U_coef add x y rt wlen W V Q U Z HP i) as UC.
  destruct (U_enc i t Hi E) as [[q EQ]|[L [[p EP] [q EQ]]]]; exists q; [left|right].
  - split; auto. rewrite UC.
    rewrite (Q_one i q EQ) by lia. rewrite (W_Q i i q) by (auto; lia).
    destruct (Nat.ltb_spec 0 i) as [L'|L']; [|lia].
    rewrite (Q_sep i (i - 1) q) by (try lia; rewrite (Q_one i q EQ); lia). lia.
  - split; auto. split; auto. assert (E0 : wcoef (Q i) q = 0) by (rewrite EP; reflexivity). split; auto.
    rewrite UC, E0.
    rewrite (Q_one _ q EQ) by lia. rewrite (W_Q i (i - 1) q) by (auto; lia).
    replace (0 <? i)%nat with true by (symmetry; apply Nat.ltb_lt; lia). lia.
Qed.
Lemma U_distinct : forall i j t, (rt <= i < wlen)%nat -> (rt <= j < wlen)%nat -> U i = @Ct B t -> U j = @Ct B t -> i = j.
Proof.
  intros i j t Hi Hj Ei Ej. destruct (Nat.eq_dec i j) as [E|NE]; auto. exfalso.
  assert (SA : forall a, wcoef (U i) a = wcoef (U j) a) by (intros; rewrite Ei, Ej; reflexivity).
  destruct (U_carry i t Hi Ei) as [q [[EQ EU]|[L [EQ [E0 EU]]]]]; rewrite SA, (U_coef add x y rt wlen W V Q U Z HP) in EU.
  - rewrite (W_Q j i q) in EU by (auto; lia).
    rewrite (Q_sep i j q) in EU by (try lia; rewrite (Q_one i q EQ); lia).
    destruct (Nat.ltb_spec 0 j) as [L'|L']; [|lia]. pose proof (Q_01 (j - 1) q ltac:(lia)). lia.
  - rewrite (W_Q j (i - 1) q) in EU by (auto; lia).
    pose proof (Q_01 j q ltac:(lia)).
    destruct (Nat.ltb_spec 0 j) as [L'|L']; [|lia].
    rewrite (Q_sep (i - 1) (j - 1) q) in EU by (try lia; rewrite (Q_one _ q EQ); lia). lia.
Qed.

Variable z : ciphertext B.
Hypothesis HZ : assembled rt wlen Q U Z z.
Lemma Z_atom : forall i a, (rt <= i < wlen)%nat -> wcoef (Z i) a <> 0 -> exists t, U i = @Ct B t /\ a = TLut (lut_acc lut_id) t.
Proof. intros i a Hi E. eapply lut_coef; [apply (p_Z _ _ _ _ _ _ _ _ _ _ HP i Hi)|exact E]. Qed.
(** where a sample of the result comes from *)
Lemma z_atom : forall i a, wcoef (nth i z triv0) a <> 0 ->
  ((i < rt)%nat /\ wcoef (W i) a <> 0) \/
  ((rt <= i < wlen)%nat /\ exists t, U i = @Ct B t /\ a = TLut (lut_acc lut_id) t) \/
  (i = wlen /\ exists t, V (wlen - 1)%nat = @Ct B t /\ a = TLut (lut_acc lut_f_4) t).
Proof.
  intros i a E. destruct HZ as [_ Hz]. rewrite Hz in E. pose proof (p_len _ _ _ _ _ _ _ _ _ _ HP).
  destruct (Nat.ltb_spec i rt) as [L|L].
  - left. split; auto. rewrite <- (U_low add x y rt wlen W V Q U Z HP) by auto. exact E.
  - destruct (Nat.ltb_spec i wlen) as [L'|L'].
    + right. left. split; [lia|]. apply Z_atom; auto.
    + destruct (Nat.eqb_spec i wlen) as [E'|E'].
      * right. right. split; auto. destruct (Q_atom (wlen - 1) a ltac:(lia) E) as [_ [v [Ev [Ea _]]]]. eauto.
      * cbn in E. lia.
Qed.
Lemma U_not_V : forall i j t, (rt <= i < wlen)%nat -> U i = @Ct B t -> V j = @Ct B t -> False.
Proof.
  intros i j t Hi Ei Ej.
  assert (SA : forall a, wcoef (U i) a = wcoef (V j) a) by (intros; rewrite Ei, Ej; reflexivity).
  assert (VL : forall k q, Q k = @Ct B q -> (k < wlen)%nat -> wcoef (V j) q = 0).
  { intros k q E L. rewrite (V_coef add x y rt wlen W V Q U Z HP), (W_Q j k q) by auto.
    destruct (rt <? j)%nat; rewrite ?(W_Q (j - 1) k q) by auto; lia. }
  destruct (U_carry i t Hi Ei) as [q [[EQ EU]|[L [EQ [E0 EU]]]]]; rewrite SA in EU;
    rewrite (VL _ q EQ) in EU by lia; lia.
Qed.
Lemma z_separate : separate (fun i => nth i z triv0).
Proof.
  intros i j NE a. destruct (Z.eq_dec (wcoef (nth i z triv0) a) 0) as [E1|E1]; auto.
  destruct (Z.eq_dec (wcoef (nth j z triv0) a) 0) as [E2|E2]; auto. exfalso.
  destruct (z_atom i a E1) as [[L1 A1]|[[L1 [t1 [U1 A1]]]|[L1 [t1 [U1 A1]]]]];
  destruct (z_atom j a E2) as [[L2 A2]|[[L2 [t2 [U2 A2]]]|[L2 [t2 [U2 A2]]]]].
  - rewrite (W_sep' i j a NE A1) in A2. lia.
  - subst a. apply A1, (W_new i j); auto.
  - subst a. apply A1, (W_new i (wlen - 1)); auto. pose proof (p_len _ _ _ _ _ _ _ _ _ _ HP). lia.
  - subst a. apply A2, (W_new j i); auto.
  - rewrite A1 in A2. injection A2 as <-. apply NE. eapply U_distinct; eauto.
  - rewrite A1 in A2. injection A2 as _ <-. eapply U_not_V; eauto.
  - subst a. apply A2, (W_new j (wlen - 1)); auto. pose proof (p_len _ _ _ _ _ _ _ _ _ _ HP). lia.
  - rewrite A1 in A2. injection A2 as _ <-. eapply U_not_V; eauto.
  - lia.
Qed.
Lemma z_nolut : (forall i acc t, wcoef (W i) (TLut acc t) = 0) -> forall acc i k t, nth i z triv0 = Ct t -> wcoef (nth k z triv0) (TLut acc t) = 0.
Proof.
  intros W_lut acc i k t Ei. destruct (Z.eq_dec (wcoef (nth k z triv0) (TLut acc t)) 0) as [E|E]; auto. exfalso.
  assert (CT : compound t /\ ((exists j, (rt <= j < wlen)%nat /\ U j = @Ct B t) \/ V (wlen - 1)%nat = @Ct B t)).
  { destruct (z_atom k _ E) as [[_ A]|[[L [t' [U1 A]]]|[_ [t' [U1 A]]]]].
    - rewrite W_lut in A. lia.
    - injection A as _ <-. split; [eapply U_compound; eauto|eauto].
    - injection A as _ <-. split; [eapply V_compound; eauto|auto]. }
  destruct CT as [C D]. destruct HZ as [_ Hz]. rewrite Hz in Ei. pose proof (p_len _ _ _ _ _ _ _ _ _ _ HP) as PL.
  destruct (Nat.ltb_spec i rt) as [L|L].
  - (* a low word: only fresh samples in it, with coefficient 1 *)
    assert (SA : forall a, coef t a = wcoef (W i) a).
    { intros a. rewrite <- (U_low add x y rt wlen W V Q U Z HP) by auto. rewrite Ei. reflexivity. }
    destruct D as [[j [Hj Ej]]|Ej].
    + destruct (U_carry j t Hj Ej) as [q [[EQ EU]|[L' [EQ [E0 EU]]]]]; rewrite Ej in EU; cbn [wcoef] in EU; rewrite SA in EU;
        rewrite (W_Q i _ q EQ) in EU by lia; lia.
    + pose proof (V_coef add x y rt wlen W V Q U Z HP (wlen - 1)) as VC. rewrite Ej in VC. cbn [wcoef] in VC.
      destruct (V_enc _ t Ej) as [[t' Et]|[L' [t' Et]]]; destruct (W_enc _ _ Et) as [a Ha]; specialize (VC a); rewrite SA in VC.
      * assert (E1 : wcoef (W i) a = 0) by (apply (W_sep' (wlen - 1)); lia).
        rewrite E1 in VC. destruct (Nat.ltb_spec rt (wlen - 1)) as [L'|L']; [|lia].
        rewrite (W_sep' (wlen - 1) (wlen - 1 - 1) a) in VC by lia. lia.
      * assert (E1 : wcoef (W i) a = 0) by (apply (W_sep' (wlen - 1 - 1)); lia).
        assert (E2 : wcoef (W (wlen - 1)%nat) a = 0) by (apply (W_sep' (wlen - 1 - 1)); lia).
        replace (rt <? wlen - 1)%nat with true in VC by (symmetry; apply Nat.ltb_lt; lia). lia.
  - assert (T : exists acc' u, t = TLut acc' u).
    { destruct (Nat.ltb_spec i wlen) as [L'|L'].
      - pose proof (p_Z _ _ _ _ _ _ _ _ _ _ HP i ltac:(lia)) as H. destruct (U i); cbn in H; rewrite Ei in H; [|destruct H; discriminate].
        injection H as ->. eauto.
      - destruct (i =? wlen)%nat; [|discriminate].
        destruct (Q_enc (wlen - 1) t ltac:(lia) Ei) as [_ [v [_ ->]]]. eauto. }
    destruct T as [acc' [u ->]]. exact C.
Qed.
(** words of the result are samples *)
Lemma z_samp : forall i, samp (nth i z triv0).
Proof.
  intros i. destruct HZ as [_ Hz]. rewrite Hz. pose proof (p_len _ _ _ _ _ _ _ _ _ _ HP) as PL.
  assert (LS : forall acc w r, lut_of acc w r -> samp r).
  { intros acc [t|p] r H; cbn in H; [subst r|destruct H as [q ->]; exact I].
    exists (TLut acc t), 1. split; auto. intros b. cbn [coef]. fold (ind (TLut acc t) b). lia. }
  assert (QS : forall i, (i < wlen)%nat -> samp (Q i)).
  { intros j Hj. destruct (Nat.lt_ge_cases j rt) as [L|L].
    - rewrite (p_Q0 _ _ _ _ _ _ _ _ _ _ HP) by auto. exact I.
    - eapply LS, (p_Q _ _ _ _ _ _ _ _ _ _ HP). lia. }
  destruct (Nat.ltb_spec i rt) as [L|L].
  - destruct (U i) as [t|p] eqn:EU; [|exact I]. cbn.
    assert (SA : forall a, coef t a = wcoef (nth i x triv0) a + (if add then 1 else -1) * wcoef (nth i y triv0) a).
    { intros a. rewrite <- (p_W _ _ _ _ _ _ _ _ _ _ HP), <- (U_low add x y rt wlen W V Q U Z HP) by auto. rewrite EU. reflexivity. }
    assert (EW : exists t', W i = @Ct B t').
    { rewrite (p_U _ _ _ _ _ _ _ _ _ _ HP) in EU. rewrite (p_Q0 _ _ _ _ _ _ _ _ _ _ HP i) in EU by auto.
      destruct (W i); [eauto|]. destruct (Nat.ltb_spec 0 i); [rewrite (p_Q0 _ _ _ _ _ _ _ _ _ _ HP (i - 1)%nat) in EU by lia|]; discriminate. }
    destruct (p_low _ _ _ _ _ _ _ _ _ _ HP i L) as [T|T].
    + destruct (p_We _ _ _ _ _ _ _ _ _ _ HP i EW) as [[t' Et]|[t' Et]]; [rewrite Et in T; discriminate|].
      pose proof (HSy i) as S. rewrite Et in S. destruct S as [b [c [Hc F]]]. exists b, ((if add then 1 else -1) * c).
      split; [destruct add; lia|]. intros d. rewrite SA, (wcoef_triv _ d T), Et. cbn [wcoef]. rewrite F. lia.
    + destruct (p_We _ _ _ _ _ _ _ _ _ _ HP i EW) as [[t' Et]|[t' Et]]; [|rewrite Et in T; discriminate].
      pose proof (HSx i) as S. rewrite Et in S. destruct S as [b [c [Hc F]]]. exists b, c.
      split; auto. intros d. rewrite SA, (wcoef_triv _ d T), Et. cbn [wcoef]. rewrite F. lia.
  - destruct (Nat.ltb_spec i wlen) as [L'|L']; [eapply LS, (p_Z _ _ _ _ _ _ _ _ _ _ HP); lia|].
    destruct (i =? wlen)%nat; [apply QS; lia|exact I].
Qed.
End Distinct.

Lemma fresh_samp : forall w, fresh w -> samp w.
Proof.
  intros [[v|u1 u2|u1 u2|u1|u1 u2|u1 u2]|p] H; try destruct H; cbn; auto. exists (TVar v), 1. split; auto.
  intros b. fold (ind (TVar v) b). lia.
Qed.
Lemma fresh_lut : forall w acc t, fresh w -> wcoef w (TLut acc t) = 0.
Proof.
  intros w acc t H. destruct (Z.eq_dec (wcoef w (TLut acc t)) 0) as [E|E]; auto.
  destruct (fresh_coef _ _ H E) as [v [_ Ev]]. discriminate.
Qed.

Lemma fresh_sgn_in : forall n (x : ciphertext B), (forall i, fresh (nth i x triv0)) -> separate (fun i => nth i x triv0) -> sgn_in n x.
Proof.
  intros n x H S. split; [intros i; split; [apply fresh_wb|apply fresh_single]; auto|]. split; auto.
  intros acc i k t E. destruct (Z.eq_dec (wcoef (nth k x triv0) (TLut acc t)) 0) as [E'|E']; auto.
  destruct (fresh_coef _ _ (H k) E') as [v [_ Ev]]. discriminate.
Qed.
Lemma opp_sgn_in : forall n (x : ciphertext B), (forall i, fresh (nth i x triv0)) -> separate (fun i => nth i x triv0) -> sgn_in n (pa_opp x).
Proof.
  intros n x H S. split; [|split].
  - intros i. rewrite opp_nth. split; [apply wb_opp, fresh_wb; auto|].
    eapply qle_w; [intros; apply wc_opp|]. apply qle_opp, fresh_single; auto.
  - intros i j NE a. cbv beta. rewrite !opp_nth, !wc_opp. specialize (S i j NE a). cbv beta in S. lia.
  - intros acc i k t E. rewrite opp_nth, wc_opp. destruct (Z.eq_dec (wcoef (nth k x triv0) (TLut acc t)) 0) as [E'|E']; [lia|].
    destruct (fresh_coef _ _ (H k) E') as [v [_ Ev]]. discriminate.
Qed.
Lemma diff_sgn_in : forall n add (x y : ciphertext B), 22 <= n -> fresh_pair x y ->
  allP (add_sub_impl add x y true) (sgn_in n).
Proof.
  intros n add x y Hn H. eapply allP_conseq; [apply sum_parts|].
  pose proof H as [H1 [H2 [H3 [H4 _]]]].
  intros z [ -> |[ -> |(rt & wlen & W & V & Q & U & Z & HP & HZ)]].
  - destruct add; [apply fresh_sgn_in|apply opp_sgn_in]; auto.
  - apply fresh_sgn_in; auto.
  - assert (HN : forall i j acc t, (rt <= j < wlen)%nat -> V j = @Ct B t \/ U j = @Ct B t ->
      wcoef (nth i x triv0) (TLut acc t) = 0 /\ wcoef (nth i y triv0) (TLut acc t) = 0) by (intros; split; apply fresh_lut; auto).
    split; [eapply sum_words; eauto using fresh_operands|].
    split; [eapply z_separate; eauto using fresh_operands, fresh_samp|].
    intros acc i k t. eapply z_nolut; eauto using fresh_operands, fresh_samp.
    intros i' acc' t'. rewrite (p_W _ _ _ _ _ _ _ _ _ _ HP), !fresh_lut by auto. lia.
Qed.

(* ------------------------------------------------------------------ *)
(** ** Maximum *)
Lemma nonneg_ok : forall n (c : word B), load n c ->
  allP (nonneg_pi_5 c) (fun s => wb n s /\ single s /\ forall v, wcoef s (TVar v) = 0).
Proof.
  intros n c [H1 H2]. unfold nonneg_pi_5. eapply allP_bind; [apply lut_half_shape|]. intros h Hh. apply allP_ret.
  assert (E : forall a, wcoef (w_add_half h) a = wcoef h a) by (intros a; destruct h; reflexivity).
  split; [|split].
  - pose proof (lut_wb n _ _ _ Hh H1 H2). destruct h; cbn in *; auto.
  - eapply qle_w; [apply E|]. eapply lut_single, Hh.
  - intros v. rewrite E. destruct (Z.eq_dec (wcoef h (TVar v)) 0) as [E'|E']; auto.
    destruct (lut_coef _ _ _ _ Hh E') as [t [_ Et]]. discriminate.
Qed.
Lemma max_weight : forall pc (x y : ciphertext B), 22 <= budget pc -> fresh_pair x y ->
  allP (max_impl pc x y) (Forall (wb (budget pc))).
Proof.
  intros pc x y Hn H. unfold max_impl. apply allP_measure.
  eapply allP_bind; [apply allP_analysed, (diff_sgn_in (budget pc) false x y Hn H)|]. intros r Hr.
  eapply allP_bind; [apply rec_first_ok; auto|]. intros sr Hsr.
  eapply allP_bind; [apply allP_index; exact Hsr|]. intros s0 Hs0.
  eapply allP_bind; [apply nonneg_ok; exact Hs0|]. intros s [S1 [S2 S3]].
  set (xa := x ++ _). set (ya := y ++ _).
  assert (L : length xa = length ya).
  { unfold xa, ya. rewrite !app_length. unfold ct_triv. rewrite !repeat_length. unfold ciphertext. lia. }
  assert (PX : forall i, nth i xa triv0 = nth i x triv0).
  { intros i. unfold xa. destruct (Nat.lt_ge_cases i (length x)); [apply app_nth1; auto|].
    rewrite app_nth2 by auto. rewrite ct_triv_nth, nth_overflow; auto. }
  assert (PY : forall i, nth i ya triv0 = nth i y triv0).
  { intros i. unfold ya. destruct (Nat.lt_ge_cases i (length y)); [apply app_nth1; auto|].
    rewrite app_nth2 by auto. rewrite ct_triv_nth, nth_overflow; auto. }
  clearbody xa ya. destruct H as [H1 [H2 [_ [_ D]]]].
  eapply allP_conseq; [apply (allP_mapM (max_word pc s) (wb (budget pc)))|intros z [Hz _]; exact Hz].
  intros [xi yi] Hin. destruct (In_nth _ _ (triv0, triv0) Hin) as [i [Hi Ei]].
  rewrite combine_nth in Ei by auto. rewrite PX, PY in Ei. injection Ei as <- <-.
  set (xi := nth i x triv0) in *. set (yi := nth i y triv0) in *.
  pose proof (fresh_wb (budget pc) _ (H1 i)) as X1. pose proof (fresh_single _ (H1 i)) as X2.
  pose proof (fresh_wb (budget pc) _ (H2 i)) as Y1. pose proof (fresh_single _ (H2 i)) as Y2.
  fold xi in X1, X2. fold yi in Y1, Y2. unfold max_word.
  destruct (Z.leb_spec 41 (quad_weight (cparams pc))) as [Q|Q].
  - rewrite ret_bind. eapply allP_conseq; [apply (lut_ok (budget pc))|intros w [Hw _]; exact Hw].
    + apply wb_add; [apply wb_add|]; try apply wb_mul; auto.
    + apply qle_mono with (n := (6 * 6 * 1 + 2 * 2 * 1) + 1); [unfold budget; lia|].
      apply qle_w with (f := fun a => (6 * wcoef yi a + 2 * wcoef xi a) + wcoef s a).
      { intros a. rewrite !wc_add, !wc_mul by lia. lia. }
      apply qle_disj; [|apply qle_disj; [|apply qle_scale; auto|apply qle_scale; auto]|auto].
      * intros a. destruct (Z.eq_dec (wcoef s a) 0) as [E|E]; auto. left.
        destruct (Z.eq_dec (wcoef xi a) 0) as [Ex|Ex].
        -- destruct (Z.eq_dec (wcoef yi a) 0) as [Ey|Ey]; [lia|].
           destruct (fresh_coef _ _ (H2 i) Ey) as [v [_ ->]]. rewrite S3 in E. lia.
        -- destruct (fresh_coef _ _ (H1 i) Ex) as [v [_ ->]]. rewrite S3 in E. lia.
      * intros a. destruct (D i i a) as [E|E]; fold xi yi in E; lia.
  - eapply allP_bind; [apply (lut_ok (budget pc)); auto; eapply qle_mono; [|exact Y2]; lia|]. intros t [T1 T2].
    eapply allP_conseq; [apply (lut_ok (budget pc))|intros w [Hw _]; exact Hw].
    + apply wb_add; [apply wb_add|]; try apply wb_mul; auto.
    + apply qle_mono with (n := 2 * (2 * 1 + 2 * 1) + 2 * (2 * 2 * 1)); [lia|].
      apply qle_w with (f := fun a => (wcoef t a + wcoef s a) + 2 * wcoef xi a).
      { intros a. rewrite !wc_add, !wc_mul by lia. lia. }
      apply qle_add; [apply qle_add; auto|apply qle_scale; auto].
Qed.

(* ------------------------------------------------------------------ *)
(** ** Multiplication of words, short squares *)
Lemma mul_lwe_weight : forall n (x y : word B), 20 <= n -> wb n x -> wb n y -> single x -> single y ->
  allP (mul_lwe x y) (wb n).
Proof.
  intros n x y Hn X1 Y1 X2 Y2. unfold mul_lwe. destruct (is_triv x).
  { eapply allP_bind with (P := fun _ => True); [intros ? ?; exact I|]. intros k _. apply allP_ret, wb_mul; auto. }
  destruct (is_triv y).
  { eapply allP_bind with (P := fun _ => True); [intros ? ?; exact I|]. intros k _. apply allP_ret, wb_mul; auto. }
  eapply allP_conseq; [apply (lut_ok n)|intros w [Hw _]; exact Hw].
  - apply wb_add; auto. apply wb_mul; auto.
  - apply qle_mono with (n := 2 * (3 * 3 * 1) + 2 * 1); [lia|].
    apply qle_w with (f := fun a => 3 * wcoef x a + wcoef y a).
    { intros a. rewrite wc_add, wc_mul by lia. reflexivity. }
    apply qle_add; auto. apply qle_scale; auto.
Qed.
End W.
