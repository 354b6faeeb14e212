(** Quadratic weights of arbitrary programs. Proofs only.
    Nothing is assumed about samples being different here, so weights are
    bounded by the square of the sum of the absolute coefficients. *)
From Verif Require Import Base Backend Words Params Pbs Addition Signum Maximum
  Multiplication Squaring Rounding Naf Asc ScalarMul Arith Expr NeuralNetwork Symbolic Weights.
From Verif Require Import Spec Contract BaseProofs AddProofs DepthProofs RelProofs Instances WeightProofs WeightMul.

(* ------------------------------------------------------------------ *)
(** ** Sums of absolute coefficients *)

Definition abs_sum (f : term -> Z) (l : list term) : Z := fold_right (fun a s => Z.abs (f a) + s) 0 l.
Definition ale (f : term -> Z) (n : Z) : Prop := forall l, NoDup l -> abs_sum f l <= n.

Lemma abs_cons : forall f a l, abs_sum f (a :: l) = Z.abs (f a) + abs_sum f l.
Proof. reflexivity. Qed.
Lemma abs_nil : forall f, abs_sum f [] = 0.
Proof. reflexivity. Qed.
Lemma abs_nonneg : forall f l, 0 <= abs_sum f l.
Proof. intros f l. induction l; rewrite ?abs_nil, ?abs_cons; lia. Qed.
Lemma ale_ext : forall f g n, (forall a, f a = g a) -> ale f n -> ale g n.
Proof.
  intros f g n E H l Hl. specialize (H l Hl). replace (abs_sum g l) with (abs_sum f l); auto.
  clear H Hl. induction l; rewrite ?abs_nil, ?abs_cons; auto. rewrite IHl, E. reflexivity.
Qed.
Lemma ale_mono : forall f n m, n <= m -> ale f n -> ale f m.
Proof. intros f n m L H l Hl. specialize (H l Hl). lia. Qed.
Lemma ale_zero : ale (fun _ => 0) 0.
Proof. intros l _. induction l; rewrite ?abs_nil, ?abs_cons; lia. Qed.
Lemma ale_add : forall f g n m, ale f n -> ale g m -> ale (fun a => f a + g a) (n + m).
Proof.
  intros f g n m Hf Hg l Hl. specialize (Hf l Hl). specialize (Hg l Hl).
  assert (abs_sum (fun a => f a + g a) l <= abs_sum f l + abs_sum g l); [|lia].
  clear. induction l; rewrite ?abs_nil, ?abs_cons; cbv beta; lia.
Qed.
Lemma ale_scale : forall f n c, ale f n -> ale (fun a => c * f a) (Z.abs c * n).
Proof.
  intros f n c H l Hl. specialize (H l Hl).
  replace (abs_sum (fun a => c * f a) l) with (Z.abs c * abs_sum f l); [nia|].
  clear. induction l; rewrite ?abs_nil, ?abs_cons; [lia|]. rewrite <- IHl, Z.abs_mul. ring.
Qed.
Lemma ale_qle : forall f n, ale f n -> qle f (n * n).
Proof.
  intros f n H l Hl. specialize (H l Hl). pose proof (abs_nonneg f l).
  assert (sq_sum f l <= abs_sum f l * abs_sum f l); [|nia].
  clear. induction l as [|a l IH]; rewrite ?sq_nil, ?sq_cons, ?abs_nil, ?abs_cons; [lia|].
  pose proof (abs_nonneg f l). assert (f a * f a = Z.abs (f a) * Z.abs (f a)) by lia. nia.
Qed.
Lemma qle_ale : forall f n, qle f n -> ale f n.
Proof.
  intros f n H l Hl. specialize (H l Hl). assert (abs_sum f l <= sq_sum f l); [|lia].
  clear. induction l as [|a l IH]; rewrite ?sq_nil, ?sq_cons, ?abs_nil, ?abs_cons; [lia|]. nia.
Qed.

(* ------------------------------------------------------------------ *)
(** ** Words that are at most one sample, public digits *)

Definition tdig {B} (w : word B) : Prop :=
  match w with Ct _ => True | Triv p => p = 0 \/ p = 2^59 \/ p = 31 * 2^59 end.
Definition digit_table (l : list Z) : Prop := Forall (fun v => v = 0 \/ v = 1 \/ v = 31) l.

Section A.
Context {N : nat}.
Notation B := (sym N).

Definition fine (n : Z) (w : word B) : Prop := wb n w /\ single w /\ tdig w.
Notation fines n := (Forall (fine n)).

Lemma tdig_triv0 : @tdig B triv0.
Proof. left. reflexivity. Qed.
Lemma fine_triv0 : forall n, fine n triv0.
Proof. intros n. split; [exact I|]. split; [apply single_triv0|apply tdig_triv0]. Qed.
Lemma tdig_opp : forall w : word B, tdig w -> tdig (w_opp w).
Proof. intros [t|p] H; cbn in *; auto. destruct H as [ -> |[ -> | -> ]]; auto. Qed.
Lemma fine_opp : forall n w, fine n w -> fine n (w_opp w).
Proof.
  intros n w [H1 [H2 H3]]. split; [apply wb_opp, H1|]. split; [|apply tdig_opp, H3].
  eapply qle_w; [intros; apply wc_opp|]. apply qle_opp, H2.
Qed.
Lemma fine_mul : forall n w k, -1 <= k <= 1 -> fine n w -> fine n (w_mul_const w k).
Proof.
  intros n w k Hk H. assert (P : forall k, k = 0 \/ k = 1 -> fine n (w_mul_const w k)).
  { clear k Hk. intros k Hk. destruct H as [H1 [H2 H3]]. split; [apply wb_mul, H1|]. split.
    - eapply qle_w; [intros; apply wc_mul; lia|]. eapply qle_mono; [|apply qle_scale, H2]. nia.
    - destruct w as [t|p]; [destruct Hk as [ -> | -> ]; exact I|].
      destruct Hk as [ -> | -> ]; destruct H3 as [ -> |[ -> | -> ]]; cbn; auto. }
  destruct (Z_lt_le_dec k 0) as [L|L]; [|apply P; lia].
  assert (k = -1) by lia. subst k. change (w_mul_const w (-1)) with (w_opp (w_mul_const w 1)).
  apply fine_opp, P. auto.
Qed.
Lemma fine_single : forall n w, fine n w -> ale (wcoef w) 1.
Proof. intros n w [_ [H _]]. apply qle_ale, H. Qed.
Lemma ale_w : forall (w : word B) f n, (forall a, wcoef w a = f a) -> ale f n -> ale (wcoef w) n.
Proof. intros w f n E H. eapply ale_ext; [|exact H]. intros. symmetry. auto. Qed.
Lemma fine_load : forall n (w : word B), 1 <= n -> fine n w -> load n w.
Proof. intros n w Hn [H1 [H2 _]]. split; auto. eapply qle_mono; eauto. Qed.

Lemma decode_digit : forall p, @tdig B (Triv p) -> allP (decrypt_mi None (@Triv B p)) (fun m => -1 <= m <= 1).
Proof. intros p H m E. destruct H as [ -> |[ -> | -> ]]; injection E as <-; cbv; split; discriminate. Qed.

Lemma lut_tdig : forall (c : word B) l, digit_table l -> allP (eval_LUT_5_uint c l) tdig.
Proof.
  intros c l H. unfold eval_LUT_5_uint, eval_LUT_5_half. destruct c as [t|p].
  - intros r E. injection E as <-. exact I.
  - cbv zeta.
    assert (K : forall i, exists v, (v = 0 \/ v = 1 \/ v = 31) /\ nth i (map (fun v => 2 * v) l) 0 = 2 * v).
    { intros i. destruct (Nat.lt_ge_cases i (length l)) as [L|L].
      - exists (nth i l 0). split; [|change 0 with ((fun v => 2 * v) 0) at 1; apply map_nth].
        unfold digit_table in H. rewrite Forall_forall in H. apply H, nth_In, L.
      - exists 0. split; auto. apply nth_overflow. rewrite map_length. auto. }
    eapply allP_bind with (P := fun m => exists v, (v = 0 \/ v = 1 \/ v = 31) /\ (m = 2 * v \/ m = - (2 * v))).
    + destruct (_ <? 16).
      * apply allP_ret. destruct (K (Z.to_nat (pt_to_mu MSG_MOD p))) as [v [Hv E]]. eauto.
      * destruct (_ <? 32); [|apply allP_panic]. apply allP_ret.
        destruct (K (Z.to_nat (pt_to_mu MSG_MOD p - 16))) as [v [Hv E]]. exists v. split; auto. right. rewrite E. reflexivity.
    + intros m [v [Hv Hm]]. apply allP_ret.
      destruct Hv as [ -> |[ -> | -> ]], Hm as [ -> | -> ]; cbv; auto.
Qed.
Lemma lut_fine : forall n (c : word B) l, digit_table l -> wb n c -> qle (wcoef c) n -> allP (eval_LUT_5_uint c l) (fine n).
Proof.
  intros n c l Hl H Q r Er. destruct (lut_ok n c l H Q r Er) as [H1 H2]. split; auto. split; auto.
  exact (lut_tdig c l Hl r Er).
Qed.
Ltac table := unfold digit_table; repeat (apply Forall_cons; [lia|]); apply Forall_nil.
Lemma table_f_1 : digit_table (lut_f_1 1). Proof. table. Qed.
Lemma table_a_1 : digit_table lut_a_1. Proof. table. Qed.
Lemma table_mul : digit_table lut_mul_bit. Proof. table. Qed.
Lemma table_max : digit_table lut_max. Proof. table. Qed.
Lemma table_round : digit_table lut_round. Proof. table. Qed.
Lemma table_squ : digit_table lut_squ_0 /\ digit_table lut_squ_2 /\ digit_table lut_squ_3 /\ digit_table lut_squ_4 /\ digit_table lut_squ_5.
Proof. repeat split; table. Qed.

(* ------------------------------------------------------------------ *)
(** ** Addition *)

(** public words of a sum are digits: the same sum over exact ciphertexts *)
Definition forget (w : word B) : word exact := match w with Ct _ => @Ct exact ([], 0) | Triv p => Triv p end.
Definition any (a : term) (b : list Z * Z) : Prop := True.
Lemma any_sim : simulation B exact any.
Proof. constructor; intros; exact I. Qed.
Lemma forget_rel : forall x : ciphertext B, Forall2 (wrel (B1 := B) (B2 := exact) any) x (map forget x).
Proof. induction x as [|[t|p] x IH]; cbn; constructor; cbn; auto. exact I. Qed.
Lemma forget_encrypts : forall x : ciphertext B, Forall tdig x -> exists ds, encrypts (exact_contract 22) (map forget x) ds.
Proof.
  intros x H. induction H as [|w x Hw Hx [ds [D1 D2]]].
  - exists []. split; constructor.
  - assert (K : exists d, digit d /\ wmsg (exact_contract 22) (forget w) d 1).
    { destruct w as [t|p]; cbn in Hw.
      - exists 0. split; [unfold digit; lia|]. exists 0. split; [exists 0; reflexivity|]. cbn. lia.
      - unfold wmsg, wrep, forget, step, teq. destruct Hw as [ -> |[ -> | -> ]].
        + exists 0. split; [unfold digit; lia|]. split; [lia|]. exists 0. reflexivity.
        + exists 1. split; [unfold digit; lia|]. split; [lia|]. exists 0. reflexivity.
        + exists (-1). split; [unfold digit; lia|]. split; [lia|]. exists 1. reflexivity. }
    destruct K as [d [K1 K2]]. exists (d :: ds). split; constructor; auto.
Qed.
Lemma wmsg_tdig : forall (p : Z) d, digit d -> wmsg (exact_contract 22) (@Triv exact p) d 1 -> @tdig B (Triv p).
Proof.
  intros p d Hd [Hp [q Hq]]. unfold step, digit in *. unfold tdig.
  assert (d = -1 \/ d = 0 \/ d = 1) as [ -> |[ -> | -> ]] by lia; lia.
Qed.
Lemma add_tdig : forall add (x y : ciphertext B), Forall tdig x -> Forall tdig y ->
  allP (add_sub_impl add x y true) (Forall tdig).
Proof.
  intros add x y Hx Hy z Ez.
  destruct (forget_encrypts x Hx) as [dx Dx]. destruct (forget_encrypts y Hy) as [dy Dy].
  destruct (add_sub_ok (exact_contract 22) add _ _ true _ _ Dx Dy) as [z' [Ez' [[dz [D1 [D2 _]]] _]]].
  pose proof (mr_add_sub (X := tp_only True) any_sim ltac:(intros; exact I) add x (map forget x) y (map forget y) true
    (forget_rel x) (forget_rel y)) as S.
  destruct S as [S _]. unfold ciphertext in *. rewrite Ez, Ez' in S. clear - S D1 D2. revert dz D1 D2.
  induction S as [|w w' z z' S1 S2 IH]; intros dz D1 D2; inversion D2 as [|? d ? dz' E1 E2]; subst; constructor.
  - destruct w as [t|p]; [exact I|]. destruct w' as [t'|p']; [destruct S1|]. cbn in S1. subst p'.
    inversion D1; subst. eapply wmsg_tdig; eauto.
  - inversion D1; subst. eapply IH; eauto.
Qed.

Section Sum.
Variables (n : Z) (add : bool) (x y : ciphertext B).
Hypothesis Hn : 64 <= n.
Hypothesis Hx : forall i, fine n (nth i x triv0).
Hypothesis Hy : forall i, fine n (nth i y triv0).
Variables (rt wlen : nat) (W V Q U Z : nat -> word B).
Hypothesis HP : parts add x y rt wlen W V Q U Z.

Lemma aW : forall i, ale (wcoef (W i)) 2.
Proof.
  intros i. eapply ale_w; [apply (p_W _ _ _ _ _ _ _ _ _ _ HP)|].
  apply (ale_add _ _ 1 1); [eapply fine_single, Hx|].
  eapply ale_mono; [|apply ale_scale; eapply fine_single, Hy]. destruct add; cbn; lia.
Qed.
Lemma aW_wb : forall i, wb n (W i).
Proof. intros i. apply (p_Wb _ _ _ _ _ _ _ _ _ _ HP); [apply Hx|apply Hy]. Qed.
(** 3 + 3 + 1 + 1 *)
Lemma aV : forall i, ale (wcoef (V i)) 8.
Proof.
  intros i. eapply ale_w; [apply (V_coef _ _ _ _ _ _ _ _ _ _ HP)|].
  apply (ale_add (fun a => 3 * wcoef (W i) a) _ 6 2); [apply (ale_scale _ 2 3), aW|].
  destruct (rt <? i)%nat; [apply aW|]. eapply ale_mono; [|apply ale_zero]. lia.
Qed.
Lemma aV_wb : forall i, wb n (V i).
Proof.
  intros i. rewrite (p_V _ _ _ _ _ _ _ _ _ _ HP). destruct (rt <? i)%nat; [apply wb_add|]; try apply wb_mul; apply aW_wb.
Qed.
Lemma aQ : forall i, (i < wlen)%nat -> wb n (Q i) /\ single (Q i).
Proof.
  intros i Hi. destruct (Nat.lt_ge_cases i rt) as [L|L].
  - rewrite (p_Q0 _ _ _ _ _ _ _ _ _ _ HP) by auto. split; [exact I|apply single_triv0].
  - pose proof (p_Q _ _ _ _ _ _ _ _ _ _ HP i ltac:(lia)) as H. split; [|eapply lut_single, H].
    eapply lut_wb; [exact H|apply aV_wb|]. eapply qle_mono; [|apply ale_qle, aV]. lia.
Qed.
(** 1 + 1 + 2 + 1 *)
Lemma aU : forall i, (i < wlen)%nat -> ale (wcoef (U i)) 5.
Proof.
  intros i Hi. eapply ale_w; [apply (U_coef _ _ _ _ _ _ _ _ _ _ HP)|].
  apply (ale_add _ _ 2 3); [apply aW|].
  apply (ale_ext (fun a => (if (0 <? i)%nat then wcoef (Q (i - 1)%nat) a else 0) + -2 * wcoef (Q i) a)); [intros; lia|].
  apply (ale_add _ _ 1 2).
  - destruct (0 <? i)%nat; [apply qle_ale, aQ; lia|]. eapply ale_mono; [|apply ale_zero]. lia.
  - apply (ale_scale _ 1 (-2)), qle_ale, aQ, Hi.
Qed.
Lemma aU_wb : forall i, (i < wlen)%nat -> wb n (U i).
Proof.
  intros i Hi. rewrite (p_U _ _ _ _ _ _ _ _ _ _ HP). destruct (0 <? i)%nat; [apply wb_add; [|apply aQ; lia]|];
    (apply wb_sub; [apply aW_wb|apply wb_mul, aQ, Hi]).
Qed.
Lemma aZ : forall i, (rt <= i < wlen)%nat -> wb n (Z i) /\ single (Z i).
Proof.
  intros i Hi. pose proof (p_Z _ _ _ _ _ _ _ _ _ _ HP i Hi) as H. split; [|eapply lut_single, H].
  eapply lut_wb; [exact H|apply aU_wb; lia|]. eapply qle_mono; [|apply ale_qle, aU; lia]. lia.
Qed.
Lemma aU_low : forall i, (i < rt)%nat -> single (U i).
Proof.
  intros i Hi. destruct (p_low _ _ _ _ _ _ _ _ _ _ HP i Hi) as [T|T].
  - apply qle_w with (f := fun a => (if add then 1 else -1) * wcoef (nth i y triv0) a).
    + intros a. rewrite (U_low _ _ _ _ _ _ _ _ _ _ HP), (p_W _ _ _ _ _ _ _ _ _ _ HP), (wcoef_triv _ a T) by auto. lia.
    + eapply qle_mono; [|apply qle_scale, Hy]. destruct add; lia.
  - apply qle_w with (f := wcoef (nth i x triv0)); [|apply Hx].
    intros a. rewrite (U_low _ _ _ _ _ _ _ _ _ _ HP), (p_W _ _ _ _ _ _ _ _ _ _ HP), (wcoef_triv _ a T) by auto. lia.
Qed.
Lemma asum_words : forall z, assembled rt wlen Q U Z z -> forall i, wb n (nth i z triv0) /\ single (nth i z triv0).
Proof.
  intros z [_ Hz] i. rewrite Hz. pose proof (p_len _ _ _ _ _ _ _ _ _ _ HP).
  destruct (Nat.ltb_spec i rt) as [L|L]; [split; [apply aU_wb; lia|apply aU_low, L]|].
  destruct (Nat.ltb_spec i wlen) as [L'|L']; [apply aZ; lia|].
  destruct (i =? wlen)%nat; [apply aQ; lia|]. split; [exact I|apply single_triv0].
Qed.
End Sum.

Lemma fines_nth : forall n x i, fines n x -> fine n (nth i x triv0).
Proof. intros n x i H. apply Forall_nth_triv; auto. apply fine_triv0. Qed.
Lemma fines_opp : forall n x, fines n x -> fines n (pa_opp x).
Proof. intros n x H. apply Forall_map. eapply Forall_impl; [|exact H]. intros w. apply fine_opp. Qed.
Lemma fines_triv : forall n k, fines n (ct_triv k).
Proof. intros n k. induction k; cbn; constructor; auto. apply fine_triv0. Qed.
Lemma fines_shift : forall n x k, fines n x -> fines n (pa_shift x k).
Proof. intros n x [|k] H; [exact H|]. apply Forall_app. split; [apply fines_triv|exact H]. Qed.
Lemma fines_firstn : forall n k x, fines n x -> fines n (firstn k x).
Proof. intros n k. induction k; intros x H; cbn; [constructor|]. destruct H; constructor; auto. Qed.
Lemma fines_skipn : forall n k x, fines n x -> fines n (skipn k x).
Proof. intros n k. induction k; intros x H; cbn; auto. destruct H; [constructor|auto]. Qed.
Lemma fine_sum : forall n add x y, 64 <= n -> fines n x -> fines n y -> allP (add_sub_impl add x y true) (fines n).
Proof.
  intros n add x y Hn Hx Hy z Ez.
  assert (T : Forall tdig z).
  { eapply add_tdig; [| |exact Ez]; (eapply Forall_impl; [|eassumption]); intros w Hw; apply Hw. }
  destruct (sum_parts add x y z Ez) as [ -> |[ -> |(rt & wlen & W & V & Q & U & Z & HP & HZ)]].
  - destruct add; auto. apply fines_opp; auto.
  - auto.
  - apply nth_Forall_triv. intros i.
    destruct (asum_words n add x y Hn ltac:(intros; apply fines_nth; auto) ltac:(intros; apply fines_nth; auto) _ _ _ _ _ _ _ HP z HZ i).
    split; auto. split; auto. apply Forall_nth_triv; auto. apply tdig_triv0.
Qed.
Lemma fine_add : forall n x y, 64 <= n -> fines n x -> fines n y -> allP (pa_add x y) (fines n).
Proof. intros. apply allP_analysed, fine_sum; auto. Qed.
Lemma fine_sub : forall n x y, 64 <= n -> fines n x -> fines n y -> allP (pa_sub x y) (fines n).
Proof. intros. apply allP_analysed, fine_sum; auto. Qed.
Lemma fine_add_const : forall n pc x k, 64 <= n -> bit_precision (cparams pc) = 5%nat -> fines n x ->
  allP (pa_add_const pc x k) (fines n).
Proof.
  intros n pc x k Hn Hb Hx. apply allP_analysed. unfold add_const_impl.
  destruct (k =? 0); [apply allP_ret; auto|].
  eapply allP_bind with (P := fun _ => True); [intros ? ?; exact I|]. intros ka _. cbv zeta.
  eapply allP_bind with (P := fines n); [|intros ck Hck; apply fine_add; auto].
  eapply allP_conseq; [apply allP_mapM with (P := fine n)|intros r Hr; apply Hr].
  intros i _. eapply allP_bind with (P := fun ki => ki = 0 \/ ki = 1 \/ ki = 31).
  - destruct (Z.testbit _ _); [|apply allP_ret; auto]. destruct (0 <=? k); [apply allP_ret; auto|].
    unfold plaintext_mask. rewrite Hb. intros m E. destruct (ovf pc); injection E as <-; auto.
  - intros ki Hki. apply allP_ret. split; [exact I|]. split; [exact (@single_triv0 N)|].
    destruct Hki as [ -> |[ -> | -> ]]; cbv; auto.
Qed.

(* ------------------------------------------------------------------ *)
(** ** Signum *)

(** what the signum needs: 1 + 2 + 4 + 8, or 1 + 2 + 4 + 1 after a bootstrap *)
Definition sgn_need (pc : cloud) : Z := if 85 <=? quad_weight (cparams pc) then 225 else 64.
Lemma sgn_need_64 : forall pc, 64 <= sgn_need pc.
Proof. intros pc. unfold sgn_need. destruct (85 <=? _); lia. Qed.

Lemma fine_first_group : forall n pc x j, sgn_need pc <= n -> fines n x ->
  allP (sgn_first_group pc x j) (load n).
Proof.
  intros n pc x j Hn Hx. unfold sgn_first_group.
  assert (HX : forall i, fine n (nth i x triv0)) by (intros; apply fines_nth; auto).
  set (c3 := if 85 <=? quad_weight (cparams pc) then 8 else 1).
  assert (Hc : (c3 + 7) * (c3 + 7) <= n).
  { unfold sgn_need in Hn. unfold c3. destruct (85 <=? _); lia. }
  eapply allP_bind with (P := fun b => wb n b /\ ale (wcoef b) c3).
  - destruct (_ <? _)%nat.
    + eapply allP_bind with (P := fun b => wb n b /\ ale (wcoef b) c3).
      * unfold c3. destruct (85 <=? _).
        -- apply allP_ret. split; [apply wb_mul, HX|]. eapply ale_w; [intros; apply wc_mul; lia|].
           apply (ale_scale _ 1 8). eapply fine_single, HX.
        -- eapply allP_conseq; [apply lut_ok|].
           ++ apply HX.
           ++ eapply qle_mono; [|apply HX]. unfold c3 in Hc. nia.
           ++ intros s [S1 S2]. split; auto. apply qle_ale, S2.
      * intros s [S1 S2]. apply allP_ret. split; [apply wb_add; [exact I|exact S1]|].
        eapply ale_w; [intros; rewrite wc_add, wc_triv0; apply Z.add_0_l|exact S2].
    + apply allP_ret. split; [exact I|]. eapply ale_mono; [|apply ale_zero]. unfold c3. destruct (85 <=? _); lia.
  - intros b [B1 B2]. apply allP_ret. cbn [fold_left].
    set (X := fun i => if (GAMMA * j + i <? length x)%nat then nth (GAMMA * j + i) x triv0 else triv0).
    assert (HX' : forall i, ale (wcoef (X i)) 1).
    { intros i. unfold X. destruct (_ <? _)%nat; [eapply fine_single, HX|]. eapply ale_mono; [|apply ale_zero]. lia. }
    split.
    + repeat (destruct (_ <? _)%nat; [apply wb_add; [|try apply wb_mul; apply HX]|]); auto.
    + eapply qle_mono; [exact Hc|]. apply ale_qle.
      apply ale_w with (f := fun a => ((wcoef b a + wcoef (X 0%nat) a) + 2 * wcoef (X 1%nat) a) + 4 * wcoef (X 2%nat) a).
      { intros a. clear HX'. unfold X. cbn [Nat.eqb].
        repeat (match goal with |- context [(?u <? length x)%nat] => destruct (u <? length x)%nat end);
          rewrite ?wc_add, ?wc_mul by (cbn; lia); rewrite ?wc_triv0; change (2 ^ Z.of_nat 1) with 2; change (2 ^ Z.of_nat 2) with 4; lia. }
      replace (c3 + 7) with (((c3 + 1) + 2) + 4) by lia.
      apply ale_add; [apply ale_add; [apply ale_add; auto|apply (ale_scale _ 1 2); auto]|apply (ale_scale _ 1 4); auto].
Qed.
Lemma fine_rec : forall n pc x, sgn_need pc <= n -> fines n x -> allP (sgn_recursion_raw pc x true) (Forall (load n)).
Proof.
  intros n pc x Hn Hx. pose proof (sgn_need_64 pc). unfold sgn_recursion_raw. cbn [sgn_recursion_fuel].
  destruct (_ =? 0)%nat; [apply allP_ret; constructor; [apply load_triv0; lia|constructor]|].
  destruct (_ =? 1)%nat.
  { apply allP_ret. eapply Forall_impl; [|exact Hx]. intros w. apply fine_load. lia. }
  apply allP_measure.
  eapply allP_bind with (P := fun r => Forall (load n) r /\ length r = length (seq 0 ((length x - 1) / GAMMA + 1))).
  - apply allP_mapM. intros j _. apply fine_first_group; auto.
  - intros b [Hb _]. apply rec_next_ok; auto. lia.
Qed.
Lemma fine_sgn : forall n pc x, sgn_need pc <= n -> fines n x -> allP (pa_sgn pc x) (fines n).
Proof.
  intros n pc x Hn Hx. apply allP_analysed. unfold sgn_impl.
  destruct (_ =? 0)%nat; [apply allP_ret; constructor|].
  destruct (_ =? 1)%nat; [apply allP_ret; auto|].
  eapply allP_bind with (P := fine n).
  - apply allP_measure. eapply allP_bind; [apply fine_rec; eauto|]. intros s Hs.
    eapply allP_bind; [apply allP_index; exact Hs|]. intros s0 [A Q].
    apply lut_fine; eauto using table_f_1.
  - intros s Hs. apply allP_ret. constructor; auto.
Qed.

(* ------------------------------------------------------------------ *)
(** ** Maximum: the sign is a new sample *)

Definition deep (d : nat) (t : term) : Prop := (d <= tdepth t)%nat.
Lemma deep_upward : forall d, upward (deep d).
Proof. intros d. unfold deep. constructor; cbn; intros; lia. Qed.
Notation wD d := (@wH N (deep d)).
Lemma wD_opp : forall d (w : word B), wD d w -> wD d (w_opp w).
Proof. intros d [t|p] H; exact H. Qed.
Lemma lut_deep : forall d acc (w r : word B), lut_of acc w r -> wD d w -> wD d r.
Proof.
  intros d acc [t|p] r H K; cbn in H, K; [|contradiction]. subst r. unfold wH, deep in *. cbn [tdepth]. lia.
Qed.
Definition has (d : nat) (x : ciphertext B) : Prop := exists i, wD d (nth i x triv0).
Lemma has_zero : forall d x, all_zero x -> has d x -> False.
Proof. intros d x H [i K]. specialize (H i). destruct (nth i x triv0); [discriminate|exact K]. Qed.
Lemma wD_elen : forall d x i, wD d (nth i x triv0) -> (i < elen x)%nat.
Proof.
  intros d x i K. destruct (Nat.lt_ge_cases i (elen x)) as [L|L]; auto. exfalso. unfold elen in L.
  destruct (Nat.lt_ge_cases i (length x)) as [L'|L'].
  - pose proof (ctz_high x i ltac:(lia)) as T. destruct (nth i x triv0); [discriminate|exact K].
  - rewrite nth_overflow in K by auto. exact K.
Qed.
Lemma sum_deep : forall add x y, allP (add_sub_impl add x y true) (fun z => forall d, has d x \/ has d y -> has d z).
Proof.
  intros add x y z Ez d H.
  destruct (sum_parts_exact add x y z Ez) as [[A E]|[[A E]|(rt & wlen & W & V & Q & U & Z & HP & HZ)]].
  - destruct H as [H|H]; [destruct (has_zero d x A H)|]. subst z. destruct add; auto.
    destruct H as [i H]. exists i. rewrite opp_nth. apply wD_opp, H.
  - destruct H as [H|H]; [|destruct (has_zero d y A H)]. subst z. auto.
  - assert (K : exists i, (wD d (nth i x triv0) \/ wD d (nth i y triv0)) /\ (i < wlen)%nat).
    { rewrite (p_wlen _ _ _ _ _ _ _ _ _ _ HP). destruct H as [[i H]|[i H]]; exists i; (split; [auto|]);
        pose proof (wD_elen _ _ _ H); lia. }
    destruct K as [i [K L]]. exists i. pose proof (deep_upward d) as HU.
    assert (KW : wD d (W i)).
    { destruct (p_Wf _ _ _ _ _ _ _ _ _ _ HP i) as [E|[E1 E2]].
      - rewrite E. destruct add; [apply wH_add; auto|]. unfold w_sub. apply wH_add; auto.
        destruct K as [K|K]; auto. right. apply wD_opp, K.
      - rewrite E1. destruct K as [K|K]; auto. rewrite E2 in K. destruct K. }
    assert (KU : wD d (U i)).
    { rewrite (p_U _ _ _ _ _ _ _ _ _ _ HP). destruct (0 <? i)%nat; [apply wH_add; auto; left|]; apply wH_sub; auto. }
    destruct HZ as [_ HZ]. rewrite HZ. destruct (Nat.ltb_spec i rt) as [L'|L']; auto.
    replace (i <? wlen)%nat with true by (symmetry; apply Nat.ltb_lt; auto).
    eapply lut_deep; [|exact KU]. apply (p_Z _ _ _ _ _ _ _ _ _ _ HP). lia.
Qed.
Lemma fold_deep : forall d (f : word B -> nat -> word B) l b,
  (forall b i, wD d b -> wD d (f b i)) ->
  wD d b \/ (exists i, In i l /\ forall b, wD d (f b i)) -> wD d (fold_left f l b).
Proof.
  intros d f l. induction l as [|j l IH]; intros b Hf H; cbn [fold_left].
  - destruct H as [H|[i [[] _]]]. exact H.
  - apply IH; auto. destruct H as [H|[i [[<-|Hi] H]]]; auto. right. eauto.
Qed.
Lemma first_group_deep : forall d pc (x : ciphertext B) j i, (i < 4)%nat -> wD d (nth (GAMMA * j + i) x triv0) ->
  allP (sgn_first_group pc x j) (wD d).
Proof.
  intros d pc x j i Hi K. pose proof (deep_upward d) as HU. unfold sgn_first_group.
  assert (L : (GAMMA * j + i < length x)%nat).
  { destruct (Nat.lt_ge_cases (GAMMA * j + i) (length x)) as [L|L]; auto. rewrite nth_overflow in K by auto. destruct K. }
  eapply allP_bind with (P := fun b => i = 3%nat -> wD d b).
  - destruct (Nat.ltb_spec (GAMMA * j + 3) (length x)) as [L3|L3].
    + eapply allP_bind with (P := fun b => i = 3%nat -> wD d b).
      * destruct (85 <=? _).
        -- apply allP_ret. intros ->. apply wH_mul; auto.
        -- eapply allP_conseq; [apply lut_shape|]. intros r Hr ->. eapply lut_deep; eauto.
      * intros s Hs. apply allP_ret. intros E. apply wH_add; auto.
    + apply allP_ret. intros ->. lia.
  - intros b Hb. apply allP_ret. apply fold_deep.
    + intros b' i' K'. destruct (_ <? _)%nat; auto. apply wH_add; auto.
    + assert (E : i = 3%nat \/ In i [0; 1; 2]%nat) by (cbn; lia). destruct E as [E|E]; [left; auto|]. right.
      exists i. split; auto. intros b'. replace (GAMMA * j + i <? length x)%nat with true by (symmetry; apply Nat.ltb_lt; auto).
      apply wH_add; auto. right. destruct (i =? 0)%nat; auto. apply wH_mul; auto.
Qed.
Lemma fold_deep_list : forall d (l : list (word B)) b, wD d b \/ (exists w, In w l /\ wD d w) -> wD d (fold_left w_add l b).
Proof.
  intros d l. pose proof (deep_upward d) as HU. induction l as [|w l IH]; intros b H; cbn [fold_left].
  - destruct H as [H|[w [[] _]]]. exact H.
  - apply IH. destruct H as [H|[v [[<-|Hv] H]]]; [left; apply wH_add; auto|left; apply wH_add; auto|right; eauto].
Qed.
Lemma next_group_deep : forall d (x : ciphertext B) j i, (i < 4)%nat -> wD d (nth (GAMMA * j + i) x triv0) ->
  allP (sgn_next_group x j) (wD d).
Proof.
  intros d x j i Hi K. unfold sgn_next_group.
  assert (L : (GAMMA * j + i < length x)%nat).
  { destruct (Nat.lt_ge_cases (GAMMA * j + i) (length x)) as [L|L]; auto. rewrite nth_overflow in K by auto. destruct K. }
  eapply allP_bind.
  - apply (@allP_mapM_nth N _ _ _ (fun k r => k = i -> wD d r) (seq 0 GAMMA) 0%nat triv0).
    intros k Hk. rewrite seq_length in Hk. rewrite seq_nth by auto. rewrite Nat.add_0_l.
    destruct (Nat.eq_dec k i) as [->|NE].
    + replace (GAMMA * j + i <? length x)%nat with true by (symmetry; apply Nat.ltb_lt; auto).
      eapply allP_conseq; [apply lut_shape|]. intros r Hr _. eapply lut_deep; eauto.
    + intros r _ E. contradiction.
  - intros r [Lr Hr]. apply allP_ret. apply fold_deep_list. right. exists (nth i r triv0).
    split; [apply nth_In; rewrite Lr; exact Hi|]. apply Hr; auto.
Qed.
Lemma rec_deep : forall d fuel pc (x : ciphertext B) b, has d x ->
  allP (sgn_recursion_fuel fuel pc x b) (fun r => wD d (nth 0 r triv0)).
Proof.
  intros d fuel pc. induction fuel as [|fuel IH]; intros x b [k K]; cbn [sgn_recursion_fuel]; [apply allP_panic|].
  assert (L : (k < length x)%nat).
  { destruct (Nat.lt_ge_cases k (length x)) as [L|L]; auto. rewrite nth_overflow in K by auto. destruct K. }
  destruct (Nat.eqb_spec (length x) 0) as [E|E]; [lia|].
  destruct (Nat.eqb_spec (length x) 1) as [E1|E1]; [apply allP_ret; replace k with 0%nat in K by lia; exact K|].
  apply allP_measure.
  assert (G : (k = GAMMA * (k / GAMMA) + k mod GAMMA)%nat) by (apply Nat.div_mod; discriminate).
  assert (M : (k mod GAMMA < 4)%nat) by (apply Nat.mod_upper_bound; discriminate).
  assert (J : (k / GAMMA < (length x - 1) / GAMMA + 1)%nat).
  { assert (k / GAMMA <= (length x - 1) / GAMMA)%nat by (apply Nat.div_le_mono; [discriminate|lia]). lia. }
  eapply allP_bind.
  - apply (@allP_mapM_nth N _ _ _ (fun j r => j = (k / GAMMA)%nat -> wD d r) (seq 0 ((length x - 1) / GAMMA + 1)) 0%nat triv0).
    intros j Hj. rewrite seq_length in Hj. rewrite seq_nth by auto. rewrite Nat.add_0_l.
    destruct (Nat.eq_dec j (k / GAMMA)) as [->|NE]; [|intros r _ E'; contradiction].
    assert (KK : allP (if b then sgn_first_group pc x (k / GAMMA) else sgn_next_group x (k / GAMMA)) (wD d)).
    { rewrite G in K. destruct b; [eapply first_group_deep|eapply next_group_deep]; eauto. }
    eapply allP_conseq; [exact KK|]. auto.
  - intros r [Lr Hr]. apply IH. exists (k / GAMMA)%nat. rewrite seq_length in Lr, Hr. apply Hr; auto.
Qed.

(** 6 + 2 on the operands, and the sign apart from them *)
Definition max_need (pc : cloud) : Z := if 41 <=? quad_weight (cparams pc) then 65 else 16.
Lemma fine_max : forall n pc x y, 64 <= n -> sgn_need pc <= n -> max_need pc <= n -> fines n x -> fines n y ->
  allP (max_impl pc x y) (fines n).
Proof.
  intros n pc x y Hn Hs Hm Hx Hy. unfold max_impl. apply allP_measure.
  eapply allP_bind with (P := fun r => fines n r /\ forall d, has d x \/ has d y -> has d r).
  { apply allP_analysed. intros r Er. split; [exact (fine_sum n false x y Hn Hx Hy r Er)|exact (sum_deep false x y r Er)]. }
  intros r [Hr Dr].
  eapply allP_bind with (P := fun sr => Forall (load n) sr /\ forall d, has d r -> wD d (nth 0 sr triv0)).
  { intros sr Er. split; [exact (fine_rec n pc r Hs Hr sr Er)|]. intros d Hd. exact (rec_deep d _ pc r true Hd sr Er). }
  intros sr [Hsr Dsr].
  eapply allP_bind with (P := fun s0 => load n s0 /\ forall d, has d x \/ has d y -> wD d s0).
  { intros s0 E0. split; [eapply allP_index; [exact Hsr|exact E0]|]. intros d Hd. specialize (Dsr d (Dr d Hd)).
    destruct sr as [|s1 sr]; [discriminate|]. injection E0 as <-. exact Dsr. }
  intros s0 [Hs0 Ds0].
  eapply allP_bind with (P := fun s => wb n s /\ single s /\
    forall a, wcoef s a <> 0 -> forall i, wcoef (nth i x triv0) a = 0 /\ wcoef (nth i y triv0) a = 0).
  { unfold nonneg_pi_5. eapply allP_bind; [apply lut_half_shape|]. intros h Hh. apply allP_ret.
    assert (E : forall a, wcoef (w_add_half h) a = wcoef h a) by (intros a; destruct h; reflexivity).
    destruct Hs0 as [L1 L2]. split; [|split].
    - pose proof (lut_wb n _ _ _ Hh L1 L2). destruct h; cbn in *; auto.
    - eapply qle_w; [apply E|]. eapply lut_single, Hh.
    - intros a Ea i. rewrite E in Ea. destruct (lut_coef _ _ _ _ Hh Ea) as [t [Et ->]].
      assert (K : forall z, (forall d, has d z -> wD d s0) -> wcoef (nth i z triv0) (TLut (gen_no_padding_acc N lut_nonneg) t) = 0).
      { intros z Hz. destruct (Z.eq_dec (wcoef (nth i z triv0) (TLut (gen_no_padding_acc N lut_nonneg) t)) 0) as [E0|E0]; auto. exfalso.
        destruct (nth i z triv0) as [u|p] eqn:Eu; [|cbn in E0; lia]. cbn [wcoef] in E0.
        pose proof (coef_up _ (deep_upward (S (tdepth t))) u _ E0) as Du. unfold deep in Du. cbn [tdepth] in Du. specialize (Du ltac:(lia)).
        assert (Hd : has (tdepth u) z) by (exists i; rewrite Eu; unfold wH, deep; lia).
        specialize (Hz _ Hd). rewrite Et in Hz. unfold wH, deep in Hz. lia. }
      split; apply K; intros d Hd; apply Ds0; auto. }
  intros s [S1 [S2 S3]].
  set (xa := x ++ _). set (ya := y ++ _).
  assert (L : length xa = length ya).
  { unfold xa, ya. rewrite !app_length. unfold ct_triv. rewrite !repeat_length. unfold ciphertext. lia. }
  assert (PX : forall i, nth i xa triv0 = nth i x triv0).
  { intros i. unfold xa. destruct (Nat.lt_ge_cases i (length x)); [apply app_nth1; auto|].
    rewrite app_nth2 by auto. rewrite ct_triv_nth, nth_overflow; auto. }
  assert (PY : forall i, nth i ya triv0 = nth i y triv0).
  { intros i. unfold ya. destruct (Nat.lt_ge_cases i (length y)); [apply app_nth1; auto|].
    rewrite app_nth2 by auto. rewrite ct_triv_nth, nth_overflow; auto. }
  clearbody xa ya.
  eapply allP_conseq; [apply (allP_mapM (max_word pc s) (fine n))|intros z [Hz _]; exact Hz].
  intros [xi yi] Hin. destruct (In_nth _ _ (triv0, triv0) Hin) as [i [Hi Ei]].
  rewrite combine_nth in Ei by auto. rewrite PX, PY in Ei. injection Ei as <- <-.
  pose proof (fines_nth n x i Hx) as Fx. pose proof (fines_nth n y i Hy) as Fy.
  pose proof (fun a H => S3 a H i) as S3i. clear S3.
  set (xi := nth i x triv0) in *. set (yi := nth i y triv0) in *. clearbody xi yi.
  unfold max_word, max_need in *.
  destruct (41 <=? quad_weight (cparams pc)) eqn:Q41.
  - rewrite ret_bind. apply lut_fine; [apply table_max| |].
    + apply wb_add; [apply wb_add|]; try apply wb_mul; auto; [apply Fy|apply Fx].
    + apply qle_mono with (n := (6 + 2) * (6 + 2) + 1); [lia|].
      apply qle_w with (f := fun a => (6 * wcoef yi a + 2 * wcoef xi a) + wcoef s a).
      { intros a. rewrite !wc_add, !wc_mul by lia. lia. }
      apply qle_disj; [|apply ale_qle, ale_add; [apply (ale_scale _ 1 6)|apply (ale_scale _ 1 2)]; eapply fine_single; eauto|auto].
      intros a. destruct (Z.eq_dec (wcoef s a) 0) as [E|E]; auto. left. destruct (S3i a E) as [-> ->]. reflexivity.
  - eapply allP_bind; [apply (lut_ok n); [apply Fy|eapply qle_mono; [|apply Fy]; lia]|]. intros t [T1 T2].
    apply lut_fine; [apply table_max| |].
    + apply wb_add; [apply wb_add|]; try apply wb_mul; auto. apply Fx.
    + apply qle_mono with (n := ((1 + 1) + 2) * ((1 + 1) + 2)); [lia|]. apply ale_qle.
      apply ale_w with (f := fun a => (wcoef t a + wcoef s a) + 2 * wcoef xi a).
      { intros a. rewrite !wc_add, !wc_mul by lia. lia. }
      apply ale_add; [apply ale_add; apply qle_ale; auto|apply (ale_scale _ 1 2); eapply fine_single; eauto].
Qed.

(* ------------------------------------------------------------------ *)
(** ** Rounding *)
Lemma fine_round : forall n pc x pos, 64 <= n -> sgn_need pc <= n -> fines n x -> allP (pa_round_at pc x pos) (fines n).
Proof.
  intros n pc x pos Hn Hs Hx. apply allP_analysed. unfold round_at_impl. destruct pos as [|pos1]; [apply allP_ret; auto|].
  destruct (_ <=? _)%nat; [apply allP_ret; constructor|].
  eapply allP_bind with (P := fun sr => fines n (fst sr) /\ fines n (snd sr)).
  - apply allP_measure. eapply allP_bind; [apply (fine_sgn n); auto; apply fines_firstn; auto|]. intros s Hs'. cbv zeta.
    pose proof (fines_nth n x pos1 Hx) as F.
    assert (M1 : wb n (w_mul_const (nth pos1 x triv0) 2)) by (apply wb_mul, F).
    assert (M2 : ale (wcoef (w_mul_const (nth pos1 x triv0) 2)) 2).
    { eapply ale_w; [intros; apply wc_mul; lia|]. apply (ale_scale _ 1 2). eapply fine_single; eauto. }
    eapply allP_bind with (P := fine n).
    + apply lut_fine; [apply table_round| |].
      * destruct Hs' as [|s0 s Hs0 _]; auto. apply wb_add; auto. apply Hs0.
      * apply qle_mono with (n := 3 * 3); [lia|]. apply ale_qle. destruct Hs' as [|s0 s Hs0 _].
        -- eapply ale_mono; [|exact M2]. lia.
        -- eapply ale_w; [intros; apply wc_add|]. apply (ale_add _ _ 2 1); auto. eapply fine_single; eauto.
    + intros rw Hrw. apply allP_ret. cbn [fst snd]. split; [apply fines_shift, fines_skipn; auto|].
      apply Forall_app. split; [apply fines_triv|auto].
  - intros [slx r] [H1 H2]. apply fine_add; auto.
Qed.

(* ------------------------------------------------------------------ *)
(** ** Products and squares *)
Lemma fine_mul_lwe : forall n x y, 16 <= n -> fine n x -> fine n y -> allP (mul_lwe x y) (fine n).
Proof.
  intros n x y Hn Hx Hy. unfold mul_lwe. destruct x as [t|p]; cbn [is_triv].
  - destruct y as [u|q]; cbn [is_triv].
    + apply lut_fine; [apply table_mul|apply wb_add; [apply wb_mul, Hx|apply Hy]|].
      apply qle_mono with (n := (3 + 1) * (3 + 1)); [lia|]. apply ale_qle.
      eapply ale_w; [intros a; rewrite wc_add, wc_mul by lia; reflexivity|].
      apply ale_add; [apply (ale_scale _ 1 3)|]; eapply fine_single; eauto.
    + eapply allP_bind; [apply decode_digit, Hy|]. intros m Hm. apply allP_ret, fine_mul; auto.
  - eapply allP_bind; [apply decode_digit, Hx|]. intros m Hm. apply allP_ret, fine_mul; auto.
Qed.
Lemma allP_mapM' : forall {S T} (f : S -> M T) (P : T -> Prop) l, (forall a, In a l -> allP (f a) P) -> allP (mapM f l) (Forall P).
Proof. intros S T f P l H. eapply allP_conseq; [apply allP_mapM; exact H|]. intros r Hr. apply Hr. Qed.
Lemma fine_mulary : forall n x y, 16 <= n -> fines n x -> fines n y -> allP (fill_mulary x y) (Forall (fines n)).
Proof.
  intros n x y Hn Hx Hy. unfold fill_mulary. destruct (negb _); [apply allP_panic|].
  apply allP_mapM'. intros [j yj] Hin. apply in_combine_r in Hin. rewrite Forall_forall in Hx, Hy.
  eapply allP_bind with (P := fines n).
  - apply allP_mapM'. intros xi Hxi. apply allP_expect, fine_mul_lwe; auto.
  - intros row Hrow. apply allP_ret. repeat (apply Forall_app; split); auto using fines_triv.
Qed.
Lemma fine_reduce : forall n rows, 64 <= n -> Forall (fines n) rows -> allP (reduce_mulsquary rows) (fines n).
Proof.
  intros n rows Hn H. unfold reduce_mulsquary.
  eapply allP_bind; [apply allP_index; exact H|]. intros m0 H0. eapply allP_bind; [apply allP_index; exact H|]. intros m1 H1.
  eapply allP_bind; [apply fine_add; eauto|]. intros acc Ha. apply allP_foldM; auto.
  intros s a Hin Hs. apply fine_add; auto. rewrite Forall_forall in H. apply H. revert Hin. clear.
  destruct rows as [|r0 [|r1 rows]]; cbn; auto.
Qed.
Lemma fine_mul_fuel : forall fuel n x y, 64 <= n -> fines n x -> fines n y -> allP (mul_fuel fuel x y) (fines n).
Proof.
  induction fuel as [|f IH]; intros n x y Hn Hx Hy; cbn [mul_fuel]; [apply allP_panic|]. apply allP_analysed. unfold mul_impl.
  set (xi := x ++ _). set (yi := y ++ _).
  assert (Fx : fines n xi) by (apply Forall_app; split; auto using fines_triv).
  assert (Fy : fines n yi) by (apply Forall_app; split; auto using fines_triv).
  clearbody xi yi. cbv zeta.
  destruct (_ =? 0)%nat; [apply allP_ret; constructor|].
  destruct (_ =? 1)%nat.
  { unfold mul_1word. eapply allP_bind; [apply allP_measure, (fine_mulary n); auto; lia|]. intros m Hm. apply allP_index, Hm. }
  destruct (_ || _).
  { apply allP_measure. eapply allP_bind; [apply (fine_mulary n); auto; lia|]. intros m Hm. apply fine_reduce; auto. }
  destruct (_ <=? 32)%nat; [|apply allP_err]. unfold mul_karatsuba. destruct (negb _); [apply allP_panic|]. cbv zeta. apply allP_measure.
  set (l0 := ((length xi + 1) / 2)%nat).
  eapply allP_bind; [apply (IH n); auto using fines_skipn|]. intros a Ha.
  eapply allP_bind; [apply (IH n); auto using fines_firstn|]. intros b Hb.
  eapply allP_bind; [apply (fine_add n); auto|]. intros ab Hab.
  eapply allP_bind; [apply (fine_add n); auto using fines_firstn, fines_skipn|]. intros x01 H1.
  eapply allP_bind; [apply (fine_add n); auto using fines_firstn, fines_skipn|]. intros y01 H2.
  eapply allP_bind; [apply (IH n); auto|]. intros c Hc.
  eapply allP_bind; [apply (fine_add n); auto|].
  { apply Forall_app. split; auto using fines_triv. }
  { apply Forall_app. split; auto using fines_triv. apply (fines_opp n ab Hab). }
  intros d Hd. destruct (_ =? _)%nat.
  - apply fine_add; auto. apply Forall_app; auto.
  - eapply allP_bind; [apply (fine_add n); auto|]. intros e He. apply fine_add; auto using fines_shift.
Qed.
Lemma fine_product : forall n x y, 64 <= n -> fines n x -> fines n y -> allP (pa_mul x y) (fines n).
Proof. intros. apply fine_mul_fuel; auto. Qed.

Lemma fine_squ_fuel : forall fuel n x, 64 <= n -> fines n x -> allP (squ_fuel fuel x) (fines n).
Proof.
  induction fuel as [|f IH]; intros n x Hn Hx; cbn [squ_fuel]; [apply allP_panic|]. apply allP_analysed. unfold squ_impl. cbv zeta.
  destruct (_ =? 0)%nat; [apply allP_ret; constructor|].
  destruct (_ =? 1)%nat.
  { unfold squ_1word. eapply allP_bind with (P := fine n).
    - apply allP_measure. eapply allP_bind; [apply allP_index; exact Hx|]. intros w Hw.
      apply lut_fine; [apply table_a_1|apply Hw|]. eapply qle_mono; [|apply Hw]. lia.
    - intros r Hr. apply allP_ret. constructor; auto. }
  destruct (_ <=? 3)%nat.
  { unfold squ_2_3word. destruct (negb _); [apply allP_panic|].
    pose proof (fines_nth n x 0 Hx) as F0. pose proof (fines_nth n x 1 Hx) as F1. pose proof (fines_nth n x 2 Hx) as F2.
    eapply allP_bind with (P := fines n).
    - apply allP_measure. cbv zeta. set (xv := if (length x =? 2)%nat then _ else _).
      assert (X : wb n xv /\ ale (wcoef xv) 7).
      { unfold xv. destruct (length x =? 2)%nat; (split; [repeat (apply wb_add || apply wb_mul); first [apply F0|apply F1|apply F2]|]).
        - apply ale_w with (f := fun a => 2 * wcoef (nth 1 x triv0) a + wcoef (nth 0 x triv0) a).
          { intros a. rewrite !wc_add, !wc_mul by lia. lia. }
          eapply ale_mono; [|apply ale_add; [apply ale_scale|]; eapply fine_single; eauto]. lia.
        - apply ale_w with (f := fun a => (4 * wcoef (nth 2 x triv0) a + 2 * wcoef (nth 1 x triv0) a) + wcoef (nth 0 x triv0) a).
          { intros a. rewrite !wc_add, !wc_mul, !wc_add, !wc_mul by lia. lia. }
          eapply ale_mono; [|apply ale_add; [apply ale_add; apply ale_scale|]; eapply fine_single; eauto]. lia. }
      destruct X as [X1 X2]. apply allP_mapM'. intros i _.
      assert (K : forall l, digit_table l -> allP (eval_LUT_5_uint xv l) (fine n)).
      { intros l Hl. apply lut_fine; auto. eapply qle_mono; [|apply ale_qle, X2]. lia. }
      destruct table_squ as [T0 [T2 [T3 [T4 T5]]]].
      unfold squ_3_bit_pi_5. destruct (if (i <? 1)%nat then i else (i + 1)%nat) as [|[|[|[|[|[|k]]]]]]; auto; try apply allP_panic.
      apply allP_ret, fine_triv0.
    - intros b Hb. eapply allP_bind; [apply allP_index; exact Hb|]. intros r0 Hr. apply allP_ret.
      constructor; auto. constructor; [apply fine_triv0|]. apply (fines_skipn n 1); auto. }
  destruct (_ <=? 32)%nat; [|apply allP_err]. unfold squ_dnq. cbv zeta. apply allP_measure.
  set (l0 := ((length x + 1) / 2)%nat).
  eapply allP_bind; [apply (IH n); auto using fines_skipn|]. intros a Ha.
  eapply allP_bind; [apply (IH n); auto using fines_firstn|]. intros b Hb.
  eapply allP_bind; [apply (fine_product n); auto using fines_firstn, fines_skipn|]. intros c Hc.
  destruct (_ =? _)%nat.
  - apply fine_add; auto using fines_shift. apply Forall_app; auto.
  - eapply allP_bind; [apply (fine_add n); auto using fines_shift|]. intros e He. apply fine_add; auto using fines_shift.
Qed.
Lemma fine_squ : forall n x, 64 <= n -> fines n x -> allP (pa_squ x) (fines n).
Proof. intros. apply fine_squ_fuel; auto. Qed.

(* ------------------------------------------------------------------ *)
(** ** Scalars: any chains *)
Lemma fine_chain : forall n c x, 64 <= n -> fines n x -> allP (asc_eval_ct c x) (fines n).
Proof.
  intros n c x Hn Hx. unfold asc_eval_ct, asc_eval.
  eapply allP_bind with (P := Forall (fines n)).
  - apply allP_foldM; [constructor; auto|]. intros vals a _ Hv. unfold asc_step.
    eapply allP_bind; [apply allP_index; exact Hv|]. intros l Hl. rewrite ret_bind.
    eapply allP_bind; [apply allP_index; exact Hv|]. intros r Hr. rewrite !ret_bind.
    eapply allP_bind with (P := fines n).
    + apply fine_add; auto.
      * destruct (l_pos a); auto using fines_opp.
      * destruct (r_pos a); auto using fines_opp, fines_shift.
    + intros s Hs. apply allP_ret. apply Forall_app; auto.
  - intros vals Hv. apply allP_ret. clear - Hv Hx. induction Hv as [|v vs H1 H2 IH]; cbn [last]; auto.
    destruct H2; auto.
Qed.
Lemma fine_scalar_mul : forall n pc k x, 64 <= n -> fines n x -> allP (pa_scalar_mul pc k x) (fines n).
Proof.
  intros n pc k x Hn Hx. apply allP_analysed. unfold scalar_mul_impl. cbv zeta.
  assert (Fx : fines n (if 0 <=? k then x else map w_opp x)) by (destruct (0 <=? k); auto; apply (fines_opp n x Hx)).
  eapply allP_bind with (P := fun _ => True); [intros ? ?; exact I|]. intros ka _.
  destruct (_ =? 0); [apply allP_ret; constructor|]. destruct (_ =? 1); [apply allP_ret; auto|].
  eapply allP_bind with (P := fun _ => True); [intros ? ?; exact I|]. intros ws _.
  eapply allP_bind with (P := Forall (fun kc : Z * ciphertext B => fines n (snd kc))).
  - apply allP_mapM'. intros wi _. eapply allP_bind with (P := fun _ => True); [intros ? ?; exact I|]. intros c _.
    eapply allP_bind; [apply allP_expect, (fine_chain n); auto|]. intros wix Hw. apply allP_ret. exact Hw.
  - intros wm Hwm. eapply allP_bind with (P := Forall (fines n)).
    + apply allP_mapM'. intros [wi sh] _. unfold mulary_row.
      eapply allP_bind with (P := fines n).
      * induction Hwm as [|[k' c] wm H1 H2 IH]; cbn [map_get]; [apply allP_panic|].
        destruct (_ =? k'); [apply allP_ret; exact H1|auto].
      * intros wix Hw. apply allP_ret. destruct (wi <? 0); auto using fines_shift, fines_opp.
    + intros rows Hrows. destruct (_ =? 1)%nat; [apply allP_index; auto|]. apply allP_measure.
      apply (fine_reduce n rows Hn Hrows).
Qed.
End A.

(* ------------------------------------------------------------------ *)
(** ** Programs and networks: what every operation keeps, they keep *)

Record kept {T} (A : arith T) (P : T -> Prop) : Prop := {
  k_zero : P (a_zero A);
  k_opp : forall x, P x -> allP (a_opp A x) P;
  k_shift : forall x k, P x -> allP (a_shift A x k) P;
  k_add : forall x y, P x -> P y -> allP (a_add A x y) P;
  k_sub : forall x y, P x -> P y -> allP (a_sub A x y) P;
  k_add_const : forall x k, P x -> allP (a_add_const A x k) P;
  k_scalar_mul : forall k x, P x -> allP (a_scalar_mul A k x) P;
  k_sgn : forall x, P x -> allP (a_sgn A x) P;
  k_max : forall x y, P x -> P y -> allP (a_max A x y) P;
  k_relu : forall x, P x -> allP (a_relu A x) P;
  k_mul : forall x y, P x -> P y -> allP (a_mul A x y) P;
  k_squ : forall x, P x -> allP (a_squ A x) P;
  k_round : forall x k, P x -> allP (a_round_at A x k) P
}.
Section Kept.
Context {T : Type} {A : arith T} {P : T -> Prop} (K : kept A P).
Lemma run_kept : forall e env, Forall P env -> allP (run A env e) P.
Proof.
  assert (NT : forall env i, Forall P env -> P (nth i env (a_zero A))).
  { intros env i H. destruct (Nat.lt_ge_cases i (length env)) as [L|L].
    - rewrite Forall_forall in H. apply H, nth_In, L.
    - rewrite nth_overflow by auto. apply (k_zero _ _ K). }
  induction e; intros env H; cbn [run];
    try (eapply allP_bind; [apply IHe; exact H|]; intros x Hx);
    try (eapply allP_bind; [apply IHe1; exact H|]; intros x Hx).
  - apply allP_ret, NT, H.
  - apply allP_ret, (k_zero _ _ K).
  - apply IHe2. constructor; auto.
  - apply (k_opp _ _ K); auto.
  - apply (k_shift _ _ K); auto.
  - eapply allP_bind; [apply IHe2; exact H|]. intros y Hy. apply (k_add _ _ K); auto.
  - eapply allP_bind; [apply IHe2; exact H|]. intros y Hy. apply (k_sub _ _ K); auto.
  - apply (k_add_const _ _ K); auto.
  - apply (k_scalar_mul _ _ K); auto.
  - apply (k_sgn _ _ K); auto.
  - eapply allP_bind; [apply IHe2; exact H|]. intros y Hy. apply (k_max _ _ K); auto.
  - apply (k_relu _ _ K); auto.
  - eapply allP_bind; [apply IHe2; exact H|]. intros y Hy. apply (k_mul _ _ K); auto.
  - apply (k_squ _ _ K); auto.
  - apply (k_round _ _ K); auto.
Qed.
Lemma affine_kept : forall w b xs, Forall P xs -> allP (affine_pool A w xs b) P.
Proof.
  intros w b xs H. unfold affine_pool. eapply allP_bind with (P := P).
  - apply allP_foldM; [apply (k_zero _ _ K)|]. intros s [k x] Hin Hs. apply in_combine_r in Hin. cbn [fst snd].
    rewrite Forall_forall in H. eapply allP_bind; [apply (k_scalar_mul _ _ K); auto|]. intros y Hy. apply (k_add _ _ K); auto.
  - intros s Hs. apply (k_add_const _ _ K); auto.
Qed.
Lemma pairs_kept : forall n xs, (length xs <= n)%nat -> Forall P xs -> allP (max_pairs A xs) (Forall P).
Proof.
  induction n as [|n IH]; intros xs Hn H.
  - destruct H; [apply allP_ret; constructor|cbn in Hn; lia].
  - destruct H as [|x xs H1 H2]; [apply allP_ret; constructor|].
    destruct H2 as [|y xs H2 H3]; [apply allP_ret; constructor; auto|].
    cbn [max_pairs length] in *. eapply allP_bind; [apply (k_max _ _ K); eauto|]. intros m Hm.
    eapply allP_bind; [apply IH; [lia|exact H3]|]. intros r Hr. apply allP_ret. constructor; auto.
Qed.
Lemma max_rec_kept : forall fuel xs, Forall P xs -> allP (max_pool_recursion A fuel xs) P.
Proof.
  induction fuel as [|f IH]; intros xs H; cbn [max_pool_recursion]; [apply allP_panic|].
  pose proof H as H0. destruct H as [|x xs H1 H2]; [apply allP_ret, (k_zero _ _ K)|].
  destruct H2 as [|y xs H2 H3]; [apply allP_ret; auto|].
  eapply allP_bind; [apply (pairs_kept (length (x :: y :: xs))); [lia|exact H0]|]. intros h Hh. apply IH; auto.
Qed.
Lemma nn_kept : forall nn xs, Forall P xs -> allP (nn_eval A nn xs) (Forall P).
Proof.
  intros nn xs H. unfold nn_eval.
  eapply allP_bind with (P := fun st => Forall P (fst st) /\ Forall P (snd st)).
  - apply allP_measure. unfold eval_layers. apply allP_foldM; [split; cbn [fst snd]; [exact H|constructor]|].
    intros [i o] l _ [H1 _]. cbn [fst snd] in *. apply allP_measure. eapply allP_bind with (P := Forall P).
    + unfold eval_layer. apply allP_mapM'. intros [t w b] _. unfold eval_perceptron. apply allP_measure. cbn [p_t p_w p_b]. destruct t.
      * unfold max_pool. eapply allP_bind with (P := Forall P).
        -- apply allP_mapM'. intros [k x] Hin. apply in_combine_r in Hin. rewrite Forall_forall in H1. apply (k_scalar_mul _ _ K); auto.
        -- intros s Hs. eapply allP_bind; [apply max_rec_kept, Hs|]. intros r Hr. apply (k_add_const _ _ K); auto.
      * apply affine_kept; auto.
      * eapply allP_bind; [apply affine_kept, H1|]. intros y Hy. apply (k_relu _ _ K); auto.
    + intros r Hr. apply allP_ret. auto.
  - intros st [_ H2]. apply allP_ret; auto.
Qed.
End Kept.

(** the settings at which no operation exceeds it *)
Definition safe_setting (qw : Z) : Prop := 65 <= qw <= 84 \/ 225 <= qw.
Lemma fine_kept : forall N pc, safe_setting (quad_weight (cparams pc)) -> bit_precision (cparams pc) = 5%nat ->
  kept (@arith_ct (sym N) pc) (Forall (fine (budget pc))).
Proof.
  intros N pc HS Hb. unfold safe_setting in HS.
  assert (H64 : 64 <= budget pc) by (unfold budget; lia).
  assert (HG : sgn_need pc <= budget pc).
  { unfold sgn_need, budget. destruct (Z.leb_spec 85 (quad_weight (cparams pc))); lia. }
  assert (HM : max_need pc <= budget pc).
  { unfold max_need, budget. destruct (Z.leb_spec 41 (quad_weight (cparams pc))); lia. }
  constructor; cbn [arith_ct a_zero a_opp a_shift a_add a_sub a_add_const a_scalar_mul a_sgn a_max a_relu a_mul a_squ a_round_at]; intros.
  - constructor.
  - apply allP_ret, fines_opp; auto.
  - apply allP_ret, fines_shift; auto.
  - apply fine_add; auto.
  - apply fine_sub; auto.
  - apply fine_add_const; auto.
  - apply fine_scalar_mul; auto.
  - apply fine_sgn; auto.
  - apply allP_analysed, fine_max; auto.
  - apply allP_analysed, fine_max; auto. constructor.
  - apply fine_product; auto.
  - apply fine_squ; auto.
  - apply fine_round; auto.
Qed.
