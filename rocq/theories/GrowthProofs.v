(** Lower bounds on the number of words of results, for every backend *)
From Verif Require Import Base Backend Words Encryption Params Pbs Addition Signum Maximum
  Naf Asc ScalarMul Arith NeuralNetwork Spec BaseProofs WordsProofs BitsProofs AddProofs EncProofs
  ShapeProofs NafProofs ScalarProofs ValueProofs.
From Coq Require Import ZifyBool ZifyNat.

Lemma cnt_safe : forall A (m : M A) P, cntP m P -> safeP m (fun a => exists k, P a k).
Proof. intros A m P H a E. eexists. apply H, E. Qed.

Lemma ovf_safe : forall A o (m : M A) P, ovfP o m P -> safeP m P.
Proof. intros A o m P H a E. unfold ovfP in H. rewrite E in H. auto. Qed.

Section Growth.
Context {B : backend}.

(** at least n words, the last of them encrypted *)
Definition big (n : nat) (x : ciphertext B) : Prop :=
  (n <= length x)%nat /\ is_triv (nth (length x - 1) x triv0) = false.

Lemma big_weaken : forall n m x, (m <= n)%nat -> big n x -> big m x.
Proof. intros n m x H [H1 H2]. split; auto. lia. Qed.
Lemma big_pos : forall n x, big n x -> (0 < length x)%nat.
Proof. intros n x [_ H]. destruct x; [discriminate|cbn; lia]. Qed.
Lemma big_ctop : forall n x, big n x -> ctop (length x) x.
Proof.
  intros n x H. pose proof (big_pos n x H). destruct H as [_ H]. split; auto. split; auto. apply elen_length.
Qed.
Lemma big_elen : forall n x, big n x -> elen x = length x.
Proof. intros n x H. apply ctop_elen. eapply big_ctop; eauto. Qed.
Lemma big_ctz : forall n x, big n x -> (count_triv_zeros x < length x)%nat.
Proof. intros n x [_ H]. apply nz_ctz. eexists. exact H. Qed.

Lemma big_opp : forall n x, big n x -> big n (pa_opp x).
Proof.
  intros n x [H1 H2]. unfold pa_opp, opposite_impl. split; rewrite map_length; auto.
  change triv0 with (w_opp (@triv0 B)). rewrite map_nth, is_triv_w_opp. auto.
Qed.
Lemma big_shift : forall n k x, big n x -> big n (pa_shift x k).
Proof.
  intros n k x H. pose proof (big_pos n x H). destruct H as [H1 H2]. rewrite pa_shift_triv.
  split; rewrite app_length, ct_triv_length; [lia|].
  rewrite nth_app_any, ct_triv_length. replace (k + length x - 1 <? k)%nat with false by lia.
  replace (k + length x - 1 - k)%nat with (length x - 1)%nat by lia. auto.
Qed.

Lemma big_add : forall n m x y, big n x -> big m y -> safeP (pa_add x y) (big (S (Nat.max n m))).
Proof.
  intros n m x y Hx Hy z E. pose proof (pa_add_shape x y z E) as S.
  pose proof (big_elen n x Hx) as EX. pose proof (big_elen m y Hy) as EY.
  destruct (as_top _ _ _ _ _ S) as [L T]; [eapply big_ctz; eauto|eapply big_ctz; eauto| |].
  - rewrite EX, EY. destruct (Nat.max_dec (length x) (length y)) as [ -> | -> ];
      [left; apply Hx|right; apply Hy].
  - rewrite EX, EY in *. destruct Hx as [Hx _], Hy as [Hy _]. split; [lia|].
    destruct T as [_ [T _]]. rewrite L. auto.
Qed.

(** an all-zero first operand *)
Lemma add_zero_l : forall y, fst (pa_add (@pa_zero B) y) = Ok y.
Proof. intros y. unfold pa_add. rewrite fst_analysed. reflexivity. Qed.
Lemma add_nil_r : forall n x, big n x -> fst (pa_add x []) = Ok x.
Proof.
  intros n x H. unfold pa_add. rewrite fst_analysed. unfold add_sub_impl.
  pose proof (big_ctz n x H). replace (count_triv_zeros x =? length x)%nat with false by lia. reflexivity.
Qed.

(** ** Scalar multiplication *)
Lemma safe_index : forall A (l : list A) i (P : A -> Prop), Forall P l -> safeP (index l i) P.
Proof.
  intros A l i P H a E. unfold index in E. destruct (nth_error l i) eqn:En; [|discriminate].
  inversion E; subst. rewrite Forall_forall in H. eapply H, nth_error_In; eauto.
Qed.

Lemma asc_big : forall n c x, big n x ->
  safeP (asc_eval_ct c x) (big (n + match c with [] => 0 | _ => 1 end)).
Proof.
  intros n c x Hx. unfold asc_eval_ct, asc_eval.
  eapply safeP_bind with (P := fun vals => vals <> [] /\ Forall (big n) vals /\
      (c <> [] -> big (S n) (last vals x))).
  - assert (H : forall l, l <> [] -> Forall (big n) l ->
      safeP (foldM (asc_step (fun x => ret (pa_opp x)) (fun x k => ret (pa_shift x k)) pa_add) c l)
        (fun vals => vals <> [] /\ Forall (big n) vals /\ (c <> [] -> big (S n) (last vals x)))).
    { induction c as [|a c IH]; intros l Hl H; cbn [foldM]; [apply safeP_ret; repeat split; auto; congruence|].
      eapply safeP_bind with (P := fun l => l <> [] /\ Forall (big n) l /\ big (S n) (last l x)).
      - unfold asc_step.
        eapply safeP_bind; [apply safe_index, H|]. intros u Hu. rewrite ret_bind.
        eapply safeP_bind; [apply safe_index, H|]. intros v Hv. rewrite !ret_bind.
        eapply safeP_bind.
        + apply (big_add n n); [destruct (l_pos a); auto using big_opp|].
          destruct (r_pos a); [apply big_shift; auto|apply big_opp, big_shift; auto].
        + intros s Hs. rewrite Nat.max_id in Hs. apply safeP_ret. split; [destruct l; discriminate|]. split.
          * apply Forall_app. split; auto.
            apply Forall_cons; [|constructor]. eapply big_weaken; [|exact Hs]. lia.
          * rewrite last_last. exact Hs.
      - intros l' [Hn [Hf Hb]]. destruct c as [|a' c'].
        + cbn [foldM]. apply safeP_ret. auto.
        + eapply safeP_conseq; [apply (IH l' Hn Hf)|]. intros vals [H1 [H2 H3]].
          split; auto. split; auto. intros _. apply H3. discriminate. }
    apply H; [discriminate|]. apply Forall_cons; [exact Hx|constructor].
  - intros vals [Hn [H H1]]. apply safeP_ret. destruct c as [|a c].
    + rewrite Nat.add_0_r. rewrite last_nth. rewrite Forall_forall in H. apply H, nth_In.
      destruct vals; [congruence|cbn [length]; lia].
    + rewrite Nat.add_1_r. apply H1. discriminate.
Qed.

Lemma sum_big : forall n rows acc, Forall (big n) rows -> big (S n) acc ->
  safeP (foldM (fun acc row => pa_add acc row) rows acc) (big (S n)).
Proof.
  intros n rows. induction rows as [|r rows IH]; intros acc H Ha; cbn [foldM]; [apply safeP_ret; auto|].
  inversion H; subst. eapply safeP_bind; [apply big_add; eauto|]. intros z Hz. apply IH; auto.
  eapply big_weaken; [|exact Hz]. lia.
Qed.

Lemma chk_abs_nonzero : forall o k, - 2^31 <= k < 2^31 -> k <> 0 ->
  safeP (chk_i32 o (Z.abs k)) (fun a => u32 a = Z.abs k).
Proof.
  intros o k Hk H0. unfold chk_i32. destruct (in_i32 (Z.abs k)) eqn:E.
  - apply safeP_ret. unfold u32. unfold in_i32, I32_MIN, I32_MAX in E. rewrite Z.mod_small; lia.
  - destruct o; [apply safeP_panic|]. apply safeP_ret.
    assert (Z.abs k = 2^31) by (unfold in_i32, I32_MIN, I32_MAX in E; lia). rewrite H. reflexivity.
Qed.

Definition pow2b (k : Z) : bool := Z.abs k =? 2 ^ Z.log2 (Z.abs k).

Lemma big_scalar_mul : forall n pc g k x, table_valid g (asc_12 pc) ->
  - 2^31 <= k < 2^31 -> k <> 0 -> big n x ->
  safeP (pa_scalar_mul pc k x) (big (n + if pow2b k then 0 else 1)).
Proof.
  intros n pc g k x HT Hk H0 Hx. unfold pa_scalar_mul. apply safeP_analysed. unfold scalar_mul_impl.
  eapply safeP_bind; [apply chk_abs_nonzero; eauto|]. cbv beta. intros a Ha. rewrite Ha. clear a Ha.
  replace (Z.abs k =? 0) with false by lia.
  assert (HX : big n (if 0 <=? k then x else map w_opp x)).
  { destruct (0 <=? k); auto. apply (big_opp n x), Hx. }
  set (xp := if 0 <=? k then x else map w_opp x) in *. clearbody xp.
  destruct (Z.abs k =? 1) eqn:E1.
  { apply safeP_ret. unfold pow2b. replace (Z.abs k) with 1 by lia. cbn. rewrite Nat.add_0_r. auto. }
  set (sg := fun w => if Z.abs w =? 1 then 0%nat else 1%nat).
  eapply safeP_bind; [eapply ovf_safe; apply (wind_shifts_ok (ovf pc) (Z.abs k) 12); lia|].
  cbv beta. intros ws [Hsum [Hws [_ Hne]]].
  eapply safeP_bind with (P := Forall (fun kc => big (n + sg (fst kc)) (snd kc))).
  { eapply safeP_conseq; [apply (safeP_mapM _ _ _ (fun _ kc => big (n + sg (fst kc)) (snd kc)))|].
    - intros key Hkey. unfold window_keys in Hkey. apply window_keys_in in Hkey.
      destruct Hkey as [[]|[w [Hw ->]]].
      rewrite Forall_forall in Hws. specialize (Hws w Hw). destruct Hws as [Hodd [Hlt _]].
      change (2 ^ Z.of_nat 12) with 4096 in Hlt.
      assert (Hn : fst w <> 0) by (intros E; rewrite E in Hodd; discriminate).
      destruct (HT (Z.abs (fst w))) as [c [Hc [_ [Hv _]]]].
      { lia. } { destruct (Z.abs_spec (fst w)) as [[_ -> ]|[_ -> ]]; [|rewrite Z.odd_opp]; auto. }
      eapply safeP_bind with (P := fun c' => c' = c); [intros c' E; rewrite Hc in E; inversion E; auto|].
      intros c' ->.
      eapply safeP_bind; [apply safeP_expect, asc_big, HX|]. intros z Hz. apply safeP_ret. cbn [fst snd].
      eapply big_weaken; [|exact Hz]. unfold sg. rewrite Z.abs_involutive.
      destruct c as [|a c]; cbv iota; [|destruct (Z.abs (fst w) =? 1); clear; lia]. cbn in Hv. rewrite <- Hv. cbn. lia.
    - intros l H. induction H; constructor; auto. }
  intros wm Hwm.
  eapply safeP_bind with (P := fun rows => Forall2 (fun w z => big (n + sg (fst w)) z) ws rows).
  { apply (safeP_mapM _ _ _ (fun w z => big (n + sg (fst w)) z)).
    intros [w s] _. unfold mulary_row. cbn [fst].
    eapply safeP_bind with (P := big (n + sg w)).
    + intros z E. clear - E Hwm. induction wm as [|[k' c] wm IH]; cbn [map_get] in E; [discriminate|].
      inversion Hwm as [|? ? Hc Hwm']; subst. destruct (Z.abs w =? k') eqn:Ek; [|auto].
      inversion E; subst. cbn [fst snd] in Hc. replace (sg w) with (sg k'); auto.
      unfold sg. replace (Z.abs k') with (Z.abs w) by lia. auto.
    + intros z Hz. apply safeP_ret. destruct (w <? 0); apply big_shift; auto; apply big_opp; auto. }
  intros rows Hrows. pose proof (Forall2_len _ _ _ _ _ Hrows) as Lr.
  destruct (length rows =? 1)%nat eqn:El.
  { destruct ws as [|[w s] [|? ?]]; cbn [length] in Lr; try lia.
    inversion Hrows as [|? z ? rows' Hz Hr]; subst. inversion Hr; subst. apply safe_index.
    apply Forall_cons; [|constructor]. eapply big_weaken; [|exact Hz]. cbn [fst]. unfold sg.
    destruct (Z.abs w =? 1) eqn:Ew; [|destruct (pow2b k); lia].
    unfold pow2b. cbn [wsum fst snd] in Hsum.
    inversion Hws as [|? ? [Ho _] _]; subst. cbn [fst] in Ho.
    assert (w = 1) as ->.
    { assert (w = 1 \/ w = -1) as [H| ->] by lia; auto. exfalso.
      pose proof (Z.pow_pos_nonneg 2 (Z.of_nat s) ltac:(lia) ltac:(lia)). cbn in Hsum. lia. }
    replace (Z.abs k) with (2 ^ Z.of_nat s) by (cbn in Hsum; lia).
    rewrite Z.log2_pow2 by lia. rewrite Z.eqb_refl. lia. }
  assert (Hrows' : Forall (big n) rows).
  { clear - Hrows. induction Hrows; constructor; auto. eapply big_weaken; [|eauto]. lia. }
  clear Hrows. rename Hrows' into Hrows.
  eapply safeP_conseq with (P := big (S n)); [|intros z Hz; eapply big_weaken; [|exact Hz]; destruct (pow2b k); lia].
  apply safeP_measure. eapply safeP_bind; [apply safe_index, Hrows|]. intros m0 H0'.
  eapply safeP_bind; [apply safe_index, Hrows|]. intros m1 H1.
  eapply safeP_bind; [apply (big_add n n); eauto|]. intros acc Hacc.
  rewrite Nat.max_id in Hacc. apply sum_big; auto.
  rewrite Forall_forall in *. intros r Hr. apply Hrows. rewrite <- (firstn_skipn 2). apply in_or_app. auto.
Qed.
Lemma scalar_mul_zero : forall pc (x : ciphertext B), fst (pa_scalar_mul pc 0 x) = Ok [].
Proof. intros pc x. unfold pa_scalar_mul. rewrite fst_analysed. reflexivity. Qed.

(** ** Adding a constant *)
Lemma add_const_shape : forall pc k, bit_precision (cparams pc) = 5%nat -> k <> 0 ->
  - 2^63 < k < 2^63 -> forall x : ciphertext B, exists ck : ciphertext B,
  bits_of (Z.abs k) (length ck) /\ (count_triv_zeros ck < length ck)%nat /\
  add_const_impl pc x k = pa_add x ck.
Proof.
  intros pc k Hp Hk0 Hk x. unfold add_const_impl. replace (k =? 0) with false by lia.
  rewrite chk_i64_in by (unfold I64_MIN, I64_MAX; lia). rewrite ret_bind.
  fold (scan (Z.abs k) 0 63 0). set (n := scan (Z.abs k) 0 63 0).
  assert (Hb : bits_of (Z.abs k) n).
  { apply scan0_bits. change (Z.of_nat 63) with 63. lia. }
  set (f := fun i => @encrypt_word_triv B
     (if Z.testbit (Z.abs k) (Z.of_nat i) then (if 0 <=? k then 1 else 31) else 0)).
  rewrite (mapM_ok _ _ _ f).
  - rewrite ret_bind. exists (map f (seq 0 n)). split; [|split; [|reflexivity]].
    + rewrite map_length, seq_length. auto.
    + destruct Hb as [[Hb _]|[H0 Hb]]; [lia|]. destruct n as [|m]; [cbn in Hb; lia|].
      apply ctz_lt_ex. exists (f m). split; [apply in_map, in_seq; lia|].
      unfold f. replace (Z.testbit (Z.abs k) (Z.of_nat m)) with true.
      * destruct (0 <=? k); reflexivity.
      * symmetry. apply Z.testbit_true; [lia|]. replace (S m - 1)%nat with m in Hb by lia.
        replace (Z.abs k / 2 ^ Z.of_nat m) with 1; [reflexivity|].
        apply (Z.div_unique (Z.abs k) (2 ^ Z.of_nat m) 1 (Z.abs k - 2 ^ Z.of_nat m)); [|ring].
        rewrite Nat2Z.inj_succ, Z.pow_succ_r in Hb by lia. lia.
  - intros i _. rewrite (plaintext_mask_5 _ _ Hp). unfold f.
    destruct (Z.testbit _ _), (0 <=? k); reflexivity.
Qed.

Lemma big_add_const : forall n pc k x, bit_precision (cparams pc) = 5%nat ->
  Z.abs k < 2 ^ Z.of_nat n -> Z.abs k < 2^63 -> big n x ->
  safeP (pa_add_const pc x k) (big (n + if k =? 0 then 0 else 1)).
Proof.
  intros n pc k x Hp Hk Hk' Hx. unfold pa_add_const. apply safeP_analysed.
  destruct (Z.eq_dec k 0) as [ -> |H0].
  { unfold add_const_impl. change (0 =? 0) with true. cbv iota. rewrite Nat.add_0_r. apply safeP_ret. auto. }
  replace (k =? 0) with false by lia.
  destruct (add_const_shape pc k Hp H0 ltac:(lia) x) as [ck [Hb [Hc ->]]].
  assert (Hl : (length ck <= length x)%nat).
  { destruct Hx as [Hx _]. destruct Hb as [[Hb _]|[_ Hb]]; [lia|].
    destruct (le_lt_dec (length ck) (length x)) as [|Hlt]; auto. exfalso.
    assert (2 ^ Z.of_nat n <= 2 ^ Z.of_nat (length ck - 1)) by (apply Z.pow_le_mono_r; lia). lia. }
  intros z E. pose proof (pa_add_shape x ck z E) as S.
  pose proof (big_elen n x Hx) as EX. pose proof (elen_length ck).
  destruct (as_top _ _ _ _ _ S) as [L T]; auto; [eapply big_ctz; eauto| |].
  - rewrite EX, Nat.max_l by lia. left. apply Hx.
  - rewrite EX, Nat.max_l in * by lia. destruct Hx as [Hx _]. split; [lia|].
    destruct T as [_ [T _]]. rewrite L. auto.
Qed.

(** ** Maximum *)
Lemma max_word_triv : forall pc (s : word B) xy, (is_triv (fst xy) = false \/ is_triv (snd xy) = false) ->
  safeP (max_word pc s xy) (fun w => is_triv w = false).
Proof.
  intros pc s [xi yi] H w E. cbn [fst snd] in H. unfold max_word in E.
  assert (Ht : forall t, is_triv t = is_triv yi -> is_triv (w_add (w_add t (w_mul_const xi 2)) s) = false).
  { intros t Ht. rewrite !is_triv_w_add, is_triv_w_mul, Ht. destruct H as [ -> | -> ]; rewrite ?andb_false_r; auto. }
  destruct (41 <=? quad_weight (cparams pc)).
  - rewrite ret_bind in E. destruct (lutu_shape _ _ w E) as [ -> _]. apply Ht, is_triv_w_mul.
  - rewrite fst_bind in E. destruct (fst (f_1_pi_5 yi 6)) as [t|e|e] eqn:E1; try discriminate.
    destruct (lutu_shape _ _ w E) as [ -> _]. apply Ht. destruct (lutu_shape _ _ t E1). auto.
Qed.

Lemma combine_nth_pad : forall (x y : ciphertext B) i,
  nth i (combine (x ++ ct_triv (length y - length x)) (y ++ ct_triv (length x - length y))) (triv0, triv0) =
  (nth i x triv0, nth i y triv0).
Proof.
  intros x y i. rewrite combine_nth by (rewrite !app_length, !ct_triv_length; lia).
  rewrite !nth_pad. reflexivity.
Qed.

Lemma max_impl_big : forall n pc x y, big n y -> (x = [] \/ big n x) -> safeP (max_impl pc x y) (big n).
Proof.
  intros n pc x y Hy Hx. unfold max_impl. apply safeP_measure.
  do 3 (eapply safeP_bind with (P := fun _ => True); [intros ? ?; exact I|]; intros ? _).
  eapply safeP_bind with (P := fun _ => True); [intros ? ?; exact I|]. intros s _. cbv zeta.
  set (l := combine _ _).
  assert (Ll : length l = Nat.max (length x) (length y)).
  { unfold l. rewrite combine_length, !app_length, !ct_triv_length. lia. }
  intros z E.
  assert (F : Forall2 (fun xy w => (is_triv (fst xy) = false \/ is_triv (snd xy) = false) -> is_triv w = false) l z).
  { apply (safeP_mapM _ _ (max_word pc s) (fun xy w => (is_triv (fst xy) = false \/ is_triv (snd xy) = false) -> is_triv w = false));
      auto. intros xy _ w Ew H. apply (max_word_triv pc s xy H w Ew). }
  assert (Lz : length z = Nat.max (length x) (length y)) by (rewrite <- Ll; symmetry; eapply Forall2_len; eauto).
  pose proof (big_pos n y Hy). split; [destruct Hy as [Hy _]; lia|].
  assert (G : forall i, (i < length z)%nat ->
    is_triv (nth i x triv0) = false \/ is_triv (nth i y triv0) = false -> is_triv (nth i z triv0) = false).
  { intros i Hi H'. pose proof (combine_nth_pad x y i) as N. fold l in N.
    assert (F' : forall (l : list (word B * word B)) (z : list (word B)) i, 
      Forall2 (fun xy w => (is_triv (fst xy) = false \/ is_triv (snd xy) = false) -> is_triv w = false) l z ->
      (i < length z)%nat -> is_triv (fst (nth i l (triv0, triv0))) = false \/
        is_triv (snd (nth i l (triv0, triv0))) = false -> is_triv (nth i z triv0) = false).
    { clear. intros l z i F. revert i. induction F; intros [|i] Hi H'; cbn [nth length] in *; try lia; auto.
      apply IHF; auto. lia. }
    apply (F' l z i F Hi). rewrite N. auto. }
  apply G; [lia|]. rewrite Lz. destruct (Nat.max_spec (length x) (length y)) as [[M1 M2]|[M1 M2]]; rewrite M2.
  - right. apply Hy.
  - destruct Hx as [ -> |Hx]; [cbn in M1; lia|]. left. apply Hx.
Qed.

(** ** Networks *)
(** words of w1 a1 + w2 a2 + ..., when each a has at least n; None is the empty
    ciphertext *)
Definition affine_step (n : nat) (acc : option nat) (w : Z) : option nat :=
  if w =? 0 then acc else
  let t := (n + if pow2b w then 0 else 1)%nat in
  match acc with None => Some t | Some a => Some (S (Nat.max a t)) end.
Definition i32_ok (w : Z) : bool := (- 2^31 <=? w) && (w <? 2^31).
Definition bias_fits (n : nat) (b : Z) : bool := (Z.abs b <? 2 ^ Z.of_nat n) && (Z.abs b <? 2^63).

(** words gained by one perceptron on n_in inputs of at least n words each *)
Definition perc_growth (n n_in : nat) (p : perceptron) : option nat :=
  let ws := firstn n_in (p_w p) in
  if forallb i32_ok ws then
    match p_t p with
    | MAX => if forallb (fun w => negb (w =? 0)) ws && negb (length ws =? 0)%nat && bias_fits n (p_b p)
             then Some (n + if (p_b p =? 0)%Z then 0 else 1)%nat else None
    | _ => match fold_left (affine_step n) ws None with
           | None => None
           | Some m => if bias_fits m (p_b p) then Some (m + if (p_b p =? 0)%Z then 0 else 1)%nat else None
           end
    end
  else None.
Definition opt_min (a b : option nat) : option nat :=
  match a, b with Some x, Some y => Some (Nat.min x y) | _, _ => None end.
Definition layer_growth (n n_in : nat) (l : layer) : option nat :=
  match l with
  | [] => None
  | p :: t => fold_left (fun acc q => opt_min acc (perc_growth n n_in q)) t (perc_growth n n_in p)
  end.
Fixpoint layers_growth (n n_in : nat) (ls : list layer) : option nat :=
  match ls with
  | [] => Some n
  | l :: t => match layer_growth n n_in l with
              | Some m => layers_growth m (length l) t
              | None => None
              end
  end.

Definition at_least (g : option nat) (x : ciphertext B) : Prop :=
  match g with None => x = [] | Some n => big n x end.

Lemma affine_sum_big : forall n pc tg l res acc, table_valid tg (asc_12 pc) -> Forall (big n) (map snd l) ->
  forallb i32_ok (map fst l) = true -> at_least acc res ->
  safeP (foldM (fun res (wa : Z * ciphertext B) =>
      scm <- pa_scalar_mul pc (fst wa) (snd wa) ;; pa_add res scm) l res)
    (at_least (fold_left (affine_step n) (map fst l) acc)).
Proof.
  intros n pc tg l res acc HT. revert res acc.
  induction l as [|[w a] l IH]; intros res acc Hb Hw Hr; cbn [foldM map fst snd forallb fold_left] in *.
  { apply safeP_ret. auto. }
  inversion Hb as [|? ? Ha Hb']; subst. apply andb_prop in Hw. destruct Hw as [Hw Hw'].
  assert (Hwr : - 2^31 <= w < 2^31) by (unfold i32_ok in Hw; lia).
  eapply safeP_bind with (P := at_least (affine_step n acc w)); [|intros z Hz; apply IH; auto].
  unfold affine_step. destruct (Z.eq_dec w 0) as [ -> |Hw0].
  - change (0 =? 0) with true. cbv iota. eapply safeP_bind with (P := fun z => z = []).
    + intros z E. rewrite scalar_mul_zero in E. inversion E. auto.
    + intros scm -> z E. destruct acc as [m|]; cbn [at_least] in *.
      * rewrite (add_nil_r _ _ Hr) in E. inversion E; subst. auto.
      * subst res. pose proof (add_zero_l []) as H. unfold pa_zero, ct_empty in H. rewrite H in E. inversion E. auto.
  - replace (w =? 0) with false by lia.
    eapply safeP_bind; [eapply big_scalar_mul; eauto|]. intros scm Hs. destruct acc as [m|]; cbn [at_least] in *.
    + apply big_add; auto.
    + subst res. intros z E. pose proof (add_zero_l scm) as H. unfold pa_zero, ct_empty in H.
      rewrite H in E. inversion E; subst. auto.
Qed.

Lemma combine_fst_firstn : forall X Y (w : list X) (a : list Y), map fst (combine w a) = firstn (length a) w.
Proof.
  intros X Y w. induction w as [|x w IH]; intros [|y a]; cbn [combine map fst length firstn]; auto. f_equal. apply IH.
Qed.
Lemma combine_snd_all : forall X Y (P : Y -> Prop) (w : list X) (a : list Y), Forall P a -> Forall P (map snd (combine w a)).
Proof.
  intros X Y P w. induction w as [|x w IH]; intros [|y a] H; cbn [combine map snd]; auto.
  inversion H; subst. constructor; auto.
Qed.

Lemma big_relu : forall n pc x, big n x -> safeP (pa_relu pc x) (big n).
Proof. intros n pc x H. unfold pa_relu. apply safeP_analysed. apply max_impl_big; auto. Qed.
Lemma big_max : forall n pc x y, big n x -> big n y -> safeP (pa_max pc x y) (big n).
Proof. intros n pc x y H H'. unfold pa_max. apply safeP_analysed. apply max_impl_big; auto. Qed.

Lemma pairs_big : forall n pc k a, (length a <= k)%nat -> Forall (big n) a ->
  safeP (max_pairs (arith_ct pc) a) (fun h => Forall (big n) h /\ (length a <= 2 * length h)%nat).
Proof.
  intros n pc k. induction k as [|k IH]; intros a Hk H.
  { destruct a; [|cbn in Hk; lia]. cbn [max_pairs]. apply safeP_ret. auto. }
  destruct a as [|x [|y t]]; cbn [max_pairs].
  - apply safeP_ret. auto.
  - apply safeP_ret. cbn [length]. split; [auto|lia].
  - inversion H as [|? ? Hx H1]; subst. inversion H1 as [|? ? Hy Ht]; subst.
    eapply safeP_bind; [cbn [arith_ct a_max]; apply big_max; eauto|]. intros m Hm.
    eapply safeP_bind; [apply IH; [cbn [length] in Hk; lia|auto]|]. intros r [Hr Lr]. apply safeP_ret.
    split; [constructor; auto|]. cbn [length]. lia.
Qed.
Lemma max_rec_big : forall n pc f a, a <> [] -> Forall (big n) a ->
  safeP (max_pool_recursion (arith_ct pc) f a) (big n).
Proof.
  intros n pc f. induction f as [|f IH]; intros a Hn H; cbn [max_pool_recursion]; [apply safeP_panic|].
  destruct a as [|x [|y t]]; [congruence|apply safeP_ret; inversion H; auto|].
  eapply safeP_bind; [apply (pairs_big n pc _ _ (le_n _) H)|]. intros h [Hh Lh]. apply IH; auto.
  intros ->. cbn [length] in Lh. lia.
Qed.

Lemma perc_big : forall n pc tg p (input : list (ciphertext B)) m, table_valid tg (asc_12 pc) -> bit_precision (cparams pc) = 5%nat ->
  Forall (big n) input -> perc_growth n (length input) p = Some m ->
  safeP (eval_perceptron (arith_ct pc) input p) (big m).
Proof.
  intros n pc tg p input m HT Hp Hi G. unfold perc_growth in G.
  destruct (forallb i32_ok _) eqn:Ei; [|discriminate].
  assert (Haff : forall m,
     match fold_left (affine_step n) (firstn (length input) (p_w p)) None with
     | None => None
     | Some m => if bias_fits m (p_b p) then Some (m + if (p_b p =? 0)%Z then 0 else 1)%nat else None
     end = Some m ->
     safeP (affine_pool (arith_ct pc) (p_w p) input (p_b p)) (big m)).
  { clear m G. intros m G. destruct (fold_left _ _ _) as [a|] eqn:E0; [|discriminate].
    destruct (bias_fits _ _) eqn:Eb; [|discriminate]. inversion G; subst. clear G.
    unfold affine_pool. cbn [arith_ct a_zero a_add a_scalar_mul a_add_const].
    eapply safeP_bind.
    - apply (affine_sum_big n pc tg _ _ None HT); [apply combine_snd_all; auto|rewrite combine_fst_firstn; auto|reflexivity].
    - cbv beta zeta. rewrite combine_fst_firstn, E0. cbn [at_least]. intros z Hz.
      unfold bias_fits in Eb. apply big_add_const; auto; lia. }
  unfold eval_perceptron. apply safeP_measure. destruct (p_t p).
  - destruct (_ && _ && _) eqn:Ec; [|discriminate]. inversion G; subst. clear G.
    apply andb_prop in Ec. destruct Ec as [Ec Eb]. apply andb_prop in Ec. destruct Ec as [Ez En].
    unfold max_pool. eapply safeP_bind with (P := fun wa => Forall (big n) wa /\ wa <> []).
    + intros wa E.
      assert (F : Forall2 (fun _ z => big n z) (combine (p_w p) input) wa).
      { revert wa E. apply (safeP_mapM _ _ _ (fun (_ : Z * ciphertext B) z => big n z)).
        intros [w a] Hin. cbn [arith_ct a_scalar_mul fst snd].
        assert (Hw : In w (firstn (length input) (p_w p))).
        { rewrite <- combine_fst_firstn. apply (in_map fst) in Hin. exact Hin. }
        rewrite forallb_forall in Ez, Ei. specialize (Ez w Hw). specialize (Ei w Hw). unfold i32_ok in Ei.
        eapply safeP_conseq; [apply (big_scalar_mul n pc tg); auto; try lia|
          intros z Hz; eapply big_weaken; [|exact Hz]; lia].
        rewrite Forall_forall in Hi. apply Hi. apply in_combine_r in Hin. auto. }
      split.
      * clear - F. induction F; constructor; auto.
      * intros ->. inversion F as [Hc|]; subst. rewrite <- combine_fst_firstn, <- Hc in En. discriminate.
    + intros wa [Hw Hn]. eapply safeP_bind; [apply max_rec_big; eauto|]. intros z Hz.
      cbn [arith_ct a_add_const]. unfold bias_fits in Eb. apply big_add_const; auto; lia.
  - apply Haff. auto.
  - eapply safeP_bind; [apply Haff; eauto|]. intros z Hz. unfold act_fn. cbn [arith_ct a_relu].
    apply big_relu; auto.
Qed.

Lemma layer_growth_le : forall n n_in l m, layer_growth n n_in l = Some m ->
  forall p, In p l -> exists k, perc_growth n n_in p = Some k /\ (m <= k)%nat.
Proof.
  intros n n_in [|p l] m G; [discriminate|]. cbn [layer_growth] in G.
  assert (H : forall l acc m, fold_left (fun acc q => opt_min acc (perc_growth n n_in q)) l acc = Some m ->
     (exists k, acc = Some k /\ (m <= k)%nat) /\
     forall q, In q l -> exists k, perc_growth n n_in q = Some k /\ (m <= k)%nat).
  { clear. induction l as [|q l IH]; intros acc m G; cbn [fold_left] in G.
    - split; [eauto|intros q []].
    - destruct (IH _ _ G) as [[k [Hk Hm]] H]. unfold opt_min in Hk.
      destruct acc as [a|]; [|discriminate]. destruct (perc_growth n n_in q) as [b|] eqn:Eq; [|discriminate].
      inversion Hk; subst. split; [exists a; split; auto; lia|].
      intros q' [ <- |Hq]; [exists b; split; auto; lia|auto]. }
  destruct (H _ _ _ G) as [H1 H2]. intros q [ <- |Hq]; auto.
Qed.

Lemma layer_big : forall n pc tg l (input : list (ciphertext B)) m, table_valid tg (asc_12 pc) -> bit_precision (cparams pc) = 5%nat ->
  Forall (big n) input -> layer_growth n (length input) l = Some m ->
  safeP (eval_layer (arith_ct pc) l input) (fun ol => Forall (big m) ol /\ length ol = length l).
Proof.
  intros n pc tg l input m HT Hp Hi G ol E. unfold eval_layer in E.
  assert (F : Forall2 (fun _ z => big m z) l ol).
  { revert ol E. apply (safeP_mapM _ _ _ (fun (_ : perceptron) z => big m z)). intros p Hin.
    destruct (layer_growth_le _ _ _ _ G p Hin) as [k [Hk Hle]].
    eapply safeP_conseq; [apply (perc_big n pc tg p input k HT Hp Hi Hk)|]. intros z Hz. eapply big_weaken; eauto. }
  split; [clear - F; induction F; constructor; auto|]. symmetry. eapply Forall2_len; eauto.
Qed.

Theorem nn_big : forall n pc tg nn (input : list (ciphertext B)) m, table_valid tg (asc_12 pc) -> bit_precision (cparams pc) = 5%nat ->
  Forall (big n) input -> nn_layers nn <> [] ->
  layers_growth n (length input) (nn_layers nn) = Some m ->
  safeP (nn_eval (arith_ct pc) nn input)
    (fun ol => Forall (big m) ol /\ length ol = length (last (nn_layers nn) [])).
Proof.
  intros n pc tg nn input m HT Hp Hi Hn G. unfold nn_eval.
  assert (H : forall ls input n ol0, Forall (big n) input ->
      (ls = [] -> ol0 = input) ->
      layers_growth n (length input) ls = Some m ->
      safeP (foldM (fun st l => measure (ol <- eval_layer (arith_ct pc) l (fst st) ;; ret (ol, ol))) ls (input, ol0))
        (fun st => Forall (big m) (snd st) /\ length (snd st) = match ls with [] => length ol0 | _ => length (last ls []) end)).
  { clear - HT Hp. induction ls as [|l ls IH]; intros input n ol0 Hi H0 G; cbn [foldM layers_growth] in *.
    - inversion G; subst. apply safeP_ret. cbn [snd]. rewrite H0 by auto. split; auto.
    - destruct (layer_growth n (length input) l) as [k|] eqn:El; [|discriminate].
      eapply safeP_bind with (P := fun st => exists ol, st = (ol, ol) /\ Forall (big k) ol /\ length ol = length l).
      + apply safeP_measure. cbn [fst]. eapply safeP_bind; [eapply layer_big; eauto|]. intros ol [Ho Lo].
        apply safeP_ret. exists ol. auto.
      + intros st [ol [-> [Ho Lo]]]. eapply safeP_conseq; [apply (IH ol k ol Ho); auto; rewrite Lo; auto|].
        intros st [Hs Ls]. split; auto. rewrite Ls. destruct ls as [|l' ls']; auto. }
  eapply safeP_bind; [apply safeP_measure; unfold eval_layers; eapply (H _ _ _ _ Hi); eauto; congruence|].
  intros st [Hs Ls]. apply safeP_ret. split; auto. rewrite Ls. destruct (nn_layers nn); [congruence|auto].
Qed.
End Growth.
