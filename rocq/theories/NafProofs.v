(** Recodings of the scalar (C20-C23) *)
From Verif Require Import Base Encryption Naf Spec BaseProofs ValueProofs BitsProofs EncProofs.
From Coq Require Import ZifyBool ZifyNat.

(** Returns a value satisfying P; in a build with overflow checks it may
    instead panic by overflow, but not fail in any other way. *)
Definition ovfP {A} (o : bool) (m : M A) (P : A -> Prop) : Prop :=
  match fst m with
  | Ok a => P a
  | Err _ => False
  | Panic e => o = true /\ e = P_overflow
  end.

Lemma ovfP_ret : forall A o (a : A) (P : A -> Prop), P a -> ovfP o (ret a) P.
Proof. auto. Qed.
Lemma ovfP_bind : forall A B o (m : M A) (f : A -> M B) P Q,
  ovfP o m P -> (forall a, P a -> ovfP o (f a) Q) -> ovfP o (bind m f) Q.
Proof.
  intros A B o m f P Q Hm Hf. unfold ovfP in *. rewrite fst_bind.
  destruct (fst m); auto. apply Hf; auto.
Qed.
Lemma ovfP_conseq : forall A o (m : M A) (P Q : A -> Prop),
  ovfP o m P -> (forall a, P a -> Q a) -> ovfP o m Q.
Proof. intros A o m P Q Hm H. unfold ovfP in *. destruct (fst m); auto. Qed.
Lemma ovfP_okP : forall A (m : M A) P, ovfP false m P <-> okP m P.
Proof.
  intros A m P. unfold ovfP, okP. split.
  - destruct (fst m) eqn:E; [eauto|tauto|intros [H _]; discriminate].
  - intros [a [-> H]]; auto.
Qed.
Lemma okP_ovfP : forall A o (m : M A) P, okP m P -> ovfP o m P.
Proof. intros A o m P [a [H1 H2]]. unfold ovfP. rewrite H1. auto. Qed.
Lemma ovfP_expect : forall A o (m : M A) P, ovfP o m P -> ovfP o (expect m) P.
Proof. intros A o m P H. unfold ovfP in *. rewrite fst_expect. destruct (fst m); tauto. Qed.
Lemma ovfP_measure : forall A o (m : M A) P, ovfP o m P -> ovfP o (measure m) P.
Proof. intros A o m P H. unfold ovfP in *. rewrite fst_measure. auto. Qed.
Lemma ovfP_analysed : forall A o (m : M A) P, ovfP o m P -> ovfP o (analysed m) P.
Proof. intros A o m P H. unfold ovfP in *. rewrite fst_analysed. destruct (fst m); tauto. Qed.

(* ------------------------------------------------------------------ *)
(** ** Sums of partly recoded bits *)
Section Rec.
Variable k : Z.
Local Notation b := (bitz k).

(** difference between a digit function and the bits of k, below n *)
Definition dif (f : nat -> Z) (n : nat) : Z := vsum f n - vsum b n.

Lemma dif_same : forall f i j, (i <= j)%nat ->
  (forall t, (i <= t < j)%nat -> f t = b t) -> dif f j = dif f i.
Proof.
  intros f i j H Hf. induction H as [|j H IH]; auto.
  unfold dif in *. cbn [vsum]. rewrite (Hf j) by lia. rewrite <- IH by (intros; apply Hf; lia). ring.
Qed.
Lemma dif_m1 : forall f i j, (i <= j)%nat ->
  (forall t, (i <= t < j)%nat -> f t = b t - 1) ->
  dif f j = dif f i - (2 ^ Z.of_nat j - 2 ^ Z.of_nat i).
Proof.
  intros f i j H Hf. induction H as [|j H IH]; [lia|].
  unfold dif in *. cbn [vsum]. rewrite (Hf j) by lia. rewrite pow2_S.
  assert (IH' : vsum f j - vsum b j = vsum f i - vsum b i - (2 ^ Z.of_nat j - 2 ^ Z.of_nat i))
    by (apply IH; intros; apply Hf; lia). lia.
Qed.
Lemma dif_S : forall f n, dif f (S n) = dif f n + (f n - b n) * 2 ^ Z.of_nat n.
Proof. intros f n. unfold dif. cbn [vsum]. ring. Qed.
Lemma dif_ext : forall f g n, (forall t, (t < n)%nat -> f t = g t) -> dif f n = dif g n.
Proof. intros f g n H. unfold dif. rewrite (vsum_ext f g); auto. Qed.

(** walk: +1 for a one, -1 for a zero *)
Fixpoint walk (n : nat) : Z :=
  match n with O => 0 | S n => walk n + (2 * b n - 1) end.
Lemma walk_step : forall n, walk (S n) = if bit k n =? 1 then walk n + 1 else walk n - 1.
Proof.
  intros n. cbn [walk]. unfold bit, bitz. destruct (Z.testbit k (Z.of_nat n)); cbn; lia.
Qed.
Lemma walk_up : forall n, walk n <= walk (S n) -> b n = 1.
Proof. intros n. cbn [walk]. pose proof (bitz_range k n). lia. Qed.
Lemma walk_down : forall n, walk (S n) <= walk n -> b n = 0.
Proof. intros n. cbn [walk]. pose proof (bitz_range k n). lia. Qed.

(* ------------------------------------------------------------------ *)
(** ** Koyama-Tsuruoka *)
Variable o : bool.

Definition fn (kv : list Z) (i : nat) : Z := nth i kv 0.

Lemma fill_ok : forall n j f (g : nat -> Z) kv, 
  (forall i, (j <= i < j + n)%nat -> ovfP o (f i) (fun d => d = g i)) ->
  (forall i, (j <= i < j + n)%nat -> digit (g i)) ->
  (j + n <= length kv)%nat -> digits kv ->
  ovfP o (kt_fill n j f kv) (fun kv' => length kv' = length kv /\ digits kv' /\
    (forall i, fn kv' i = if ((j <=? i) && (i <? j + n))%nat then g i else fn kv i)).
Proof.
  induction n as [|n IH]; intros j f g kv Hf Hg Hl Hd; cbn [kt_fill].
  - apply ovfP_ret. split; auto. split; auto. intros i.
    replace ((j <=? i) && (i <? j + 0))%nat with false by (symmetry; lia). auto.
  - eapply ovfP_bind; [apply Hf; lia|]. intros d ->.
    rewrite okP_upd by lia. rewrite ret_bind.
    eapply ovfP_conseq; [apply (IH (S j) f g)|].
    + intros i Hi. apply Hf. lia.
    + intros i Hi. apply Hg. lia.
    + rewrite set_nth_length. lia.
    + apply digits_of_nth. intros i. rewrite nth_set_nth by lia.
      destruct (i =? j)%nat; [apply Hg; lia|apply digits_nth; auto].
    + intros kv' [H1 [H2 H3]]. rewrite set_nth_length in H1. split; auto. split; auto.
      intros i. rewrite H3. unfold fn. rewrite nth_set_nth by lia.
      destruct (i =? j)%nat eqn:E.
      * apply Nat.eqb_eq in E. subst i.
        replace ((S j <=? j) && (j <? S j + n))%nat with false by (symmetry; lia).
        replace ((j <=? j) && (j <? j + S n))%nat with true by (symmetry; lia). auto.
      * replace ((j <=? i) && (i <? j + S n))%nat with ((S j <=? i) && (i <? S j + n))%nat by lia. auto.
Qed.

Lemma set_digits : forall kv i d, (i < length kv)%nat -> digits kv -> digit d -> digits (set_nth kv i d).
Proof.
  intros kv i d Hi Hd Hx. apply digits_of_nth. intros j. rewrite nth_set_nth by auto.
  destruct (j =? i)%nat; auto. apply digits_nth; auto.
Qed.
Lemma set_fn : forall kv i d j, (i < length kv)%nat ->
  fn (set_nth kv i d) j = if (j =? i)%nat then d else fn kv j.
Proof. intros. apply nth_set_nth; auto. Qed.

Lemma bit_ok : forall i, ovfP o (kt_bit k i) (fun d => d = b i).
Proof. intros i. apply ovfP_ret. reflexivity. Qed.
Lemma bit_m1_ok : forall i, ovfP o (kt_bit_m1 o k i) (fun d => d = b i - 1).
Proof.
  intros i. unfold kt_bit_m1. change (bit k i) with (b i).
  destruct (bitz_range k i) as [H0 H1]. assert (H : b i = 0 \/ b i = 1) by lia.
  destruct H as [H|H]; rewrite H.
  - unfold chk_u32. change (in_u32 (0 - 1)) with false. destruct o; [split; auto|]. reflexivity.
  - reflexivity.
Qed.
Lemma b_digit : forall i, digit (b i).
Proof. intros i. pose proof (bitz_range k i). unfold digit. lia. Qed.
Lemma b_m1_digit : forall i, digit (b i - 1).
Proof. intros i. pose proof (bitz_range k i). unfold digit. lia. Qed.

Variable L : nat.
Definition kt_inv (x0 : nat) (s : kt_state) : Prop :=
  let (j, m, x, y, z, u, v, w, kv) := s in
  x = x0 /\ y = walk x /\ length kv = L /\ digits kv /\
  if m then (j <= u <= x)%nat /\ v = walk u /\ (forall i, (u <= i <= x)%nat -> walk i <= v) /\
            dif (fn kv) j = - 2 ^ Z.of_nat j
  else (j <= w <= x)%nat /\ z = walk w /\ (forall i, (w <= i <= x)%nat -> z <= walk i) /\
       dif (fn kv) j = 0.

Lemma walk_lip : forall n t, walk (n + t) <= walk n + Z.of_nat t /\ walk n - Z.of_nat t <= walk (n + t).
Proof.
  intros n. induction t as [|t IH]; [rewrite Nat.add_0_r; lia|].
  rewrite Nat.add_succ_r. cbn [walk]. pose proof (bitz_range k (n + t)). lia.
Qed.
Lemma walk_dist : forall i j, (i <= j)%nat -> walk j <= walk i + Z.of_nat (j - i) /\ walk i - Z.of_nat (j - i) <= walk j.
Proof. intros i j H. pose proof (walk_lip i (j - i)). replace (i + (j - i))%nat with j in * by lia. auto. Qed.

Lemma kt_step_ok : forall x0 s, kt_inv x0 s -> (S (S x0) < L)%nat ->
  ovfP o (kt_step o k s) (kt_inv (S x0)).
Proof.
  intros x0 [j m x y z u v w kv] [-> [-> [HL [Hd Hm]]]] Hx. unfold kt_step.
  rewrite <- walk_step. set (y := walk (S x0)).
  destruct m; cbn [negb].
  - destruct Hm as [Hju [-> [Hmax HD]]].
    destruct (y + 3 <=? walk u) eqn:E.
    + pose proof (walk_dist u (S x0) ltac:(lia)) as Hdist. fold y in Hdist.
      assert (Bu : b u = 0).
      { apply walk_down. apply Hmax. destruct (Nat.eq_dec u x0); [subst; lia|lia]. }
      eapply ovfP_bind.
      { apply (fill_ok (u - j) j _ (fun i => b i - 1)); auto; try lia.
        - intros; apply bit_m1_ok.
        - intros; apply b_m1_digit. }
      intros kv1 [L1 [D1 F1]]. rewrite okP_upd by lia. rewrite ret_bind. apply ovfP_ret.
      replace (Nat.max j u) with u by lia. unfold kt_inv.
      split; auto. split; auto. split; [rewrite set_nth_length; lia|].
      split; [apply set_digits; auto; [lia|unfold digit; lia]|].
      split; [lia|]. split; auto. split.
      { intros i Hi. replace i with (S x0) by lia. fold y. lia. }
      rewrite dif_S. rewrite set_fn by lia. rewrite Nat.eqb_refl, Bu.
      rewrite (dif_ext _ (fn kv1)).
      2:{ intros t Ht. rewrite set_fn by lia. replace (t =? u)%nat with false by (symmetry; lia). auto. }
      rewrite (dif_m1 (fn kv1) j u) by (try lia; intros t Ht; rewrite F1;
        replace ((j <=? t) && (t <? j + (u - j)))%nat with true by (symmetry; lia); auto).
      rewrite (dif_ext (fn kv1) (fn kv)).
      2:{ intros t Ht. rewrite F1. replace ((j <=? t) && (t <? j + (u - j)))%nat with false by (symmetry; lia). auto. }
      rewrite HD. lia.
    + apply ovfP_ret. destruct (walk u <? y) eqn:E2; unfold kt_inv.
      * repeat (split; auto); try lia. intros i Hi. replace i with (S x0) by lia. fold y; lia.
      * repeat (split; auto); try lia. intros i Hi.
        destruct (Nat.eq_dec i (S x0)); [subst i; fold y; lia|apply Hmax; lia].
  - destruct Hm as [Hjw [-> [Hmin HD]]].
    destruct (walk w + 3 <=? y) eqn:E.
    + pose proof (walk_dist w (S x0) ltac:(lia)) as Hdist. fold y in Hdist.
      assert (Bw : b w = 1).
      { apply walk_up. apply Hmin. destruct (Nat.eq_dec w x0); [subst; lia|lia]. }
      eapply ovfP_bind.
      { apply (fill_ok (w - j) j _ b); auto; try lia.
        - intros; apply bit_ok.
        - intros; apply b_digit. }
      intros kv1 [L1 [D1 F1]]. rewrite okP_upd by lia. rewrite ret_bind. apply ovfP_ret.
      replace (Nat.max j w) with w by lia. unfold kt_inv.
      split; auto. split; auto. split; [rewrite set_nth_length; lia|].
      split; [apply set_digits; auto; [lia|unfold digit; lia]|].
      split; [lia|]. split; auto. split.
      { intros i Hi. replace i with (S x0) by lia. fold y. lia. }
      rewrite dif_S. rewrite set_fn by lia. rewrite Nat.eqb_refl, Bw.
      rewrite (dif_ext _ (fn kv1)).
      2:{ intros t Ht. rewrite set_fn by lia. replace (t =? w)%nat with false by (symmetry; lia). auto. }
      rewrite (dif_same (fn kv1) j w) by (try lia; intros t Ht; rewrite F1;
        replace ((j <=? t) && (t <? j + (w - j)))%nat with true by (symmetry; lia); auto).
      rewrite (dif_ext (fn kv1) (fn kv)).
      2:{ intros t Ht. rewrite F1. replace ((j <=? t) && (t <? j + (w - j)))%nat with false by (symmetry; lia). auto. }
      rewrite HD, pow2_S. lia.
    + apply ovfP_ret. destruct (y <? walk w) eqn:E2; unfold kt_inv.
      * repeat (split; auto); try lia.
        -- intros i Hi. replace i with (S x0) by lia. fold y; lia.
      * repeat (split; auto); try lia. intros i Hi.
        destruct (Nat.eq_dec i (S x0)); [subst i; fold y; lia|apply Hmin; lia].
Qed.

Lemma kt_loop_ok : forall n x0 s, kt_inv x0 s -> (S (x0 + n) < L)%nat ->
  ovfP o (kt_loop n o k s) (kt_inv (x0 + n)).
Proof.
  induction n as [|n IH]; intros x0 s Hs HL; cbn [kt_loop].
  - rewrite Nat.add_0_r. apply ovfP_ret; auto.
  - eapply ovfP_bind; [apply (kt_step_ok x0); auto; lia|]. intros s' Hs'.
    replace (x0 + S n)%nat with (S x0 + n)%nat by lia. apply IH; auto. lia.
Qed.

(** when all bits have been read: the bits below x and a one at x, and the last digit is 1 or the last two are 1, 0 *)
Lemma kt_end_ok : forall x s, kt_inv x s -> L = S (S x) ->
  ovfP o (kt_end o k s) (fun kv => digits kv /\ length kv = L /\
    value kv = k mod 2 ^ Z.of_nat x + 2 ^ Z.of_nat x /\
    (fn kv (S x) = 1 \/ fn kv (S x) = 0 /\ fn kv x = 1)).
Proof.
  intros x0 [j m x y z u v w kv] [-> [-> [HL [Hd Hm]]]] HLx. unfold kt_end.
  assert (Hval : forall kv', length kv' = L -> value kv' = vsum (fn kv') x0
            + fn kv' x0 * 2 ^ Z.of_nat x0 + fn kv' (S x0) * 2 ^ Z.of_nat (S x0)).
  { intros kv' HL'. rewrite (value_vsum kv' (S (S x0))) by lia. reflexivity. }
  assert (Hdif : forall f, vsum f x0 = dif f x0 + k mod 2 ^ Z.of_nat x0).
  { intros f. unfold dif. rewrite bitz_sum. ring. }
  destruct (negb m || (v <=? walk x0)) eqn:Ec.
  - assert (Hj : (j <= x0)%nat) by (destruct m; [lia|]; destruct Hm as [Hm _]; lia).
    eapply ovfP_bind.
    { apply (fill_ok (x0 - j) j _ (fun i => b i - Z.b2z m)); auto; try lia.
      - intros i Hi. apply ovfP_ret. reflexivity.
      - intros i Hi. destruct m; cbn; [apply b_m1_digit|rewrite Z.sub_0_r; apply b_digit]. }
    intros kv1 [L1 [D1 F1]]. rewrite okP_upd by lia. rewrite ret_bind.
    replace (Nat.max j x0) with x0 by lia.
    rewrite okP_upd by (rewrite set_nth_length; lia). apply ovfP_ret.
    assert (LL : (x0 < length kv1)%nat) by lia.
    assert (Fin : forall t, fn (set_nth (set_nth kv1 x0 (1 - Z.b2z m)) (S x0) (Z.b2z m)) t =
       if (t =? S x0)%nat then Z.b2z m else if (t =? x0)%nat then 1 - Z.b2z m else fn kv1 t).
    { intros t. rewrite set_fn by (rewrite set_nth_length; lia). rewrite set_fn by lia. auto. }
    split.
    { apply set_digits; [rewrite set_nth_length; lia| |destruct m; cbn; unfold digit; lia].
      apply set_digits; auto. destruct m; cbn; unfold digit; lia. }
    split; [rewrite !set_nth_length; lia|]. split.
    + rewrite Hval by (rewrite !set_nth_length; lia). rewrite !Fin.
      replace (S x0 =? S x0)%nat with true by (symmetry; lia).
      replace (x0 =? S x0)%nat with false by (symmetry; lia). rewrite Nat.eqb_refl.
      rewrite Hdif. rewrite (dif_ext _ (fn kv1)).
      2:{ intros t Ht. rewrite Fin. replace (t =? S x0)%nat with false by (symmetry; lia).
          replace (t =? x0)%nat with false by (symmetry; lia). auto. }
      assert (Ej : dif (fn kv1) j = dif (fn kv) j).
      { apply dif_ext. intros t Ht. rewrite F1.
        replace ((j <=? t) && (t <? j + (x0 - j)))%nat with false by (symmetry; lia). auto. }
      assert (F2 : forall t, (j <= t < x0)%nat -> fn kv1 t = b t - Z.b2z m).
      { intros t Ht. rewrite F1. replace ((j <=? t) && (t <? j + (x0 - j)))%nat with true by (symmetry; lia). auto. }
      rewrite pow2_S. destruct m; cbn [Z.b2z] in *.
      * destruct Hm as [_ [_ [_ HD]]]. rewrite (dif_m1 (fn kv1) j x0) by auto. rewrite Ej, HD. lia.
      * destruct Hm as [_ [_ [_ HD]]].
        rewrite (dif_same (fn kv1) j x0) by (auto; intros t Ht; rewrite F2 by auto; ring).
        rewrite Ej, HD. lia.
    + rewrite !Fin. replace (S x0 =? S x0)%nat with true by (symmetry; lia).
      replace (x0 =? S x0)%nat with false by (symmetry; lia). rewrite Nat.eqb_refl. destruct m; cbn; auto.
  - destruct m; [|discriminate]. cbn [negb orb] in Ec. destruct Hm as [Hju [-> [Hmax HD]]].
    assert (Hu : (u < x0)%nat) by (destruct (Nat.eq_dec u x0); [subst; lia|lia]).
    assert (Bu : b u = 0) by (apply walk_down, Hmax; lia).
    eapply ovfP_bind.
    { apply (fill_ok (u - j) j _ (fun i => b i - 1)); auto; try lia.
      - intros; apply bit_m1_ok.
      - intros; apply b_m1_digit. }
    intros kv1 [L1 [D1 F1]]. rewrite okP_upd by lia. rewrite ret_bind.
    replace (Nat.max j u) with u by lia.
    eapply ovfP_bind.
    { apply (fill_ok (x0 - S u) (S u) _ b); [intros; apply bit_ok|intros; apply b_digit|rewrite set_nth_length; lia|].
      apply set_digits; auto; [lia|unfold digit; lia]. }
    intros kv2 [L2 [D2 F2]]. rewrite set_nth_length in L2.
    replace (Nat.max (S u) x0) with x0 by lia.
    rewrite okP_upd by lia. rewrite ret_bind. rewrite okP_upd by (rewrite set_nth_length; lia).
    apply ovfP_ret.
    assert (Fin : forall t, fn (set_nth (set_nth kv2 x0 1) (S x0) 0) t =
       if (t =? S x0)%nat then 0 else if (t =? x0)%nat then 1 else fn kv2 t).
    { intros t. rewrite set_fn by (rewrite set_nth_length; lia). rewrite set_fn by lia. auto. }
    split.
    { apply set_digits; [rewrite set_nth_length; lia| |unfold digit; lia].
      apply set_digits; auto; [lia|unfold digit; lia]. }
    split; [rewrite !set_nth_length; lia|]. split.
    + rewrite Hval by (rewrite !set_nth_length; lia). rewrite !Fin.
      replace (S x0 =? S x0)%nat with true by (symmetry; lia).
      replace (x0 =? S x0)%nat with false by (symmetry; lia). rewrite Nat.eqb_refl.
      rewrite Hdif. rewrite (dif_ext _ (fn kv2)).
      2:{ intros t Ht. rewrite Fin. replace (t =? S x0)%nat with false by (symmetry; lia).
          replace (t =? x0)%nat with false by (symmetry; lia). auto. }
      rewrite (dif_same (fn kv2) (S u) x0) by (try lia; intros t Ht; rewrite F2;
        replace ((S u <=? t) && (t <? S u + (x0 - S u)))%nat with true by (symmetry; lia); auto).
      rewrite (dif_ext (fn kv2) (fn (set_nth kv1 u 1))).
      2:{ intros t Ht. rewrite F2. replace ((S u <=? t) && (t <? S u + (x0 - S u)))%nat with false by (symmetry; lia). auto. }
      rewrite dif_S. rewrite set_fn by lia. rewrite Nat.eqb_refl, Bu.
      rewrite (dif_ext _ (fn kv1)).
      2:{ intros t Ht. rewrite set_fn by lia. replace (t =? u)%nat with false by (symmetry; lia). auto. }
      rewrite (dif_m1 (fn kv1) j u) by (try lia; intros t Ht; rewrite F1;
        replace ((j <=? t) && (t <? j + (u - j)))%nat with true by (symmetry; lia); auto).
      rewrite (dif_ext (fn kv1) (fn kv)).
      2:{ intros t Ht. rewrite F1. replace ((j <=? t) && (t <? j + (u - j)))%nat with false by (symmetry; lia). auto. }
      rewrite HD. lia.
    + rewrite !Fin. replace (S x0 =? S x0)%nat with true by (symmetry; lia).
      replace (x0 =? S x0)%nat with false by (symmetry; lia). rewrite Nat.eqb_refl. auto.
Qed.
End Rec.

Lemma pop_zero_ok : forall kv x, length kv = S (S x) -> digits kv ->
  (fn kv (S x) = 1 \/ fn kv (S x) = 0 /\ fn kv x = 1) ->
  digits (pop_zero kv) /\ value (pop_zero kv) = value kv /\
  (0 < length (pop_zero kv) <= S (S x))%nat /\
  nth (length (pop_zero kv) - 1) (pop_zero kv) 0 <> 0.
Proof.
  intros kv x Hl Hd Hx.
  destruct (exists_last (l := kv)) as [l [d ->]]; [intros ->; discriminate|].
  rewrite app_length in Hl. cbn [length] in Hl. assert (Hl' : length l = S x) by lia.
  unfold pop_zero. rewrite rev_unit. unfold fn in Hx.
  replace (S x) with (length l) in Hx at 1 2 by lia. rewrite nth_middle in Hx.
  destruct (d =? 0) eqn:E.
  - assert (d = 0) by lia. subst d. rewrite removelast_last.
    apply Forall_app in Hd. destruct Hd as [Hd _]. split; [auto|]. split.
    { rewrite value_app. cbn. lia. }
    split; [lia|]. destruct Hx as [Hx|[_ Hx]]; [lia|].
    rewrite app_nth1 in Hx by lia. replace (length l - 1)%nat with x by lia. lia.
  - split; [auto|]. split; [auto|]. rewrite app_length. cbn [length]. split; [lia|].
    replace (length l + 1 - 1)%nat with (length l) by lia. rewrite nth_middle. lia.
Qed.

Theorem kt_ok : forall o k, 0 <= k < 2^32 ->
  ovfP o (koyama_tsuruoka_vec o k) (fun kv => digits kv /\ value kv = k /\
    (0 < length kv <= S (bit_len_32 k))%nat /\
    (0 < k -> nth (length kv - 1) kv 0 <> 0)).
Proof.
  intros o k Hk. unfold koyama_tsuruoka_vec.
  pose proof (bit_len_32_ok k Hk) as HB.
  destruct (k =? 0) eqn:E0.
  { assert (k = 0) by lia. subst k. apply ovfP_ret. cbn [length].
    split; [repeat constructor; unfold digit; lia|]. split; [auto|]. split; [lia|lia]. }
  destruct (k =? 1) eqn:E1.
  { assert (k = 1) by lia. subst k. apply ovfP_ret. cbn [length].
    split; [repeat constructor; unfold digit; lia|]. split; [auto|]. split; [lia|cbn; lia]. }
  set (n := bit_len_32 k) in *. clearbody n.
  destruct HB as [[HB _]|[Hn HB]]; [lia|].
  assert (Hn2 : (2 <= n)%nat).
  { destruct (Nat.eq_dec n 1); [subst n; cbn in HB; lia|lia]. }
  destruct n as [|x]; [lia|]. replace (S x - 1)%nat with x in * by lia.
  eapply ovfP_bind.
  { apply (kt_loop_ok k o (S (S x)) x 0); [|lia]. unfold kt_inv.
    split; auto. split; auto. split; [rewrite repeat_length; lia|].
    split; [apply digits_repeat0|]. split; [lia|]. split; auto. split; [|reflexivity].
    intros i Hi. replace i with 0%nat by lia. cbn. lia. }
  intros s Hs. cbn [Nat.add] in Hs.
  eapply ovfP_bind.
  { apply (kt_end_ok k o (S (S x)) x s); auto. }
  intros kv [H1 [H2 [H3 H4]]]. apply ovfP_ret.
  assert (Hk2 : k mod 2 ^ Z.of_nat x + 2 ^ Z.of_nat x = k).
  { rewrite pow2_S in HB.
    replace (k mod 2 ^ Z.of_nat x) with (k - 2 ^ Z.of_nat x); [lia|].
    apply (Z.mod_unique k (2 ^ Z.of_nat x) 1); lia. }
  destruct (pop_zero_ok kv x H2 H1 H4) as [P1 [P2 [P3 P4]]].
  split; auto. split; [lia|]. split; [lia|auto].
Qed.

Lemma skipn_skipn : forall A n m (l : list A), skipn n (skipn m l) = skipn (n + m) l.
Proof.
  intros A n m. induction m as [|m IH]; intros l; [rewrite Nat.add_0_r; auto|].
  rewrite Nat.add_succ_r. destruct l; cbn [skipn]; [apply skipn_nil|auto].
Qed.
Lemma i32_in : forall z, I32_MIN <= z <= I32_MAX -> i32 z = z.
Proof.
  intros z H. unfold I32_MIN, I32_MAX in H. unfold i32. rewrite Z.mod_small by lia. lia.
Qed.

(* ------------------------------------------------------------------ *)
(** ** Windows *)
Lemma next_nonzero_ok : forall n kv sh, (length kv <= sh + n)%nat ->
  (exists i, (sh <= i < length kv)%nat /\ nth i kv 0 <> 0) ->
  let r := next_nonzero n kv sh in
  (sh <= r < length kv)%nat /\ nth r kv 0 <> 0 /\ forall i, (sh <= i < r)%nat -> nth i kv 0 = 0.
Proof.
  induction n as [|n IH]; intros kv sh Hn [i [Hi Hnz]]; cbn [next_nonzero]; [lia|].
  destruct (sh <? length kv)%nat eqn:E1; [|lia]. cbn [andb].
  destruct (nth sh kv 0 =? 0) eqn:E2.
  - destruct (IH kv (S sh)) as [H1 [H2 H3]]; [lia| |].
    { exists i. split; auto. destruct (Nat.eq_dec i sh); [subst; lia|lia]. }
    split; [lia|]. split; auto. intros j Hj.
    destruct (Nat.eq_dec j sh); [subst; lia|apply H3; lia].
  - split; [lia|]. split; [lia|]. intros; lia.
Qed.

Lemma value_skip_zeros : forall kv sh r, (sh <= r <= length kv)%nat ->
  (forall i, (sh <= i < r)%nat -> nth i kv 0 = 0) ->
  value (skipn sh kv) = 2 ^ Z.of_nat (r - sh) * value (skipn r kv).
Proof.
  intros kv sh r H Hz.
  rewrite (value_split (r - sh) (skipn sh kv)) by (rewrite skipn_length; lia).
  rewrite value_zero_digits.
  2:{ intros i. destruct (Nat.lt_ge_cases i (r - sh)) as [Hi|Hi].
      - rewrite nth_firstn, nth_skipn. destruct (i <? r - sh)%nat; auto. apply Hz. lia.
      - rewrite nth_overflow; auto. rewrite firstn_length. lia. }
  rewrite skipn_skipn. replace (r - sh + sh)%nat with r by lia. lia.
Qed.

Lemma odd_window : forall d l, digit d -> d <> 0 -> Z.odd (value (d :: l)) = true.
Proof.
  intros d l Hd Hnz. cbn [value]. rewrite Z.odd_add, Z.odd_mul. cbn [Z.odd andb].
  rewrite xorb_false_r. unfold digit in Hd. assert (d = 1 \/ d = -1) as [ -> | -> ] by lia; reflexivity.
Qed.

Lemma wind_loop_ok : forall fuel o kv bl sh, digits kv -> (1 <= bl <= 31)%nat ->
  (sh < length kv)%nat -> nth (length kv - 1) kv 0 <> 0 -> (length kv - sh < fuel)%nat ->
  okP (wind_loop fuel o kv bl sh) (fun ws =>
    wsum ws = 2 ^ Z.of_nat sh * value (skipn sh kv) /\
    Forall (fun ws => Z.odd (fst ws) = true /\ Z.abs (fst ws) < 2 ^ Z.of_nat bl /\
                      (snd ws < length kv)%nat) ws /\
    spaced bl sh ws /\ ws <> []).
Proof.
  induction fuel as [|fuel IH]; intros o kv bl sh Hd Hbl Hsh Hlast Hf; [lia|]. cbn [wind_loop].
  destruct (next_nonzero_ok (length kv) kv sh) as [Hr [Hnz Hz]]; [lia| |].
  { exists (length kv - 1)%nat. split; auto. lia. }
  set (r := next_nonzero (length kv) kv sh) in *. clearbody r.
  pose proof (firstn_length bl (skipn r kv)) as Hlen. rewrite skipn_length in Hlen.
  assert (Hdw : digits (firstn bl (skipn r kv))) by (apply digits_firstn, digits_skipn; auto).
  rewrite convert_from_vec_ok by (auto; lia).
  set (w := firstn bl (skipn r kv)) in *.
  assert (Hwb : Z.abs (value w) < 2 ^ Z.of_nat bl).
  { pose proof (value_bound w Hdw). 
    assert (2 ^ Z.of_nat (length w) <= 2 ^ Z.of_nat bl) by (apply Z.pow_le_mono_r; lia). lia. }
  assert (Hodd : Z.odd (value w) = true).
  { destruct (skipn r kv) as [|d t] eqn:Es.
    { apply (f_equal (@length Z)) in Es. rewrite skipn_length in Es. cbn in Es. lia. }
    assert (d = nth r kv 0).
    { replace (nth r kv 0) with (nth 0 (skipn r kv) 0) by (rewrite nth_skipn; f_equal; lia).
      rewrite Es. auto. }
    subst w. destruct bl as [|bl]; [lia|]. cbn [firstn]. apply odd_window; [|subst d; auto].
    subst d. apply digits_nth; auto. }
  assert (Hi : i32 (value w) = value w).
  { assert (2 ^ Z.of_nat bl <= 2 ^ 31) by (apply Z.pow_le_mono_r; lia).
    apply i32_in. unfold I32_MIN, I32_MAX. lia. }
  assert (Hskip : 2 ^ Z.of_nat sh * value (skipn sh kv) = 2 ^ Z.of_nat r * value (skipn r kv)).
  { rewrite (value_skip_zeros kv sh r) by (auto; lia). rewrite Z.mul_assoc, <- pow2_add.
    replace (sh + (r - sh))%nat with r by lia. auto. }
  change (expect (ret (value w))) with (ret (value w)). rewrite ret_bind, Hi.
  destruct (length kv <=? r + bl)%nat eqn:El.
  - apply okP_ret. cbn [wsum spaced]. split; [|split; [|split; [|discriminate]]].
    + rewrite Hskip. subst w. rewrite firstn_all2 by (rewrite skipn_length; lia). ring.
    + repeat constructor; auto. cbn; lia.
    + split; auto. lia.
  - eapply okP_bind; [apply (IH o kv bl (r + bl)%nat); auto; lia|].
    intros ws [W1 [W2 [W3 _]]]. apply okP_ret. cbn [wsum spaced].
    split; [|split; [|split; [|discriminate]]].
    + rewrite Hskip, W1. rewrite (value_split bl (skipn r kv)) by (rewrite skipn_length; lia).
      rewrite skipn_skipn. fold w. rewrite pow2_add. replace (bl + r)%nat with (r + bl)%nat by lia. ring.
    + constructor; auto. cbn. repeat split; auto. lia.
    + split; auto. lia.
Qed.

Theorem wind_shifts_ok : forall o k bl, 0 < k < 2^32 -> (1 <= bl <= 31)%nat ->
  ovfP o (wind_shifts o k bl) (fun ws => wsum ws = k /\
    Forall (fun ws => Z.odd (fst ws) = true /\ Z.abs (fst ws) < 2 ^ Z.of_nat bl /\
                      (snd ws <= bit_len_32 k)%nat) ws /\
    spaced bl 0 ws /\ ws <> []).
Proof.
  intros o k bl Hk Hbl. unfold wind_shifts.
  eapply ovfP_bind; [apply kt_ok; lia|]. intros kv [H1 [H2 [H3 H4]]].
  apply okP_ovfP. destruct (wind_loop_ok (S (length kv)) o kv bl 0) as [ws [E [W1 [W2 W3]]]]; auto; try lia.
  exists ws. split; auto. split; [rewrite W1; cbn; lia|]. split; auto.
  eapply Forall_impl; [|exact W2]. intros a [A1 [A2 A3]]. repeat split; auto. lia.
Qed.

(* ------------------------------------------------------------------ *)
(** ** naf_vec *)
Definition naf_inv (i : nat) (v : Z) (s : list Z * nat) : Prop :=
  let (kv, low) := s in
  length kv = i /\ (low <= i)%nat /\ (forall t, (low <= t < i)%nat -> fn kv t = 1) /\
  digits kv /\ value kv = v.

Lemma vsum_ones : forall f a c, (a <= c)%nat -> (forall t, (a <= t < c)%nat -> f t = 1) ->
  vsum f c = vsum f a + 2 ^ Z.of_nat c - 2 ^ Z.of_nat a.
Proof.
  intros f a c H Hf. induction H as [|c H IH]; [lia|].
  cbn [vsum]. rewrite pow2_S, (Hf c), IH by (lia || (intros; apply Hf; lia)). lia.
Qed.

Lemma naf_step_ok : forall o k i a v s, shift_amount o 32 i = ret a -> naf_inv i v s ->
  okP (naf_step o k s i) (naf_inv (S i) (v + Z.b2z (Z.testbit k a) * 2 ^ Z.of_nat i)).
Proof.
  intros o k i a v [kv low] Ha [Hl [Hlow [Hone [Hd Hv]]]]. unfold naf_step.
  rewrite Ha, ret_bind.
  set (b := Z.b2z (Z.testbit k a)). assert (Hb : b = 0 \/ b = 1) by (subst b; destruct (Z.testbit k a); cbn; lia).
  assert (Hv' : value (kv ++ [b]) = v + b * 2 ^ Z.of_nat i).
  { rewrite value_app, Hl. cbn [value]. rewrite Hv. ring. }
  assert (Hd' : digits (kv ++ [b])) by (apply digits_app; auto; repeat constructor; unfold digit; lia).
  assert (Hl' : length (kv ++ [b]) = S i) by (rewrite app_length; cbn [length]; lia).
  assert (Hold : forall t, (t < i)%nat -> fn (kv ++ [b]) t = fn kv t)
    by (intros t Ht; unfold fn; rewrite app_nth1 by lia; auto).
  assert (Hnew : fn (kv ++ [b]) i = b) by (unfold fn; rewrite <- Hl; apply nth_middle).
  destruct (b =? 0) eqn:Eb.
  - assert (Eb' : b = 0) by lia. destruct (1 <? i - low)%nat eqn:Ei.
    2:{ apply okP_ret. unfold naf_inv. repeat (split; auto). intros t Ht; lia. }
    set (kv1 := kv ++ [b]) in *. clearbody kv1.
    set (c := ((0 <? low)%nat && (nth (low - 1) kv1 0 =? 1))).
    assert (Hone1 : forall t, (low <= t < i)%nat -> fn kv1 t = 1)
      by (intros t Ht; rewrite Hold by lia; auto).
    assert (Hmid : okP (if c then x <- upd kv1 (low - 1) (-1);; upd x low 0 else upd kv1 low (-1))
       (fun kv2 => length kv2 = S i /\ digits kv2 /\
          vsum (fn kv2) (S low) = vsum (fn kv1) (S low) - 2 * 2 ^ Z.of_nat low /\
          forall t, (low < t)%nat -> fn kv2 t = fn kv1 t)).
    { destruct c eqn:Ec; subst c.
      - apply andb_prop in Ec. destruct Ec as [Ec1 Ec2].
        rewrite okP_upd, ret_bind by lia. rewrite okP_upd by (rewrite set_nth_length; lia). apply okP_ret.
        assert (F : forall t, fn (set_nth (set_nth kv1 (low - 1) (-1)) low 0) t =
           if (t =? low)%nat then 0 else if (t =? low - 1)%nat then -1 else fn kv1 t).
        { intros t. rewrite !set_fn by (rewrite ?set_nth_length; lia). auto. }
        split; [rewrite !set_nth_length; auto|]. split.
        { apply set_digits; [rewrite set_nth_length; lia| |unfold digit; lia].
          apply set_digits; [lia|auto|unfold digit; lia]. }
        split.
        + destruct low as [|l]; [lia|]. cbn [vsum]. replace (S l - 1)%nat with l in * by lia.
          rewrite !F. replace (S l =? S l)%nat with true by (symmetry; lia).
          replace (l =? S l)%nat with false by (symmetry; lia). rewrite Nat.eqb_refl.
          rewrite (vsum_ext _ (fn kv1)).
          2:{ intros t Ht. rewrite F. replace (t =? S l)%nat with false by (symmetry; lia).
              replace (t =? l)%nat with false by (symmetry; lia). auto. }
          rewrite (Hone1 (S l)) by lia. unfold fn at 3. rewrite pow2_S. 
          replace (nth l kv1 0) with 1 by lia. ring.
        + intros t Ht. rewrite F. replace (t =? low)%nat with false by (symmetry; lia).
          replace (t =? low - 1)%nat with false by (symmetry; lia). auto.
      - rewrite okP_upd by lia. apply okP_ret. split; [rewrite set_nth_length; auto|].
        split; [apply set_digits; [lia|auto|unfold digit; lia]|]. split.
        + cbn [vsum]. rewrite set_fn, Nat.eqb_refl by lia.
          rewrite (vsum_ext _ (fn kv1)).
          2:{ intros t Ht. rewrite set_fn by lia. replace (t =? low)%nat with false by (symmetry; lia). auto. }
          rewrite (Hone1 low) by lia. ring.
        + intros t Ht. rewrite set_fn by lia. replace (t =? low)%nat with false by (symmetry; lia). auto. }
    eapply okP_bind; [exact Hmid|]. intros kv2 [L2 [D2 [V2 F2]]].
    assert (Hfill : ovfP false (kt_fill (i - S low) (S low) (fun _ => ret 0) kv2)
      (fun kv' => length kv' = length kv2 /\ digits kv' /\
       (forall t, fn kv' t = if ((S low <=? t) && (t <? S low + (i - S low)))%nat then 0 else fn kv2 t))).
    { apply (fill_ok false _ _ _ (fun _ => 0)); auto; try lia.
      - intros; apply ovfP_ret; auto.
      - intros; unfold digit; lia. }
    apply ovfP_okP in Hfill. eapply okP_bind; [exact Hfill|]. intros kv3 [L3 [D3 F3]].
    rewrite okP_upd, ret_bind by lia. apply okP_ret. unfold naf_inv.
    split; [rewrite set_nth_length; lia|]. split; [lia|]. split; [intros t Ht; lia|].
    split; [apply set_digits; [lia|auto|unfold digit; lia]|].
    rewrite Eb' in *. rewrite <- Hv'.
    rewrite (value_vsum kv1 (S i)) by lia.
    rewrite (value_vsum _ (S i)) by (rewrite set_nth_length; lia).
    fold (fn kv1) (fn (set_nth kv3 i 1)). cbn [vsum].
    rewrite set_fn, Nat.eqb_refl, Hnew by lia.
    rewrite (vsum_ext (fn (set_nth kv3 i 1)) (fn kv3)).
    2:{ intros t Ht. rewrite set_fn by lia. replace (t =? i)%nat with false by (symmetry; lia). auto. }
    rewrite (vsum_zero_above (fn kv3) (S low) i); [|lia|].
    2:{ intros t Ht. rewrite F3. replace ((S low <=? t) && (t <? S low + (i - S low)))%nat with true by (symmetry; lia). auto. }
    rewrite (vsum_ext (fn kv3) (fn kv2)).
    2:{ intros t Ht. rewrite F3. replace ((S low <=? t) && (t <? S low + (i - S low)))%nat with false by (symmetry; lia). auto. }
    rewrite V2. rewrite (vsum_ones (fn kv1) (S low) i); [|lia|intros; apply Hone1; lia].
    rewrite pow2_S. lia.
  - assert (Eb' : b = 1) by lia. apply okP_ret. unfold naf_inv.
    split; auto. split; [lia|]. split; auto.
    intros t Ht. destruct (Nat.eq_dec t i); [subst t; rewrite Hnew; auto|].
    rewrite Hold by lia. apply Hone; lia.
Qed.

Lemma okP_foldM_app : forall A B (f : A -> B -> M A) l1 l2 a P Q,
  okP (foldM f l1 a) P -> (forall b, P b -> okP (foldM f l2 b) Q) ->
  okP (foldM f (l1 ++ l2) a) Q.
Proof.
  intros A B f l1. induction l1 as [|x l1 IH]; intros l2 a P Q H1 H2; cbn [foldM app] in *.
  - destruct H1 as [b [E Hb]]. inversion E; subst. auto.
  - destruct H1 as [c [E Hc]]. rewrite fst_bind in E.
    destruct (fst (f a x)) as [a'|e|e] eqn:Ef; try discriminate.
    eapply okP_bind with (P := fun b => b = a'); [exists a'; auto|]. intros b ->.
    apply (IH l2 a' P Q); auto. exists c; auto.
Qed.

Lemma naf_loop_ok : forall n o k i v s, (i + n <= 32)%nat -> naf_inv i v s ->
  okP (foldM (naf_step o k) (seq i n) s)
      (naf_inv (i + n) (v + vsum (bitz k) (i + n) - vsum (bitz k) i)).
Proof.
  induction n as [|n IH]; intros o k i v s Hn Hs; cbn [seq foldM].
  - rewrite Nat.add_0_r. apply okP_ret. replace (v + vsum (bitz k) i - vsum (bitz k) i) with v by ring. auto.
  - eapply okP_bind.
    { apply (naf_step_ok o k i (Z.of_nat i) v s); auto. unfold shift_amount.
      replace (Z.of_nat i <? 32) with true by lia. auto. }
    intros s1 Hs1. eapply okP_conseq; [apply (fun v H => IH o k (S i) v s1 H); [lia|exact Hs1]|].
    intros s2 Hs2. replace (i + S n)%nat with (S i + n)%nat by lia.
    match goal with H : naf_inv _ ?a _ |- naf_inv _ ?b _ => replace b with a; auto end.
    fold (bitz k i). cbn [vsum]. ring.
Qed.

(** all 32-bit scalars whose top bit is clear *)
Theorem naf_vec_ok : forall o k, 0 <= k < 2^31 ->
  okP (naf_vec o k) (fun kv => digits kv /\ value kv = k).
Proof.
  intros o k Hk. unfold naf_vec.
  destruct (k =? 0) eqn:E0.
  { apply okP_ret. assert (k = 0) by lia. subst k. split; auto. repeat constructor; unfold digit; lia. }
  destruct (k =? 1) eqn:E1.
  { apply okP_ret. assert (k = 1) by lia. subst k. split; auto. repeat constructor; unfold digit; lia. }
  pose proof (bit_len_32_ok k ltac:(lia)) as HB.
  set (n := bit_len_32 k) in *. clearbody n. destruct HB as [[HB _]|[Hn HB]]; [lia|].
  assert (Hn31 : (n <= 31)%nat).
  { destruct (le_lt_dec n 31); auto. exfalso.
    assert (2 ^ 31 <= 2 ^ Z.of_nat (n - 1)) by (apply Z.pow_le_mono_r; lia). lia. }
  eapply okP_bind; [apply (naf_loop_ok (S n) o k 0 0); [lia|]|].
  { unfold naf_inv. cbn [length value]. repeat split; auto; try lia. constructor. }
  intros [kv low] [_ [_ [_ [Hd Hv]]]]. apply okP_ret. cbn [fst]. split; auto.
  rewrite Hv, !bitz_sum. change (k mod 2 ^ Z.of_nat 0) with (k mod 1). rewrite Z.mod_1_r.
  rewrite Z.mod_small; [lia|]. split; [lia|]. cbn [Nat.add]. rewrite pow2_S. lia.
Qed.

Lemma naf_big : forall o k, 2^31 <= k < 2^32 ->
  exists s, naf_inv 32 k s /\ fst (naf_vec o k) = fst (s <- naf_step o k s 32;; ret (fst s)).
Proof.
  intros o k Hk. unfold naf_vec.
  replace (k =? 0) with false by lia. replace (k =? 1) with false by lia.
  replace (bit_len_32 k) with 32%nat.
  2:{ apply (bits_of_unique k); [|apply bit_len_32_ok; lia]. right. cbn; lia. }
  change (seq 0 33) with (seq 0 32 ++ [32%nat]).
  destruct (naf_loop_ok 32 o k 0 0 ([], 0%nat)) as [s [E Hs]]; [lia| |].
  { unfold naf_inv. cbn [length value]. repeat split; auto; try lia. constructor. }
  exists s. rewrite !bitz_sum in Hs. change (k mod 2 ^ Z.of_nat 0) with (k mod 1) in Hs.
  rewrite Z.mod_1_r in Hs. cbn [Nat.add] in Hs. 
  change (2 ^ Z.of_nat 32) with (2 ^ 32) in Hs. rewrite Z.mod_small in Hs by lia.
  replace (0 + k - 0) with k in Hs by lia. split; auto.
  rewrite fst_bind.
  assert (Eapp : forall l a s, fst (foldM (naf_step o k) l a) = Ok s ->
     fst (foldM (naf_step o k) (l ++ [32%nat]) a) = fst (naf_step o k s 32)).
  { clear. induction l as [|x l IH]; intros a s H; cbn [foldM app] in *.
    - inversion H; subst. rewrite fst_bind. destruct (fst (naf_step o k s 32)); auto.
    - rewrite fst_bind in *. destruct (fst (naf_step o k a x)); try discriminate. apply IH; auto. }
  rewrite (Eapp _ _ s E). rewrite fst_bind. auto.
Qed.

Theorem naf_vec_big_checked : forall k, 2^31 <= k < 2^32 ->
  fst (naf_vec true k) = Panic P_overflow.
Proof.
  intros k Hk. destruct (naf_big true k Hk) as [[kv low] [_ ->]].
  rewrite fst_bind. unfold naf_step. rewrite fst_bind. reflexivity.
Qed.

Theorem naf_vec_big_unchecked : forall k, 2^31 <= k < 2^32 ->
  okP (naf_vec false k) (fun kv => digits kv /\ value kv = k + (k mod 2) * 2^32).
Proof.
  intros k Hk. destruct (naf_big false k Hk) as [s [Hs E]].
  destruct (naf_step_ok false k 32 0 k s eq_refl Hs) as [[kv low] [E1 [_ [_ [_ [Hd Hv]]]]]].
  exists kv. rewrite E, fst_bind, E1. split; auto. split; auto. rewrite Hv.
  rewrite Z.bit0_mod. reflexivity.
Qed.
