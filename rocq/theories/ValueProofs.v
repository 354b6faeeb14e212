(** Arithmetic of digit vectors *)
From Verif Require Import Base Spec BaseProofs.

(** Sum of f i * 2^i for i < n *)
Fixpoint vsum (f : nat -> Z) (n : nat) : Z :=
  match n with
  | O => 0
  | S n' => vsum f n' + f n' * 2 ^ Z.of_nat n'
  end.

Lemma pow2_S : forall n, 2 ^ Z.of_nat (S n) = 2 * 2 ^ Z.of_nat n.
Proof. intros n. rewrite Nat2Z.inj_succ, Z.pow_succ_r by lia. auto. Qed.
Lemma pow2_pos : forall n, 0 < 2 ^ Z.of_nat n.
Proof. intros n. apply Z.pow_pos_nonneg; lia. Qed.
Lemma pow2_add : forall a b, 2 ^ Z.of_nat (a + b) = 2 ^ Z.of_nat a * 2 ^ Z.of_nat b.
Proof. intros. rewrite Nat2Z.inj_add, Z.pow_add_r by lia. auto. Qed.

Lemma vsum_shift : forall f n, vsum f (S n) = f 0%nat + 2 * vsum (fun i => f (S i)) n.
Proof.
  intros f n. induction n as [|n IH].
  - simpl. lia.
  - change (vsum f (S (S n))) with (vsum f (S n) + f (S n) * 2 ^ Z.of_nat (S n)).
    rewrite IH. change (vsum (fun i => f (S i)) (S n))
      with (vsum (fun i => f (S i)) n + f (S n) * 2 ^ Z.of_nat n).
    rewrite pow2_S. ring.
Qed.

Lemma vsum_ext : forall f g n, (forall i, (i < n)%nat -> f i = g i) -> vsum f n = vsum g n.
Proof.
  intros f g n H. induction n as [|n IH]; simpl; auto.
  rewrite IH, H by auto with arith. auto.
Qed.

Lemma vsum_add : forall f g n, vsum (fun i => f i + g i) n = vsum f n + vsum g n.
Proof. intros f g n. induction n; simpl; [auto|rewrite IHn; ring]. Qed.
Lemma vsum_scale : forall f c n, vsum (fun i => c * f i) n = c * vsum f n.
Proof. intros f c n. induction n; simpl; [ring|rewrite IHn; ring]. Qed.

Lemma vsum_zero_above : forall f m n, (m <= n)%nat ->
  (forall i, (m <= i < n)%nat -> f i = 0) -> vsum f n = vsum f m.
Proof.
  intros f m n Hmn H. induction n as [|n IH].
  - replace m with 0%nat by lia. auto.
  - destruct (Nat.eq_dec m (S n)) as [->|Hne]; auto.
    simpl. rewrite H by lia. rewrite IH by (try lia; intros; apply H; lia). ring.
Qed.

Lemma value_vsum : forall l n, (length l <= n)%nat ->
  value l = vsum (fun i => nth i l 0) n.
Proof.
  induction l as [|d t IH]; intros n Hn.
  - symmetry. rewrite (vsum_zero_above _ 0 n); [reflexivity|lia|].
    intros i _. destruct i; auto.
  - destruct n as [|n]; simpl in Hn; [lia|].
    rewrite vsum_shift. simpl value. simpl nth. rewrite (IH n) by lia. auto.
Qed.

Lemma value_map_seq : forall f n, value (map f (seq 0 n)) = vsum f n.
Proof.
  intros f n. rewrite (value_vsum _ n) by (rewrite map_length, seq_length; auto).
  apply vsum_ext. intros i Hi. rewrite nth_map_seq.
  destruct (i <? n)%nat eqn:E; auto. apply Nat.ltb_ge in E; lia.
Qed.

Lemma value_app : forall a b, value (a ++ b) = value a + 2 ^ Z.of_nat (length a) * value b.
Proof.
  induction a as [|d t IH]; intros b.
  { change (2 ^ Z.of_nat (length (@nil Z))) with 1. change (value []) with 0. rewrite app_nil_l. lia. }
  change (value ((d :: t) ++ b)) with (d + 2 * value (t ++ b)).
  change (value (d :: t)) with (d + 2 * value t).
  change (length (d :: t)) with (S (length t)). rewrite IH, pow2_S. ring.
Qed.

Lemma value_repeat0 : forall n, value (repeat 0 n) = 0.
Proof. induction n; simpl; lia. Qed.

Lemma value_map_opp : forall l, value (map Z.opp l) = - value l.
Proof. induction l; simpl; lia. Qed.

Lemma value_bound : forall l, digits l -> Z.abs (value l) <= 2 ^ Z.of_nat (length l) - 1.
Proof.
  induction l as [|d t IH]; intros H; [simpl; lia|].
  inversion H as [|? ? Hd Ht]; subst. specialize (IH Ht). unfold digit in Hd.
  change (length (d :: t)) with (S (length t)). rewrite pow2_S. simpl value. lia.
Qed.

Lemma digits_app : forall a b, digits a -> digits b -> digits (a ++ b).
Proof. intros. apply Forall_app; auto. Qed.
Lemma digits_repeat0 : forall n, digits (repeat 0 n).
Proof. induction n; constructor; auto. unfold digit; lia. Qed.
Lemma digits_opp : forall l, digits l -> digits (map Z.opp l).
Proof.
  intros l H. apply Forall_forall. intros d Hd. apply in_map_iff in Hd.
  destruct Hd as [e [He Hin]]. unfold digits in H; rewrite Forall_forall in H. specialize (H e Hin).
  unfold digit in *. lia.
Qed.
Lemma digits_nth : forall l i, digits l -> digit (nth i l 0).
Proof.
  intros l i H. destruct (nth_in_or_default i l 0) as [Hi|Hi].
  - unfold digits in H; rewrite Forall_forall in H; auto.
  - rewrite Hi. unfold digit; lia.
Qed.
Lemma digits_firstn : forall n l, digits l -> digits (firstn n l).
Proof. intros n l H. rewrite <- (firstn_skipn n l) in H. apply Forall_app in H. tauto. Qed.
Lemma digits_skipn : forall n l, digits l -> digits (skipn n l).
Proof. intros n l H. rewrite <- (firstn_skipn n l) in H. apply Forall_app in H. tauto. Qed.

Lemma value_split : forall n l, (n <= length l)%nat ->
  value l = value (firstn n l) + 2 ^ Z.of_nat n * value (skipn n l).
Proof.
  intros n l H. rewrite <- (firstn_skipn n l) at 1. rewrite value_app, firstn_length_le; auto.
Qed.

Lemma value_zero_digits : forall l, (forall i, nth i l 0 = 0) -> value l = 0.
Proof.
  induction l as [|d t IH]; intros H; auto. simpl.
  pose proof (H 0%nat) as H0. simpl in H0. subst.
  rewrite IH; auto. intros i. apply (H (S i)).
Qed.

(* ------------------------------------------------------------------ *)
(** Forall2 by position *)
Lemma Forall2_nth : forall A B (R : A -> B -> Prop) l m a b i,
  Forall2 R l m -> (i < length l)%nat -> R (nth i l a) (nth i m b).
Proof.
  intros A B R l m a b i H. revert i. induction H; intros i Hi; simpl in *; [lia|].
  destruct i; auto. apply IHForall2; lia.
Qed.
Lemma Forall2_of_nth : forall A B (R : A -> B -> Prop) l m a b,
  length l = length m -> (forall i, (i < length l)%nat -> R (nth i l a) (nth i m b)) ->
  Forall2 R l m.
Proof.
  induction l as [|x l IH]; intros [|y m] a b HL H; simpl in HL; try discriminate; constructor.
  - apply (H 0%nat); simpl; lia.
  - apply (IH m a b); [lia|]. intros i Hi. apply (H (S i)). simpl; lia.
Qed.
Lemma Forall2_len : forall A B (R : A -> B -> Prop) l m, Forall2 R l m -> length l = length m.
Proof. intros A B R l m H. induction H; simpl; auto. Qed.
Lemma Forall2_firstn : forall A B (R : A -> B -> Prop) l m n,
  Forall2 R l m -> Forall2 R (firstn n l) (firstn n m).
Proof. intros A B R l m n H. revert n. induction H; intros [|n]; simpl; auto. Qed.
Lemma Forall2_skipn : forall A B (R : A -> B -> Prop) l m n,
  Forall2 R l m -> Forall2 R (skipn n l) (skipn n m).
Proof. intros A B R l m n H. revert n. induction H; intros [|n]; simpl; auto. Qed.
Lemma Forall2_map_seq : forall B (R : nat -> B -> Prop) n s l d,
  Forall2 R (seq s n) l -> forall i, (i < n)%nat -> R (s + i)%nat (nth i l d).
Proof.
  intros B R n s l d H i Hi.
  pose proof (Forall2_nth _ _ R (seq s n) l 0%nat d i H) as HN.
  rewrite seq_length, seq_nth in HN by lia. auto.
Qed.
Lemma Forall2_impl_in : forall A B (R S : A -> B -> Prop) l m,
  (forall a b, In a l -> R a b -> S a b) -> Forall2 R l m -> Forall2 S l m.
Proof.
  intros A B R S l m H F. induction F; constructor.
  - apply H; auto. left; auto.
  - apply IHF. intros; apply H; auto. right; auto.
Qed.
Lemma digits_of_nth : forall l, (forall i, digit (nth i l 0)) -> digits l.
Proof.
  intros l H. apply Forall_forall. intros d Hd. destruct (In_nth _ _ 0 Hd) as [i [_ <-]]. auto.
Qed.
