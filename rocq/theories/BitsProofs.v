(** Bits, bit lengths and binary expansion *)
From Verif Require Import Base Encryption Spec BaseProofs ValueProofs.
From Coq Require Import ZifyBool ZifyNat.

Definition bitz (a : Z) (i : nat) : Z := Z.b2z (Z.testbit a (Z.of_nat i)).

Lemma bitz_range : forall a i, 0 <= bitz a i <= 1.
Proof. intros. unfold bitz. destruct (Z.testbit _ _); simpl; lia. Qed.

Lemma bitz_sum : forall a n, vsum (bitz a) n = a mod 2 ^ Z.of_nat n.
Proof.
  intros a n. induction n as [|n IH].
  - simpl. rewrite Z.mod_1_r. auto.
  - simpl vsum. rewrite IH. unfold bitz. rewrite Z.testbit_spec' by lia.
    rewrite pow2_S, (Z.mul_comm 2). pose proof (pow2_pos n).
    rewrite Z.rem_mul_r by lia. ring.
Qed.

(** index of the highest set bit below n, plus one, scanning from [s] *)
Definition scan (a : Z) (s n : nat) (l0 : nat) : nat :=
  fold_left (fun len i => if Z.testbit a (Z.of_nat i) then S i else len) (seq s n) l0.

Lemma scan_S : forall a s n l0,
  scan a s (S n) l0 = if Z.testbit a (Z.of_nat (s + n)) then S (s + n) else scan a s n l0.
Proof. intros. unfold scan. rewrite seq_S, fold_left_app. reflexivity. Qed.

Lemma scan_spec : forall a s n l0, (l0 <= s)%nat ->
  let r := scan a s n l0 in
  (r <= s + n)%nat /\
  (forall i, (s <= i < s + n)%nat -> (r <= i)%nat -> Z.testbit a (Z.of_nat i) = false) /\
  ((r = l0 /\ forall i, (s <= i < s + n)%nat -> Z.testbit a (Z.of_nat i) = false) \/
   (s < r)%nat /\ Z.testbit a (Z.of_nat (r - 1)) = true).
Proof.
  intros a s n l0 H. induction n as [|n IH]; cbv zeta in *.
  - unfold scan. simpl. split; [lia|]. split; [intros; lia|]. left. split; auto. intros; lia.
  - rewrite scan_S. destruct (Z.testbit a (Z.of_nat (s + n))) eqn:E.
    + split; [lia|]. split; [intros; lia|]. right. split; [lia|].
      replace (S (s + n) - 1)%nat with (s + n)%nat by lia. auto.
    + destruct IH as [I1 [I2 I3]]. split; [lia|]. split.
      * intros i Hi Hr. destruct (Nat.eq_dec i (s + n)); [subst; auto|]. apply I2; lia.
      * destruct I3 as [[I3 I4]|I3]; [left|right; auto]. split; auto.
        intros i Hi. destruct (Nat.eq_dec i (s + n)); [subst; auto|]. apply I4; lia.
Qed.

Lemma bits_zero_above : forall a n m, 0 <= a < 2 ^ Z.of_nat m -> (n <= m)%nat ->
  (forall i, (n <= i < m)%nat -> Z.testbit a (Z.of_nat i) = false) -> a < 2 ^ Z.of_nat n.
Proof.
  intros a n m Ha Hnm H.
  assert (Hm : a = vsum (bitz a) m) by (rewrite bitz_sum, Z.mod_small; auto).
  rewrite (vsum_zero_above (bitz a) n m Hnm) in Hm.
  - rewrite Hm, bitz_sum. apply Z.mod_pos_bound. apply pow2_pos.
  - intros i Hi. unfold bitz. rewrite H by lia. auto.
Qed.

Lemma testbit_ge : forall a i, 0 <= a -> Z.testbit a (Z.of_nat i) = true -> 2 ^ Z.of_nat i <= a.
Proof.
  intros a i Ha H. destruct (Z.lt_ge_cases a (2 ^ Z.of_nat i)); auto.
  exfalso. apply Z.testbit_true in H; [|lia].
  rewrite Z.div_small in H by lia. discriminate.
Qed.

(** the number [r] of bits of [a]: 2^(r-1) <= a < 2^r *)
Definition bits_of (a : Z) (r : nat) : Prop :=
  (a = 0 /\ r = 0%nat) \/ (0 < r)%nat /\ 2 ^ Z.of_nat (r - 1) <= a < 2 ^ Z.of_nat r.

Lemma scan0_bits : forall a n, 0 <= a < 2 ^ Z.of_nat n -> bits_of a (scan a 0 n 0).
Proof.
  intros a n Ha. destruct (scan_spec a 0 n 0) as [H1 [H2 H3]]; [lia|].
  set (r := scan a 0 n 0) in *.
  assert (Hlt : a < 2 ^ Z.of_nat r).
  { apply (bits_zero_above a r n); auto. intros; apply H2; lia. }
  destruct H3 as [[H3 _]|[H3 H4]].
  - left. rewrite H3 in Hlt. simpl in Hlt. change (2 ^ Z.of_nat 0) with 1 in Hlt. lia.
  - right. split; [lia|]. split; auto. apply testbit_ge; auto; lia.
Qed.

Lemma scan1_bits : forall a n, 0 < a < 2 ^ Z.of_nat (S n) -> bits_of a (scan a 1 n 1).
Proof.
  intros a n Ha. destruct (scan_spec a 1 n 1) as [H1 [H2 H3]]; [lia|].
  set (r := scan a 1 n 1) in *.
  assert (Hr : (0 < r)%nat) by (destruct H3 as [[H3 _]|H3]; lia).
  assert (Hlt : a < 2 ^ Z.of_nat r).
  { apply (bits_zero_above a r (S n)).
    - destruct Ha; split; auto with zarith.
    - lia.
    - intros; apply H2; lia. }
  right. split; auto. split; auto.
  destruct H3 as [[H3 _]|[H3 H4]].
  - rewrite H3. change (2 ^ Z.of_nat (1 - 1)) with 1. lia.
  - apply testbit_ge; auto; lia.
Qed.

Lemma bits_of_unique : forall a r r', bits_of a r -> bits_of a r' -> r = r'.
Proof.
  intros a r r' [[H1 H2]|[H1 H2]] [[H3 H4]|[H3 H4]]; subst; auto.
  - pose proof (pow2_pos (r' - 1)). lia.
  - pose proof (pow2_pos (r - 1)). lia.
  - destruct (Nat.lt_trichotomy r r') as [H|[H|H]]; auto; exfalso.
    + assert (2 ^ Z.of_nat r <= 2 ^ Z.of_nat (r' - 1)) by (apply Z.pow_le_mono_r; lia). lia.
    + assert (2 ^ Z.of_nat r' <= 2 ^ Z.of_nat (r - 1)) by (apply Z.pow_le_mono_r; lia). lia.
Qed.

Lemma bit_len_32_ok : forall k, 0 <= k < 2^32 -> bits_of k (bit_len_32 k).
Proof.
  intros k Hk. unfold bit_len_32. destruct (k =? 0) eqn:E.
  - left. split; auto. lia.
  - apply scan1_bits. change (Z.of_nat 32) with 32. lia.
Qed.
Lemma bit_len_64_ok : forall k, 0 <= k < 2^64 -> bits_of k (bit_len_64 k).
Proof.
  intros k Hk. unfold bit_len_64. destruct (k =? 0) eqn:E.
  - left. split; auto. lia.
  - apply scan1_bits. change (Z.of_nat 64) with 64. lia.
Qed.
