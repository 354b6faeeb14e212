(** Proofs about the word codec and the linear word operations *)
From Verif Require Import Base Backend Words Spec Contract BaseProofs.
From Coq Require Import ZifyBool.
Ltac Zify.zify_post_hook ::= Z.div_mod_to_equations.

(* ------------------------------------------------------------------ *)
(** ** Congruence modulo 2^64 *)

Lemma teq_refl : forall a, teq a a.
Proof. intros a; exists 0; lia. Qed.
Lemma teq_sym : forall a b, teq a b -> teq b a.
Proof. intros a b [q H]; exists (-q); lia. Qed.
Lemma teq_trans : forall a b c, teq a b -> teq b c -> teq a c.
Proof. intros a b c [q H] [r K]; exists (q + r); lia. Qed.
Lemma teq_add : forall a b c d, teq a b -> teq c d -> teq (a + c) (b + d).
Proof. intros a b c d [q H] [r K]; exists (q + r); lia. Qed.
Lemma teq_opp : forall a b, teq a b -> teq (- a) (- b).
Proof. intros a b [q H]; exists (- q); lia. Qed.
Lemma teq_mul : forall a b k, teq a b -> teq (a * k) (b * k).
Proof. intros a b k [q H]; exists (q * k); subst; lia. Qed.
Lemma teq_u64 : forall a, teq (u64 a) a.
Proof. intros a; exists (- (a / 2^64)). unfold u64. lia. Qed.
Lemma u64_range : forall a, 0 <= u64 a < 2^64.
Proof. intros a; unfold u64; lia. Qed.
Lemma teq_eq : forall a b, 0 <= a < 2^64 -> 0 <= b < 2^64 -> teq a b -> a = b.
Proof. intros a b Ha Hb [q H]. lia. Qed.
Lemma teq_u64_eq : forall a b, teq a b -> u64 a = u64 b.
Proof.
  intros a b H. apply teq_eq; try apply u64_range.
  eapply teq_trans; [apply teq_u64|]. eapply teq_trans; [apply H|].
  apply teq_sym, teq_u64.
Qed.

(* ------------------------------------------------------------------ *)
(** ** Codec *)

Lemma delta_pow : forall k, 0 <= k <= 63 -> delta (2^k) = 2^(64-k).
Proof.
  intros k H. unfold delta. rewrite <- Z.pow_sub_r by lia.
  replace (64 - k) with (Z.succ (63 - k)) by lia. rewrite Z.pow_succ_r by lia. lia.
Qed.

Lemma delta_32 : delta 32 = step.
Proof. reflexivity. Qed.

Lemma land_pow2 : forall a j, 0 <= j ->
  Z.land a (2^j) = ((a / 2^j) mod 2) * 2^j.
Proof.
  intros a j Hj. rewrite <- Z.testbit_spec' by lia.
  apply Z.bits_inj'. intros n Hn. rewrite Z.land_spec, Z.pow2_bits_eqb by lia.
  destruct (Z.testbit a j) eqn:E; simpl Z.b2z.
  - rewrite Z.mul_1_l, Z.pow2_bits_eqb by lia.
    destruct (j =? n) eqn:F; [|apply andb_false_r].
    apply Z.eqb_eq in F; subst; rewrite E; auto.
  - rewrite Z.mul_0_l, Z.bits_0. destruct (j =? n) eqn:F; [|apply andb_false_r].
    apply Z.eqb_eq in F; subst; rewrite E; auto.
Qed.

Lemma mod_mul_div : forall x d p, 0 < d -> 0 < p -> (x mod (d * p)) / d = (x / d) mod p.
Proof.
  intros x d p Hd Hp. rewrite Z.rem_mul_r by lia.
  rewrite Z.mul_comm, Z.div_add by lia. rewrite (Z.div_small (x mod d)); [lia|].
  apply Z.mod_pos_bound; lia.
Qed.

Lemma pt_to_mu_spec : forall k pt, 1 <= k <= 62 -> 0 <= pt < 2^64 ->
  pt_to_mu (2^k) pt = ((pt + 2^(63-k)) / 2^(64-k)) mod 2^k.
Proof.
  intros k pt Hk Hpt. unfold pt_to_mu. rewrite delta_pow by lia.
  assert (Hd : 2^(64-k) = 2 * 2^(63-k)).
  { replace (64 - k) with (Z.succ (63 - k)) by lia. rewrite Z.pow_succ_r by lia. lia. }
  assert (H64 : 2^64 = 2^(64-k) * 2^k).
  { rewrite <- Z.pow_add_r by lia. f_equal; lia. }
  assert (Hp : 0 < 2^k) by (apply Z.pow_pos_nonneg; lia).
  assert (Hh : 0 < 2^(63-k)) by (apply Z.pow_pos_nonneg; lia).
  assert (Hp2 : 2 <= 2^k).
  { change 2 with (2^1) at 1. apply Z.pow_le_mono_r; lia. }
  replace (2^(64-k) / 2) with (2^(63-k)) by (rewrite Hd; rewrite Z.mul_comm, Z.div_mul; lia).
  rewrite land_pow2 by lia.
  set (h := 2^(63-k)) in *. set (p := 2^k) in *.
  assert (Hr : u64 (pt / h mod 2 * h * 2) = pt / h mod 2 * (2 * h)).
  { unfold u64. rewrite Z.mod_small; [lia|]. rewrite H64, Hd.
    assert (0 <= (pt / h) mod 2 < 2) by (apply Z.mod_pos_bound; lia).
    split; [nia|]. nia. }
  rewrite Hr. unfold u64. rewrite H64, mod_mul_div by lia. f_equal.
  rewrite Hd. rewrite Z.div_add by lia.
  rewrite (Z.mul_comm 2 h), <- !Z.div_div by lia.
  replace (pt + h) with (pt + 1 * h) by lia. rewrite Z.div_add by lia.
  generalize (pt / h). intros q. clear. lia.
Qed.

Lemma pt_to_mu_near : forall k m e pt, 1 <= k <= 62 -> 0 <= pt < 2^64 ->
  teq pt (m * 2^(64-k) + e) -> - 2^(63-k) <= e < 2^(63-k) ->
  pt_to_mu (2^k) pt = m mod 2^k.
Proof.
  intros k m e pt Hk Hpt [q Hq] He. rewrite pt_to_mu_spec by auto.
  assert (Hd : 2^(64-k) = 2 * 2^(63-k)).
  { replace (64 - k) with (Z.succ (63 - k)) by lia. rewrite Z.pow_succ_r by lia. lia. }
  assert (H64 : 2^64 = 2^(64-k) * 2^k).
  { rewrite <- Z.pow_add_r by lia. f_equal; lia. }
  assert (Hp : 0 < 2^k) by (apply Z.pow_pos_nonneg; lia).
  assert (Hh : 0 < 2^(63-k)) by (apply Z.pow_pos_nonneg; lia).
  rewrite Hq, H64.
  replace (m * 2 ^ (64 - k) + e + q * (2 ^ (64 - k) * 2 ^ k) + 2 ^ (63 - k))
    with (e + 2^(63-k) + (m + q * 2^k) * 2^(64-k)) by ring.
  rewrite Z.div_add by lia. rewrite Z.div_small by lia.
  rewrite Z.add_0_l, Z.mod_add by lia. auto.
Qed.

Lemma mi_to_pt_eq : forall k m, 1 <= k <= 62 ->
  mi_to_pt (2^k) m = (m mod 2^k) * 2^(64-k).
Proof. intros; unfold mi_to_pt, mi_to_mu. rewrite delta_pow by lia. auto. Qed.

Lemma mi_to_pt_range : forall k m, 1 <= k <= 62 -> 0 <= mi_to_pt (2^k) m < 2^64.
Proof.
  intros k m Hk. rewrite mi_to_pt_eq by auto.
  assert (H64 : 2^64 = 2^(64-k) * 2^k).
  { rewrite <- Z.pow_add_r by lia. f_equal; lia. }
  assert (Hp : 0 < 2^k) by (apply Z.pow_pos_nonneg; lia).
  assert (Hh : 0 < 2^(64-k)) by (apply Z.pow_pos_nonneg; lia).
  assert (0 <= m mod 2^k < 2^k) by (apply Z.mod_pos_bound; lia).
  rewrite H64. nia.
Qed.

Lemma mi_to_pt_teq : forall k m, 1 <= k <= 62 ->
  teq (mi_to_pt (2^k) m) (m * 2^(64-k)).
Proof.
  intros k m Hk. rewrite mi_to_pt_eq by auto.
  assert (H64 : 2^64 = 2^(64-k) * 2^k).
  { rewrite <- Z.pow_add_r by lia. f_equal; lia. }
  assert (Hp : 0 < 2^k) by (apply Z.pow_pos_nonneg; lia).
  exists (- (m / 2^k)). rewrite H64. rewrite Z.mod_eq by lia. ring.
Qed.

Lemma mu_to_mi_centred : forall k m, 1 <= k <= 62 -> centred (2^k) m (mu_to_mi (2^k) m).
Proof.
  intros k m Hk. unfold centred, mu_to_mi.
  assert (H2 : 2^k = 2 * 2^(k-1)).
  { replace k with (Z.succ (k-1)) at 1 by lia. rewrite Z.pow_succ_r by lia. auto. }
  assert (Hh : 0 < 2^(k-1)) by (apply Z.pow_pos_nonneg; lia).
  set (h := 2^(k-1)) in *. rewrite H2.
  replace (2 * h / 2) with h by (rewrite Z.mul_comm, Z.div_mul; lia).
  assert (Hm : 0 <= m mod (2*h) < 2*h) by (apply Z.mod_pos_bound; lia).
  assert (Hq : m = 2*h * (m / (2*h)) + m mod (2*h)) by (apply Z.div_mod; lia).
  set (q := m / (2*h)) in *. set (r := m mod (2*h)) in *.
  destruct (h <=? r) eqn:E.
  - apply Z.leb_le in E. split; [exists (q+1); nia|lia].
  - apply Z.leb_gt in E. split; [exists q; nia|lia].
Qed.

Lemma mu_to_mi_mod : forall p m, p <> 0 -> mu_to_mi p (m mod p) = mu_to_mi p m.
Proof. intros p m H. unfold mu_to_mi. rewrite Z.mod_mod; auto. Qed.

Lemma mu_to_mi_32_small : forall d, -16 <= d < 16 -> mu_to_mi 32 d = d.
Proof. intros d H. unfold mu_to_mi. change (32/2) with 16. destruct (16 <=? d mod 32) eqn:E; lia. Qed.

(* ------------------------------------------------------------------ *)
(** ** Words *)

Section W.
Context {B : backend} {qw : Z} (C : contract B qw).

Lemma nB0 : 0 <= nB C. Proof. apply nB_nonneg. Qed.

Lemma budget_dec : l1_need qw * nB C < 2^58.
Proof.
  pose proof (budget B qw C) as Hb. pose proof (nMS_nonneg B qw C) as Hm.
  pose proof (N_pos B qw C) as HN. cbv zeta in Hb.
  set (N2 := 2 * Z.of_nat (poly_size B)) in *. assert (0 < N2) by lia.
  fold (nB C) in *. fold (nMS C) in *. nia.
Qed.

Lemma wrep_weaken : forall (w : word B) t k k', k <= k' -> wrep C w t k -> wrep C w t k'.
Proof.
  intros [c|p] t k k' Hk H; simpl in *; auto.
  destruct H as [e [H1 H2]]. exists e; split; auto. pose proof nB0. nia.
Qed.

Lemma wrep_teq : forall (w : word B) t t' k, teq t t' -> wrep C w t k -> wrep C w t' k.
Proof.
  intros [c|p] t t' k Ht H; simpl in *.
  - destruct H as [e [H1 H2]]. exists e; split; auto.
    eapply teq_trans; [apply H1|]. apply teq_add; auto. apply teq_refl.
  - destruct H as [H1 H2]. split; auto. eapply teq_trans; eauto.
Qed.

Lemma wrep_triv : forall p t k, 0 <= p < 2^64 -> teq p t -> wrep C (Triv p) t k.
Proof. simpl; auto. Qed.

Lemma wmsg_triv : forall m k, wmsg C (encrypt_word_triv m) m k.
Proof.
  intros m k. unfold encrypt_word_triv, wmsg. apply wrep_triv.
  - apply (mi_to_pt_range 5); lia.
  - apply (mi_to_pt_teq 5); lia.
Qed.

Lemma wmsg_triv0 : forall k, wmsg C triv0 0 k.
Proof. intros; apply wmsg_triv. Qed.

Lemma is_triv_w_add : forall a b : word B, is_triv (w_add a b) = is_triv a && is_triv b.
Proof. intros [a|a] [b|b]; auto. Qed.
Lemma is_triv_w_opp : forall a : word B, is_triv (w_opp a) = is_triv a.
Proof. intros [a|a]; auto. Qed.
Lemma is_triv_w_sub : forall a b : word B, is_triv (w_sub a b) = is_triv a && is_triv b.
Proof. intros [a|a] [b|b]; auto. Qed.
Lemma is_triv_w_mul : forall (a : word B) k, is_triv (w_mul_const a k) = is_triv a.
Proof. intros [a|a] k; unfold w_mul_const; destruct (k <? 0); auto. Qed.
Lemma is_triv_w_half : forall a : word B, is_triv (w_add_half a) = is_triv a.
Proof. intros [a|a]; auto. Qed.

Lemma wrep_add : forall (a b : word B) t u k l, 0 <= k -> 0 <= l ->
  wrep C a t k -> wrep C b u l -> wrep C (w_add a b) (t + u) (k + l).
Proof.
  intros [a|a] [b|b] t u k l Hk Hl Ha Hb; simpl in *; pose proof nB0.
  - destruct Ha as [e [H1 H2]], Hb as [f [H3 H4]]. exists (e + f). split; [|nia].
    eapply teq_trans; [apply ph_add|]. fold (phase C).
    replace (t + u + (e + f)) with (t + e + (u + f)) by ring. apply teq_add; auto.
  - destruct Ha as [e [H1 H2]], Hb as [H3 H4]. exists e. split; [|nia].
    eapply teq_trans; [apply ph_add_pt|].
    replace (t + u + e) with (t + e + u) by ring. apply teq_add; auto.
  - destruct Hb as [e [H1 H2]], Ha as [H3 H4]. exists e. split; [|nia].
    eapply teq_trans; [apply ph_add_pt|].
    replace (t + u + e) with (u + e + t) by ring. apply teq_add; auto.
  - destruct Ha as [H1 H2], Hb as [H3 H4]. split; [apply u64_range|].
    eapply teq_trans; [apply teq_u64|]. apply teq_add; auto.
Qed.

Lemma wrep_opp : forall (a : word B) t k, wrep C a t k -> wrep C (w_opp a) (- t) k.
Proof.
  intros [a|a] t k H; simpl in *.
  - destruct H as [e [H1 H2]]. exists (- e). split; [|lia].
    eapply teq_trans; [apply ph_opp|].
    replace (- t + - e) with (- (t + e)) by ring. apply teq_opp; auto.
  - destruct H as [H1 H2]. split; [apply u64_range|].
    eapply teq_trans; [apply teq_u64|]. apply teq_opp; auto.
Qed.

Lemma wrep_sub : forall (a b : word B) t u k l, 0 <= k -> 0 <= l ->
  wrep C a t k -> wrep C b u l -> wrep C (w_sub a b) (t - u) (k + l).
Proof.
  intros. unfold w_sub. replace (t - u) with (t + - u) by ring.
  apply wrep_add; auto. apply wrep_opp; auto.
Qed.

Lemma wrep_mul : forall (a : word B) t k c, Z.abs c < 2^64 ->
  wrep C a t k -> wrep C (w_mul_const a c) (t * c) (k * Z.abs c).
Proof.
  intros a t k c Hc H. unfold w_mul_const.
  assert (Hu : u64 (Z.abs c) = Z.abs c) by (unfold u64; apply Z.mod_small; lia).
  rewrite Hu.
  assert (HA : wrep C match a with
      | Ct cs => Ct (ct_mul B cs (Z.abs c))
      | Triv ps => Triv (u64 (ps * Z.abs c)) end (t * Z.abs c) (k * Z.abs c)).
  { destruct a as [a|a]; simpl in *.
    - destruct H as [e [H1 H2]]. exists (e * Z.abs c). split.
      + eapply teq_trans; [apply ph_mul; lia|].
        replace (t * Z.abs c + e * Z.abs c) with ((t + e) * Z.abs c) by ring.
        apply teq_mul; auto.
      + pose proof nB0. rewrite Z.abs_mul, Z.abs_involutive. nia.
    - destruct H as [H1 H2]. split; [apply u64_range|].
      eapply teq_trans; [apply teq_u64|]. apply teq_mul; auto. }
  destruct (c <? 0) eqn:E.
  - replace (t * c) with (- (t * Z.abs c)) by lia. apply wrep_opp; auto.
  - replace (t * c) with (t * Z.abs c) by lia. auto.
Qed.

Lemma wrep_half : forall (a : word B) t k,
  wrep C a t k -> wrep C (w_add_half a) (t + 2^58) k.
Proof.
  intros [a|a] t k H; unfold w_add_half, wrep in *; change (half_to_pt MSG_MOD) with (2^58).
  - destruct H as [e [H1 H2]]. exists e. split; auto.
    eapply teq_trans; [apply ph_add_pt|].
    replace (t + 2^58 + e) with (t + e + 2^58) by ring. apply teq_add; auto. apply teq_refl.
  - destruct H as [H1 H2]. split; [apply u64_range|].
    eapply teq_trans; [apply teq_u64|]. apply teq_add; auto. apply teq_refl.
Qed.

(** the same for messages *)
Lemma wmsg_add : forall (a b : word B) m n k l, 0 <= k -> 0 <= l ->
  wmsg C a m k -> wmsg C b n l -> wmsg C (w_add a b) (m + n) (k + l).
Proof. unfold wmsg; intros. rewrite Z.mul_add_distr_r. apply wrep_add; auto. Qed.
Lemma wmsg_sub : forall (a b : word B) m n k l, 0 <= k -> 0 <= l ->
  wmsg C a m k -> wmsg C b n l -> wmsg C (w_sub a b) (m - n) (k + l).
Proof. unfold wmsg; intros. rewrite Z.mul_sub_distr_r. apply wrep_sub; auto. Qed.
Lemma wmsg_opp : forall (a : word B) m k, wmsg C a m k -> wmsg C (w_opp a) (- m) k.
Proof. unfold wmsg; intros. rewrite Z.mul_opp_l. apply wrep_opp; auto. Qed.
Lemma wmsg_mul : forall (a : word B) m k c, Z.abs c < 2^64 ->
  wmsg C a m k -> wmsg C (w_mul_const a c) (m * c) (k * Z.abs c).
Proof.
  unfold wmsg; intros. replace (m * c * step) with (m * step * c) by ring.
  apply wrep_mul; auto.
Qed.
Lemma wmsg_weaken : forall (w : word B) m k k', k <= k' -> wmsg C w m k -> wmsg C w m k'.
Proof. intros w m k k'; apply wrep_weaken. Qed.

(** A trivial word has no noise at all. *)
Lemma wmsg_is_triv : forall (w : word B) m k k',
  is_triv w = true -> wmsg C w m k -> wmsg C w m k'.
Proof. intros [c|p] m k k' H; simpl in *; [discriminate|auto]. Qed.

(** Decryption of one word *)
Lemma decrypt_mi_half : forall cl (w : word B) m k, client_ok C cl ->
  0 <= k -> k * nB C < 2^58 -> wmsg C w m k ->
  decrypt_mi (Some cl) w = ret (mu_to_mi 32 m).
Proof.
  intros cl [c|p] m k Hcl Hk Hn H; unfold decrypt_mi; simpl decrypt_mu; rewrite ret_bind.
  - destruct H as [e [H1 H2]].
    rewrite (dec_phase C cl Hcl c m e H1), mu_to_mi_mod; auto; try (unfold MSG_MOD; lia).
    unfold step. change (2^59/2) with (2^58). lia.
  - destruct H as [H1 H2]. change MSG_MOD with (2^5).
    rewrite (pt_to_mu_near 5 m 0) by (auto; try lia; rewrite Z.add_0_r; auto).
    rewrite mu_to_mi_mod; auto; lia.
Qed.

Lemma decrypt_mi_ok : forall cl (w : word B) m k, client_ok C cl ->
  0 <= k <= l1_need qw -> wmsg C w m k ->
  decrypt_mi (Some cl) w = ret (mu_to_mi 32 m).
Proof.
  intros cl w m k Hcl Hk H. apply (decrypt_mi_half cl w m k); auto; try lia.
  pose proof budget_dec. pose proof nB0. nia.
Qed.

End W.
