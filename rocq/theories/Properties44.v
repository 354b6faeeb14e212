(** C79: public zeros on top of an operand (note in src/lib.rs:200) *)
From Verif Require Import Base Backend Words Encryption Params Pbs Addition Multiplication Squaring
  Spec Contract Symbolic BaseProofs WordsProofs PbsProofs ValueProofs AddProofs RelProofs CostProofs Instances
  ShapeProofs DepthProofs CountProofs Expr Properties2 Properties5 Properties9 Properties14.
From Coq Require Import ZifyBool ZifyNat.

(** "for squaring of non-power-of-2: multiply |n|n+1|-bit numbers (isn't this too technical? it can be bypassed by adding
    a triv zero)". squ_dnq splits that way, [len0] = (n + 1) / 2. What the bypass does: *)

Section Value.
Context {B : backend} {qw : Z} (C : contract B qw).

Lemma padded : forall (x : ciphertext B) v k, enc_val C x v -> enc_val C (x ++ ct_triv k) v.
Proof.
  intros x v k [ds [H V]]. exists (ds ++ repeat 0 k). split; [apply encrypts_app; [exact H|apply encrypts_triv_zeros]|].
  rewrite <- V. clear. induction ds as [|d ds IH]; cbn [app value].
  - induction k as [|k IH]; [reflexivity|]. cbn [repeat value]. rewrite IH. reflexivity.
  - rewrite IH. reflexivity.
Qed.

(** Zeros on top do not change the result, as long as the operand is not too long with them *)
Theorem C79_squ : forall (x : ciphertext B) v k, (length x + k <= 32)%nat -> enc_val C x v ->
  exists z, fst (pa_squ (x ++ ct_triv k)) = Ok z /\ enc_val C z (v * v).
Proof.
  intros x v k L H. apply (C18_squ C); [|apply padded, H]. rewrite app_length. unfold ct_triv. rewrite repeat_length. exact L.
Qed.
Theorem C79_mul : forall (x y : ciphertext B) vx vy k, (length x + k <= 32)%nat -> (length y + k <= 32)%nat ->
  enc_val C x vx -> enc_val C y vy ->
  exists z, fst (pa_mul (x ++ ct_triv k) (y ++ ct_triv k)) = Ok z /\ enc_val C z (vx * vy).
Proof.
  intros x y vx vy k Lx Ly Hx Hy. apply (C16_mul C); try (apply padded; assumption);
    rewrite app_length; unfold ct_triv; rewrite repeat_length; assumption.
Qed.
End Value.
Print Assumptions C79_squ.
Print Assumptions C79_mul.

(* ------------------------------------------------------------------ *)
(** ** What it costs *)

Definition padded_dw (n k : nat) : list dw := fresh_dw n ++ repeat None k.
Lemma padded_len : forall n k, length (padded_dw n k) = (n + k)%nat.
Proof. intros n k. unfold padded_dw, fresh_dw. rewrite app_length, !repeat_length. reflexivity. Qed.
Lemma padded_rel : forall B (x : ciphertext B) k, Properties9.fresh x ->
  Forall2 (wrel (fun (_ : ct B) (_ : ct depths) => True)) (x ++ ct_triv k) (map tw (padded_dw (length x) k)).
Proof.
  intros B x k H. unfold padded_dw. rewrite map_app. apply Forall2_app; [apply fresh_rel, H|].
  unfold ct_triv. induction k as [|k IH]; cbn [repeat map]; constructor; [reflexivity|exact IH].
Qed.

Definition longer (f : nat -> nat -> Z) (counts : list Z) : bool :=
  forallb (fun n => forallb (fun k => nth n counts 0 <? f n (S k)) (seq 0 (32 - n))) (seq 1 31).
Lemma longer_ok : forall f counts n k, longer f counts = true -> (1 <= n)%nat -> (1 <= k)%nat -> (n + k <= 32)%nat -> nth n counts 0 < f n k.
Proof.
  intros f counts n k H Hn Hk L. unfold longer in H. rewrite forallb_forall in H. specialize (H n ltac:(apply in_seq; lia)).
  cbv beta in H. rewrite forallb_forall in H. specialize (H (k - 1)%nat ltac:(apply in_seq; lia)). cbv beta in H.
  replace (S (k - 1)) with k in H by lia. lia.
Qed.
Definition squ_padded (n k : nat) : Z := fst (squc (S (n + k)) (padded_dw n k)).
Definition mul_padded (n k : nat) : Z := fst (mulc (S (n + k)) (padded_dw n k) (padded_dw n k)).
Lemma squ_longer : longer squ_padded squ_counts = true.
Proof. vm_compute. reflexivity. Qed.
Lemma mul_longer : longer mul_padded mul_counts = true.
Proof. vm_compute. reflexivity. Qed.

Lemma squ_padded_ok : forall B (x : ciphertext B) k, Properties9.fresh x -> (length x + k <= 32)%nat ->
  pbs (pa_squ (x ++ ct_triv k)) = squ_padded (length x) k.
Proof.
  intros B x k H L. apply (padded_rel B x k) in H.
  assert (R : runs (pa_squ (map tw (padded_dw (length x) k))) (map tw (snd (squc (S (length x + k)) (padded_dw (length x) k))))
    (fst (squc (S (length x + k)) (padded_dw (length x) k)))).
  { unfold pa_squ. rewrite map_length, padded_len. apply fo_squ; rewrite padded_len; lia. }
  apply (rel_pbs _ _ _ _ _ _ _ (mr_squ (sim_shape B depths) (X := tp_only True) (fun _ => I) _ _ H) (proj2 R)).
Qed.
Lemma mul_padded_ok : forall B (x y : ciphertext B) k, Properties9.fresh x -> Properties9.fresh y -> length x = length y ->
  (length x + k <= 32)%nat -> pbs (pa_mul (x ++ ct_triv k) (y ++ ct_triv k)) = mul_padded (length x) k.
Proof.
  intros B x y k Hx Hy E L. apply (padded_rel B x k) in Hx. apply (padded_rel B y k) in Hy. rewrite <- E in Hy.
  assert (R : runs (pa_mul (map tw (padded_dw (length x) k)) (map tw (padded_dw (length x) k)))
    (map tw (snd (mulc (S (length x + k)) (padded_dw (length x) k) (padded_dw (length x) k))))
    (fst (mulc (S (length x + k)) (padded_dw (length x) k) (padded_dw (length x) k)))).
  { unfold pa_mul. rewrite !map_length, padded_len, Nat.max_id. apply fo_mul; rewrite !padded_len; lia. }
  apply (rel_pbs _ _ _ _ _ _ _ (mr_mul (sim_shape B depths) (X := tp_only True) (fun _ => I) _ _ _ _ Hx Hy) (proj2 R)).
Qed.

(** Zeros on top always cost bootstraps, however many they are, in squares and in products: no length is better rounded up *)
Theorem C79_squ_dearer : forall B (x : ciphertext B) k, Properties9.fresh x -> (1 <= length x)%nat -> (1 <= k)%nat ->
  (length x + k <= 32)%nat -> pbs (pa_squ x) < pbs (pa_squ (x ++ ct_triv k)).
Proof.
  intros B x k H Hn Hk L. rewrite (squ_padded_ok B x k H L), (C52_squ B x H) by lia. apply (longer_ok _ _ _ _ squ_longer); assumption.
Qed.
Print Assumptions C79_squ_dearer.
Theorem C79_mul_dearer : forall B (x y : ciphertext B) k, Properties9.fresh x -> Properties9.fresh y -> length x = length y ->
  (1 <= length x)%nat -> (1 <= k)%nat -> (length x + k <= 32)%nat ->
  pbs (pa_mul x y) < pbs (pa_mul (x ++ ct_triv k) (y ++ ct_triv k)).
Proof.
  intros B x y k Hx Hy E Hn Hk L. rewrite (mul_padded_ok B x y k Hx Hy E L), (C52_mul B x y Hx Hy E) by lia.
  apply (longer_ok _ _ _ _ mul_longer); assumption.
Qed.
Print Assumptions C79_mul_dearer.

(** But a zero is cheaper than an encrypted word, from two words on; a square of one word with a zero takes the three
    lookups of two words *)
Theorem C79_squ_cheaper : forall B (x : ciphertext B) (w : word B), Properties9.fresh x -> is_triv w = false -> (2 <= length x <= 31)%nat ->
  pbs (pa_squ (x ++ ct_triv 1)) <= pbs (pa_squ (x ++ [w])).
Proof.
  intros B x w H Hw L. rewrite (squ_padded_ok B x 1 H) by lia. rewrite (C52_squ B (x ++ [w])).
  - rewrite app_length. cbn [length]. assert (T : forallb (fun n => squ_padded n 1 <=? nth (n + 1) squ_counts 0) (seq 2 30) = true) by (vm_compute; reflexivity).
    rewrite forallb_forall in T. specialize (T (length x) ltac:(apply in_seq; lia)). cbv beta in T. lia.
  - apply Forall_app. split; [exact H|]. constructor; [exact Hw|constructor].
  - rewrite app_length. cbn [length]. lia.
Qed.
Print Assumptions C79_squ_cheaper.

(* ------------------------------------------------------------------ *)
(** ** Examples *)

(** 5 words: 38 bootstraps, with a zero to make them 6, 44, with three to make them 8, 93; and 7 squared is 49 either way *)
Example C79_squ_ex : Properties9.fresh (dry_input 5) /\ pbs (pa_squ (dry_input 5)) = 38 /\ pbs (pa_squ (dry_input 5 ++ ct_triv 1)) = 44 /\
  pbs (pa_squ (dry_input 5 ++ ct_triv 3)) = 93 /\ pbs (pa_squ (dry_input 6)) = 47 /\
  xdec (pa_squ (xenc 7 4)) = Ok 49 /\ xdec (pa_squ (xenc 7 4 ++ ct_triv 1)) = Ok 49.
Proof. split; [repeat constructor|]. vm_compute. repeat split. Qed.
Example C79_mul_ex : pbs (pa_mul (dry_input 15) (dry_input 15)) = 645 /\ pbs (pa_mul (dry_input 15 ++ ct_triv 1) (dry_input 15 ++ ct_triv 1)) = 710.
Proof. vm_compute. split; reflexivity. Qed.
