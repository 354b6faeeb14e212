(** The accumulator for every polynomial size, also sizes that the boxes do not fill *)
From Verif Require Import Base Backend Words Pbs BaseProofs PbsProofs WeightHash.
From Coq Require Import ZifyBool ZifyNat.

Definition entry (h : list Z) (i : nat) : Z := sat_u64 (nth i h 0 * 2^58).
Lemma rotated : forall (f : Z -> Z) k (a : list Z) j, (k <= length a)%nat -> (j < length a)%nat ->
  let neg := map f (firstn k a) ++ skipn k a in
  nth j (skipn k neg ++ firstn k neg) 0 =
  if (j + k <? length a)%nat then nth (j + k) a 0 else f (nth (j + k - length a) a 0).
Proof.
  intros f k a j Hk Hj neg.
  assert (L : length (map f (firstn k a)) = k) by (rewrite map_length, firstn_length; lia).
  assert (L' : length neg = length a) by (unfold neg; rewrite app_length, L, skipn_length; lia).
  destruct (j + k <? length a)%nat eqn:E.
  - apply Nat.ltb_lt in E. rewrite app_nth1 by (rewrite skipn_length, L'; lia). rewrite nth_skipn. unfold neg.
    rewrite app_nth2 by lia. rewrite L, nth_skipn. f_equal. lia.
  - apply Nat.ltb_ge in E. rewrite app_nth2 by (rewrite skipn_length, L'; lia). rewrite skipn_length, L', nth_firstn.
    replace (j - (length a - k))%nat with (j + k - length a)%nat by lia.
    destruct (j + k - length a <? k)%nat eqn:F; [|lia]. apply Nat.ltb_lt in F. unfold neg.
    rewrite app_nth1 by lia. rewrite (nth_indep _ 0 (f 0)) by lia. rewrite (map_nth f), nth_firstn.
    destruct (j + k - length a <? k)%nat eqn:G; [reflexivity|lia].
Qed.
Lemma init_length : forall N h, length (acc_init N h) = N.
Proof.
  intros N h. unfold acc_init. rewrite app_length, flat_map_repeat_length, repeat_length.
  pose proof (Nat.div_mod N 16). lia.
Qed.
Lemma init_nth : forall N h j, nth j (acc_init N h) 0 =
  if (j <? 16 * (N / 16))%nat then entry h (j / (N / 16)) else 0.
Proof.
  intros N h j. unfold acc_init. set (b := (N / 16)%nat).
  pose proof (flat_map_repeat_length Z (fun i => sat_u64 (nth i h 0 * (delta MSG_MOD / 2))) b 16 0) as L.
  destruct (j <? 16 * b)%nat eqn:E.
  - apply Nat.ltb_lt in E. rewrite app_nth1 by lia.
    rewrite (nth_flat_map_repeat _ (fun i => sat_u64 (nth i h 0 * (delta MSG_MOD / 2)))) by lia. reflexivity.
  - apply Nat.ltb_ge in E. rewrite app_nth2 by lia. rewrite nth_repeat_any. destruct (_ <? _)%nat; reflexivity.
Qed.
Lemma acc_any : forall N h,
  length (gen_no_padding_acc N h) = N /\
  forall j, (j < N)%nat -> nth j (gen_no_padding_acc N h) 0 =
    let b := (N / 16)%nat in let p := (j + b / 2)%nat in
    if (p <? 16 * b)%nat then entry h (p / b) else if (p <? N)%nat then 0 else u64 (- entry h 0).
Proof.
  intros N h. pose proof (Nat.div_mod N 16) as DM. pose proof (Nat.div_le_upper_bound (N / 16) 2 (N / 16)) as HB.
  assert (B : (N / 16 / 2 <= N / 16)%nat) by lia. split.
  - unfold gen_no_padding_acc. cbv zeta. rewrite app_length, skipn_length, firstn_length, app_length, map_length, firstn_length, skipn_length, init_length. lia.
  - intros j Hj. unfold gen_no_padding_acc. cbv zeta.
    rewrite (rotated (fun z => u64 (- z)) (N / 16 / 2) (acc_init N h) j) by (rewrite init_length; lia).
    rewrite init_length, !init_nth. destruct (j + N / 16 / 2 <? 16 * (N / 16))%nat eqn:E.
    + replace (j + N / 16 / 2 <? N)%nat with true by lia. reflexivity.
    + destruct (j + N / 16 / 2 <? N)%nat eqn:F; [reflexivity|].
      apply Nat.ltb_ge in E, F. assert (Q : (N / 16 / 2 < N / 16)%nat).
      { destruct (N / 16)%nat as [|b] eqn:Eb; [cbn in F; lia|]. apply Nat.div_lt; lia. }
      replace (j + N / 16 / 2 - N <? 16 * (N / 16))%nat with true by lia.
      rewrite Nat.div_small by lia. reflexivity.
Qed.

(** two entries can be read off at every size that has boxes at all *)
Lemma read_entry : forall N h i, (16 <= N)%nat -> (i < 16)%nat ->
  nth (i * (length (gen_no_padding_acc N h) / 16)) (gen_no_padding_acc N h) 0 = entry h i.
Proof.
  intros N h i HN Hi. destruct (acc_any N h) as [L H]. rewrite L.
  assert (B : (1 <= N / 16)%nat) by (apply Nat.div_le_lower_bound; lia).
  pose proof (Nat.div_mod N 16). assert (Q : (N / 16 / 2 < N / 16)%nat) by (apply Nat.div_lt; lia).
  assert (P : (i * (N / 16) + N / 16 / 2 < 16 * (N / 16))%nat) by nia.
  rewrite H by lia. cbv zeta. rewrite (proj2 (Nat.ltb_lt _ _) P).
  rewrite Nat.add_comm, Nat.div_add, Nat.div_small by lia. reflexivity.
Qed.
Lemma peek_any : forall N N' h, (16 <= N)%nat -> (16 <= N')%nat ->
  peek (gen_no_padding_acc N h) = peek (gen_no_padding_acc N' h).
Proof. intros N N' h H H'. unfold peek. rewrite !read_entry by lia. reflexivity. Qed.
