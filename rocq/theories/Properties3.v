(** Properties C20-C23: recodings of the scalar *)
From Verif Require Import Base Naf Encryption Spec BaseProofs NafProofs.

(** The outcome of an operation in a build with (o = true) or without overflow
    checks: a value satisfying P, or, with checks, an overflow panic. *)
Local Notation ok_or_overflow o m P :=
  (match fst m with
   | Ok a => P a
   | Err _ => False
   | Panic e => o = true /\ e = P_overflow
   end).

(* ------------------------------------------------------------------ *)
(** ** C20 *)

(** [2^n > k] bounds the bit length of k from above *)
Theorem C20_recoding : forall o k n, 0 <= k < 2^32 -> k < 2 ^ Z.of_nat n ->
  ok_or_overflow o (koyama_tsuruoka_vec o k) (fun kv =>
    digits kv /\ value kv = k /\ (1 <= length kv <= n + 1)%nat /\
    (0 < k -> last kv 0 <> 0)).
Proof.
  intros o k n Hk Hn. eapply ovfP_conseq; [apply kt_ok; auto|].
  intros kv [H1 [H2 [H3 H4]]]. split; auto. split; auto. split.
  - destruct (BitsProofs.bit_len_32_ok k Hk) as [[H5 H6]|[H5 H6]]; [rewrite H6 in *; lia|].
    assert (bit_len_32 k - 1 < n)%nat; [|lia].
    destruct (le_lt_dec n (bit_len_32 k - 1)) as [H|]; auto.
    assert (2 ^ Z.of_nat n <= 2 ^ Z.of_nat (bit_len_32 k - 1)) by (apply Z.pow_le_mono_r; lia). lia.
  - intros Hpos. specialize (H4 Hpos). destruct (exists_last (l := kv)) as [l [d E]].
    { intros ->. cbn in H3. lia. }
    subst kv. rewrite last_last. rewrite app_length in H4. cbn [length] in H4.
    replace (length l + 1 - 1)%nat with (length l) in H4 by lia. rewrite nth_middle in H4. auto.
Qed.
(** without overflow checks the recoding always succeeds *)
Theorem C20_unchecked : forall k, 0 <= k < 2^32 ->
  exists kv, fst (koyama_tsuruoka_vec false k) = Ok kv /\ digits kv /\ value kv = k.
Proof.
  intros k Hk. pose proof (kt_ok false k Hk) as H. apply ovfP_okP in H.
  destruct H as [kv [E [H1 [H2 _]]]]. exists kv. auto.
Qed.
Example C20_example : fst (koyama_tsuruoka_vec true 0xF0F0) = Ok [0; 0; 0; 0; -1; 0; 0; 0; 1; 0; 0; 0; -1; 0; 0; 0; 1].
Proof. vm_compute. reflexivity. Qed.
Example C20_example_max : fst (koyama_tsuruoka_vec false (2^32 - 1)) =
  Ok (-1 :: repeat 0 31 ++ [1]).
Proof. vm_compute. reflexivity. Qed.

(* ------------------------------------------------------------------ *)
(** ** C21 *)

(** documented (naf.rs:93): same Hamming weight as the non-adjacent form *)
Theorem C21_same_weight_refuted : exists k kv naf, 0 <= k < 2^32 /\
  (forall o, fst (koyama_tsuruoka_vec o k) = Ok kv) /\
  digits naf /\ value naf = k /\ non_adjacent naf /\ (weight naf < weight kv)%nat.
Proof.
  exists 7, [1; 1; 1], [-1; 0; 0; 1]. split; [lia|]. split; [intros []; vm_compute; reflexivity|].
  split; [repeat constructor; unfold digit; lia|]. split; [reflexivity|]. split.
  - intros [|[|[|[|i]]]]; cbn; auto. 
  - cbn. lia.
Qed.
(** with overflow checks the recoding does not always return *)
Theorem C21_no_panic_refuted : exists k, 0 <= k < 2^32 /\
  fst (koyama_tsuruoka_vec true k) = Panic P_overflow.
Proof. exists 91. split; [lia|vm_compute; reflexivity]. Qed.

(* ------------------------------------------------------------------ *)
(** ** C22 *)
Theorem C22_naf : forall o k, 0 <= k < 2^31 ->
  exists kv, fst (naf_vec o k) = Ok kv /\ digits kv /\ value kv = k.
Proof. intros o k Hk. exact (naf_vec_ok o k Hk). Qed.
Theorem C22_large_checked : forall k, 2^31 <= k < 2^32 ->
  fst (naf_vec true k) = Panic P_overflow.
Proof. exact naf_vec_big_checked. Qed.
Theorem C22_large_unchecked : forall k, 2^31 <= k < 2^32 ->
  exists kv, fst (naf_vec false k) = Ok kv /\ digits kv /\
    (Z.odd k = false -> value kv = k) /\ (Z.odd k = true -> value kv = k + 2^32).
Proof.
  intros k Hk. destruct (naf_vec_big_unchecked k Hk) as [kv [E [H1 H2]]]. exists kv.
  split; auto. split; auto. rewrite Zmod_odd in H2. split; intros Ho; rewrite Ho in H2; lia.
Qed.
Theorem C22_non_adjacent_refuted : exists k kv, 0 <= k < 2^31 /\
  (forall o, fst (naf_vec o k) = Ok kv) /\ ~ non_adjacent kv.
Proof.
  exists 11, [-1; 0; 1; 1; 0]. split; [lia|]. split; [intros []; vm_compute; reflexivity|].
  intros H. destruct (H 2%nat) as [H1|H1]; discriminate.
Qed.
Example C22_example : fst (naf_vec true 0x6DF) = Ok [-1; 0; 0; 0; 0; -1; 0; 0; -1; 0; 0; 1].
Proof. vm_compute. reflexivity. Qed.
Example C22_example_odd : exists kv, fst (naf_vec false (2^31 + 1)) = Ok kv /\ value kv = 2^31 + 1 + 2^32.
Proof. eexists. split; [vm_compute; reflexivity|reflexivity]. Qed.

(* ------------------------------------------------------------------ *)
(** ** C23 *)
Theorem C23_windows : forall o k, 0 < k < 2^32 ->
  ok_or_overflow o (wind_shifts o k 12) (fun ws =>
    wsum ws = k /\ spaced 12 0 ws /\ ws <> [] /\
    Forall (fun w => Z.odd (fst w) = true /\ Z.abs (fst w) < 2^12 /\ (snd w <= 32)%nat) ws).
Proof.
  intros o k Hk. eapply ovfP_conseq; [apply (wind_shifts_ok o k 12); lia|].
  intros ws [H1 [H2 [H3 H4]]]. split; auto. split; auto. split; auto.
  eapply Forall_impl; [|exact H2]. intros w [W1 [W2 W3]]. split; auto. split; auto.
  destruct (BitsProofs.bit_len_32_ok k ltac:(lia)) as [[H5 H6]|[H5 H6]]; [lia|].
  destruct (le_lt_dec (bit_len_32 k) 32) as [|H]; [lia|].
  assert (2 ^ 32 <= 2 ^ Z.of_nat (bit_len_32 k - 1)) by (apply Z.pow_le_mono_r; lia). lia.
Qed.
(** any window width that fits an i32 *)
Theorem C23_any_width : forall o k n, 0 < k < 2^32 -> (1 <= n <= 31)%nat ->
  ok_or_overflow o (wind_shifts o k n) (fun ws =>
    wsum ws = k /\ spaced n 0 ws /\
    Forall (fun w => Z.odd (fst w) = true /\ Z.abs (fst w) < 2 ^ Z.of_nat n) ws).
Proof.
  intros o k n Hk Hn. eapply ovfP_conseq; [apply (wind_shifts_ok o k n); lia|].
  intros ws [H1 [H2 [H3 H4]]]. split; auto. split; auto.
  eapply Forall_impl; [|exact H2]. intros w [W1 [W2 W3]]. auto.
Qed.
Example C23_example : fst (wind_shifts true 0xF0F0F01 12) = Ok [(-255, 0%nat); (241, 12%nat); (15, 24%nat)].
Proof. vm_compute. reflexivity. Qed.

Print Assumptions C20_recoding.
Print Assumptions C20_unchecked.
Print Assumptions C21_same_weight_refuted.
Print Assumptions C21_no_panic_refuted.
Print Assumptions C22_naf.
Print Assumptions C22_large_checked.
Print Assumptions C22_large_unchecked.
Print Assumptions C22_non_adjacent_refuted.
Print Assumptions C23_windows.
Print Assumptions C23_any_width.
