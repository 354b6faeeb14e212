(** Properties C48 (numbers derived from the parameters) and C50 (two key
    creations at the same time), and additions to C01, C03 and C41 *)
From Verif Require Import Base Backend Words Encryption Params Pbs Addition Arith ScalarMul Keys KeysConcurrent TestSuite AscTable
  Spec Contract BaseProofs WordsProofs EncProofs Expr ArithProofs TestProofs Instances Properties1 Properties2.
From Coq Require Import ZifyBool ZifyNat.

(* ------------------------------------------------------------------ *)
(** ** C48 *)

(** the mask and the size of the plaintext space, and its middle *)
Theorem C48_numbers : forall o p, (1 <= bit_precision p <= 30)%nat ->
  let pi := Z.of_nat (bit_precision p) in
  plaintext_mask o p = (Ok (2 ^ pi - 1), []) /\
  plaintext_pos_max o p = (Ok (2 ^ (pi - 1)), []) /\
  plaintext_space_size o p = (Ok (2 ^ pi), []).
Proof.
  intros o p H pi. unfold plaintext_mask, plaintext_pos_max, plaintext_space_size, shift_amount. subst pi.
  assert (Hp : 2 <= 2 ^ Z.of_nat (bit_precision p) <= 2 ^ 30).
  { split; [change 2 with (2^1) at 1|]; apply Z.pow_le_mono_r; lia. }
  destruct (bit_precision p) as [|b] eqn:E; [lia|].
  replace (Z.of_nat (S b) <? 32) with true by lia. replace (Z.of_nat b <? 32) with true by lia. rewrite !ret_bind.
  assert (Hb : 0 <= 2 ^ Z.of_nat b < 2^32).
  { split; [apply Z.pow_nonneg; lia|apply Z.pow_lt_mono_r; lia]. }
  split; [|split].
  - unfold u32 at 1. rewrite Z.mod_small by lia. rewrite chk_u32_in by lia. reflexivity.
  - unfold u32. rewrite Z.mod_small by lia. unfold ret. replace (Z.of_nat (S b) - 1) with (Z.of_nat b) by lia. reflexivity.
  - unfold i32. rewrite Z.mod_small by lia. replace (2 ^ Z.of_nat (S b) + 2^31 - 2^31) with (2 ^ Z.of_nat (S b)) by lia. reflexivity.
Qed.
(** precision 31 gives a negative size, and precision 0 has no middle *)
Theorem C48_size_refuted : forall o p, bit_precision p = 31%nat ->
  plaintext_space_size o p = (Ok (- 2^31), []).
Proof. intros o p E. unfold plaintext_space_size. rewrite E. reflexivity. Qed.
Theorem C48_pos_max_zero : forall p, bit_precision p = 0%nat ->
  fst (plaintext_pos_max true p) = Panic P_overflow /\ fst (plaintext_pos_max false p) = Ok (2^31).
Proof. intros p E. unfold plaintext_pos_max. rewrite E. auto. Qed.
(** from precision 32 on a checked build panics, an unchecked one takes the
    precision modulo 32 *)
Theorem C48_large : forall p, (32 <= bit_precision p)%nat ->
  fst (plaintext_mask true p) = Panic P_overflow /\ fst (plaintext_space_size true p) = Panic P_overflow /\
  fst (plaintext_mask false p) = Ok (2 ^ (Z.of_nat (bit_precision p) mod 32) - 1).
Proof.
  intros p H. unfold plaintext_mask, plaintext_space_size, shift_amount.
  replace (Z.of_nat (bit_precision p) <? 32) with false by lia. split; [reflexivity|]. split; [reflexivity|].
  rewrite ret_bind. pose proof (Z.mod_pos_bound (Z.of_nat (bit_precision p)) 32 ltac:(lia)).
  assert (1 <= 2 ^ (Z.of_nat (bit_precision p) mod 32) < 2 ^ 32).
  { split; [change 1 with (2^0) at 1; apply Z.pow_le_mono_r; lia|apply Z.pow_lt_mono_r; lia]. }
  unfold u32. rewrite Z.mod_small by lia. rewrite chk_u32_in by lia. reflexivity.
Qed.

(** the shipped parameters *)
Theorem C48_shipped : forall base o, let p := PAR_M4_C0 base in
  fst (plaintext_mask o p) = Ok 31 /\ fst (plaintext_pos_max o p) = Ok 16 /\ fst (plaintext_space_size o p) = Ok 32 /\
  message_modulus (concrete_pars p) = 32 /\ quad_weight p = 100 /\ MIN_QUAD_WEIGHT <= quad_weight p /\
  lwe_dimension (concrete_pars p) = lwe_dimension base /\ glwe_dimension (concrete_pars p) = glwe_dimension base /\
  polynomial_size (concrete_pars p) = polynomial_size base /\
  lwe_std_dev (concrete_pars p) = lwe_std_dev base /\ glwe_std_dev (concrete_pars p) = glwe_std_dev base /\
  pbs_base_log (concrete_pars p) = pbs_base_log base /\ pbs_level (concrete_pars p) = pbs_level base /\
  ks_base_log (concrete_pars p) = ks_base_log base /\ ks_level (concrete_pars p) = ks_level base /\
  carry_modulus (concrete_pars p) = carry_modulus base.
Proof.
  intros base o p. subst p. unfold MIN_QUAD_WEIGHT.
  repeat split; try reflexivity; try (destruct o; reflexivity). cbn. lia.
Qed.

(** documented (params.rs:21, 27): the mask stands for -1, the middle is its own opposite *)
Theorem C48_meaning : forall B qw (C : contract B qw) cl, client_ok C cl -> forall o p s, bit_precision p = 5%nat ->
  exists mask mid, fst (plaintext_mask o p) = Ok mask /\ fst (plaintext_pos_max o p) = Ok mid /\
    fst (decrypt_mu (Some cl) (encrypt_word cl s (-1))) = Ok mask /\
    fst (decrypt_mu (Some cl) (encrypt_word cl s mid)) = Ok mid /\
    fst (decrypt_mu (Some cl) (encrypt_word cl s (- mid))) = Ok mid.
Proof.
  intros B qw C cl Hcl o p s Hp. exists 31, 16.
  assert (D : forall m, fst (decrypt_mu (Some cl) (encrypt_word cl s m)) = Ok (m mod 32)).
  { intros m. pose proof (encrypt_word_ok C cl Hcl s m) as [e [H1 H2]]. cbn [decrypt_mu encrypt_word fst ret].
    rewrite (dec_phase C cl Hcl _ m e H1); auto. pose proof (budget_dec C). pose proof (nB_nonneg _ _ C).
    assert (8 <= l1_need qw) by (unfold l1_need; destruct (85 <=? qw), (41 <=? qw); lia).
    unfold step. change (2^59/2) with (2^58). nia. }
  rewrite !D. unfold plaintext_mask, plaintext_pos_max. rewrite Hp.
  repeat split; destruct o; reflexivity.
Qed.
Example C48_example : fst (plaintext_mask true (mkParams base_params 30 100)) = Ok (2^30 - 1) /\
  fst (plaintext_pos_max false (PAR_M4_C0 base_params)) = Ok 16 /\
  fst (plaintext_space_size false (mkParams base_params 1 22)) = Ok 2.
Proof. vm_compute. auto. Qed.

(* ------------------------------------------------------------------ *)
(** ** C01: each word has its own randomness *)

(** Whatever is encrypted, word i of the result is an encryption under the
    i-th piece of randomness, and of nothing but its own digit. *)
Theorem C01_own_randomness : forall B (cl : client B) o seeds m w c,
  fst (parm_encrypt cl o seeds m w) = Ok c -> forall i wd, nth_error c i = Some wd ->
  exists d, (d = -1 \/ d = 0 \/ d = 1) /\ wd = Ct (ct_enc cl (seeds i) (d mod 32)).
Proof.
  intros B cl o seeds m w c H i wd Hi. unfold parm_encrypt in H. rewrite fst_bind in H.
  destruct (fst (convert_to_vec o m w)) as [mv| |]; try discriminate. revert H Hi. unfold parm_encrypt_from_vec.
  assert (G : forall mv s c i, fst (mapM (fun imi : nat * Z => let (i, mi) := imi in
        if (mi <? -1) || (1 <? mi) then err_ E_enc_alphabet else ret (encrypt_word cl (seeds i) mi))
      (combine (seq s (length mv)) mv)) = Ok c -> nth_error c i = Some wd ->
      exists d, (d = -1 \/ d = 0 \/ d = 1) /\ wd = Ct (ct_enc cl (seeds (s + i)%nat) (d mod 32))).
  2:{ intros H Hi. apply (G mv 0%nat c i H Hi). }
  clear. induction mv as [|d mv IH]; intros s c i; cbn [length seq combine mapM].
  - intros H. inversion H; subst. destruct i; discriminate.
  - destruct ((d <? -1) || (1 <? d)) eqn:E; [discriminate|]. rewrite ret_bind, fst_bind.
    destruct (fst (mapM _ (combine (seq (S s) (length mv)) mv))) as [c'| |] eqn:E'; try discriminate.
    intros H Hi. inversion H; subst. destruct i as [|i].
    + cbn in Hi. inversion Hi; subst. rewrite Nat.add_0_r. exists d. split; [lia|].
      reflexivity.
    + cbn in Hi. rewrite <- Nat.add_succ_comm. eapply IH; eauto.
Qed.
Example C01_own_randomness_example :
  match fst (parm_encrypt noisy_client true ex_seeds 6 4) with
  | Ok [_; Ct a; Ct b; _] => (snd a =? snd b)
  | _ => true
  end = false.
Proof. vm_compute. reflexivity. Qed.

(* ------------------------------------------------------------------ *)
(** ** C03: no private key *)

(** Without the private key an encrypted word is refused, and a trivial one
    still gives its message. *)
Theorem C03_no_key : forall B (w : word B),
  match w with
  | Ct _ => fst (decrypt_mu None w) = Err E_no_key /\ fst (decrypt_mi None w) = Err E_no_key
  | Triv _ => forall cl, decrypt_mu None w = decrypt_mu (Some cl) w /\ decrypt_mi None w = decrypt_mi (Some cl) w
  end.
Proof. intros B [c|p]; [split; reflexivity|]. intros cl. split; reflexivity. Qed.
Theorem C03_no_key_trivial : forall B m, decrypt_mu (B := B) None (encrypt_word_triv m) = (Ok (m mod 32), []).
Proof.
  intros B m. cbn [decrypt_mu encrypt_word_triv].
  destruct (wmsg_triv (exact_contract 100) m 0) as [H1 H2].
  change MSG_MOD with (2^5) in *. rewrite (pt_to_mu_near 5 m 0); auto; try lia. rewrite Z.add_0_r. exact H2.
Qed.
Example C03_no_key_example : fst (decrypt_mi (B := exact) None (encrypt_word exact_client ([], 0) 1)) = Err E_no_key /\
  fst (decrypt_mi (B := exact) None (encrypt_word_triv (-3))) = Ok (-3).
Proof. vm_compute. auto. Qed.

(* ------------------------------------------------------------------ *)
(** ** C41: the noisy variants of the trait *)

(** [add_noisy] and [sub_noisy] of the trait: integers and ciphertexts give
    the same number, in both builds *)
Theorem C41_noisy : forall B qw (C : contract B qw) cl pc, client_ok C cl ->
  forall x y vx vy, enc_val C x vx -> enc_val C y vy -> (length x <= 62)%nat -> (length y <= 62)%nat ->
  - 2^63 <= vx + vy < 2^63 -> - 2^63 <= vx - vy < 2^63 ->
  (exists z, fst (a_add_noisy (arith_ct pc) x y) = Ok z /\
     fst (parm_decrypt cl (ovf pc) z) = fst (a_add_noisy (arith_i64 (ovf pc)) vx vy) /\
     fst (parm_decrypt cl (ovf pc) z) = Ok (vx + vy)) /\
  (exists z, fst (a_sub_noisy (arith_ct pc) x y) = Ok z /\
     fst (parm_decrypt cl (ovf pc) z) = fst (a_sub_noisy (arith_i64 (ovf pc)) vx vy) /\
     fst (parm_decrypt cl (ovf pc) z) = Ok (vx - vy)).
Proof.
  intros B qw C cl pc Hcl x y vx vy Hx Hy Lx Ly Ra Rs. cbn [arith_ct arith_i64 a_add_noisy a_sub_noisy].
  rewrite !chk_i64_in by (unfold I64_MIN, I64_MAX; lia). split.
  - destruct (C11_decrypts C cl Hcl (ovf pc) true x y vx vy Hx Hy Lx Ly) as [z [E D]]. exists z. rewrite D. auto.
  - destruct (C11_decrypts C cl Hcl (ovf pc) false x y vx vy Hx Hy Lx Ly) as [z [E D]]. exists z. rewrite D. auto.
Qed.
Example C41_noisy_example :
  xdec (a_sub_noisy (arith_ct (cloud_100 true)) (xenc (-5) 4) (xenc 7 3)) = Ok (-12) /\
  xdec (a_add_noisy (arith_ct (cloud_100 true)) (xenc (-5) 4) (xenc 7 3)) = Ok 2 /\
  fst (a_sub_noisy (arith_i64 true) (-5) 7) = Ok (-12) /\ fst (a_add_noisy (arith_i64 true) (-5) 7) = Ok 2.
Proof. vm_compute. auto. Qed.

(* ------------------------------------------------------------------ *)
(** ** C50: two key creations at the same time *)
Section C50.
Context {K : Type} (encode : K -> list Z) (decode : list Z -> option K) (k1 k2 : K).
Hypothesis round_trip : forall k, decode (encode k) = Some k.
Notation run := (schedule encode decode k1 k2).

Local Lemma run_app : forall a b w, run (a ++ b) w = run b (run a w).
Proof. intros a b w. unfold schedule. apply fold_left_app. Qed.
Local Lemma write_end : forall f b, write_at f (length f) b = f ++ [b].
Proof.
  intros f b. unfold write_at. rewrite firstn_all, Nat.sub_diag, skipn_all2 by lia. reflexivity.
Qed.
Local Lemma nth_split : forall (l : list Z) i b, nth_error l i = Some b -> firstn (S i) l = firstn i l ++ [b].
Proof.
  induction l as [|x l IH]; intros [|i] b H; try discriminate; cbn in *.
  - inversion H; subst. reflexivity.
  - f_equal. apply IH. exact H.
Qed.

(** With the key file already complete, every schedule of the two calls
    returns the stored keys to both and leaves the file alone. *)
Theorem C50_existing : forall k sched,
  let w := run sched (start (Some (encode k))) in
  wf w = Some (encode k) /\
  (forall r, w1 w = Done r -> r = Ok k) /\ (forall r, w2 w = Done r -> r = Ok k).
Proof.
  intros k sched w.
  assert (G : wf w = Some (encode k) /\ (w1 w = AtCheck \/ w1 w = AtRead \/ w1 w = Done (Ok k)) /\
                                        (w2 w = AtCheck \/ w2 w = AtRead \/ w2 w = Done (Ok k))).
  { subst w. induction sched as [|b sched IH] using rev_ind; [cbn; auto|]. rewrite run_app.
    destruct (run sched (start (Some (encode k)))) as [a1 a2 f]. cbn [w1 w2 wf] in IH. destruct IH as [-> [H1 H2]].
    unfold schedule. cbn [fold_left]. unfold turn. destruct b; cbn [w1 w2 wf].
    - destruct H1 as [ -> |[ -> | -> ]]; cbn [key_step wf w1 w2]; rewrite ?round_trip; auto 10.
    - destruct H2 as [ -> |[ -> | -> ]]; cbn [key_step wf w1 w2]; rewrite ?round_trip; auto 10. }
  destruct G as [G1 [G2 G3]]. split; auto. split; intros r Hr; [destruct G2 as [E|[E|E]]|destruct G3 as [E|[E|E]]]; congruence.
Qed.

(** one call alone *)
Fixpoint solo (k : K) (n : nat) (st : stage) (f : option (list Z)) : stage * option (list Z) :=
  match n with
  | O => (st, f)
  | S n => let (st', f') := key_step encode decode k st f in solo k n st' f'
  end.
Local Lemma run_true : forall n a b f,
  run (repeat true n) (mkWorld a b f) = mkWorld (fst (solo k1 n a f)) b (snd (solo k1 n a f)).
Proof.
  induction n as [|n IH]; intros a b f; cbn [repeat solo]; [reflexivity|].
  change (run (true :: repeat true n) (mkWorld a b f)) with (run (repeat true n) (turn encode decode k1 k2 (mkWorld a b f) true)).
  unfold turn. cbn [w1 w2 wf]. destruct (key_step encode decode k1 a f) as [a' f']. apply IH.
Qed.
Local Lemma run_false : forall n a b f,
  run (repeat false n) (mkWorld a b f) = mkWorld a (fst (solo k2 n b f)) (snd (solo k2 n b f)).
Proof.
  induction n as [|n IH]; intros a b f; cbn [repeat solo]; [reflexivity|].
  change (run (false :: repeat false n) (mkWorld a b f)) with (run (repeat false n) (turn encode decode k1 k2 (mkWorld a b f) false)).
  unfold turn. cbn [w1 w2 wf]. destruct (key_step encode decode k2 b f) as [b' f']. apply IH.
Qed.
Local Lemma write_prefix : forall k i b, nth_error (encode k) i = Some b ->
  write_at (firstn i (encode k)) i b = firstn (S i) (encode k).
Proof.
  intros k i b E. rewrite (nth_split _ _ _ E).
  assert (Hi : (i < length (encode k))%nat) by (apply nth_error_Some; congruence).
  assert (Hl : length (firstn i (encode k)) = i) by (rewrite firstn_length; lia).
  rewrite <- Hl at 2. apply write_end.
Qed.
Local Lemma write_alone : forall k n i, (i + n = length (encode k))%nat ->
  solo k (S n) (Writing i) (Some (firstn i (encode k))) = (Done (Ok k), Some (encode k)).
Proof.
  intros k. induction n as [|n IH]; intros i Hi.
  - cbn [solo key_step]. replace (nth_error (encode k) i) with (@None Z) by (symmetry; apply nth_error_None; lia).
    rewrite firstn_all2 by lia. reflexivity.
  - change (solo k (S (S n)) (Writing i) (Some (firstn i (encode k)))) with
      (let (st', f') := key_step encode decode k (Writing i) (Some (firstn i (encode k))) in solo k (S n) st' f').
    cbn [key_step]. destruct (nth_error (encode k) i) as [b|] eqn:E; [|apply nth_error_None in E; lia].
    rewrite (write_prefix k i b E). apply IH. lia.
Qed.

(** One after the other: the second call gets the keys of the first. *)
Theorem C50_sequential :
  let w := run (repeat true (length (encode k1) + 3) ++ repeat false 2) (start None) in
  w1 w = Done (Ok k1) /\ w2 w = Done (Ok k1) /\ wf w = Some (encode k1).
Proof.
  intros w. subst w. rewrite run_app. unfold start. rewrite run_true.
  replace (solo k1 (length (encode k1) + 3) AtCheck None) with (Done (Ok k1), Some (encode k1)).
  - cbn [fst snd]. rewrite run_false. cbn [solo key_step fst snd w1 w2 wf]. rewrite round_trip. auto.
  - replace (length (encode k1) + 3)%nat with (S (S (S (length (encode k1))))) by lia.
    symmetry. apply (write_alone k1 (length (encode k1)) 0). lia.
Qed.

(** Both look for the file before either has created it: both succeed, each
    with its own keys. The file then holds those of the second. *)
Theorem C50_same_keys_refuted : k1 <> k2 -> exists sched r1 r2,
  w1 (run sched (start None)) = Done (Ok r1) /\ w2 (run sched (start None)) = Done (Ok r2) /\ r1 <> r2 /\
  wf (run sched (start None)) = Some (encode r2).
Proof.
  intros Hne.
  exists ([true; false] ++ repeat true (length (encode k1) + 2) ++ repeat false (length (encode k2) + 2)), k1, k2.
  rewrite run_app, run_app. change (run [true; false] (start None)) with (mkWorld (K := K) AtCreate AtCreate None).
  rewrite run_true.
  replace (solo k1 (length (encode k1) + 2) AtCreate None) with (Done (Ok k1), Some (encode k1)).
  2:{ replace (length (encode k1) + 2)%nat with (S (S (length (encode k1)))) by lia.
      symmetry. apply (write_alone k1 (length (encode k1)) 0). lia. }
  cbn [fst snd]. rewrite run_false.
  replace (solo k2 (length (encode k2) + 2) AtCreate (Some (encode k1))) with (Done (Ok k2), Some (encode k2)).
  2:{ replace (length (encode k2) + 2)%nat with (S (S (length (encode k2)))) by lia.
      symmetry. apply (write_alone k2 (length (encode k2)) 0). lia. }
  cbn [fst snd w1 w2 wf]. auto.
Qed.

(** The second call finds the file while the first is still writing it: it
    fails (if no beginning of an encoding decodes, as with bincode). *)
Hypothesis no_prefix : forall k n, (n < length (encode k))%nat -> decode (firstn n (encode k)) = None.

Theorem C50_partial_read_refuted : forall n, (n < length (encode k1))%nat ->
  let sched := repeat true (2 + n) ++ [false; false] ++ repeat true (S (length (encode k1) - n)) in
  let w := run sched (start None) in
  w1 w = Done (Ok k1) /\ w2 w = Done (Err E_decode) /\ wf w = Some (encode k1).
Proof.
  intros n Hn sched w. subst w sched. rewrite run_app. unfold start. rewrite run_true.
  assert (E : forall m i, (i + m <= length (encode k1))%nat ->
    solo k1 m (Writing i) (Some (firstn i (encode k1))) = (Writing (i + m), Some (firstn (i + m) (encode k1)))).
  { induction m as [|m IH]; intros i Hi; cbn [solo]; [rewrite Nat.add_0_r; reflexivity|]. cbn [key_step].
    destruct (nth_error (encode k1) i) as [b|] eqn:E; [|apply nth_error_None in E; lia].
    rewrite (write_prefix k1 i b E), IH by lia. rewrite Nat.add_succ_comm. reflexivity. }
  change (solo k1 (2 + n) AtCheck None) with (solo k1 n (Writing 0) (Some (firstn 0 (encode k1)))).
  rewrite (E n 0%nat) by lia. cbn [fst snd]. rewrite Nat.add_0_l. rewrite run_app.
  change [false; false] with (repeat false 2). rewrite run_false. cbn [solo key_step fst snd]. rewrite (no_prefix k1 n Hn).
  rewrite run_true. rewrite (write_alone k1 (length (encode k1) - n) n) by lia. cbn. auto.
Qed.

(** who generates, what the file then is, and who comes later *)
Local Definition gen (k : K) (st : stage (K := K)) : Prop := st = AtCreate \/ (exists i, st = Writing i) \/ st = Done (Ok k).
Local Definition own (k : K) (st : stage (K := K)) (f : option (list Z)) : Prop :=
  match st with
  | AtCreate => f = None
  | Writing i => f = Some (firstn i (encode k)) /\ (i <= length (encode k))%nat
  | Done _ => f = Some (encode k)
  | _ => False
  end.
Local Definition late (k : K) (st : stage (K := K)) : Prop :=
  st = AtCheck \/ st = AtRead \/ st = Done (Ok k) \/ st = Done (Err E_decode).

(** What can happen in any schedule, starting without a key file: a call that
    looked when there was no file ends with its own keys; a call that found
    the file of the other (which looked first) ends with the other's keys, or
    with a failure to decode. *)
Theorem C50_outcomes : forall sched r1 r2,
  w1 (run sched (start None)) = Done r1 -> w2 (run sched (start None)) = Done r2 ->
  (r1 = Ok k1 /\ r2 = Ok k2) \/
  (r1 = Ok k1 /\ (r2 = Ok k1 \/ r2 = Err E_decode)) \/
  (r2 = Ok k2 /\ (r1 = Ok k2 \/ r1 = Err E_decode)).
Proof.
  intros sched r1 r2.
  set (Inv := fun w : world (K := K) =>
    (w1 w = AtCheck /\ w2 w = AtCheck /\ wf w = None) \/
    (gen k1 (w1 w) /\ gen k2 (w2 w)) \/
    (gen k1 (w1 w) /\ own k1 (w1 w) (wf w) /\ late k1 (w2 w) /\ (w1 w = AtCreate -> w2 w = AtCheck)) \/
    (gen k2 (w2 w) /\ own k2 (w2 w) (wf w) /\ late k2 (w1 w) /\ (w2 w = AtCreate -> w1 w = AtCheck))).
  assert (Hgen : forall k st f, gen k st -> gen k (fst (key_step encode decode k st f))).
  { intros k st f [ -> |[[i ->]| -> ]]; cbn [key_step].
    - right. left. eexists. reflexivity.
    - destruct (nth_error (encode k) i); [right; left; eexists; reflexivity|right; right; reflexivity].
    - right. right. reflexivity. }
  assert (Hown : forall k st f, gen k st -> own k st f ->
    own k (fst (key_step encode decode k st f)) (snd (key_step encode decode k st f)) /\ fst (key_step encode decode k st f) <> AtCreate).
  { intros k st f [ -> |[[i ->]| -> ]] Ho; cbn [key_step own] in *.
    - split; [|discriminate]. split; [reflexivity|lia].
    - destruct Ho as [-> Hi]. destruct (nth_error (encode k) i) as [b|] eqn:E; cbn [fst snd].
      + split; [|discriminate]. split; [f_equal; apply write_prefix; auto|].
        assert (i < length (encode k))%nat by (apply nth_error_Some; congruence). lia.
      + split; [|discriminate]. apply nth_error_None in E. rewrite firstn_all2 by lia. reflexivity.
    - split; [exact Ho|discriminate]. }
  (* the late call reads a prefix of the encoding *)
  assert (Hread : forall k st f st', gen k st -> own k st f -> st' = AtRead -> st <> AtCreate -> forall k',
    late k (fst (key_step encode decode k' st' f)) /\ snd (key_step encode decode k' st' f) = f).
  { intros k st f st' Hg Ho -> Hc k'. cbn [key_step fst snd]. split; [|reflexivity].
    destruct Hg as [ -> |[[i ->]| -> ]]; [congruence| |]; cbn [own] in Ho.
    - destruct Ho as [-> Hi]. destruct (Nat.eq_dec i (length (encode k))) as [ -> |Hn].
      + rewrite firstn_all, round_trip. unfold late. auto.
      + rewrite no_prefix by lia. unfold late. auto.
    - subst f. rewrite round_trip. unfold late. auto. }
  assert (Hsome : forall k st f, gen k st -> own k st f -> st <> AtCreate -> exists c, f = Some c).
  { intros k st f [ -> |[[i ->]| -> ]] Ho Hc; [congruence| |]; cbn [own] in Ho; [destruct Ho as [-> _]|]; eauto. }
  assert (HI : Inv (run sched (start None))).
  { induction sched as [|b sched IH] using rev_ind; [left; auto|]. rewrite run_app.
    destruct (run sched (start None)) as [a1 a2 f]. unfold schedule. cbn [fold_left]. unfold Inv in IH. cbn [w1 w2 wf] in IH.
    unfold turn. cbn [w1 w2 wf].
    destruct IH as [[-> [-> ->]]|[[G1 G2]|[[G1 [O1 [L2 X]]]|[G2 [O2 [L1 X]]]]]].
    - destruct b; cbn [key_step].
      + right. right. left. cbn [w1 w2 wf]. unfold gen, own, late. auto 8.
      + right. right. right. cbn [w1 w2 wf]. unfold gen, own, late. auto 8.
    - right. left. destruct b.
      + pose proof (Hgen k1 a1 f G1). destruct (key_step encode decode k1 a1 f) as [a f']. cbn [w1 w2 fst] in *. auto.
      + pose proof (Hgen k2 a2 f G2). destruct (key_step encode decode k2 a2 f) as [a f']. cbn [w1 w2 fst] in *. auto.
    - destruct b.
      + right. right. left. pose proof (Hgen k1 a1 f G1). destruct (Hown k1 a1 f G1 O1) as [H1 H2].
        destruct (key_step encode decode k1 a1 f) as [a f']. cbn [w1 w2 wf fst snd] in *. intuition.
      + destruct L2 as [ -> |[ -> |[ -> | -> ]]].
        * cbn [key_step]. destruct f as [c|].
          -- right. right. left. cbn [w1 w2 wf]. split; auto. split; auto. split; [unfold late; auto|].
             intros E. subst a1. cbn [own] in O1. discriminate.
          -- right. left. cbn [w1 w2]. split; auto. unfold gen. auto.
        * assert (Hc : a1 <> AtCreate) by (intros E; specialize (X E); discriminate).
          destruct (Hread k1 a1 f AtRead G1 O1 eq_refl Hc k2) as [H1 H2].
          right. right. left. destruct (key_step encode decode k2 AtRead f) as [a f']. cbn [w1 w2 wf fst snd] in *. subst f'.
          split; auto. split; auto. split; auto. intros E. congruence.
        * right. right. left. cbn [key_step w1 w2 wf]. unfold late. auto 8.
        * right. right. left. cbn [key_step w1 w2 wf]. unfold late. auto 8.
    - destruct b.
      + destruct L1 as [ -> |[ -> |[ -> | -> ]]].
        * cbn [key_step]. destruct f as [c|].
          -- right. right. right. cbn [w1 w2 wf]. split; auto. split; auto. split; [unfold late; auto|].
             intros E. subst a2. cbn [own] in O2. discriminate.
          -- right. left. cbn [w1 w2]. split; auto. unfold gen. auto.
        * assert (Hc : a2 <> AtCreate) by (intros E; specialize (X E); discriminate).
          destruct (Hread k2 a2 f AtRead G2 O2 eq_refl Hc k1) as [H1 H2].
          right. right. right. destruct (key_step encode decode k1 AtRead f) as [a f']. cbn [w1 w2 wf fst snd] in *. subst f'.
          split; auto. split; auto. split; auto. intros E. congruence.
        * right. right. right. cbn [key_step w1 w2 wf]. unfold late. auto 8.
        * right. right. right. cbn [key_step w1 w2 wf]. unfold late. auto 8.
      + right. right. right. pose proof (Hgen k2 a2 f G2). destruct (Hown k2 a2 f G2 O2) as [H1 H2].
        destruct (key_step encode decode k2 a2 f) as [a f']. cbn [w1 w2 wf fst snd] in *. intuition. }
  intros E1 E2. unfold Inv in HI. rewrite E1, E2 in HI.
  assert (Gd : forall k r, gen k (Done r) -> r = Ok k).
  { intros k r [H|[[i H]|H]]; congruence. }
  assert (Ld : forall k r, late k (Done r) -> r = Ok k \/ r = Err E_decode).
  { intros k r [H|[H|[H|H]]]; try discriminate; inversion H; auto. }
  destruct HI as [[H _]|[[H1 H2]|[[H1 [_ [H2 _]]]|[H2 [_ [H1 _]]]]]]; [discriminate|..].
  - left. auto.
  - right. left. auto.
  - right. right. auto.
Qed.
End C50.

(** Two calls writing at the same time can leave any mixture of the two
    encodings behind. *)
Fixpoint mix (pick : list bool) (a b : list Z) : list Z :=
  match pick, a, b with
  | p :: pick, x :: a, y :: b => (if p then x else y) :: mix pick a b
  | _, _, _ => []
  end.
Theorem C50_mixture_refuted : forall {K} (encode : K -> list Z) decode k1 k2 pick,
  length (encode k1) = length pick -> length (encode k2) = length pick ->
  exists sched, let w := schedule encode decode k1 k2 sched (start None) in
    w1 w = Done (Ok k1) /\ w2 w = Done (Ok k2) /\ wf w = Some (mix pick (encode k1) (encode k2)).
Proof.
  intros K encode decode k1 k2 pick L1 L2.
  exists ([true; false; true; false] ++ flat_map (fun p : bool => if p then [false; true] else [true; false]) pick ++ [true; false]).
  set (sch := schedule encode decode k1 k2).
  assert (App : forall a b w, sch (a ++ b) w = sch b (sch a w)) by (intros; apply fold_left_app).
  rewrite App. change (sch [true; false; true; false] (start None)) with (mkWorld (K := K) (Writing 0) (Writing 0) (Some [])).
  assert (G : forall pick done e1 e2 m, encode k1 = done ++ e1 -> length m = length done ->
    (exists d2, encode k2 = d2 ++ e2 /\ length d2 = length done) -> length e1 = length pick -> length e2 = length pick ->
    sch (flat_map (fun p : bool => if p then [false; true] else [true; false]) pick)
      (mkWorld (Writing (length done)) (Writing (length done)) (Some m)) =
    mkWorld (Writing (length (encode k1))) (Writing (length (encode k1))) (Some (m ++ mix pick e1 e2))).
  { clear L1 L2 pick. induction pick as [|p pick IH]; intros dn e1 e2 m H1 Hm [d2 [H2 Hd]] N1 N2.
    - destruct e1; [|discriminate]. cbn. rewrite H1, !app_nil_r. reflexivity.
    - destruct e1 as [|x e1]; [discriminate|]. destruct e2 as [|y e2]; [discriminate|].
      assert (X1 : nth_error (encode k1) (length dn) = Some x) by (rewrite H1, nth_error_app2, Nat.sub_diag by lia; reflexivity).
      assert (X2 : nth_error (encode k2) (length dn) = Some y) by (rewrite H2, <- Hd, nth_error_app2, Nat.sub_diag by lia; reflexivity).
      assert (W : forall z, write_at m (length dn) z = m ++ [z]).
      { intros z. rewrite <- Hm. unfold write_at. rewrite firstn_all, Nat.sub_diag, skipn_all2 by lia. reflexivity. }
      assert (W2 : forall z z', write_at (m ++ [z]) (length dn) z' = m ++ [z']).
      { intros z z'. rewrite <- Hm. unfold write_at. rewrite firstn_app, firstn_all, Nat.sub_diag.
        rewrite app_length. replace (length m - _)%nat with 0%nat by (cbn; lia).
        rewrite skipn_all2 by (rewrite app_length; cbn; lia). cbn [firstn repeat app]. rewrite app_nil_r. reflexivity. }
      cbn [flat_map]. rewrite App.
      replace (sch (if p then [false; true] else [true; false]) (mkWorld (Writing (length dn)) (Writing (length dn)) (Some m)))
        with (mkWorld (K := K) (Writing (length (dn ++ [x]))) (Writing (length (dn ++ [x]))) (Some (m ++ [if p then x else y]))).
      + rewrite (IH (dn ++ [x]) e1 e2); [rewrite <- app_assoc; reflexivity|..].
        * rewrite <- app_assoc. exact H1.
        * rewrite !app_length. cbn. lia.
        * exists (d2 ++ [y]). rewrite <- app_assoc, !app_length. cbn. auto.
        * cbn in N1. lia.
        * cbn in N2. lia.
      + rewrite app_length. cbn [length]. rewrite Nat.add_1_r.
        destruct p; unfold sch, schedule; cbn [fold_left]; unfold turn; cbn [w1 w2 wf key_step]; rewrite ?X1, ?X2;
          cbn [w1 w2 wf key_step]; rewrite ?X1, ?X2, W; cbn [w1 w2 wf]; rewrite W2; reflexivity. }
  rewrite App. pose proof (G pick [] (encode k1) (encode k2) [] eq_refl eq_refl (ex_intro _ [] (conj eq_refl eq_refl)) L1 L2) as G0.
  cbn [length app] in G0. rewrite G0.
  unfold sch, schedule. cbn [fold_left]. unfold turn. cbn [w1 w2 wf key_step].
  replace (nth_error (encode k1) (length (encode k1))) with (@None Z) by (symmetry; apply nth_error_None; lia).
  cbn [w1 w2 wf key_step].
  replace (nth_error (encode k2) (length (encode k1))) with (@None Z) by (symmetry; apply nth_error_None; lia).
  cbn. auto.
Qed.

(** A key type with a codec meeting the hypotheses of C50: two bytes and a
    length. Schedules with each of the outcomes. *)
Definition ex_encode (k : Z * Z) : list Z := [2; fst k; snd k].
Definition ex_decode (l : list Z) : option (Z * Z) := match l with [2; a; b] => Some (a, b) | _ => None end.
Example C50_example_codec : (forall k, ex_decode (ex_encode k) = Some k) /\
  (forall k n, (n < length (ex_encode k))%nat -> ex_decode (firstn n (ex_encode k)) = None).
Proof.
  split; [intros [a b]; reflexivity|].
  intros [a b] n Hn. cbn in Hn. destruct n as [|[|[|n]]]; try reflexivity. lia.
Qed.
Example C50_example_runs :
  let run sched := schedule ex_encode ex_decode (1, 2) (3, 4) sched (start None) in
  run [true; true; true; true; true; true; false; false] = mkWorld (Done (Ok (1, 2))) (Done (Ok (1, 2))) (Some [2; 1; 2]) /\
  run [true; true; true; false; false; true; true; true] = mkWorld (Done (Ok (1, 2))) (Done (Err E_decode)) (Some [2; 1; 2]) /\
  run [true; false; true; false; true; true; false; false; false; true; false; true] =
    mkWorld (Done (Ok (1, 2))) (Done (Ok (3, 4))) (Some [2; 3; 2]).
Proof. vm_compute. auto. Qed.

Print Assumptions C48_numbers.
Print Assumptions C48_size_refuted.
Print Assumptions C48_pos_max_zero.
Print Assumptions C48_large.
Print Assumptions C48_shipped.
Print Assumptions C48_meaning.
Print Assumptions C01_own_randomness.
Print Assumptions C03_no_key.
Print Assumptions C03_no_key_trivial.
Print Assumptions C41_noisy.
Print Assumptions C50_existing.
Print Assumptions C50_sequential.
Print Assumptions C50_same_keys_refuted.
Print Assumptions C50_partial_read_refuted.
Print Assumptions C50_outcomes.
Print Assumptions C50_mixture_refuted.
