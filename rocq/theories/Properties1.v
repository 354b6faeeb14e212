(** Properties C01-C08 and C40: words, codec, lookup tables, encryption.
    Every theorem is followed by a concrete instance of its hypotheses. *)
From Verif Require Import Base Backend Words Encryption Params Pbs Spec Contract
  BaseProofs WordsProofs PbsProofs ValueProofs AddProofs BitsProofs EncProofs SgnProofs MulProofs
  RoundProofs TableProofs Instances.
From Coq Require Import ZifyBool ZifyNat.

(* ------------------------------------------------------------------ *)
(** ** C01: encrypt/decrypt round trip *)

Theorem C01_round_trip : forall B qw (C : contract B qw) cl, client_ok C cl ->
  forall o seeds m w, - 2^63 < m < 2^63 -> (w <= 63)%nat ->
  exists c, parm_encrypt cl o seeds m w = (Ok c, []) /\ length c = w /\
    parm_decrypt cl o c = (Ok (Z.sgn m * (Z.abs m mod 2 ^ Z.of_nat w)), []).
Proof.
  intros B qw C cl Hcl o seeds m w Hm Hw.
  destruct (encrypt_ok C cl Hcl o seeds m w) as [c [H1 [H2 [H3 _]]]]; auto.
  { unfold I64_MIN, I64_MAX. lia. }
  exists c. split; [exact H1|]. split; auto.
  rewrite (decrypt_ok C cl Hcl o c _ H3) by lia. reflexivity.
Qed.
Print Assumptions C01_round_trip.

Theorem C01_identity : forall B qw (C : contract B qw) cl, client_ok C cl ->
  forall o seeds m w, - 2^63 < m < 2^63 -> (w <= 63)%nat -> Z.abs m < 2 ^ Z.of_nat w ->
  exists c, parm_encrypt cl o seeds m w = (Ok c, []) /\ length c = w /\
    parm_decrypt cl o c = (Ok m, []).
Proof.
  intros B qw C cl Hcl o seeds m w Hm Hw Hs.
  destruct (C01_round_trip B qw C cl Hcl o seeds m w Hm Hw) as [c [H1 [H2 H3]]].
  exists c. split; [exact H1|]. split; auto.
  rewrite Z.mod_small in H3 by lia. rewrite H3. repeat f_equal. lia.
Qed.
Print Assumptions C01_identity.

Theorem C01_min_checked : forall B (cl : client B) seeds w,
  fst (parm_encrypt cl true seeds (- 2^63) w) = Panic P_overflow.
Proof. intros B cl. exact (encrypt_min_checked cl). Qed.
Print Assumptions C01_min_checked.

Theorem C01_min_unchecked : forall B qw (C : contract B qw) cl, client_ok C cl ->
  forall seeds w, (w <= 63)%nat ->
  exists c, parm_encrypt cl false seeds (- 2^63) w = (Ok c, []) /\ length c = w /\
    parm_decrypt cl false c = (Ok 0, []).
Proof.
  intros B qw C cl Hcl seeds w Hw.
  destruct (encrypt_min_unchecked C cl Hcl seeds w Hw) as [c [H1 [H2 H3]]].
  exists c. split; [exact H1|]. split; auto.
  rewrite (decrypt_ok C cl Hcl false c _ H3) by lia. reflexivity.
Qed.
Print Assumptions C01_min_unchecked.

(** -1000 in 12 and in 5 words, with masks and noise *)
Example C01_example_12 :
  match parm_encrypt noisy_client true ex_seeds (-1000) 12 with
  | (Ok c, []) => length c = 12%nat /\ parm_decrypt noisy_client true c = (Ok (-1000), [])
  | _ => False
  end.
Proof. split; vm_compute; reflexivity. Qed.
Example C01_example_5 :
  match parm_encrypt noisy_client true ex_seeds (-1000) 5 with
  | (Ok c, []) => parm_decrypt noisy_client true c = (Ok (-8), [])
  | _ => False
  end.
Proof. vm_compute. reflexivity. Qed.
Example C01_contract_met : client_ok (noisy_contract 100) noisy_client.
Proof. exact (noisy_client_ok 100). Qed.

(* ------------------------------------------------------------------ *)
(** ** C02: encrypt_vec accepts exactly the alphabet *)

Theorem C02_accepts : forall B qw (C : contract B qw) cl, client_ok C cl ->
  forall seeds mv, Forall (fun d => d = -1 \/ d = 0 \/ d = 1) mv ->
  exists c, parm_encrypt_from_vec cl seeds mv = (Ok c, []) /\
    parm_decrypt_to_vec cl c = (Ok mv, []) /\
    ((length mv <= 63)%nat -> forall o, parm_decrypt cl o c = (Ok (value mv), [])).
Proof.
  intros B qw C cl Hcl seeds mv Hmv.
  assert (Hd : digits mv).
  { unfold digits. eapply Forall_impl; [|exact Hmv]. unfold digit. cbn. intros; lia. }
  destruct (encrypt_from_vec_ok C cl Hcl seeds mv Hd) as [c [H1 [[H2 H3] _]]].
  pose proof (l1_need_8 (qw := qw)) as H8.
  exists c. split; [exact H1|]. split.
  - rewrite (decrypt_vec_ok C cl Hcl c mv 1); auto; lia.
  - intros Hlen o. rewrite (decrypt_ok_k C cl Hcl o c mv 1); auto; try lia.
    rewrite <- (encrypts_len C c mv) by (split; auto). lia.
Qed.
Print Assumptions C02_accepts.

Theorem C02_rejects : forall B qw (C : contract B qw) cl, client_ok C cl ->
  forall seeds mv, ~ Forall (fun d => d = -1 \/ d = 0 \/ d = 1) mv ->
  fst (parm_encrypt_from_vec cl seeds mv) = Err E_enc_alphabet.
Proof.
  intros B qw C cl Hcl seeds mv Hmv. apply encrypt_from_vec_bad.
  intros Hd. apply Hmv. eapply Forall_impl; [|exact Hd]. unfold digit. cbn. intros; lia.
Qed.
Print Assumptions C02_rejects.

Example C02_example : 
  match parm_encrypt_from_vec noisy_client ex_seeds [1; -1; 0; 1; 1; -1] with
  | (Ok c, []) => parm_decrypt_to_vec noisy_client c = (Ok [1; -1; 0; 1; 1; -1], []) /\
                  parm_decrypt noisy_client true c = (Ok (-9), [])
  | _ => False
  end.
Proof. vm_compute. auto. Qed.
Example C02_example_bad :
  fst (parm_encrypt_from_vec noisy_client ex_seeds [1; -1; 2; 1]) = Err E_enc_alphabet.
Proof. reflexivity. Qed.

(* ------------------------------------------------------------------ *)
(** ** C03: decryption is total, exact and guarded *)

(** [chk_i64 true] turns any intermediate overflow into a panic, so the first
    statement with [o = true] also says that no intermediate sum overflows. *)
Theorem C03_exact : forall o mv, Forall (fun d => d = -1 \/ d = 0 \/ d = 1) mv ->
  (length mv <= 63)%nat -> convert_from_vec o mv = (Ok (value mv), []).
Proof.
  intros o mv Hmv Hl. apply convert_from_vec_ok; auto.
  eapply Forall_impl; [|exact Hmv]. unfold digit. cbn. intros; lia.
Qed.
Print Assumptions C03_exact.

Theorem C03_too_long : forall o mv, (64 <= length mv)%nat ->
  convert_from_vec o mv = (Err E_too_long, []).
Proof. intros o mv H. apply convert_from_vec_long. lia. Qed.
Print Assumptions C03_too_long.

Theorem C03_alphabet : forall o mv, ~ Forall (fun d => d = -1 \/ d = 0 \/ d = 1) mv ->
  (length mv <= 63)%nat -> fst (convert_from_vec o mv) = Err E_dec_alphabet.
Proof.
  intros o mv Hmv Hl. apply convert_from_vec_bad; auto.
  intros Hd. apply Hmv. eapply Forall_impl; [|exact Hd]. unfold digit. cbn. intros; lia.
Qed.
Print Assumptions C03_alphabet.

Theorem C03_reachable : forall v, - 2^63 < v < 2^63 ->
  exists mv, length mv = 63%nat /\ forall o, convert_from_vec o mv = (Ok v, []).
Proof.
  intros v Hv.
  pose proof (convert_to_vec_ok true v 63) as H.
  exists (map (fun i => sgnz v * bitz (Z.abs v) i) (seq 0 63)).
  split; [rewrite map_length, seq_length; reflexivity|]. intros o.
  rewrite convert_from_vec_ok; [|apply digits_map_seq|rewrite map_length, seq_length; lia].
  - unfold ret. repeat f_equal. rewrite value_scale, bitz_sum, sgnz_sgn.
    rewrite Z.mod_small; [lia|]. change (Z.of_nat 63) with 63. lia.
  - intros i. pose proof (bitz_range (Z.abs v) i). unfold digit, sgnz. destruct (0 <=? v); lia.
Qed.
Print Assumptions C03_reachable.

(** ... and the length guard is what makes it total: i64::MIN is not reachable *)
Theorem C03_min_unreachable : forall o mv t, Forall (fun d => d = -1 \/ d = 0 \/ d = 1) mv ->
  convert_from_vec o mv <> (Ok (- 2^63), t).
Proof.
  intros o mv t Hmv. destruct (le_lt_dec (length mv) 63) as [H|H].
  - rewrite C03_exact by auto. intros E. injection E as E _.
    assert (Hd : digits mv).
    { eapply Forall_impl; [|exact Hmv]. unfold digit. cbn. intros; lia. }
    pose proof (value_bound mv Hd) as Hb.
    assert (2 ^ Z.of_nat (length mv) <= 2 ^ 63) by (apply Z.pow_le_mono_r; lia). lia.
  - rewrite C03_too_long by lia. discriminate.
Qed.
Print Assumptions C03_min_unreachable.

Example C03_example : convert_from_vec true (repeat 1 63) = (Ok (2^63 - 1), []).
Proof. vm_compute. reflexivity. Qed.
Example C03_example_neg : convert_from_vec true (repeat (-1) 62 ++ [-1]) = (Ok (- 2^63 + 1), []).
Proof. vm_compute. reflexivity. Qed.
Example C03_example_long : convert_from_vec true (repeat 0 64) = (Err E_too_long, []).
Proof. vm_compute. reflexivity. Qed.
Example C03_example_bad : fst (convert_from_vec true [1; 0; -2]) = Err E_dec_alphabet.
Proof. vm_compute. reflexivity. Qed.

(* ------------------------------------------------------------------ *)
(** ** C04: word codec *)

Theorem C04_tolerance : forall k m e, 1 <= k <= 30 -> - 2^(63 - k) <= e < 2^(63 - k) ->
  centred (2^k) m (pt_to_mi (2^k) (u64 (mi_to_pt (2^k) m + e))).
Proof.
  intros k m e Hk He. unfold pt_to_mi.
  rewrite (pt_to_mu_near k m e); try lia; [|apply u64_range|].
  - rewrite mu_to_mi_mod by (pose proof (Z.pow_pos_nonneg 2 k); lia).
    apply mu_to_mi_centred. lia.
  - eapply teq_trans; [apply teq_u64|]. apply teq_add; [apply mi_to_pt_teq; lia|apply teq_refl].
Qed.
Print Assumptions C04_tolerance.

Theorem C04_round_trip : forall k m, 1 <= k <= 30 ->
  0 <= mi_to_pt (2^k) m < 2^64 /\ centred (2^k) m (pt_to_mi (2^k) (mi_to_pt (2^k) m)).
Proof.
  intros k m Hk. pose proof (mi_to_pt_range k m ltac:(lia)) as Hr. split; auto.
  pose proof (C04_tolerance k m 0 Hk) as H. rewrite Z.add_0_r in H.
  unfold u64 in H. rewrite Z.mod_small in H by auto. apply H.
  pose proof (Z.pow_pos_nonneg 2 (63 - k)). lia.
Qed.
Print Assumptions C04_round_trip.

(** an error of exactly half a step upward gives the next message *)
Theorem C04_half_step_fails : forall k m, 1 <= k <= 30 ->
  centred (2^k) (m + 1) (pt_to_mi (2^k) (u64 (mi_to_pt (2^k) m + 2^(63 - k)))).
Proof.
  intros k m Hk. unfold pt_to_mi.
  assert (E : 2^(64 - k) = 2 * 2^(63 - k)).
  { replace (64 - k) with (Z.succ (63 - k)) by lia. rewrite Z.pow_succ_r; lia. }
  pose proof (Z.pow_pos_nonneg 2 (63 - k) ltac:(lia) ltac:(lia)) as Hp.
  rewrite (pt_to_mu_near k (m + 1) (- 2^(63 - k))); try lia; [|apply u64_range|].
  - rewrite mu_to_mi_mod by (pose proof (Z.pow_pos_nonneg 2 k); lia).
    apply mu_to_mi_centred. lia.
  - eapply teq_trans; [apply teq_u64|].
    replace ((m + 1) * 2^(64 - k) + - 2^(63 - k)) with (m * 2^(64 - k) + 2^(63 - k)) by lia.
    apply teq_add; [apply mi_to_pt_teq; lia|apply teq_refl].
Qed.
Print Assumptions C04_half_step_fails.

(** the centred residue is unique, so the statements above determine the result *)
Theorem C04_centred_unique : forall p m r r', 0 < p -> centred p m r -> centred p m r' -> r = r'.
Proof.
  intros p m r r' Hp [[q Hq] Hr] [[q' Hq'] Hr']. assert (q = q') by nia. subst q'. lia.
Qed.
Print Assumptions C04_centred_unique.

(** the same for encrypted words: any noise below half a step is removed *)
Theorem C04_decrypt : forall B qw (C : contract B qw) cl, client_ok C cl ->
  forall c m e, teq (phase C c) (m * 2^59 + e) -> - 2^58 <= e < 2^58 ->
  exists r, decrypt_mi (Some cl) (Ct c) = (Ok r, []) /\ centred 32 m r.
Proof.
  intros B qw C cl Hcl c m e Hp He. exists (mu_to_mi 32 m). split.
  - unfold decrypt_mi. simpl decrypt_mu. rewrite ret_bind.
    rewrite (dec_phase C cl Hcl c m e Hp) by (unfold step; change (2^59/2) with (2^58); lia).
    change MSG_MOD with 32. rewrite mu_to_mi_mod by lia. reflexivity.
  - apply (mu_to_mi_centred 5). lia.
Qed.
Print Assumptions C04_decrypt.

Example C04_example : pt_to_mi 32 (u64 (mi_to_pt 32 (-7) + (2^58 - 1))) = -7 /\
  pt_to_mi 32 (u64 (mi_to_pt 32 (-7) - 2^58)) = -7 /\
  pt_to_mi 32 (u64 (mi_to_pt 32 (-7) + 2^58)) = -6 /\
  pt_to_mi 32 (mi_to_pt 32 17) = -15 /\ pt_to_mi (2^30) (mi_to_pt (2^30) (2^29)) = - 2^29.
Proof. vm_compute. auto. Qed.
Example C04_decrypt_example : exists c : ct noisy,
  teq (phase (noisy_contract 100) c) (5 * 2^59 + (2^58 - 1)) /\ c <> ([], 5 * 2^59).
Proof. exists ([2^63; 3], 5 * 2^59 + 2^58 - 1 + 2^63). split; [exists 0; vm_compute; reflexivity|discriminate]. Qed.

(* ------------------------------------------------------------------ *)
(** ** C05: word-level linear operations *)

Section C05.
Context {B : backend} {qw : Z} (C : contract B qw) (cl : client B) (Hcl : client_ok C cl).

(** [w] decrypts to the centred residue of [m] *)
Definition decrypts_to (w : word B) (m : Z) : Prop :=
  exists r, decrypt_mi (Some cl) w = (Ok r, []) /\ centred 32 m r.

Lemma decrypts_of : forall w m k, 0 <= k -> k * nB C < 2^58 -> wmsg C w m k -> decrypts_to w m.
Proof.
  intros w m k Hk Hn Hw. exists (mu_to_mi 32 m).
  split; [apply (decrypt_mi_half C cl w m k); auto|apply (mu_to_mi_centred 5); lia].
Qed.

Theorem C05_add : forall a b m n k l, 0 <= k -> 0 <= l -> (k + l) * nB C < 2^58 ->
  wmsg C a m k -> wmsg C b n l ->
  wmsg C (w_add a b) (m + n) (k + l) /\ decrypts_to (w_add a b) (m + n) /\
  is_triv (w_add a b) = is_triv a && is_triv b.
Proof.
  intros a b m n k l Hk Hl Hn Ha Hb.
  pose proof (wmsg_add C a b m n k l Hk Hl Ha Hb) as H. split; auto.
  split; [apply (decrypts_of _ _ (k + l)); auto; lia|apply is_triv_w_add].
Qed.

Theorem C05_sub : forall a b m n k l, 0 <= k -> 0 <= l -> (k + l) * nB C < 2^58 ->
  wmsg C a m k -> wmsg C b n l ->
  wmsg C (w_sub a b) (m - n) (k + l) /\ decrypts_to (w_sub a b) (m - n) /\
  is_triv (w_sub a b) = is_triv a && is_triv b.
Proof.
  intros a b m n k l Hk Hl Hn Ha Hb.
  pose proof (wmsg_sub C a b m n k l Hk Hl Ha Hb) as H. split; auto.
  split; [apply (decrypts_of _ _ (k + l)); auto; lia|apply is_triv_w_sub].
Qed.

Theorem C05_opp : forall a m k, 0 <= k -> k * nB C < 2^58 -> wmsg C a m k ->
  wmsg C (w_opp a) (- m) k /\ decrypts_to (w_opp a) (- m) /\ is_triv (w_opp a) = is_triv a.
Proof.
  intros a m k Hk Hn Ha. pose proof (wmsg_opp C a m k Ha) as H. split; auto.
  split; [apply (decrypts_of _ _ k); auto|apply is_triv_w_opp].
Qed.

(** any i32 constant but i32::MIN, in both build profiles *)
Theorem C05_mul_const : forall o a m k c, - 2^31 < c < 2^31 -> 0 <= k ->
  k * Z.abs c * nB C < 2^58 -> wmsg C a m k ->
  exists r, w_mul_const_api o a c = (Ok r, []) /\ wmsg C r (m * c) (k * Z.abs c) /\
    decrypts_to r (m * c) /\ is_triv r = is_triv a.
Proof.
  intros o a m k c Hc Hk Hn Ha. exists (w_mul_const a c).
  pose proof (wmsg_mul C a m k c ltac:(lia) Ha) as H.
  split; [|split; [exact H|split; [apply (decrypts_of _ _ (k * Z.abs c)); auto; nia|apply is_triv_w_mul]]].
  unfold w_mul_const_api, chk_i32, in_i32, I32_MIN, I32_MAX.
  replace ((- 2^31 <=? Z.abs c) && (Z.abs c <=? 2^31 - 1)) with true by (symmetry; lia).
  rewrite ret_bind. reflexivity.
Qed.

Theorem C05_mul_const_min : forall a : word B,
  fst (w_mul_const_api true a (- 2^31)) = Panic P_overflow.
Proof. reflexivity. Qed.

(** half a step: the word then stands for a message between two integers *)
Theorem C05_add_half : forall a m k, wmsg C a m k ->
  wrep C (w_add_half a) (m * 2^59 + 2^58) k /\ is_triv (w_add_half a) = is_triv a.
Proof. intros a m k H. split; [apply wrep_half; auto|apply is_triv_w_half]. Qed.

Theorem C05_triv_zero : forall w m k, is_triv_zero w = true -> wmsg C w m k -> m mod 32 = 0.
Proof.
  intros [c|p] m k H Hw; [discriminate|]. simpl in H. apply Z.eqb_eq in H. subst p.
  destruct Hw as [_ [q Hq]]. unfold step in Hq.
  replace m with ((- q) * 32) by lia. apply Z.mod_mul. lia.
Qed.

End C05.
Print Assumptions C05_add.
Print Assumptions C05_sub.
Print Assumptions C05_opp.
Print Assumptions C05_mul_const.
Print Assumptions C05_mul_const_min.
Print Assumptions C05_add_half.
Print Assumptions C05_triv_zero.

(** 3 * 13 - 12 as encrypted/trivial mixes, decoded modulo 32 *)
Example C05_example :
  let e := encrypt_word noisy_client ([2^62; 99], 2^49) 13 in
  let t := @encrypt_word_triv noisy 12 in
  let run w := fst (decrypt_mi (Some noisy_client) w) in
  run (w_sub (w_mul_const e 3) t) = Ok (-5) /\ run (w_sub t (w_mul_const e (-3))) = Ok (-13) /\
  run (w_add t t) = Ok (-8) /\ is_triv (w_add t t) = true /\ is_triv (w_add t e) = false.
Proof. vm_compute. auto. Qed.
Example C05_hypotheses : 
  wmsg (noisy_contract 100) (encrypt_word noisy_client ([2^62; 99], 2^49) 13) 13 1 /\
  wmsg (noisy_contract 100) (@encrypt_word_triv noisy 12) 12 0 /\
  (1 * 3 + 0) * nB (noisy_contract 100) < 2^58.
Proof.
  split; [apply (encrypt_word_ok _ _ (noisy_client_ok 100))|].
  split; [apply wmsg_triv|vm_compute; reflexivity].
Qed.

(* ------------------------------------------------------------------ *)
(** ** C06: accumulator *)

(** The polynomial that Parmesan builds, for every ring degree N = 32 n and every
    table of (half-)integers: rotating by r returns the table entry of the box
    that r falls into, boxes being centred on multiples of 2 n = N/16. *)
Theorem C06_accumulator : forall n h, (0 < n)%nat -> (forall i, 0 <= nth i h 0 < 64) ->
  forall r, let acc := gen_no_padding_acc (32 * n) h in
  length acc = (32 * n)%nat /\
  teq (ncoef acc r) (negacyclic h ((r + Z.of_nat n) / (2 * Z.of_nat n)) * 2^58).
Proof.
  intros n h Hn Hh r acc. split; [apply (acc_length n Hn)|].
  pose proof (ncoef_acc n Hn h Hh r) as H. unfold box_of in H.
  unfold negacyclic in *. rewrite Z.mod_mod in H by lia. exact H.
Qed.
Print Assumptions C06_accumulator.

(** A bootstrap returns the entry of message m, with fresh noise that is bounded
    independently of the noise e of the input, as long as e and the modulus
    switching error together stay within half a box. *)
Theorem C06_lookup : forall B qw (C : contract B qw) (c : ct B) m e h,
  (forall i, 0 <= nth i h 0 < 64) ->
  teq (phase C c) (m * 2^59 + e) ->
  (let N2 := 2 * Z.of_nat (poly_size B) in Z.abs e * N2 + nMS C < 2^58 * N2) ->
  exists c' e', eval_LUT_5_half (Ct c) h = (Ok (Ct c'), [EPbs]) /\
    teq (phase C c') (negacyclic h m * 2^58 + e') /\ Z.abs e' <= nB C.
Proof.
  intros B qw C c m e h Hh Hp He.
  destruct (ct_lut_gen C c m e h Hh Hp He) as [e' [H1 H2]].
  exists (ct_lut B (gen_no_padding_acc (poly_size B) h) c), e'.
  split; [reflexivity|]. split; auto. lia.
Qed.
Print Assumptions C06_lookup.

(** integer tables: entry m for m < 16, minus entry m - 16 otherwise *)
Theorem C06_lookup_uint : forall B qw (C : contract B qw) (c : ct B) m e l,
  (forall i, 0 <= nth i l 0 < 32) -> 0 <= m < 32 ->
  teq (phase C c) (m * 2^59 + e) ->
  (let N2 := 2 * Z.of_nat (poly_size B) in Z.abs e * N2 + nMS C < 2^58 * N2) ->
  exists c' e', eval_LUT_5_uint (Ct c) l = (Ok (Ct c'), [EPbs]) /\
    teq (phase C c') ((if m <? 16 then nth (Z.to_nat m) l 0 else - nth (Z.to_nat (m - 16)) l 0) * 2^59 + e')
    /\ Z.abs e' <= nB C.
Proof.
  intros B qw C c m e l Hl Hm Hp He.
  destruct (C06_lookup B qw C c m e (map (fun v => 2 * v) l)) as [c' [e' [H1 [H2 H3]]]]; auto.
  { intros i. rewrite nth_map2. specialize (Hl i). lia. }
  exists c', e'. split; [exact H1|]. split; [|exact H3].
  rewrite negacyclic_map2 in H2. unfold negacyclic in H2. rewrite Z.mod_small in H2 by lia.
  match goal with |- teq _ (?x * 2^59 + _) => replace (x * 2^59) with (2 * x * 2^58) by lia end. exact H2.
Qed.
Print Assumptions C06_lookup_uint.

(** a table with distinct entries on the noisy backend, at both ends of the half box *)
Definition ex_tbl : list Z := [3;1;4;15;9;2;6;5;31;8;7;10;30;12;11;0].
Example C06_example :
  let run m e := match fst (eval_LUT_5_uint (B := noisy) (@Ct noisy ([2^60 + 1; 2^63], 2^60 + 1 + m * 2^59 + e)) ex_tbl) with
                 | Ok w => fst (decrypt_mi (Some noisy_client) w) | _ => Panic P_fuel end in
  run 0 (2^57) = Ok 3 /\ run 3 (- 2^57) = Ok 15 /\ run 8 0 = Ok (-1) /\ run 16 0 = Ok (-3) /\
  run 31 (2^57) = Ok 0 /\ run 21 0 = Ok (-2).
Proof. vm_compute. repeat split. Qed.
Example C06_hypotheses :
  teq (phase (noisy_contract 100) ([2^60 + 1; 2^63], 2^60 + 1 + 3 * 2^59 - 2^57)) (3 * 2^59 + - 2^57) /\
  let N2 := 2 * Z.of_nat (poly_size noisy) in
  Z.abs (- 2^57) * N2 + nMS (noisy_contract 100) < 2^58 * N2.
Proof. split; [exists 0|]; vm_compute; reflexivity. Qed.

(* ------------------------------------------------------------------ *)
(** ** C07: trivial and encrypted words under a table *)

Theorem C07_agree : forall B qw (C : contract B qw) cl, client_ok C cl ->
  forall (c : ct B) pt m k l, (forall i, 0 <= nth i l 0 < 32) -> 0 <= k <= l1_need qw ->
  wmsg C (Ct c) m k -> wmsg C (Triv pt) m k ->
  exists c' pt' r, fst (eval_LUT_5_uint (Ct c) l) = Ok (Ct c') /\
    eval_LUT_5_uint (Triv pt : word B) l = (Ok (Triv pt'), []) /\
    fst (decrypt_mi (Some cl) (Ct c')) = Ok r /\ fst (decrypt_mi (Some cl) (Triv pt')) = Ok r /\
    centred 32 (negacyclic l m) r.
Proof.
  intros B qw C cl Hcl c pt m k l Hl Hk Hc Hp.
  destruct (lut_uint_ok C (Ct c) m k l Hl Hk Hc) as [w [H1 [H2 H3]]].
  destruct (lut_uint_ok C (Triv pt) m k l Hl Hk Hp) as [v [V1 [V2 V3]]].
  destruct w as [c'|]; [|discriminate]. destruct v as [|pt']; [discriminate|].
  pose proof (l1_need_8 (qw := qw)) as H8.
  exists c', pt', (mu_to_mi 32 (negacyclic l m)).
  split; [rewrite H1; reflexivity|]. split; [exact V1|].
  rewrite (decrypt_mi_ok C cl (Ct c') (negacyclic l m) 1), (decrypt_mi_ok C cl (Triv pt') (negacyclic l m) 1);
    auto; try lia.
  split; [reflexivity|]. split; [reflexivity|]. apply (mu_to_mi_centred 5). lia.
Qed.
Print Assumptions C07_agree.

(** tables with halves: both branches stand for the same torus element *)
Theorem C07_agree_half : forall B qw (C : contract B qw) (c : ct B) pt m k h,
  (forall i, 0 <= nth i h 0 < 64) -> 0 <= k <= l1_need qw ->
  wmsg C (Ct c) m k -> wmsg C (Triv pt) m k ->
  exists c' pt' e, fst (eval_LUT_5_half (Ct c) h) = Ok (Ct c') /\
    fst (eval_LUT_5_half (Triv pt : word B) h) = Ok (Triv pt') /\
    teq pt' (negacyclic h m * 2^58) /\ teq (phase C c') (pt' + e) /\ Z.abs e <= nB C.
Proof.
  intros B qw C c pt m k h Hh Hk Hc Hp.
  destruct (lut_agree C c pt m k h Hh Hk Hc Hp) as [c' [pt' [H1 [H2 [t [[e [T1 T2]] [[_ T3] ->]]]]]]].
  exists c', pt', e. repeat split; auto; try lia.
  eapply teq_trans; [exact T1|]. apply teq_add; [apply teq_sym; auto|apply teq_refl].
Qed.
Print Assumptions C07_agree_half.

(** an entry of 33: the encrypted branch saturates (2^64 - 1, read as 0), the trivial
    branch wraps (33 mod 32 = 1) *)
Theorem C07_large_entry_refuted : exists l, (forall i, 0 <= nth i l 0 <= 33) /\
  exists (c : ct exact) pt, wmsg (exact_contract 100) (Ct c) 5 1 /\
    wmsg (exact_contract 100) (Triv pt) 5 1 /\
    exists c' pt', fst (eval_LUT_5_uint (Ct c) l) = Ok (Ct c') /\
      fst (eval_LUT_5_uint (Triv pt : word exact) l) = Ok (Triv pt') /\
      fst (decrypt_mi (Some exact_client) (Ct c')) = Ok 0 /\
      fst (decrypt_mi (Some exact_client) (Triv pt')) = Ok 1.
Proof.
  exists (repeat 33 16). split.
  { intros i. destruct (lt_dec i 16) as [H|H].
    - do 16 (destruct i as [|i]; [cbn; lia|]). lia.
    - rewrite nth_overflow by (rewrite repeat_length; lia). lia. }
  exists ([], 5 * 2^59), (5 * 2^59).
  split; [exists 0; split; [exists 0; reflexivity|vm_compute; discriminate]|].
  split; [split; [lia|exists 0; reflexivity]|].
  exists (ct_lut exact (gen_no_padding_acc 32 (repeat 66 16)) ([], 5 * 2^59)), (2^59).
  split; [reflexivity|]. split; [reflexivity|]. split; vm_compute; reflexivity.
Qed.
Print Assumptions C07_large_entry_refuted.

Example C07_example : 
  let c := @Ct noisy ([2^60 + 1; 2^63], 2^60 + 1 + 12 * 2^59) : word noisy in
  let t := @encrypt_word_triv noisy 12 in
  let run w := match fst (eval_LUT_5_uint w ex_tbl) with
               | Ok v => fst (decrypt_mi (Some noisy_client) v) | _ => Panic P_fuel end in
  run c = Ok (-2) /\ run t = Ok (-2).
Proof. vm_compute. auto. Qed.

(* ------------------------------------------------------------------ *)
(** ** C08: named lookup functions *)

Section C08.
Context {B : backend} {qw : Z} (C : contract B qw).

(** on every word, trivial or encrypted, standing for a message in [lo, hi] with
    admissible noise, F returns a word standing for f m with fresh noise *)
Definition computes (F : word B -> M (word B)) (lo hi : Z) (f : Z -> Z) : Prop :=
  forall c m k, 0 <= k <= l1_need qw -> lo <= m <= hi -> wmsg C c m k ->
  exists w, F c = (Ok w, if is_triv c then [] else [EPbs]) /\
            wmsg C w (f m) 1 /\ is_triv w = is_triv c.

Definition threshold (t m : Z) : Z := if t <=? m then 1 else if m <=? - t then -1 else 0.

Theorem C08_named_tables :
  computes id_pi_5 (-8) 8 (fun m => m) /\
  computes f_3_pi_5 (-13) 13 (threshold 3) /\
  computes f_4_pi_5 (-12) 12 (threshold 4) /\
  computes f_5_pi_5 (-11) 11 (threshold 5) /\
  (forall v, 0 <= v <= 31 ->
     computes (fun c => g_2_pi_5 c v) (-13) 13 (fun m => if m =? 2 then v else if m =? -2 then - v else 0) /\
     computes (fun c => f_1_pi_5 c v) (-15) 15 (fun m => v * Z.sgn m) /\
     computes (fun c => f_0_pi_5 c v) (-16) 15 (fun m => if 0 <=? m then v else - v)) /\
  computes a_2_pi_5 (-8) 7 (fun m => if 2 <=? Z.abs m then 1 else 0) /\
  computes a_1_pi_5 (-8) 7 (fun m => if 1 <=? Z.abs m then 1 else 0) /\
  computes round_2y_s_pi_5 (-14) 13 (fun m => if 2 <=? m then 1 else if m <=? -3 then -1 else 0) /\
  computes relu_plus_pi_5 (-12) 3 (fun m => if m <=? 0 then 0 else m - 2) /\
  computes nonneg_pi_5 (-16) 15 (fun m => if 0 <=? m then 1 else 0).
Proof.
  split; [exact (id_ok C)|]. split; [exact (f_3_ok C)|]. split; [exact (f_4_ok C)|].
  split; [exact (f_5_ok C)|]. split.
  { intros v Hv. split; [exact (g_2_ok C v Hv)|]. split; [exact (f_1v_ok C v Hv)|exact (f_0_ok C v Hv)]. }
  split; [exact (a_2_ok C)|]. split; [exact (a_1_ok C)|]. split; [exact (round_table_ok C)|].
  split; [exact (relu_plus_ok C)|].
  intros c m k Hk Hm Hc. exact (nonneg_ok C c m k Hk Hm Hc).
Qed.

(** bit [pos] of the square of m *)
Theorem C08_squ_bit : forall pos w m k, In pos [0; 1; 2; 3; 4; 5]%nat ->
  0 <= k <= l1_need qw -> -7 <= m <= 7 -> wmsg C w m k ->
  exists z, fst (squ_3_bit_pi_5 w pos) = Ok z /\
            wmsg C z ((m * m) / 2 ^ Z.of_nat pos mod 2) 1.
Proof.
  intros pos w m k Hp Hk Hm Hw.
  destruct (Nat.eq_dec pos 1) as [->|Hn].
  - eexists. split; [reflexivity|]. replace ((m * m) / 2 ^ Z.of_nat 1 mod 2) with 0.
    { apply wmsg_triv. }
    assert (Hc : forallb (fun m => (m * m) / 2 ^ Z.of_nat 1 mod 2 =? 0) (zrange (-7) 7) = true) by reflexivity.
    rewrite forallb_forall in Hc. specialize (Hc m (in_zrange _ _ _ Hm)). lia.
  - assert (Hp' : In pos [0; 2; 3; 4; 5]%nat) by (simpl in *; intuition).
    exact (squ_bit_ok C pos w m k Hp' Hk Hm Hw).
Qed.

Theorem C08_squ_bit_range : forall (w : word B) pos, (5 < pos)%nat ->
  fst (squ_3_bit_pi_5 w pos) = Panic P_squ_pos.
Proof. intros w pos H. do 6 (destruct pos as [|pos]; [lia|]). reflexivity. Qed.

(** digit product on 3x + y *)
Theorem C08_mul_bit : forall c x y k, -1 <= x <= 1 -> -1 <= y <= 1 -> 0 <= k <= l1_need qw ->
  wmsg C c (3 * x + y) k ->
  exists w, fst (mul_bit_pi_5 c) = Ok w /\ wmsg C w (x * y) 1.
Proof.
  intros c x y k Hx Hy Hk Hc. destruct (mul_bit_xy C c x y k Hx Hy Hk Hc) as [w [H1 H2]].
  exists w. rewrite H1. auto.
Qed.

(** selection on s + 2x + 6y *)
Theorem C08_max_selector : forall c s x y k, s = 0 \/ s = 1 -> -1 <= x <= 1 -> -1 <= y <= 1 ->
  0 <= k <= l1_need qw -> wmsg C c (s + 2 * x + 6 * y) k ->
  exists w, fst (max_s_2x_6y_pi_5 c) = Ok w /\ wmsg C w (if s =? 1 then x else y) 1.
Proof.
  intros c s x y k Hs Hx Hy Hk Hc.
  destruct (max_sxy C c s x y k ltac:(lia) Hx Hy Hk Hc) as [w [H1 H2]].
  exists w. rewrite H1. auto.
Qed.

(** the documented "X - 2 for X > 0" of ReLU+ stops at X = 3: 4 gives 0, not 2 *)
Theorem C08_relu_plus_4_refuted : forall c k, 0 <= k <= l1_need qw -> wmsg C c 4 k ->
  exists w, fst (relu_plus_pi_5 c) = Ok w /\ wmsg C w 0 1.
Proof.
  intros c k Hk Hc. destruct (relu_plus_4 C c 4 k Hk ltac:(lia) Hc) as [w [H1 [H2 _]]].
  exists w. rewrite H1. auto.
Qed.

End C08.
Print Assumptions C08_named_tables.
Print Assumptions C08_squ_bit.
Print Assumptions C08_squ_bit_range.
Print Assumptions C08_mul_bit.
Print Assumptions C08_max_selector.
Print Assumptions C08_relu_plus_4_refuted.

Example C08_example :
  let c m := @Ct noisy ([2^60 + 1; 2^63], 2^60 + 1 + m * 2^59 + 2^53) : word noisy in
  let run F m := match fst (F (c m)) with
               | Ok v => fst (decrypt_mi (Some noisy_client) v) | _ => Panic P_fuel end in
  run id_pi_5 (-8) = Ok (-8) /\ run f_4_pi_5 (-4) = Ok (-1) /\ run (fun c => g_2_pi_5 c 5) (-2) = Ok (-5) /\
  run a_2_pi_5 (-2) = Ok 1 /\ run nonneg_pi_5 (-1) = Ok 0 /\ run nonneg_pi_5 0 = Ok 1 /\
  run max_s_2x_6y_pi_5 (1 + 2 * (-1) + 6 * 1) = Ok (-1).
Proof. vm_compute. repeat split. Qed.
Example C08_hypotheses :
  wmsg (noisy_contract 100) (encrypt_word noisy_client ([2^62; 99], 2^49) (-8)) (-8) 1.
Proof. apply (encrypt_word_ok _ _ (noisy_client_ok 100)). Qed.

(* ------------------------------------------------------------------ *)
(** ** C40: bit lengths and Hamming weight *)

Theorem C40_bit_len_32 : forall k, 0 <= k < 2^32 ->
  (k = 0 -> bit_len_32 k = 0%nat) /\
  (k <> 0 -> (0 < bit_len_32 k)%nat /\
     2 ^ (Z.of_nat (bit_len_32 k) - 1) <= k < 2 ^ Z.of_nat (bit_len_32 k)).
Proof.
  intros k Hk. destruct (bit_len_32_ok k Hk) as [[H1 H2]|[H1 H2]].
  - split; intros; [auto|lia].
  - replace (Z.of_nat (bit_len_32 k - 1)) with (Z.of_nat (bit_len_32 k) - 1) in H2 by lia.
    split; intros H; [|auto]. subst k. exfalso.
    pose proof (Z.pow_pos_nonneg 2 (Z.of_nat (bit_len_32 0) - 1)). lia.
Qed.
Print Assumptions C40_bit_len_32.

Theorem C40_bit_len_64 : forall k, 0 <= k < 2^64 ->
  (k = 0 -> bit_len_64 k = 0%nat) /\
  (k <> 0 -> (0 < bit_len_64 k)%nat /\
     2 ^ (Z.of_nat (bit_len_64 k) - 1) <= k < 2 ^ Z.of_nat (bit_len_64 k)).
Proof.
  intros k Hk. destruct (bit_len_64_ok k Hk) as [[H1 H2]|[H1 H2]].
  - split; intros; [auto|lia].
  - replace (Z.of_nat (bit_len_64 k - 1)) with (Z.of_nat (bit_len_64 k) - 1) in H2 by lia.
    split; intros H; [|auto]. subst k. exfalso.
    pose proof (Z.pow_pos_nonneg 2 (Z.of_nat (bit_len_64 0) - 1)). lia.
Qed.
Print Assumptions C40_bit_len_64.

Definition weight (v : list Z) : Z := Z.of_nat (length (filter (fun d => negb (d =? 0)) v)).
Lemma hw_weight : forall v, hw v = weight v.
Proof.
  unfold weight. induction v as [|d v IH]; [reflexivity|].
  cbn [hw filter]. rewrite IH. destruct (d =? 0); cbn [negb length]; lia.
Qed.

Theorem C40_bin_hw : forall o v, Forall (fun d => d = -1 \/ d = 0 \/ d = 1) v ->
  Z.of_nat (length v) < 2^64 -> bin_hw o v = (Ok (weight v), []).
Proof.
  intros o v Hv Hl. rewrite <- hw_weight. apply bin_hw_ok; auto.
  eapply Forall_impl; [|exact Hv]. unfold digit. cbn. intros; lia.
Qed.
Print Assumptions C40_bin_hw.

(** any other i32 digit is rejected; i32::MIN makes a checked build panic instead,
    and is the only digit that an unchecked build lets through *)
Theorem C40_bin_hw_rejects : forall o v, ~ Forall (fun d => d = -1 \/ d = 0 \/ d = 1) v ->
  Forall (fun d => - 2^31 <= d < 2^31) v -> (o = true \/ ~ In (- 2^31) v) ->
  fst (bin_hw o v) = Err E_hw \/ fst (bin_hw o v) = Panic P_overflow /\ In (- 2^31) v.
Proof.
  intros o v Hv Hr Ho. unfold bin_hw.
  destruct (bin_hw_bad o v 0) as [e [-> [H|H]]]; auto.
  - intros Hd. apply Hv. eapply Forall_impl; [|exact Hd]. unfold digit. cbn. intros; lia.
  - eapply Forall_impl; [|exact Hr]. unfold I32_MIN, I32_MAX. cbn. intros; lia.
Qed.
Print Assumptions C40_bin_hw_rejects.

Theorem C40_bin_hw_min_refuted : exists v, ~ Forall (fun d => d = -1 \/ d = 0 \/ d = 1) v /\
  fst (bin_hw false v) = Ok (2^64 - 2^31) /\ fst (bin_hw true v) = Panic P_overflow.
Proof.
  exists [- 2^31]. split; [|split; vm_compute; reflexivity].
  intros H. inversion H; subst. lia.
Qed.
Print Assumptions C40_bin_hw_min_refuted.

Example C40_example : bit_len_32 (2^31 + 5) = 32%nat /\ bit_len_64 (2^63) = 64%nat /\
  bit_len_64 1 = 1%nat /\ bit_len_32 0 = 0%nat /\
  fst (bin_hw true [1; 0; -1; -1; 0]) = Ok 3 /\ fst (bin_hw true [1; 2]) = Err E_hw.
Proof. vm_compute. repeat split. Qed.
