(** Proofs about encryption, decryption, bit counting (C01, C02, C03, C40) *)
From Verif Require Import Base Backend Words Encryption Params Addition Spec Contract
  BaseProofs WordsProofs PbsProofs ValueProofs BitsProofs AddProofs.
From Coq Require Import ZifyBool ZifyNat.

(** ** Conversion of integers to digit vectors *)
Definition sgnz (m : Z) : Z := if 0 <=? m then 1 else -1.

Lemma mapM_ok : forall A B (f : A -> M B) (g : A -> B) l,
  (forall a, In a l -> f a = ret (g a)) -> mapM f l = ret (map g l).
Proof.
  induction l as [|a l IH]; intros H; simpl; auto.
  rewrite H by (left; auto). rewrite ret_bind, IH by (intros; apply H; right; auto). reflexivity.
Qed.

Lemma convert_to_vec_ok : forall o m w, I64_MIN < m <= I64_MAX -> (w <= 63)%nat ->
  convert_to_vec o m w = ret (map (fun i => sgnz m * bitz (Z.abs m) i) (seq 0 w)).
Proof.
  intros o m w Hm Hw. unfold convert_to_vec, I64_MIN, I64_MAX in *.
  rewrite chk_i64_in by (unfold I64_MIN, I64_MAX; lia).
  rewrite ret_bind. apply mapM_ok. intros i Hi. apply in_seq in Hi.
  unfold shift_amount. replace (Z.of_nat i <? 64) with true by lia.
  rewrite ret_bind. f_equal. unfold sgnz, bitz. destruct (Z.testbit _ _), (0 <=? m); auto.
Qed.

Lemma value_scale : forall c f n, value (map (fun i => c * f i) (seq 0 n)) = c * vsum f n.
Proof. intros. rewrite value_map_seq, <- vsum_scale. auto. Qed.

Lemma sgnz_sgn : forall m a, sgnz m * (Z.abs m mod a) = Z.sgn m * (Z.abs m mod a).
Proof.
  intros m a. unfold sgnz. destruct (0 <=? m) eqn:E.
  - destruct (Z.eq_dec m 0) as [->|]; [|rewrite Z.sgn_pos by lia; auto].
    change (Z.abs 0) with 0. rewrite Zmod_0_l. auto.
  - rewrite Z.sgn_neg by lia. auto.
Qed.

(** ** Conversion back *)
Local Arguments from_vec_step : simpl never.
Lemma from_vec_loop : forall mv o s m, digits mv -> (s + length mv <= 63)%nat ->
  Z.abs m <= 2 ^ Z.of_nat s - 1 ->
  foldM (from_vec_step o) (combine (seq s (length mv)) mv) m
    = ret (m + 2 ^ Z.of_nat s * value mv).
Proof.
  induction mv as [|d mv IH]; intros o s m Hd Hs Hm; simpl.
  - rewrite Z.mul_0_r, Z.add_0_r. auto.
  - inversion Hd as [|d' mv' H1 H2]; subst. simpl in Hs.
    assert (Hp : 2 ^ Z.of_nat (S s) <= 2 ^ 63) by (apply Z.pow_le_mono_r; lia).
    rewrite pow2_S in Hp.
    assert (Hstep : from_vec_step o m (s, d) = ret (m + 2 ^ Z.of_nat s * d)).
    { unfold from_vec_step, digit in *.
      assert (d = -1 \/ d = 0 \/ d = 1) as [ -> | [ -> | -> ]] by lia; simpl Z.eqb; cbv iota;
        rewrite chk_i64_in by (unfold I64_MIN, I64_MAX; lia); f_equal; lia. }
    rewrite Hstep, ret_bind, IH; auto.
    + f_equal. rewrite pow2_S. ring.
    + lia.
    + rewrite pow2_S. unfold digit in H1. nia.
Qed.

Lemma convert_from_vec_ok : forall o mv, digits mv -> (length mv <= 63)%nat ->
  convert_from_vec o mv = ret (value mv).
Proof.
  intros o mv Hd Hl. unfold convert_from_vec, PARM_CT_MAXLEN.
  replace (63 <? length mv)%nat with false by lia.
  rewrite from_vec_loop; auto; change (2 ^ Z.of_nat 0) with 1; [f_equal|]; lia.
Qed.

Lemma convert_from_vec_long : forall o mv, (63 < length mv)%nat ->
  convert_from_vec o mv = err_ E_too_long.
Proof.
  intros o mv Hl. unfold convert_from_vec, PARM_CT_MAXLEN.
  replace (63 <? length mv)%nat with true by lia. auto.
Qed.

Lemma from_vec_bad : forall mv o s m, ~ digits mv -> (s + length mv <= 63)%nat ->
  Z.abs m <= 2 ^ Z.of_nat s - 1 ->
  fst (foldM (from_vec_step o) (combine (seq s (length mv)) mv) m) = Err E_dec_alphabet.
Proof.
  induction mv as [|d mv IH]; intros o s m Hd Hs Hm; simpl.
  - exfalso. apply Hd. constructor.
  - simpl in Hs.
    assert (Hp : 2 ^ Z.of_nat (S s) <= 2 ^ 63) by (apply Z.pow_le_mono_r; lia).
    rewrite pow2_S in Hp.
    destruct (Z_le_dec (-1) d) as [D1|D1]; [destruct (Z_le_dec d 1) as [D2|D2]|].
    + assert (Hstep : from_vec_step o m (s, d) = ret (m + 2 ^ Z.of_nat s * d)).
      { unfold from_vec_step, digit in *.
        assert (d = -1 \/ d = 0 \/ d = 1) as [ -> | [ -> | -> ]] by lia; simpl Z.eqb; cbv iota;
          rewrite chk_i64_in by (unfold I64_MIN, I64_MAX; lia); f_equal; lia. }
      rewrite Hstep, ret_bind. apply IH.
      * intros H. apply Hd. constructor; auto. split; auto.
      * lia.
      * rewrite pow2_S. nia.
    + rewrite fst_bind. unfold from_vec_step.
      replace (d =? 1) with false by lia. replace (d =? 0) with false by lia.
      replace (d =? -1) with false by lia. auto.
    + rewrite fst_bind. unfold from_vec_step.
      replace (d =? 1) with false by lia. replace (d =? 0) with false by lia.
      replace (d =? -1) with false by lia. auto.
Qed.

Lemma convert_from_vec_bad : forall o mv, ~ digits mv -> (length mv <= 63)%nat ->
  fst (convert_from_vec o mv) = Err E_dec_alphabet.
Proof.
  intros o mv Hd Hl. unfold convert_from_vec, PARM_CT_MAXLEN.
  replace (63 <? length mv)%nat with false by lia. apply from_vec_bad; auto.
  change (2 ^ Z.of_nat 0) with 1; lia.
Qed.

(** ** bin_hw *)
Fixpoint hw (v : list Z) : Z :=
  match v with [] => 0 | d :: t => (if d =? 0 then 0 else 1) + hw t end.

Lemma hw_bound : forall v, 0 <= hw v <= Z.of_nat (length v).
Proof. induction v as [|d v IH]; simpl; [lia|]. destruct (d =? 0); lia. Qed.

Lemma bin_hw_loop : forall o v a, digits v -> 0 <= a -> a + Z.of_nat (length v) < 2^64 ->
  foldM (fun hw vi =>
           a <- chk_i32 o (Z.abs vi) ;;
           if 1 <? a then err_ E_hw else ret (u64 (hw + u64 a))) v a = ret (a + hw v).
Proof.
  induction v as [|d v IH]; intros a Hd Ha Hl; simpl.
  - rewrite Z.add_0_r. auto.
  - inversion Hd as [|d' v' H1 H2]; subst. unfold digit in H1.
    rewrite chk_i32_in by (unfold I32_MIN, I32_MAX; lia). rewrite ret_bind.
    replace (1 <? Z.abs d) with false by lia. rewrite ret_bind.
    simpl length in Hl.
    assert (E : u64 (a + u64 (Z.abs d)) = a + Z.abs d).
    { unfold u64. rewrite (Z.mod_small (Z.abs d)) by lia. rewrite Z.mod_small; lia. }
    rewrite E, IH; auto; try lia. f_equal. destruct (d =? 0) eqn:E0; lia.
Qed.

Lemma bin_hw_ok : forall o v, digits v -> Z.of_nat (length v) < 2^64 -> bin_hw o v = ret (hw v).
Proof. intros o v Hd Hl. unfold bin_hw. rewrite bin_hw_loop; auto; lia. Qed.

(** entries are i32 *)
Lemma bin_hw_bad : forall o v a, ~ digits v ->
  Forall (fun d => I32_MIN <= d <= I32_MAX) v -> (o = true \/ ~ In I32_MIN v) ->
  exists e, fst (foldM (fun hw vi =>
           a <- chk_i32 o (Z.abs vi) ;;
           if 1 <? a then err_ E_hw else ret (u64 (hw + u64 a))) v a) = e /\
     (e = Err E_hw \/ e = Panic P_overflow /\ In I32_MIN v).
Proof.
  intros o v. induction v as [|d v IH]; intros a Hd Hf Ho.
  - exfalso. apply Hd. constructor.
  - inversion Hf as [|d' v' F1 F2]; subst.
    destruct (Z.eq_dec d I32_MIN) as [->|Hn].
    { destruct Ho as [->|Ho]; [|exfalso; apply Ho; left; auto].
      eexists. split; [reflexivity|]. right. split; [reflexivity|]. left; auto. }
    unfold I32_MIN, I32_MAX in *.
    simpl foldM. rewrite chk_i32_in by (unfold I32_MIN, I32_MAX; lia). rewrite ret_bind.
    destruct (1 <? Z.abs d) eqn:E.
    + eexists. split; [reflexivity|]. left; auto.
    + rewrite ret_bind. destruct (IH (u64 (a + u64 (Z.abs d)))) as [e [H1 H2]].
      * intros H. apply Hd. constructor; auto. unfold digit. lia.
      * auto.
      * destruct Ho as [Ho|Ho]; [left; auto|right]. intros H. apply Ho. right; auto.
      * exists e. split; auto. destruct H2 as [H2|[H2 H3]]; [left; auto|right; split; auto].
        right; auto.
Qed.

(* ------------------------------------------------------------------ *)
Section Enc.
Context {B : backend} {qw : Z} (C : contract B qw) (cl : client B) (K : client_ok C cl).

Lemma encrypt_word_ok : forall s m, wmsg C (encrypt_word cl s m) m 1.
Proof.
  intros s m. unfold encrypt_word, mi_to_mu, MSG_MOD.
  destruct (enc_phase C cl K s (m mod 32)) as [e [H1 H2]]; [apply Z.mod_pos_bound; lia|].
  exists e. split; [|lia]. eapply teq_trans; [apply H1|].
  apply teq_add; [|apply teq_refl]. exists (- (m / 32)).
  rewrite (Z.mod_eq m 32) by lia. unfold step. change (2^64) with (32 * 2^59). ring.
Qed.

Lemma encrypt_from_vec_ok : forall seeds mv, digits mv ->
  exists c, parm_encrypt_from_vec cl seeds mv = ret c /\ encrypts C c mv /\
    Forall (fun w => is_triv w = false) c.
Proof.
  intros seeds mv Hd. unfold parm_encrypt_from_vec.
  exists (map (fun imi : nat * Z => encrypt_word cl (seeds (fst imi)) (snd imi))
              (combine (seq 0 (length mv)) mv)).
  split; [|split].
  - apply mapM_ok. intros [i mi] Hin. apply in_combine_r in Hin.
    unfold digits in Hd. rewrite Forall_forall in Hd. specialize (Hd _ Hin). unfold digit in Hd.
    replace ((mi <? -1) || (1 <? mi)) with false by lia. auto.
  - split; auto. generalize 0%nat. clear Hd.
    induction mv as [|d mv IH]; intros s; simpl; constructor; auto. apply encrypt_word_ok.
  - apply Forall_forall. intros w Hw. apply in_map_iff in Hw. destruct Hw as [p [<- _]]. auto.
Qed.

Lemma encrypt_from_vec_bad : forall seeds mv, ~ digits mv ->
  fst (parm_encrypt_from_vec cl seeds mv) = Err E_enc_alphabet.
Proof.
  intros seeds mv. unfold parm_encrypt_from_vec. generalize 0%nat.
  induction mv as [|d mv IH]; intros s Hd.
  - exfalso. apply Hd. constructor.
  - simpl. destruct ((d <? -1) || (1 <? d)) eqn:E; auto.
    rewrite ret_bind, fst_bind, IH; auto. intros H. apply Hd. constructor; auto.
    unfold digit. lia.
Qed.

Lemma decrypt_vec_msg : forall c dc k, 0 <= k <= l1_need qw ->
  Forall2 (fun w d => wmsg C w d k) c dc ->
  parm_decrypt_to_vec cl c = ret (map (mu_to_mi 32) dc).
Proof.
  intros c dc k Hk H. unfold parm_decrypt_to_vec. induction H as [|w d c dc Hw H IH]; simpl; auto.
  rewrite (decrypt_mi_ok C cl w d k), ret_bind, IH; auto.
Qed.

Lemma decrypt_vec_ok : forall c dc k, 0 <= k <= l1_need qw -> digits dc ->
  Forall2 (fun w d => wmsg C w d k) c dc -> parm_decrypt_to_vec cl c = ret dc.
Proof.
  intros c dc k Hk Hd H. rewrite (decrypt_vec_msg c dc k); auto. f_equal.
  rewrite <- (map_id dc) at 2. apply map_ext_in. intros d Hin.
  unfold digits in Hd. rewrite Forall_forall in Hd. specialize (Hd _ Hin). unfold digit in Hd.
  apply mu_to_mi_32_small. lia.
Qed.

Lemma decrypt_ok_k : forall o c dc k, 0 <= k <= l1_need qw -> digits dc ->
  Forall2 (fun w d => wmsg C w d k) c dc -> (length c <= 63)%nat ->
  parm_decrypt cl o c = ret (value dc).
Proof.
  intros o c dc k Hk Hd H Hl. unfold parm_decrypt.
  rewrite (decrypt_vec_ok c dc k), ret_bind; auto. apply convert_from_vec_ok; auto.
  rewrite <- (Forall2_len _ _ _ _ _ H). auto.
Qed.

Lemma decrypt_ok : forall o c v, enc_val C c v -> (length c <= 63)%nat ->
  parm_decrypt cl o c = ret v.
Proof.
  intros o c v [dc [[H1 H2] <-]] Hl. apply (decrypt_ok_k o c dc 1); auto.
  pose proof (@l1_need_8 qw). lia.
Qed.

Lemma decrypt_long : forall o c dc, encrypts C c dc -> (63 < length c)%nat ->
  parm_decrypt cl o c = err_ E_too_long.
Proof.
  intros o c dc [H1 H2] Hl. unfold parm_decrypt.
  rewrite (decrypt_vec_ok c dc 1); auto; [|pose proof (@l1_need_8 qw); lia].
  rewrite ret_bind. apply convert_from_vec_long.
  rewrite <- (Forall2_len _ _ _ _ _ H2). auto.
Qed.

(** whatever the words hold, even without a correct key *)
Lemma decrypt_long_any : forall o (c : ciphertext B) r, (63 < length c)%nat ->
  fst (parm_decrypt cl o c) <> Ok r.
Proof.
  intros o c r Hl H. unfold parm_decrypt in H. rewrite fst_bind in H.
  destruct (fst (parm_decrypt_to_vec cl c)) as [mv|e|e] eqn:E; try discriminate.
  rewrite convert_from_vec_long in H; [discriminate|].
  assert (length mv = length c).
  { clear H. revert mv E. unfold parm_decrypt_to_vec. clear.
    induction c as [|w c IH]; simpl; intros mv E.
    - inversion E; auto.
    - rewrite fst_bind in E. destruct (fst (decrypt_mi (Some cl) w)); try discriminate.
      rewrite fst_bind in E. destruct (fst (mapM (decrypt_mi (Some cl)) c)) eqn:E2; try discriminate.
      inversion E; subst. simpl. f_equal. apply IH; auto. }
  lia.
Qed.

Lemma encrypt_ok : forall o seeds m w, I64_MIN < m <= I64_MAX -> (w <= 63)%nat ->
  exists c, parm_encrypt cl o seeds m w = ret c /\ length c = w /\
    enc_val C c (Z.sgn m * (Z.abs m mod 2 ^ Z.of_nat w)) /\
    Forall (fun w => is_triv w = false) c.
Proof.
  intros o seeds m w Hm Hw. unfold parm_encrypt.
  rewrite convert_to_vec_ok, ret_bind; auto.
  set (mv := map (fun i => sgnz m * bitz (Z.abs m) i) (seq 0 w)).
  assert (Hd : digits mv).
  { apply digits_map_seq. intros i. pose proof (bitz_range (Z.abs m) i). unfold digit, sgnz.
    destruct (0 <=? m); lia. }
  destruct (encrypt_from_vec_ok seeds mv Hd) as [c [H1 [H2 H3]]].
  exists c. split; auto. split; [|split; auto].
  - rewrite <- (encrypts_len C _ _ H2). unfold mv. rewrite map_length, seq_length. auto.
  - exists mv. split; auto. unfold mv. rewrite value_scale, bitz_sum. apply sgnz_sgn.
Qed.

Lemma encrypt_min_checked : forall seeds w,
  fst (parm_encrypt cl true seeds I64_MIN w) = Panic P_overflow.
Proof. intros. reflexivity. Qed.

Lemma bits_min : forall i, (i < 63)%nat -> Z.testbit I64_MIN (Z.of_nat i) = false.
Proof.
  intros i Hi. unfold I64_MIN. rewrite Z.bits_opp by lia.
  replace (Z.pred (2^63)) with (Z.ones 63) by reflexivity.
  rewrite Z.ones_spec_low by lia. auto.
Qed.

Lemma encrypt_min_unchecked : forall seeds w, (w <= 63)%nat ->
  exists c, parm_encrypt cl false seeds I64_MIN w = ret c /\ length c = w /\ enc_val C c 0.
Proof.
  intros seeds w Hw. unfold parm_encrypt, convert_to_vec.
  replace (chk_i64 false (Z.abs I64_MIN)) with (ret I64_MIN) by reflexivity.
  rewrite ret_bind. rewrite (mapM_ok _ _ _ (fun _ => 0)).
  - rewrite ret_bind.
    assert (E : map (fun _ : nat => 0) (seq 0 w) = repeat 0 w).
    { clear. generalize 0%nat. induction w; intros s; simpl; auto. f_equal; auto. }
    rewrite E.
    destruct (encrypt_from_vec_ok seeds (repeat 0 w)) as [c [H1 [H2 H3]]].
    { apply digits_repeat0. }
    exists c. split; auto. split.
    + rewrite <- (encrypts_len C _ _ H2). apply repeat_length.
    + exists (repeat 0 w). split; auto. apply value_repeat0.
  - intros i Hi. apply in_seq in Hi. unfold shift_amount.
    replace (Z.of_nat i <? 64) with true by lia. rewrite ret_bind, bits_min by lia. auto.
Qed.

(** 64 words: the sign bit is read too *)
Lemma encrypt_min_unchecked_64 : forall seeds,
  exists c, parm_encrypt cl false seeds I64_MIN 64 = ret c /\ enc_val C c (- 2^63).
Proof.
  intros seeds. unfold parm_encrypt.
  replace (convert_to_vec false I64_MIN 64) with (ret (repeat 0 63 ++ [-1])) by reflexivity.
  rewrite ret_bind. destruct (encrypt_from_vec_ok seeds (repeat 0 63 ++ [-1])) as [c [H1 [H2 H3]]].
  - apply digits_app; [apply digits_repeat0|]. constructor; [|constructor]. unfold digit; lia.
  - exists c. split; auto. exists (repeat 0 63 ++ [-1]). split; auto.
Qed.

(** ** Adding a constant (C13) *)
Lemma plaintext_mask_5 : forall o p, bit_precision p = 5%nat -> plaintext_mask o p = ret 31.
Proof.
  intros o p H. unfold plaintext_mask. rewrite H. destruct o; reflexivity.
Qed.

Lemma add_const_vec : forall pc k, bit_precision (cparams pc) = 5%nat -> k <> 0 ->
  I64_MIN < k <= I64_MAX -> forall x : ciphertext B, exists ck,
  enc_val C ck k /\ bits_of (Z.abs k) (length ck) /\ add_const_impl pc x k = pa_add x ck.
Proof.
  intros pc k Hp Hk0 Hk x. unfold add_const_impl.
  replace (k =? 0) with false by lia.
  unfold I64_MIN, I64_MAX in Hk.
  rewrite chk_i64_in by (unfold I64_MIN, I64_MAX; lia). rewrite ret_bind.
  fold (scan (Z.abs k) 0 63 0). set (n := scan (Z.abs k) 0 63 0).
  assert (Hb : bits_of (Z.abs k) n).
  { apply scan0_bits. change (Z.of_nat 63) with 63. lia. }
  assert (Ha : 0 <= Z.abs k < 2 ^ Z.of_nat n) by (destruct Hb as [[Hb _]|[_ Hb]]; lia).
  rewrite (mapM_ok _ _ _ (fun i => encrypt_word_triv
     (if Z.testbit (Z.abs k) (Z.of_nat i) then (if 0 <=? k then 1 else 31) else 0))).
  - rewrite ret_bind. eexists. split; [|split; [|reflexivity]].
    2:{ rewrite map_length, seq_length. auto. }
    exists (map (fun i => sgnz k * bitz (Z.abs k) i) (seq 0 n)). split; [split|].
    + apply digits_map_seq. intros i. pose proof (bitz_range (Z.abs k) i). unfold digit, sgnz.
      destruct (0 <=? k); lia.
    + generalize (seq 0 n). intros l. induction l as [|i l IH]; simpl; constructor; auto.
      unfold sgnz, bitz. destruct (Z.testbit (Z.abs k) (Z.of_nat i)); [|rewrite Z.mul_0_r; apply wmsg_triv].
      destruct (0 <=? k); [apply wmsg_triv|]. apply (wmsg_mod C _ 31); [reflexivity|apply wmsg_triv].
    + rewrite value_scale, bitz_sum, Z.mod_small by auto. unfold sgnz.
      destruct (0 <=? k) eqn:E; lia.
  - intros i _. rewrite (plaintext_mask_5 _ _ Hp).
    destruct (Z.testbit _ _), (0 <=? k); reflexivity.
Qed.

Lemma pa_add_const_ok : forall pc x k v, bit_precision (cparams pc) = 5%nat ->
  I64_MIN < k <= I64_MAX -> enc_val C x v ->
  okP (pa_add_const pc x k) (fun z => enc_val C z (v + k) /\
     forall n, Z.abs k < 2 ^ Z.of_nat n -> (length z <= Nat.max (length x) n + 1)%nat).
Proof.
  intros pc x k v Hp Hk Hx. unfold pa_add_const. apply okP_analysed.
  destruct (Z.eq_dec k 0) as [->|Hk0].
  - unfold add_const_impl. apply okP_ret. rewrite Z.add_0_r. split; auto. intros; lia.
  - destruct (add_const_vec pc k Hp Hk0 Hk x) as [ck [H1 [H2 ->]]].
    eapply okP_conseq; [apply (pa_add_ok C x ck v k); auto|].
    intros z [Hz [Hl _]]. split; auto. intros n Hn.
    enough (length ck <= n)%nat by lia.
    destruct H2 as [[H2 H3]|[H2 H3]]; [lia|].
    destruct (le_lt_dec (length ck) n) as [|Hlt]; auto. exfalso.
    assert (2 ^ Z.of_nat n <= 2 ^ Z.of_nat (length ck - 1)) by (apply Z.pow_le_mono_r; lia). lia.
Qed.

Lemma pa_add_const_min_checked : forall pc (x : ciphertext B), ovf pc = true ->
  fst (pa_add_const pc x I64_MIN) = Panic P_overflow.
Proof.
  intros pc x H. unfold pa_add_const. rewrite fst_analysed. unfold add_const_impl. rewrite H.
  reflexivity.
Qed.

Lemma pa_add_const_min_unchecked : forall pc (x : ciphertext B) v, ovf pc = false ->
  enc_val C x v -> okP (pa_add_const pc x I64_MIN) (fun z => enc_val C z v).
Proof.
  intros pc x v H Hx. unfold pa_add_const. apply okP_analysed. unfold add_const_impl.
  rewrite H. change (I64_MIN =? 0) with false. cbv iota.
  replace (chk_i64 false (Z.abs I64_MIN)) with (ret I64_MIN) by reflexivity.
  rewrite ret_bind.
  replace (fold_left _ (seq 0 63) 0%nat) with 0%nat by reflexivity.
  simpl mapM. rewrite ret_bind.
  eapply okP_conseq; [apply (pa_add_ok C x [] v 0); auto; apply enc_val_nil|].
  intros z [Hz _]. rewrite Z.add_0_r in Hz. auto.
Qed.

End Enc.
