(** Proofs about multiplication and squaring (C16, C17, C18) *)
From Verif Require Import Base Backend Words Params Pbs Addition Multiplication Squaring
  Spec Contract BaseProofs WordsProofs PbsProofs ValueProofs AddProofs SgnProofs.
From Coq Require Import ZifyBool ZifyNat.

(** ** Bounds on the length of results for operands of n words *)
Definition mul_len (n : nat) : nat :=
  nth n [0; 2; 4; 6; 8; 10; 12; 14; 16; 18; 20; 22; 24; 26; 28; 30; 33; 34; 37; 39; 41;
         43; 45; 47; 49; 51; 53; 55; 57; 59; 61; 63; 66]%nat 0%nat.
Definition squ_len (n : nat) : nat :=
  nth n [0; 1; 4; 6; 9; 12; 13; 15; 18; 20; 23; 25; 26; 28; 30; 32; 35; 37; 39; 41; 44;
         46; 48; 50; 51; 53; 55; 57; 59; 61; 63; 65; 68]%nat 0%nat.

Lemma small_check : forall P : nat -> bool, forallb P (seq 0 33) = true ->
  forall n, (n <= 32)%nat -> P n = true.
Proof. intros P H n Hn. rewrite forallb_forall in H. apply H. apply in_seq. lia. Qed.

Lemma mul_len_mono : forall m n, (m <= n)%nat -> (n <= 32)%nat -> (mul_len m <= mul_len n)%nat.
Proof.
  intros m n Hm Hn.
  assert (H := small_check (fun n => forallb (fun m => (mul_len m <=? mul_len n)%nat) (seq 0 (S n)))
                 ltac:(vm_compute; reflexivity) n Hn).
  cbv beta in H. rewrite forallb_forall in H. specialize (H m).
  rewrite in_seq in H. specialize (H ltac:(lia)). lia.
Qed.

Lemma squ_len_mono : forall m n, (m <= n)%nat -> (n <= 32)%nat -> (squ_len m <= squ_len n)%nat.
Proof.
  intros m n Hm Hn.
  assert (H := small_check (fun n => forallb (fun m => (squ_len m <=? squ_len n)%nat) (seq 0 (S n)))
                 ltac:(vm_compute; reflexivity) n Hn).
  cbv beta in H. rewrite forallb_forall in H. specialize (H m).
  rewrite in_seq in H. specialize (H ltac:(lia)). lia.
Qed.

(** what the Karatsuba recombination does to the lengths *)
Definition kara_len (len0 a b c : nat) : nat :=
  let cn := (len0 + Nat.max c (Nat.max a b + 1) + 1)%nat in
  (Nat.max (2 * len0 + a) (Nat.max b cn + 1) + 1)%nat.
Definition dnq_len (len0 a b c : nat) : nat :=
  (Nat.max (2 * len0 + a) (Nat.max b (len0 + 1 + c) + 1) + 1)%nat.

Lemma mul_len_kara : forall n, (n <= 32)%nat -> (16 <= n)%nat -> (n <> 17)%nat ->
  let len0 := ((n + 1) / 2)%nat in
  mul_len n = kara_len len0 (mul_len (n - len0)) (mul_len len0) (mul_len (len0 + 1)).
Proof.
  intros n H1 H2 H3. cbv zeta.
  assert (H := small_check (fun n => (n <? 16)%nat || (n =? 17)%nat ||
     (mul_len n =? kara_len ((n + 1) / 2) (mul_len (n - (n + 1) / 2)) (mul_len ((n + 1) / 2))
         (mul_len ((n + 1) / 2 + 1)))%nat) ltac:(vm_compute; reflexivity) n H1).
  cbv beta in H. replace (n <? 16)%nat with false in H by lia.
  replace (n =? 17)%nat with false in H by lia. apply Nat.eqb_eq. exact H.
Qed.

Lemma squ_len_dnq : forall n, (n <= 32)%nat -> (4 <= n)%nat ->
  let len0 := ((n + 1) / 2)%nat in
  squ_len n = dnq_len len0 (squ_len (n - len0)) (squ_len len0) (mul_len len0).
Proof.
  intros n H1 H2. cbv zeta.
  assert (H := small_check (fun n => (n <? 4)%nat ||
     (squ_len n =? dnq_len ((n + 1) / 2) (squ_len (n - (n + 1) / 2)) (squ_len ((n + 1) / 2))
         (mul_len ((n + 1) / 2)))%nat) ltac:(vm_compute; reflexivity) n H1).
  cbv beta in H. replace (n <? 4)%nat with false in H by lia. apply Nat.eqb_eq. exact H.
Qed.

Lemma mul_len_school : forall n, ((n <? 16) || (n =? 17))%nat = true -> mul_len n = (2 * n)%nat.
Proof.
  intros n H.
  assert (E := small_check (fun n => negb ((n <? 16) || (n =? 17))%nat || (mul_len n =? 2 * n)%nat)
    ltac:(vm_compute; reflexivity) n ltac:(lia)).
  cbv beta in E. rewrite H in E. apply Nat.eqb_eq. exact E.
Qed.

Section Mul.
Context {B : backend} {qw : Z} (C : contract B qw).

Lemma decrypt_triv_ok : forall (w : word B) m k, is_triv w = true -> wmsg C w m k ->
  decrypt_mi None w = ret (mu_to_mi 32 m).
Proof.
  intros [c|p] m k Ht [H1 H2]; [discriminate|].
  unfold decrypt_mi; simpl decrypt_mu; rewrite ret_bind.
  change MSG_MOD with (2^5).
  rewrite (pt_to_mu_near 5 m 0) by (auto; try lia; rewrite Z.add_0_r; auto).
  rewrite mu_to_mi_mod; auto; lia.
Qed.

Definition mulb_sel (m : Z) : Z := mu_to_mi 32 (negacyclic lut_mul_bit m).
Lemma mul_bit_ok : lut_fun C mul_bit_pi_5 (-4) 4 mulb_sel.
Proof. apply lut_fun_of; reflexivity. Qed.
Lemma mulb_sel_ok : forall x y, digit x -> digit y -> mulb_sel (x * 3 + y) = x * y.
Proof.
  intros x y Hx Hy. unfold digit in *.
  assert (x = -1 \/ x = 0 \/ x = 1) as [ -> | [ -> | -> ]] by lia;
  assert (y = -1 \/ y = 0 \/ y = 1) as [ -> | [ -> | -> ]] by lia; reflexivity.
Qed.

Lemma mul_lwe_ok : forall (x y : word B) dx dy, digit dx -> digit dy ->
  wmsg C x dx 1 -> wmsg C y dy 1 -> okP (mul_lwe x y) (fun z => wmsg C z (dx * dy) 1).
Proof.
  intros x y dx dy Dx Dy Hx Hy. unfold mul_lwe.
  assert (Wd : forall d, digit d -> 1 * Z.abs d <= 1) by (unfold digit; intros; lia).
  destruct (is_triv x) eqn:Tx.
  - rewrite (decrypt_triv_ok x dx 1), ret_bind by auto.
    rewrite mu_to_mi_32_small by (unfold digit in *; lia).
    apply okP_ret. rewrite Z.mul_comm. eapply wmsg_weaken; [apply (Wd dx Dx)|].
    apply wmsg_mul; auto. unfold digit in *; lia.
  - destruct (is_triv y) eqn:Ty.
    + rewrite (decrypt_triv_ok y dy 1), ret_bind by auto.
      rewrite mu_to_mi_32_small by (unfold digit in *; lia).
      apply okP_ret. eapply wmsg_weaken; [apply (Wd dy Dy)|].
      apply wmsg_mul; auto. unfold digit in *; lia.
    + rewrite <- mulb_sel_ok by auto.
      apply (lut_fun_okP C mul_bit_pi_5 (-4) 4 mulb_sel _ _ 4).
      * apply mul_bit_ok.
      * pose proof (@l1_need_8 qw). lia.
      * unfold digit in *; lia.
      * apply (wmsg_add C _ _ _ _ 3 1); auto; try lia. apply (wmsg_mul C _ _ 1 3); auto; lia.
Qed.

Lemma digit_mul : forall a b, digit a -> digit b -> digit (a * b).
Proof. unfold digit. intros a b Ha Hb. nia. Qed.

Lemma value_map_mul : forall d l, value (map (fun a => a * d) l) = value l * d.
Proof. induction l; simpl; lia. Qed.

(** row j of the multiplication array *)
Definition row_ok (n : nat) (vx dj : Z) (j : nat) (row : ciphertext B) : Prop :=
  enc_val C row (vx * dj * 2 ^ Z.of_nat j) /\ length row = (2 * n)%nat /\ (elen row <= n + j)%nat.

Lemma fill_mulary_ok : forall x y dx dy, encrypts C x dx -> encrypts C y dy ->
  length x = length y ->
  okP (fill_mulary x y) (fun m => length m = length x /\
    forall j, (j < length x)%nat -> row_ok (length x) (value dx) (nth j dy 0) j (nth j m [])).
Proof.
  intros x y dx dy Hx Hy HL. unfold fill_mulary.
  replace (length x =? length y)%nat with true by lia. cbn [negb].
  pose proof (encrypts_len C x dx Hx) as Lx. pose proof (encrypts_len C y dy Hy) as Ly.
  eapply okP_conseq.
  { apply (okP_mapM_nth _ _ _ (fun j row => row_ok (length x) (value dx) (nth j dy 0) j row)
             (combine (seq 0 (length x)) y) (0%nat, triv0) []).
    rewrite combine_length, seq_length. intros j Hj.
    rewrite combine_nth by (rewrite seq_length; auto). rewrite seq_nth by lia. rewrite Nat.add_0_l.
    set (yj := nth j y triv0). set (dj := nth j dy 0).
    assert (Dj : digit dj) by (apply digits_nth; apply Hy).
    assert (Hyj : wmsg C yj dj 1) by (apply encrypts_nth; auto).
    eapply okP_bind with (P := fun row => encrypts C row (map (fun a => a * dj) dx)).
    - eapply okP_conseq.
      + apply (okP_mapM_nth _ _ _ (fun i w => wmsg C w (nth i dx 0 * dj) 1) x triv0 triv0).
        intros i Hi. apply okP_expect. apply mul_lwe_ok; auto.
        * apply digits_nth; apply Hx.
        * apply encrypts_nth; auto.
      + cbv beta. intros row [L1 H1]. split.
        * apply Forall_forall. intros d Hd. apply in_map_iff in Hd. destruct Hd as [a [<- Ha]].
          apply digit_mul; auto. destruct Hx as [Hx _]. unfold digits in Hx.
          rewrite Forall_forall in Hx. auto.
        * apply (Forall2_of_nth _ _ _ _ _ triv0 (0 * dj)).
          -- rewrite map_length. lia.
          -- intros i Hi. rewrite (map_nth (fun a => a * dj)). apply H1. lia.
    - intros row Hrow. apply okP_ret.
      pose proof (encrypts_len C _ _ Hrow) as Lrow. rewrite map_length, Lx in Lrow.
      split; [|split].
      + exists (repeat 0 j ++ map (fun a => a * dj) dx ++ repeat 0 (2 * length x - j - length x)).
        split.
        * apply encrypts_app; [apply encrypts_triv_zeros|].
          apply encrypts_app; [auto|apply encrypts_triv_zeros].
        * rewrite !value_app, !value_repeat0, repeat_length, value_map_mul. lia.
      + rewrite !app_length, !ct_triv_length. lia.
      + apply elen_le. intros i Hi. rewrite nth_app_any, ct_triv_length.
        replace (i <? j)%nat with false by lia.
        rewrite nth_app_any. replace (i - j <? length row)%nat with false by lia.
        rewrite ct_triv_nth. reflexivity. }
  cbv beta. rewrite combine_length, seq_length, <- HL, Nat.min_id. auto.
Qed.

Lemma value_firstn_S : forall dy j, (j < length dy)%nat ->
  value (firstn (S j) dy) = value (firstn j dy) + nth j dy 0 * 2 ^ Z.of_nat j.
Proof.
  intros dy j Hj.
  assert (E : firstn (S j) dy = firstn j dy ++ [nth j dy 0]).
  { revert j Hj. induction dy as [|a dy IH]; intros j Hj; simpl in Hj; [lia|].
    destruct j; auto. change (a :: firstn (S j) dy = a :: firstn j dy ++ [nth j dy 0]).
    f_equal. apply IH. lia. }
  rewrite E, value_app, firstn_length. replace (Nat.min j (length dy)) with j by lia.
  simpl value. lia.
Qed.

Lemma reduce_ok : forall m vx dy n, (2 <= n)%nat -> length m = n -> length dy = n ->
  (forall j, (j < n)%nat -> row_ok n vx (nth j dy 0) j (nth j m [])) ->
  okP (reduce_mulsquary m) (fun z => enc_val C z (vx * value dy) /\ (length z <= 2 * n)%nat).
Proof.
  intros m vx dy n Hn Lm Ld Hrow. unfold reduce_mulsquary.
  eapply okP_bind with (P := fun r => r = nth 0 m []).
  { apply (okP_index _ m 0 []); auto; lia. }
  intros m0 ->.
  eapply okP_bind with (P := fun r => r = nth 1 m []).
  { apply (okP_index _ m 1 []); auto; lia. }
  intros m1 ->.
  destruct (Hrow 0%nat ltac:(lia)) as [V0 [L0 E0]]. destruct (Hrow 1%nat ltac:(lia)) as [V1 [L1 E1]].
  set (I := fun i acc => enc_val C acc (vx * value (firstn i dy)) /\ (length acc <= 2 * n)%nat /\
                         (elen acc <= n + i)%nat).
  eapply okP_bind with (P := I 2%nat).
  { eapply okP_conseq; [apply (pa_add_ok C _ _ _ _ V0 V1)|].
    cbv beta. intros z [Z1 [Z2 [Z3 Z4]]]. split; [|lia].
    rewrite !value_firstn_S by lia. simpl firstn. simpl value.
    replace (vx * _) with (vx * nth 0 dy 0 * 2 ^ Z.of_nat 0 + vx * nth 1 dy 0 * 2 ^ Z.of_nat 1); auto.
    ring. }
  intros acc HI.
  assert (Hfold : forall l i acc, (i + length l = n)%nat ->
     (forall j, (j < length l)%nat -> nth j l [] = nth (i + j) m []) -> (2 <= i)%nat -> I i acc ->
     okP (foldM (fun acc row => pa_add acc row) l acc) (I n)).
  { induction l as [|r l IH]; intros i a Hl Hnth Hi Ha; simpl in *.
    - apply okP_ret. replace n with i by lia. auto.
    - destruct Ha as [A1 [A2 A3]]. destruct (Hrow i ltac:(lia)) as [V [L E]].
      pose proof (Hnth 0%nat ltac:(lia)) as H0. simpl in H0. rewrite Nat.add_0_r in H0. subst r.
      eapply okP_bind; [apply (pa_add_ok C _ _ _ _ A1 V)|].
      cbv beta. intros z [Z1 [Z2 [Z3 Z4]]]. apply (IH (S i)); try lia.
      + intros j Hj. specialize (Hnth (S j) ltac:(lia)). simpl in Hnth. rewrite Hnth. f_equal. lia.
      + split; [|lia]. rewrite value_firstn_S by lia.
        replace (vx * _) with (vx * value (firstn i dy) + vx * nth i dy 0 * 2 ^ Z.of_nat i); auto.
        ring. }
  eapply okP_conseq; [apply (Hfold (skipn 2 m) 2%nat acc)|]; auto.
  - rewrite skipn_length. lia.
  - intros j Hj. rewrite nth_skipn. auto.
  - intros z [Z1 [Z2 _]]. split; auto. rewrite firstn_all2 in Z1 by lia. auto.
Qed.

Lemma encrypts_value_split : forall x dx n, encrypts C x dx -> (n <= length x)%nat ->
  value dx = value (firstn n dx) + 2 ^ Z.of_nat n * value (skipn n dx).
Proof.
  intros x dx n Hx Hn. apply value_split. rewrite (encrypts_len C x dx Hx). auto.
Qed.

(** value and length of a product; used as induction hypothesis *)
Definition mul_spec (rec : ciphertext B -> ciphertext B -> M (ciphertext B)) (n : nat) : Prop :=
  forall x y vx vy, (Nat.max (length x) (length y) <= n)%nat -> enc_val C x vx -> enc_val C y vy ->
  okP (rec x y) (fun z => enc_val C z (vx * vy) /\
                          (length z <= mul_len (Nat.max (length x) (length y)))%nat).

Lemma map_opp_pa : forall x : ciphertext B, map w_opp x = pa_opp x.
Proof. reflexivity. Qed.

Lemma kara_ok : forall rec n x y dx dy, (16 <= n <= 32)%nat -> (n <> 17)%nat ->
  length x = n -> length y = n -> mul_spec rec ((n + 1) / 2 + 1) ->
  encrypts C x dx -> encrypts C y dy ->
  okP (mul_karatsuba rec x y) (fun z => enc_val C z (value dx * value dy) /\
                          (length z <= mul_len n)%nat).
Proof.
  intros rec n x y dx dy Hn Hn17 Lx Ly Hrec Hx Hy. unfold mul_karatsuba.
  replace (length x =? length y)%nat with true by lia. cbn [negb]. rewrite Lx.
  rewrite (mul_len_kara n) by lia.
  set (len0 := ((n + 1) / 2)%nat) in *.
  assert (Hl0 : (len0 <= n /\ n - len0 <= len0 /\ len0 + 1 <= 17)%nat).
  { unfold len0. pose proof (Nat.div_mod (n + 1) 2 ltac:(lia)).
    pose proof (Nat.mod_upper_bound (n + 1) 2 ltac:(lia)). lia. }
  apply okP_measure.
  pose proof (encrypts_value_split x dx len0 Hx ltac:(lia)) as Vx.
  pose proof (encrypts_value_split y dy len0 Hy ltac:(lia)) as Vy.
  set (vx0 := value (firstn len0 dx)) in *. set (vx1 := value (skipn len0 dx)) in *.
  set (vy0 := value (firstn len0 dy)) in *. set (vy1 := value (skipn len0 dy)) in *.
  assert (Ex0 : enc_val C (firstn len0 x) vx0) by (eexists; split; [apply encrypts_firstn; eauto|auto]).
  assert (Ex1 : enc_val C (skipn len0 x) vx1) by (eexists; split; [apply encrypts_skipn; eauto|auto]).
  assert (Ey0 : enc_val C (firstn len0 y) vy0) by (eexists; split; [apply encrypts_firstn; eauto|auto]).
  assert (Ey1 : enc_val C (skipn len0 y) vy1) by (eexists; split; [apply encrypts_skipn; eauto|auto]).
  assert (Lx0 : length (firstn len0 x) = len0) by (rewrite firstn_length; lia).
  assert (Ly0 : length (firstn len0 y) = len0) by (rewrite firstn_length; lia).
  assert (Lx1 : length (skipn len0 x) = (n - len0)%nat) by (rewrite skipn_length; lia).
  assert (Ly1 : length (skipn len0 y) = (n - len0)%nat) by (rewrite skipn_length; lia).
  set (La := mul_len (n - len0)). set (Lb := mul_len len0). set (Lc := mul_len (len0 + 1)).
  eapply okP_bind; [apply (Hrec (skipn len0 x) (skipn len0 y) vx1 vy1 ltac:(lia) Ex1 Ey1)|].
  cbv beta. rewrite Lx1, Ly1, Nat.max_id. intros a [Ea La'].
  eapply okP_bind; [apply (Hrec (firstn len0 x) (firstn len0 y) vx0 vy0 ltac:(lia) Ex0 Ey0)|].
  cbv beta. rewrite Lx0, Ly0, Nat.max_id. intros b [Eb Lb'].
  fold La in La'. fold Lb in Lb'.
  eapply okP_bind; [apply (pa_add_ok C _ _ _ _ Ea Eb)|].
  cbv beta. intros pab [Epab [Lpab _]].
  eapply okP_bind; [apply (pa_add_ok C _ _ _ _ Ex0 Ex1)|].
  cbv beta. intros x01 [Ex01 [Lx01 _]].
  eapply okP_bind; [apply (pa_add_ok C _ _ _ _ Ey0 Ey1)|].
  cbv beta. intros y01 [Ey01 [Ly01 _]].
  eapply okP_bind; [apply (Hrec x01 y01 _ _ ltac:(lia) Ex01 Ey01)|].
  cbv beta. intros c [Ec Lc0].
  assert (Lc' : (length c <= Lc)%nat).
  { eapply Nat.le_trans; [apply Lc0|]. apply mul_len_mono; lia. }
  clear Lc0.
  assert (Esh : forall z v, enc_val C z v ->
     enc_val C (ct_triv len0 ++ z) (v * 2 ^ Z.of_nat len0)).
  { intros z v Hz. pose proof (pa_shift_ok C z len0 v Hz) as H. destruct len0; auto. }
  rewrite map_opp_pa.
  pose proof (pa_opp_ok C _ _ Epab) as Eopp.
  assert (Lopp : length (pa_opp pab) = length pab) by (apply map_length).
  eapply okP_bind; [apply (pa_add_ok C _ _ _ _ (Esh _ _ Ec) (Esh _ _ Eopp))|].
  cbv beta. rewrite !app_length, ct_triv_length, Lopp. intros cn [Ecn [Lcn _]].
  assert (Lcn' : (length cn <= len0 + Nat.max Lc (Nat.max La Lb + 1) + 1)%nat) by lia.
  clear Lcn. unfold kara_len.
  set (CN := (len0 + Nat.max Lc (Nat.max La Lb + 1) + 1)%nat) in *.
  set (p := 2 ^ Z.of_nat len0) in *.
  assert (Hfin : value dx * value dy =
    vx1 * vy1 * (p * p) + (vx0 * vy0 +
      ((vx0 + vx1) * (vy0 + vy1) * p + - (vx1 * vy1 + vx0 * vy0) * p))).
  { rewrite Vx, Vy. ring. }
  assert (Hpp : 2 ^ Z.of_nat (2 * len0) = p * p).
  { unfold p. rewrite <- pow2_add. f_equal. lia. }
  destruct (length b =? 2 * len0)%nat eqn:Eb2.
  - apply Nat.eqb_eq in Eb2.
    assert (Eba : enc_val C (b ++ a) (vx0 * vy0 + p * p * (vx1 * vy1))).
    { destruct Ea as [da [Ha <-]], Eb as [db [Hb <-]]. exists (db ++ da).
      split; [apply encrypts_app; auto|]. rewrite value_app, (encrypts_len C _ _ Hb), Eb2, Hpp. auto. }
    eapply okP_conseq; [apply (pa_add_ok C _ _ _ _ Eba Ecn)|].
    cbv beta. rewrite app_length. intros z [Ez [Lz _]].
    split; [|clear -Lz Lcn' La' Lb' Eb2; clearbody CN La Lb len0; lia].
    rewrite Hfin. replace (_ + _) with (vx0 * vy0 + p * p * (vx1 * vy1) +
      ((vx0 + vx1) * (vy0 + vy1) * p + - (vx1 * vy1 + vx0 * vy0) * p)); auto. ring.
  - eapply okP_bind; [apply (pa_add_ok C _ _ _ _ Eb Ecn)|].
    cbv beta. intros bc [Ebc [Lbc _]].
    pose proof (pa_shift_ok C a (2 * len0) _ Ea) as Eas.
    eapply okP_conseq; [apply (pa_add_ok C _ _ _ _ Eas Ebc)|].
    cbv beta. rewrite pa_shift_length. intros z [Ez [Lz _]].
    split; [|clear -Lz Lbc Lcn' La' Lb'; clearbody CN La Lb len0; lia].
    rewrite Hpp in Ez. rewrite Hfin. auto.
Qed.

Lemma mul_impl_ok : forall rec x y vx vy,
  let n := Nat.max (length x) (length y) in (n <= 32)%nat ->
  ((16 <= n)%nat -> n <> 17%nat -> mul_spec rec ((n + 1) / 2 + 1)) ->
  enc_val C x vx -> enc_val C y vy ->
  okP (mul_impl rec x y) (fun z => enc_val C z (vx * vy) /\ (length z <= mul_len n)%nat).
Proof.
  intros rec x y vx vy n Hn Hrec [dx [Hx <-]] [dy [Hy <-]]. unfold mul_impl.
  set (xi := x ++ ct_triv (length y - length x)). set (yi := y ++ ct_triv (length x - length y)).
  set (dxi := dx ++ repeat 0 (length y - length x)). set (dyi := dy ++ repeat 0 (length x - length y)).
  assert (Hxi : encrypts C xi dxi) by (apply encrypts_app; auto; apply encrypts_triv_zeros).
  assert (Hyi : encrypts C yi dyi) by (apply encrypts_app; auto; apply encrypts_triv_zeros).
  assert (Vx : value dxi = value dx) by (unfold dxi; rewrite value_app, value_repeat0; lia).
  assert (Vy : value dyi = value dy) by (unfold dyi; rewrite value_app, value_repeat0; lia).
  assert (Lx : length xi = n) by (unfold xi; rewrite app_length, ct_triv_length; lia).
  assert (Ly : length yi = n) by (unfold yi; rewrite app_length, ct_triv_length; lia).
  pose proof (encrypts_len C _ _ Hxi) as Ldx. pose proof (encrypts_len C _ _ Hyi) as Ldy.
  rewrite <- Vx, <- Vy, Lx. clearbody xi yi dxi dyi. clear Vx Vy Hx Hy dx dy.
  destruct (n =? 0)%nat eqn:E0.
  { apply okP_ret. destruct xi, dxi; simpl in *; try lia. split; [|simpl; lia].
    simpl value. rewrite Z.mul_0_l. apply enc_val_nil. }
  destruct (n =? 1)%nat eqn:E1.
  { unfold mul_1word. eapply okP_bind.
    - apply okP_measure. apply (fill_mulary_ok xi yi dxi dyi); auto. lia.
    - cbv beta. intros m [Lm Hm]. apply (okP_index _ m 0 []); [lia|].
      destruct (Hm 0%nat ltac:(lia)) as [V [L _]]. split.
      + destruct dyi as [|d [|? ?]]; simpl in Ldy; try lia. simpl nth in V. simpl value.
        change (2 ^ Z.of_nat 0) with 1 in V. rewrite Z.mul_1_r in V.
        replace (d + 2 * 0) with d by lia. auto.
      + replace n with 1%nat by lia. change (mul_len 1) with 2%nat. lia. }
  destruct ((n <? 16) || (n =? 17))%nat eqn:E2.
  { unfold mul_schoolbook. apply okP_measure. eapply okP_bind.
    - apply (fill_mulary_ok xi yi dxi dyi); auto. lia.
    - cbv beta. rewrite Lx. intros m [Lm Hm]. rewrite mul_len_school by auto.
      apply reduce_ok; auto; lia. }
  replace (n <=? 32)%nat with true by lia.
  apply kara_ok; auto; [lia|lia|apply Hrec; lia].
Qed.

Lemma mul_fuel_ok : forall f n, (n < f)%nat -> (n <= 32)%nat -> mul_spec (mul_fuel f) n.
Proof.
  induction f as [|f IH]; intros n Hf Hn x y vx vy Hm Hx Hy; [lia|].
  simpl. apply okP_analysed. apply mul_impl_ok; auto; [lia|].
  intros H16 H17. apply IH.
  - set (m := Nat.max (length x) (length y)) in *.
    pose proof (Nat.div_mod (m + 1) 2 ltac:(lia)).
    pose proof (Nat.mod_upper_bound (m + 1) 2 ltac:(lia)). lia.
  - set (m := Nat.max (length x) (length y)) in *.
    pose proof (Nat.div_mod (m + 1) 2 ltac:(lia)).
    pose proof (Nat.mod_upper_bound (m + 1) 2 ltac:(lia)). lia.
Qed.

Lemma pa_mul_ok : forall x y vx vy, (Nat.max (length x) (length y) <= 32)%nat ->
  enc_val C x vx -> enc_val C y vy ->
  okP (pa_mul x y) (fun z => enc_val C z (vx * vy) /\
                             (length z <= mul_len (Nat.max (length x) (length y)))%nat).
Proof.
  intros x y vx vy Hn Hx Hy. unfold pa_mul.
  apply (mul_fuel_ok _ (Nat.max (length x) (length y))); auto.
Qed.

Lemma pa_mul_long : forall x y : ciphertext B, (32 < Nat.max (length x) (length y))%nat ->
  fst (pa_mul x y) = Panic E_mul_long.
Proof.
  intros x y H. unfold pa_mul. simpl. rewrite fst_analysed. unfold mul_impl.
  rewrite app_length, ct_triv_length.
  replace (length x + (length y - length x))%nat with (Nat.max (length x) (length y)) by lia.
  set (n := Nat.max (length x) (length y)) in *.
  replace (n =? 0)%nat with false by lia. replace (n =? 1)%nat with false by lia.
  replace ((n <? 16) || (n =? 17))%nat with false by lia.
  replace (n <=? 32)%nat with false by lia. reflexivity.
Qed.

(** ** Squaring *)
Lemma squ_1_ok : forall x dx, encrypts C x dx -> length x = 1%nat ->
  okP (squ_1word x) (fun z => enc_val C z (value dx * value dx) /\ length z = 1%nat).
Proof.
  intros x dx Hx L1. pose proof (encrypts_len C x dx Hx) as Ld.
  destruct x as [|w [|? ?]]; simpl in L1; try lia. destruct dx as [|d [|? ?]]; simpl in Ld; try lia.
  pose proof (encrypts_nth C _ _ 0 Hx) as Hw. pose proof (digits_nth _ 0 (proj1 Hx)) as Hd.
  simpl in Hw, Hd. unfold squ_1word.
  eapply okP_bind with (P := fun z => wmsg C z (d * d) 1).
  - apply okP_measure. change (index [w] 0) with (ret w). rewrite ret_bind.
    assert (F : lut_fun C a_1_pi_5 (-1) 1 (fun m => m * m)) by (apply lut_fun_of; reflexivity).
    apply (lut_fun_okP C a_1_pi_5 (-1) 1 (fun m => m * m) w d 1); auto.
    pose proof (@l1_need_8 qw). lia.
  - intros z Hz. apply okP_ret. split; auto.
    replace (value [d] * value [d]) with (d * d) by (simpl; ring).
    apply enc_val_single; auto. apply digit_mul; auto.
Qed.

Definition squ_tbl (pos : nat) : list Z :=
  match pos with
  | 0 => lut_squ_0 | 1 => [] | 2 => lut_squ_2 | 3 => lut_squ_3 | 4 => lut_squ_4 | _ => lut_squ_5
  end%nat.

(** binary digit [pos] of m^2 *)
Definition sqbit (pos : nat) (m : Z) : Z := (m * m) / 2 ^ Z.of_nat pos mod 2.

Lemma squ_bit_ok : forall pos (w : word B) m k, In pos [0; 2; 3; 4; 5]%nat ->
  0 <= k <= l1_need qw -> -7 <= m <= 7 -> wmsg C w m k ->
  okP (squ_3_bit_pi_5 w pos) (fun z => wmsg C z (sqbit pos m) 1).
Proof.
  intros pos w m k Hp Hk Hm Hw.
  assert (F : lut_fun C (fun c => eval_LUT_5_uint c (squ_tbl pos)) (-7) 7 (sqbit pos)).
  { simpl in Hp. destruct Hp as [<-|[<-|[<-|[<-|[<-|[]]]]]]; apply lut_fun_of; reflexivity. }
  pose proof (lut_fun_okP C _ _ _ _ w m k F Hk Hm Hw) as H.
  simpl in Hp. destruct Hp as [<-|[<-|[<-|[<-|[<-|[]]]]]]; exact H.
Qed.

Lemma sqbit_digit : forall p m, digit (sqbit p m).
Proof. intros. unfold sqbit, digit. pose proof (Z.mod_pos_bound (m * m / 2 ^ Z.of_nat p) 2). lia. Qed.

Lemma sqbits_sum : forall m n, (n = 2 \/ n = 3)%nat -> Z.abs m < 2 ^ Z.of_nat n ->
  value (sqbit 0 m :: 0 :: map (fun i => sqbit (i + 1) m) (seq 1 (2 * n - 2))) = m * m.
Proof.
  intros m n Hn Hm.
  assert (H : forallb (fun m => value (sqbit 0 m :: 0 :: map (fun i => sqbit (i + 1) m) (seq 1 (2 * n - 2)))
     =? m * m) (zrange (- (2 ^ Z.of_nat n - 1)) (2 ^ Z.of_nat n - 1)) = true).
  { destruct Hn as [ -> | -> ]; reflexivity. }
  rewrite forallb_forall in H. specialize (H m (in_zrange (- (2 ^ Z.of_nat n - 1)) (2 ^ Z.of_nat n - 1) m ltac:(lia))).
  lia.
Qed.

Lemma squ_23_ok : forall x dx, encrypts C x dx -> (length x = 2 \/ length x = 3)%nat ->
  okP (squ_2_3word x) (fun z => enc_val C z (value dx * value dx) /\ length z = (2 * length x)%nat).
Proof.
  intros x dx Hx HL. unfold squ_2_3word.
  replace ((length x =? 2) || (length x =? 3))%nat with true by lia. cbn [negb].
  pose proof (encrypts_len C x dx Hx) as Ld. set (n := length x) in *.
  pose proof (value_bound dx (proj1 Hx)) as Vb. rewrite Ld in Vb.
  pose proof (@l1_need_8 qw) as H8.
  set (xv := if (n =? 2)%nat then _ else _).
  assert (Hxv : wmsg C xv (value dx) 7).
  { pose proof (encrypts_nth C x dx 0 Hx) as N0. pose proof (encrypts_nth C x dx 1 Hx) as N1.
    pose proof (encrypts_nth C x dx 2 Hx) as N2. unfold xv. destruct HL as [HL|HL]; rewrite HL in *; cbn [Nat.eqb].
    - destruct dx as [|d0 [|d1 [|? ?]]]; simpl in Ld; try lia. simpl nth in *. simpl value.
      replace (d0 + 2 * (d1 + 2 * 0)) with (d1 * 2 + d0) by ring.
      eapply wmsg_weaken with (k := 2 + 1); [lia|]. apply wmsg_add; auto; try lia.
      apply (wmsg_mul C _ _ 1 2); auto; lia.
    - destruct dx as [|d0 [|d1 [|d2 [|? ?]]]]; simpl in Ld; try lia. simpl nth in *. simpl value.
      replace (d0 + 2 * (d1 + 2 * (d2 + 2 * 0))) with ((d2 * 2 + d1) * 2 + d0) by ring.
      apply (wmsg_add C _ _ _ _ 6 1); auto; try lia.
      apply (wmsg_mul C _ _ 3 2); try lia. apply (wmsg_add C _ _ _ _ 2 1); auto; try lia.
      apply (wmsg_mul C _ _ 1 2); auto; lia. }
  clearbody xv.
  assert (Hv7 : -7 <= value dx <= 7).
  { destruct HL as [HL|HL]; rewrite HL in Vb; [change (2 ^ Z.of_nat 2) with 4 in Vb|
      change (2 ^ Z.of_nat 3) with 8 in Vb]; lia. }
  eapply okP_bind.
  { apply okP_measure. apply (okP_mapM _ _ _ (fun i w =>
      wmsg C w (sqbit (if (i <? 1)%nat then i else i + 1)%nat (value dx)) 1)).
    intros i Hi. apply in_seq in Hi. apply (squ_bit_ok _ _ _ 7); auto; [|lia].
    simpl. destruct (i <? 1)%nat eqn:E; lia. }
  intros res Hres. cbv beta in Hres.
  destruct res as [|r0 rs].
  { exfalso. apply Forall2_len in Hres. rewrite seq_length in Hres. simpl in Hres. lia. }
  change (index (r0 :: rs) 0) with (@ret (word B) r0). rewrite ret_bind. apply okP_ret.
  replace (2 * n - 1)%nat with (S (2 * n - 2)) in Hres by lia. cbn [seq] in Hres.
  inversion Hres as [|? ? ? ? R0 RS]; subst. cbn [skipn]. cbn [Nat.ltb Nat.leb] in R0.
  pose proof (Forall2_len _ _ _ _ _ RS) as Lrs. rewrite seq_length in Lrs.
  split; [|simpl; lia].
  exists (sqbit 0 (value dx) :: 0 :: map (fun i => sqbit (i + 1) (value dx)) (seq 1 (2 * n - 2))).
  split.
  - split.
    + constructor; [apply sqbit_digit|]. constructor; [unfold digit; lia|].
      apply Forall_forall. intros d Hd. apply in_map_iff in Hd. destruct Hd as [i [<- _]].
      apply sqbit_digit.
    + constructor; auto. constructor; [apply wmsg_triv|].
      apply (Forall2_swap_map _ _ _ (fun m w => wmsg C w m 1) (fun i => sqbit (i + 1) (value dx))).
      eapply Forall2_impl_in; [|apply RS]. cbv beta. intros i w Hi Hw. apply in_seq in Hi.
      replace (i <? 1)%nat with false in Hw by lia. auto.
  - apply sqbits_sum; auto. lia.
Qed.

Definition squ_spec (rec : ciphertext B -> M (ciphertext B)) (n : nat) : Prop :=
  forall x v, (length x <= n)%nat -> enc_val C x v ->
  okP (rec x) (fun z => enc_val C z (v * v) /\ (length z <= squ_len (length x))%nat).

Lemma dnq_ok : forall rec x dx, (4 <= length x <= 32)%nat ->
  squ_spec rec ((length x + 1) / 2) -> encrypts C x dx ->
  okP (squ_dnq rec x) (fun z => enc_val C z (value dx * value dx) /\
                                (length z <= squ_len (length x))%nat).
Proof.
  intros rec x dx Hn Hrec Hx. unfold squ_dnq.
  rewrite squ_len_dnq by lia. set (n := length x) in *.
  set (len0 := ((n + 1) / 2)%nat) in *.
  assert (Hl0 : (len0 <= n /\ n - len0 <= len0 /\ len0 <= 16)%nat).
  { unfold len0. pose proof (Nat.div_mod (n + 1) 2 ltac:(lia)).
    pose proof (Nat.mod_upper_bound (n + 1) 2 ltac:(lia)). lia. }
  apply okP_measure.
  pose proof (encrypts_value_split x dx len0 Hx ltac:(lia)) as Vx.
  set (vx0 := value (firstn len0 dx)) in *. set (vx1 := value (skipn len0 dx)) in *.
  assert (Ex0 : enc_val C (firstn len0 x) vx0) by (eexists; split; [apply encrypts_firstn; eauto|auto]).
  assert (Ex1 : enc_val C (skipn len0 x) vx1) by (eexists; split; [apply encrypts_skipn; eauto|auto]).
  assert (Lx0 : length (firstn len0 x) = len0) by (rewrite firstn_length; lia).
  assert (Lx1 : length (skipn len0 x) = (n - len0)%nat) by (rewrite skipn_length; lia).
  set (La := squ_len (n - len0)). set (Lb := squ_len len0). set (Lc := mul_len len0).
  eapply okP_bind; [apply (Hrec (skipn len0 x) _ ltac:(lia) Ex1)|].
  cbv beta. rewrite Lx1. intros a [Ea La'].
  eapply okP_bind; [apply (Hrec (firstn len0 x) _ ltac:(lia) Ex0)|].
  cbv beta. rewrite Lx0. intros b [Eb Lb'].
  fold La in La'. fold Lb in Lb'.
  eapply okP_bind; [apply (pa_mul_ok (firstn len0 x) (skipn len0 x) _ _ ltac:(lia) Ex0 Ex1)|].
  cbv beta. rewrite Lx0, Lx1, Nat.max_l by lia. fold Lc. intros c [Ec Lc'].
  pose proof (pa_shift_ok C c (len0 + 1) _ Ec) as Ecs.
  set (p := 2 ^ Z.of_nat len0) in *.
  assert (Hpp : 2 ^ Z.of_nat (2 * len0) = p * p).
  { unfold p. rewrite <- pow2_add. f_equal. lia. }
  assert (Hp1 : 2 ^ Z.of_nat (len0 + 1) = p * 2).
  { unfold p. rewrite pow2_add. reflexivity. }
  rewrite Hp1 in Ecs.
  assert (Hfin : value dx * value dx =
    vx1 * vx1 * (p * p) + (vx0 * vx0 + vx0 * vx1 * (p * 2))).
  { rewrite Vx. ring. }
  unfold dnq_len.
  destruct (length b =? 2 * len0)%nat eqn:Eb2.
  - apply Nat.eqb_eq in Eb2.
    assert (Eba : enc_val C (b ++ a) (vx0 * vx0 + p * p * (vx1 * vx1))).
    { destruct Ea as [da [Ha <-]], Eb as [db [Hb <-]]. exists (db ++ da).
      split; [apply encrypts_app; auto|]. rewrite value_app, (encrypts_len C _ _ Hb), Eb2, Hpp. auto. }
    eapply okP_conseq; [apply (pa_add_ok C _ _ _ _ Eba Ecs)|].
    cbv beta. rewrite app_length, pa_shift_length. intros z [Ez [Lz _]].
    split; [|clear -Lz Lc' La' Lb' Eb2; clearbody Lc La Lb len0; lia].
    rewrite Hfin. replace (_ + _) with (vx0 * vx0 + p * p * (vx1 * vx1) + vx0 * vx1 * (p * 2)); auto.
    ring.
  - eapply okP_bind; [apply (pa_add_ok C _ _ _ _ Eb Ecs)|].
    cbv beta. rewrite pa_shift_length. intros bc [Ebc [Lbc _]].
    pose proof (pa_shift_ok C a (2 * len0) _ Ea) as Eas.
    eapply okP_conseq; [apply (pa_add_ok C _ _ _ _ Eas Ebc)|].
    cbv beta. rewrite pa_shift_length. intros z [Ez [Lz _]].
    split; [|clear -Lz Lbc Lc' La' Lb'; clearbody Lc La Lb len0; lia].
    rewrite Hpp in Ez. rewrite Hfin. auto.
Qed.

Lemma squ_fuel_ok : forall f n, (n < f)%nat -> (n <= 32)%nat -> squ_spec (squ_fuel f) n.
Proof.
  induction f as [|f IH]; intros n Hf Hn x v Hm [dx [Hx <-]]; [lia|].
  simpl. apply okP_analysed. unfold squ_impl.
  pose proof (encrypts_len C x dx Hx) as Ld.
  destruct (length x =? 0)%nat eqn:E0.
  { apply okP_ret. destruct x, dx; simpl in *; try lia. split; [apply enc_val_nil|simpl; lia]. }
  destruct (length x =? 1)%nat eqn:E1.
  { apply Nat.eqb_eq in E1. rewrite E1. change (squ_len 1) with 1%nat.
    eapply okP_conseq; [apply (squ_1_ok x dx); auto|]. cbv beta. intros z [Z1 Z2]. split; auto. lia. }
  destruct (length x <=? 3)%nat eqn:E3.
  { eapply okP_conseq; [apply (squ_23_ok x dx); auto; lia|]. cbv beta. intros z [Z1 Z2]. split; auto.
    rewrite Z2. assert (length x = 2 \/ length x = 3)%nat as [ -> | -> ] by lia;
      [change (squ_len 2) with 4%nat|change (squ_len 3) with 6%nat]; lia. }
  replace (length x <=? 32)%nat with true by lia.
  apply dnq_ok; auto; [lia|].
  assert (((length x + 1) / 2 < length x)%nat).
  { pose proof (Nat.div_mod (length x + 1) 2 ltac:(lia)).
    pose proof (Nat.mod_upper_bound (length x + 1) 2 ltac:(lia)). lia. }
  apply IH; lia.
Qed.

Lemma pa_squ_ok : forall x v, (length x <= 32)%nat -> enc_val C x v ->
  okP (pa_squ x) (fun z => enc_val C z (v * v) /\ (length z <= squ_len (length x))%nat).
Proof. intros x v Hn Hx. unfold pa_squ. apply (squ_fuel_ok _ (length x)); auto. Qed.

Lemma pa_squ_long : forall x : ciphertext B, (32 < length x)%nat ->
  fst (pa_squ x) = Panic E_squ_long.
Proof.
  intros x H. unfold pa_squ. simpl. rewrite fst_analysed. unfold squ_impl.
  replace (length x =? 0)%nat with false by lia. replace (length x =? 1)%nat with false by lia.
  replace (length x <=? 3)%nat with false by lia.
  replace (length x <=? 32)%nat with false by lia. reflexivity.
Qed.

End Mul.
