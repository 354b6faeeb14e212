(** Proofs about rounding (C19) *)
From Verif Require Import Base Backend Words Params Pbs Addition Signum Rounding Spec Contract
  BaseProofs WordsProofs PbsProofs ValueProofs AddProofs SgnProofs.
From Coq Require Import ZifyBool ZifyNat.

Section Round.
Context {B : backend} {qw : Z} (C : contract B qw) (pc : cloud).
Hypothesis Hqw : quad_weight (cparams pc) = qw.

(** what the table does on 2y + s *)
Definition rnd (m : Z) : Z := if 2 <=? m then 1 else if m <=? -3 then -1 else 0.
Lemma round_table_ok : lut_fun C round_2y_s_pi_5 (-14) 13 rnd.
Proof. apply lut_fun_of; reflexivity. Qed.

Lemma round_to_0 : forall v, round_to 0 v = v.
Proof.
  intros v. unfold round_to. change (2 ^ Z.of_nat 0) with 1. change (1 / 2) with 0.
  rewrite Z.div_1_r. lia.
Qed.

Lemma round_to_S : forall p v q r, v = q * 2 ^ Z.of_nat (S p) + r ->
  - 2 ^ Z.of_nat p <= r < 2 ^ Z.of_nat p -> round_to (S p) v = q * 2 ^ Z.of_nat (S p).
Proof.
  intros p v q r Hv Hr. unfold round_to. pose proof (pow2_pos p). rewrite pow2_S in *.
  rewrite (Z.mul_comm 2 (2 ^ Z.of_nat p)), Z.div_mul by lia. subst v.
  f_equal. symmetry. apply Z.div_unique with (r := r + 2 ^ Z.of_nat p); lia.
Qed.

Lemma pa_round_ok : forall x v p, enc_val C x v ->
  okP (pa_round_at pc x p) (fun z => enc_val C z (round_to p v) /\
     (length z <= Nat.max (length x) (S p) + 1)%nat).
Proof.
  intros x v p [dx [Hx <-]]. unfold pa_round_at. apply okP_analysed. unfold round_at_impl.
  pose proof (encrypts_len C x dx Hx) as Ld.
  destruct p as [|p].
  { apply okP_ret. rewrite round_to_0. split; [exists dx; auto|lia]. }
  pose proof (value_bound dx (proj1 Hx)) as Vb. rewrite Ld in Vb.
  destruct (length x + 1 <=? S p)%nat eqn:E.
  { apply okP_ret. split; [|simpl; lia].
    rewrite (round_to_S p (value dx) 0 (value dx)).
    - apply enc_val_nil.
    - ring.
    - assert (2 ^ Z.of_nat (length x) <= 2 ^ Z.of_nat p) by (apply Z.pow_le_mono_r; lia). lia. }
  (* split of the value *)
  set (u := value (firstn p dx)). set (y := nth p dx 0). set (h := value (skipn (S p) dx)).
  assert (Hu : enc_val C (firstn p x) u).
  { exists (firstn p dx). split; auto. apply encrypts_firstn; auto. }
  assert (Hy : wmsg C (nth p x triv0) y 1) by (apply encrypts_nth; auto).
  assert (Dy : digit y) by (apply digits_nth; apply Hx).
  assert (Hh : enc_val C (skipn (S p) x) h).
  { exists (skipn (S p) dx). split; auto. apply encrypts_skipn; auto. }
  assert (Vu : Z.abs u <= 2 ^ Z.of_nat p - 1).
  { pose proof (value_bound (firstn p dx) (digits_firstn p dx (proj1 Hx))) as Hb.
    rewrite firstn_length in Hb. replace (Nat.min p (length dx)) with p in Hb by lia. auto. }
  assert (Vv : value dx = u + 2 ^ Z.of_nat p * y + 2 ^ Z.of_nat (S p) * h).
  { rewrite (value_split p dx) by lia. fold u. rewrite pow2_S.
    assert (Es : skipn p dx = y :: skipn (S p) dx).
    { unfold y. clear -Ld E. assert (Hp : (p < length dx)%nat) by lia. clear Ld E.
      revert p Hp. induction dx as [|a dx IH]; intros p Hp; simpl in Hp; [lia|].
      destruct p; auto. change (skipn p dx = nth p dx 0 :: skipn (S p) dx). apply IH. lia. }
    rewrite Es. change (value (y :: skipn (S p) dx)) with (y + 2 * h). ring. }
  eapply okP_bind with (P := fun sr =>
     enc_val C (fst sr) (h * 2 ^ Z.of_nat (S p)) /\ length (fst sr) = length x /\
     enc_val C (snd sr) (rnd (y * 2 + Z.sgn u) * 2 ^ Z.of_nat (S p)) /\ length (snd sr) = S (S p)).
  { apply okP_measure.
    eapply okP_bind; [apply (pa_sgn_ok C pc Hqw _ _ Hu)|].
    cbv beta. intros s [Hs Ls].
    set (yy := match s with [] => _ | _ => _ end).
    assert (Hyy : wmsg C yy (y * 2 + Z.sgn u) 3).
    { assert (H2 : wmsg C (w_mul_const (nth p x triv0) 2) (y * 2) 2).
      { apply (wmsg_mul C _ _ 1 2); auto; lia. }
      destruct Hs as [ds [[Hs1 Hs2] Hs3]]. destruct s as [|s0 [|? ?]]; simpl in Ls; [| |lia].
      - inversion Hs2; subst. simpl in Hs3. rewrite <- Hs3, Z.add_0_r.
        eapply wmsg_weaken; [|apply H2]. lia.
      - inversion Hs2 as [|? d ? ds' Hd Hs4]; subst. inversion Hs4; subst.
        simpl in Hs3. rewrite <- Hs3. replace (d + 2 * 0) with d by lia.
        apply (wmsg_add C _ _ _ _ 2 1); auto; lia. }
    eapply okP_bind.
    { apply (lut_fun_okP C round_2y_s_pi_5 (-14) 13 rnd yy (y * 2 + Z.sgn u) 3); auto.
      - apply round_table_ok.
      - pose proof (@l1_need_8 qw). lia.
      - unfold digit in Dy. lia. }
    cbv beta. intros rw Hrw. apply okP_ret. cbn [fst snd]. split; [|split; [|split]].
    - apply pa_shift_ok; auto.
    - rewrite pa_shift_length, skipn_length. lia.
    - exists (repeat 0 (S p) ++ [rnd (y * 2 + Z.sgn u)]). split.
      + apply encrypts_app; [apply encrypts_triv_zeros|]. split; constructor; auto.
        unfold rnd, digit. destruct (2 <=? _); [lia|]. destruct (_ <=? -3); lia.
      + rewrite value_app, value_repeat0, repeat_length. simpl value. lia.
    - rewrite app_length, ct_triv_length. simpl. lia. }
  intros [slx r] [H1 [H2 [H3 H4]]]. cbn [fst snd] in *.
  eapply okP_conseq; [apply (pa_add_ok C _ _ _ _ H1 H3)|].
  cbv beta. intros z [Hz [Lz _]]. split; [|lia].
  rewrite (round_to_S p (value dx) (h + rnd (y * 2 + Z.sgn u))
            (u + 2 ^ Z.of_nat p * y - rnd (y * 2 + Z.sgn u) * 2 ^ Z.of_nat (S p))).
  - rewrite Z.mul_add_distr_r. auto.
  - rewrite Vv. ring.
  - rewrite pow2_S. unfold digit in Dy. unfold rnd.
    set (P := 2 ^ Z.of_nat p) in *.
    assert (y = -1 \/ y = 0 \/ y = 1) as [ -> | [ -> | -> ]] by lia;
    destruct (2 <=? _) eqn:E1; try destruct (_ <=? -3) eqn:E2; lia.
Qed.

End Round.
