(** The named lookup functions (C08) and the two branches of a lookup (C07) *)
From Verif Require Import Base Backend Words Params Pbs Spec Contract BaseProofs WordsProofs
  PbsProofs AddProofs SgnProofs MulProofs RoundProofs.
From Coq Require Import ZifyBool ZifyNat.

Section Tables.
Context {B : backend} {qw : Z} (C : contract B qw).

(** sweep over the parameter of a table *)
Lemma lut_fun_of_v : forall (tbl : Z -> list Z) lo hi (f : Z -> Z -> Z),
  forallb (fun v => forallb (fun t => (0 <=? t) && (t <? 32)) (tbl v) &&
                    tbl_check (tbl v) lo hi (f v)) (zrange 0 31) = true ->
  forall v, 0 <= v <= 31 -> lut_fun C (fun c => eval_LUT_5_uint c (tbl v)) lo hi (f v).
Proof.
  intros tbl lo hi f H v Hv. rewrite forallb_forall in H.
  specialize (H v (in_zrange 0 31 v Hv)). apply andb_prop in H. destruct H.
  apply lut_fun_of; auto.
Qed.

Lemma f_3_ok : lut_fun C f_3_pi_5 (-13) 13 (thr 3).
Proof. apply lut_fun_of; reflexivity. Qed.
Lemma f_5_ok : lut_fun C f_5_pi_5 (-11) 11 (thr 5).
Proof. apply lut_fun_of; reflexivity. Qed.
Lemma g_2_ok : forall v, 0 <= v <= 31 ->
  lut_fun C (fun c => g_2_pi_5 c v) (-13) 13
    (fun m => if m =? 2 then v else if m =? -2 then - v else 0).
Proof. intros v Hv. apply (lut_fun_of_v lut_g_2 _ _ (fun v m => if m =? 2 then v else if m =? -2 then - v else 0)); auto. Qed.
Lemma f_1v_ok : forall v, 0 <= v <= 31 ->
  lut_fun C (fun c => f_1_pi_5 c v) (-15) 15 (fun m => v * Z.sgn m).
Proof. intros v Hv. apply (lut_fun_of_v lut_f_1 _ _ (fun v m => v * Z.sgn m)); auto. Qed.
Lemma f_0_ok : forall v, 0 <= v <= 31 ->
  lut_fun C (fun c => f_0_pi_5 c v) (-16) 15 (fun m => if 0 <=? m then v else - v).
Proof. intros v Hv. apply (lut_fun_of_v lut_f_0 _ _ (fun v m => if 0 <=? m then v else - v)); auto. Qed.
Lemma a_2_ok : lut_fun C a_2_pi_5 (-8) 7 (fun m => if 2 <=? Z.abs m then 1 else 0).
Proof. apply lut_fun_of; reflexivity. Qed.
Lemma a_1_ok : lut_fun C a_1_pi_5 (-8) 7 (fun m => if 1 <=? Z.abs m then 1 else 0).
Proof. apply lut_fun_of; reflexivity. Qed.
Lemma relu_plus_ok : lut_fun C relu_plus_pi_5 (-12) 3 (fun m => if m <=? 0 then 0 else m - 2).
Proof. apply lut_fun_of; reflexivity. Qed.
Lemma relu_plus_4 : lut_fun C relu_plus_pi_5 4 4 (fun _ => 0).
Proof. apply lut_fun_of; reflexivity. Qed.

(** selection by products and sums of digits *)
Lemma mul_bit_xy : forall (c : word B) x y k, digit x -> digit y -> 0 <= k <= l1_need qw ->
  wmsg C c (3 * x + y) k ->
  exists w, mul_bit_pi_5 c = (Ok w, lut_trace c) /\ wmsg C w (x * y) 1.
Proof.
  intros c x y k Hx Hy Hk Hc. unfold digit in *.
  destruct (mul_bit_ok C c (3 * x + y) k Hk ltac:(lia) Hc) as [w [H1 [H2 _]]].
  exists w. split; auto. rewrite <- mulb_sel_ok by auto. replace (x * 3 + y) with (3 * x + y) by ring. auto.
Qed.
Lemma max_sxy : forall (c : word B) s x y k, 0 <= s <= 1 -> digit x -> digit y ->
  0 <= k <= l1_need qw -> wmsg C c (s + 2 * x + 6 * y) k ->
  exists w, max_s_2x_6y_pi_5 c = (Ok w, lut_trace c) /\ wmsg C w (if s =? 1 then x else y) 1.
Proof.
  intros c s x y k Hs Hx Hy Hk Hc. unfold digit in *.
  destruct (max_table_ok C c (s + 2 * x + 6 * y) k Hk ltac:(lia) Hc) as [w [H1 [H2 _]]].
  exists w. split; auto. rewrite <- max_sel_ok by auto. auto.
Qed.
Lemma squ_3_pos1 : forall c : word B, squ_3_bit_pi_5 c 1 = (Ok (encrypt_word_triv 0), []).
Proof. reflexivity. Qed.

(** both branches of a lookup *)
Lemma lut_agree : forall (c : ct B) pt m k h, lut_range h -> 0 <= k <= l1_need qw ->
  wmsg C (Ct c) m k -> wmsg C (Triv pt) m k ->
  exists c' pt', fst (eval_LUT_5_half (Ct c) h) = Ok (Ct c') /\
    fst (eval_LUT_5_half (Triv pt : word B) h) = Ok (Triv pt') /\
    exists t, wrep C (Ct c') t 1 /\ wrep C (Triv pt') t 0 /\ t = negacyclic h m * 2^58.
Proof.
  intros c pt m k h Hh Hk Hc Hp.
  pose proof (ct_lut_ok C c m k h Hh Hk Hc) as H1.
  destruct (triv_lut_ok C pt m h k) as [p [P1 [P2 P3]]]; auto.
  { intros i. specialize (Hh i). lia. }
  eexists; exists p. split; [reflexivity|]. split; [exact P1|].
  exists (negacyclic h m * 2^58). auto.
Qed.

End Tables.
