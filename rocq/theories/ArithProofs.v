(** Programs: expressions and neural networks *)
From Verif Require Import Base Backend Words Encryption Params Addition Signum Maximum Multiplication
  Squaring Rounding ScalarMul Arith NeuralNetwork Spec Expr Contract
  BaseProofs WordsProofs ValueProofs AddProofs EncProofs SgnProofs MulProofs RoundProofs NafProofs ScalarProofs.
From Coq Require Import ZifyBool ZifyNat.

(** Returns a value satisfying P, or panics in an allowed way *)
Definition outP {A} (X : err -> Prop) (m : M A) (P : A -> Prop) : Prop :=
  match fst m with Ok a => P a | Err _ => False | Panic e => X e end.

Lemma outP_ret : forall A X (a : A) (P : A -> Prop), P a -> outP X (ret a) P.
Proof. auto. Qed.
Lemma outP_bind : forall A B X (m : M A) (f : A -> M B) P Q,
  outP X m P -> (forall a, P a -> outP X (f a) Q) -> outP X (bind m f) Q.
Proof.
  intros A B X m f P Q Hm Hf. unfold outP in *. rewrite fst_bind.
  destruct (fst m); auto. apply Hf; auto.
Qed.
Lemma outP_conseq : forall A X (m : M A) (P Q : A -> Prop),
  outP X m P -> (forall a, P a -> Q a) -> outP X m Q.
Proof. intros A X m P Q Hm H. unfold outP in *. destruct (fst m); auto. Qed.
Lemma outP_weaken : forall A (X Y : err -> Prop) (m : M A) P,
  outP X m P -> (forall e, X e -> Y e) -> outP Y m P.
Proof. intros A X Y m P Hm H. unfold outP in *. destruct (fst m); auto. Qed.
Lemma okP_outP : forall A X (m : M A) P, okP m P -> outP X m P.
Proof. intros A X m P [a [H1 H2]]. unfold outP. rewrite H1. auto. Qed.
Lemma outP_okP : forall A (m : M A) P, outP (fun _ => False) m P -> okP m P.
Proof. intros A m P H. unfold outP in H. destruct (fst m) eqn:E; [exists a; auto|tauto|tauto]. Qed.
Lemma outP_measure : forall A X (m : M A) P, outP X m P -> outP X (measure m) P.
Proof. intros A X m P H. unfold outP in *. rewrite fst_measure. auto. Qed.
Lemma outP_mapM : forall A B X (f : A -> M B) (R : A -> B -> Prop) l,
  (forall a, In a l -> outP X (f a) (R a)) -> outP X (mapM f l) (Forall2 R l).
Proof.
  induction l as [|a t IH]; intros H; simpl.
  - apply outP_ret; constructor.
  - eapply outP_bind; [apply H; left; auto|]. intros b Hb.
    eapply outP_bind; [apply IH; intros; apply H; right; auto|]. intros r Hr.
    apply outP_ret; constructor; auto.
Qed.

(* ------------------------------------------------------------------ *)
(** ** Expressions on ciphertexts *)
Section Ct.
Context {B : backend} {qw : Z} (C : contract B qw) (pc : cloud) (g : nat).
Hypothesis Hq : quad_weight (cparams pc) = qw.
Hypothesis Hbp : bit_precision (cparams pc) = 5%nat.
Hypothesis HT : table_valid g (asc_12 pc).

(** panics that an expression may cause *)
Definition expr_panics (e : err) : Prop :=
  ovf pc = true /\ e = P_overflow \/ e = E_mul_long \/ e = E_squ_long.

Lemma enc_val_nil : enc_val C [] 0.
Proof. exists []. split; [split; constructor|reflexivity]. Qed.

Lemma env_ok : forall env vs i, Forall2 (enc_val C) env vs -> enc_val C (nth i env []) (nth i vs 0).
Proof.
  intros env vs i H. revert i. induction H; intros [|i]; cbn [nth]; auto; apply enc_val_nil.
Qed.

Theorem run_ct_ok : forall e env vs, consts e -> Forall2 (enc_val C) env vs ->
  outP expr_panics (run (arith_ct pc) env e) (fun z => enc_val C z (zeval vs e)).
Proof.
  induction e; intros env vs Hc Henv; cbn [run zeval consts] in *;
    repeat match goal with H : _ /\ _ |- _ => destruct H end;
    try (eapply outP_bind; [eauto|]; let x := fresh "x" in let Hx := fresh "Hx" in intros x Hx; cbv beta in Hx);
    try (eapply outP_bind; [eauto; fail|]; let y := fresh "y" in let Hy := fresh "Hy" in intros y Hy; cbv beta in Hy);
    cbn [arith_ct a_zero a_opp a_shift a_add a_sub a_add_const a_scalar_mul a_sgn a_max a_relu a_mul a_squ a_round_at].
  - apply outP_ret. apply env_ok; auto.
  - apply outP_ret. apply enc_val_nil.
  - apply IHe2; auto.
  - apply outP_ret. apply pa_opp_ok; auto.
  - apply outP_ret. apply pa_shift_ok; auto.
  - apply okP_outP. eapply okP_conseq; [apply (pa_add_ok C); eauto|]. intros z [Hz _]. auto.
  - apply okP_outP. eapply okP_conseq; [apply (pa_sub_ok C); eauto|]. intros z [Hz _]. auto.
  - apply okP_outP. eapply okP_conseq; [apply (pa_add_const_ok C); eauto; unfold I64_MIN, I64_MAX; lia|].
    intros z [Hz _]. auto.
  - eapply outP_weaken with (X := fun e => ovf pc = true /\ e = P_overflow); [|unfold expr_panics; auto].
    eapply outP_conseq; [apply (scalar_mul_ok C pc g k x (zeval vs e) HT); auto; unfold I32_MIN, I32_MAX; lia|].
    intros z [Hz _]. auto.
  - apply okP_outP. eapply okP_conseq; [apply (pa_sgn_ok C pc Hq); eauto|]. intros z [Hz _]. auto.
  - apply okP_outP. eapply okP_conseq; [apply (pa_max_ok C pc Hq); eauto|]. intros z [Hz _]. auto.
  - apply okP_outP. eapply okP_conseq; [apply (pa_relu_ok C pc Hq); eauto|]. intros z [Hz _]. auto.
  - destruct (le_lt_dec (Nat.max (length x) (length y)) 32) as [Hl|Hl].
    + apply okP_outP. eapply okP_conseq; [apply (pa_mul_ok C); eauto|]. intros z [Hz _]. auto.
    + unfold outP. rewrite pa_mul_long by auto. unfold expr_panics. auto.
  - destruct (le_lt_dec (length x) 32) as [Hl|Hl].
    + apply okP_outP. eapply okP_conseq; [apply (pa_squ_ok C); eauto|]. intros z [Hz _]. auto.
    + unfold outP. rewrite pa_squ_long by auto. unfold expr_panics. auto.
  - apply okP_outP. eapply okP_conseq; [apply (pa_round_ok C pc Hq); eauto|]. intros z [Hz _]. auto.
Qed.

(** ** Static bound on the number of words; None if a product could be too long *)
Definition bits (k : Z) : nat := Z.to_nat (Z.log2 (Z.abs k) + 1).
Lemma bits_ok : forall k, Z.abs k < 2 ^ Z.of_nat (bits k).
Proof.
  intros k. unfold bits. pose proof (Z.log2_nonneg (Z.abs k)). rewrite Z2Nat.id by lia.
  destruct (Z.eq_dec k 0) as [ -> |Hk]; [reflexivity|].
  apply Z.log2_spec. lia.
Qed.
Fixpoint words (ls : list nat) (e : expr) : option nat :=
  match e with
  | Var i => Some (nth i ls 0%nat)
  | Zero => Some 0%nat
  | Let e1 e2 => match words ls e1 with Some n => words (n :: ls) e2 | None => None end
  | Opp e => words ls e
  | Shift e k => match words ls e with Some n => Some (k + n)%nat | None => None end
  | Add e1 e2 | Sub e1 e2 =>
      match words ls e1, words ls e2 with
      | Some n, Some m => Some (Nat.max n m + 1)%nat | _, _ => None end
  | AddC e k => match words ls e with Some n => Some (Nat.max n (bits k) + 1)%nat | None => None end
  | ScMul k e => match words ls e with Some n => Some (n + g + 34)%nat | None => None end
  | Sgn e => match words ls e with Some n => Some 1%nat | None => None end
  | Max e1 e2 =>
      match words ls e1, words ls e2 with
      | Some n, Some m => Some (Nat.max n m) | _, _ => None end
  | Relu e => words ls e
  | Mul e1 e2 =>
      match words ls e1, words ls e2 with
      | Some n, Some m => if (Nat.max n m <=? 32)%nat then Some (mul_len (Nat.max n m)) else None
      | _, _ => None end
  | Squ e => match words ls e with
             | Some n => if (n <=? 32)%nat then Some (squ_len n) else None
             | None => None end
  | Round e p => match words ls e with Some n => Some (Nat.max n (S p) + 1)%nat | None => None end
  end.

Definition bnd (x : ciphertext B) (v : Z) (n : nat) : Prop := enc_val C x v /\ (length x <= n)%nat.
Definition env_bnd (env : list (ciphertext B)) (vs : list Z) (ls : list nat) : Prop :=
  forall i, bnd (nth i env []) (nth i vs 0) (nth i ls 0%nat).

Lemma env_bnd_cons : forall x v n env vs ls, bnd x v n -> env_bnd env vs ls ->
  env_bnd (x :: env) (v :: vs) (n :: ls).
Proof. intros x v n env vs ls H1 H2 [|i]; auto. apply H2. Qed.

Definition only_ovf (e : err) : Prop := ovf pc = true /\ e = P_overflow.

Theorem run_ct_bnd : forall e env vs ls n, consts e -> env_bnd env vs ls -> words ls e = Some n ->
  outP only_ovf (run (arith_ct pc) env e) (fun z => bnd z (zeval vs e) n).
Proof.
  induction e; intros env vs ls nn Hc Henv Hw; cbn [run zeval consts words] in *;
    repeat match goal with H : _ /\ _ |- _ => destruct H end;
    try match type of Hw with context [words ls ?e1] =>
      let n1 := fresh "n1" in let E1 := fresh "E1" in
      destruct (words ls e1) as [n1|] eqn:E1; [|discriminate] end;
    try match type of Hw with context [words ls ?e1] =>
      let n2 := fresh "n2" in let E2 := fresh "E2" in
      destruct (words ls e1) as [n2|] eqn:E2; [|discriminate] end;
    try (eapply outP_bind; [eauto|]; let x := fresh "x" in let Hx := fresh "Hx" in let Lx := fresh "Lx" in
         intros x [Hx Lx]; cbv beta in *);
    try (eapply outP_bind; [eauto; fail|]; let y := fresh "y" in let Hy := fresh "Hy" in let Ly := fresh "Ly" in
         intros y [Hy Ly]; cbv beta in *);
    cbn [arith_ct a_zero a_opp a_shift a_add a_sub a_add_const a_scalar_mul a_sgn a_max a_relu a_mul a_squ a_round_at];
    unfold bnd in *.
  - inversion Hw; subst. apply outP_ret. apply Henv.
  - inversion Hw; subst. apply outP_ret. split; [apply enc_val_nil|cbn; lia].
  - apply (IHe2 (x :: env) (zeval vs e1 :: vs) (n1 :: ls)); auto. apply env_bnd_cons; auto. split; auto.
  - inversion Hw; subst. apply outP_ret. split; [apply pa_opp_ok; auto|].
    unfold pa_opp, opposite_impl. rewrite map_length. auto.
  - inversion Hw; subst. apply outP_ret. split; [apply pa_shift_ok; auto|]. rewrite pa_shift_length. lia.
  - inversion Hw; subst. apply okP_outP. eapply okP_conseq; [apply (pa_add_ok C); eauto|].
    intros z [Hz [Lz _]]. split; auto. lia.
  - inversion Hw; subst. apply okP_outP. eapply okP_conseq; [apply (pa_sub_ok C); eauto|].
    intros z [Hz Lz]. split; auto. lia.
  - inversion Hw; subst. apply okP_outP.
    eapply okP_conseq; [apply (pa_add_const_ok C); eauto; unfold I64_MIN, I64_MAX; lia|].
    intros z [Hz Lz]. split; auto. specialize (Lz (bits k) (bits_ok k)). lia.
  - inversion Hw; subst.
    eapply outP_conseq; [apply (scalar_mul_ok C pc g k x (zeval vs e) HT); auto; unfold I32_MIN, I32_MAX; lia|].
    intros z [Hz Lz]. split; auto. lia.
  - inversion Hw; subst. apply okP_outP. eapply okP_conseq; [apply (pa_sgn_ok C pc Hq); eauto|].
    intros z [Hz Lz]. split; auto.
  - inversion Hw; subst. apply okP_outP. eapply okP_conseq; [apply (pa_max_ok C pc Hq); eauto|].
    intros z [Hz Lz]. split; auto. lia.
  - inversion Hw; subst. apply okP_outP. eapply okP_conseq; [apply (pa_relu_ok C pc Hq); eauto|].
    intros z [Hz Lz]. split; auto. lia.
  - destruct (Nat.max n1 n2 <=? 32)%nat eqn:El; [|discriminate]. inversion Hw; subst.
    apply okP_outP. eapply okP_conseq; [apply (pa_mul_ok C x y); eauto; lia|].
    intros z [Hz Lz]. split; auto. eapply Nat.le_trans; [exact Lz|]. apply mul_len_mono; lia.
  - destruct (n1 <=? 32)%nat eqn:El; [|discriminate]. inversion Hw; subst.
    apply okP_outP. eapply okP_conseq; [apply (pa_squ_ok C x); eauto; lia|].
    intros z [Hz Lz]. split; auto. eapply Nat.le_trans; [exact Lz|]. apply squ_len_mono; lia.
  - inversion Hw; subst. apply okP_outP. eapply okP_conseq; [apply (pa_round_ok C pc Hq); eauto|].
    intros z [Hz Lz]. split; auto. lia.
Qed.

End Ct.

(* ------------------------------------------------------------------ *)
(** ** Expressions on i64 *)
Lemma land_mask : forall x p, Z.land x (2 ^ Z.of_nat p - 1) = x mod 2 ^ Z.of_nat p.
Proof.
  intros x p. rewrite <- Z.land_ones by lia. f_equal. rewrite Z.ones_equiv. lia.
Qed.
Lemma land_bit : forall x p, Z.land x (2 ^ Z.of_nat p) = (x / 2 ^ Z.of_nat p) mod 2 * 2 ^ Z.of_nat p.
Proof.
  intros x p. rewrite <- Z.bit0_mod, <- Z.shiftr_div_pow2 by lia. rewrite Z.shiftr_spec by lia.
  rewrite Z.add_0_l. apply Z.bits_inj'. intros n Hn. rewrite Z.land_spec, Z.pow2_bits_eqb by lia.
  destruct (Z.testbit x (Z.of_nat p)) eqn:E; cbn [Z.b2z].
  - rewrite Z.mul_1_l, Z.pow2_bits_eqb by lia. destruct (Z.of_nat p =? n) eqn:En; [|apply andb_false_r].
    replace n with (Z.of_nat p) by lia. rewrite E. auto.
  - rewrite Z.mul_0_l, Z.bits_0. destruct (Z.of_nat p =? n) eqn:En; [|apply andb_false_r].
    replace n with (Z.of_nat p) by lia. rewrite E. auto.
Qed.

Lemma round_half : forall x p,
  round_to (S p) x = x - x mod 2 ^ Z.of_nat (S p) + (x / 2 ^ Z.of_nat p) mod 2 * 2 ^ Z.of_nat p * 2.
Proof.
  intros x p. unfold round_to. rewrite pow2_S. set (h := 2 ^ Z.of_nat p).
  assert (Hh : 0 < h) by (apply Z.pow_pos_nonneg; lia).
  replace (2 * h / 2) with h by (rewrite Z.mul_comm, Z.div_mul; lia).
  set (q := x / h). pose proof (Z.div_mod x h ltac:(lia)) as E1. fold q in E1.
  pose proof (Z.mod_pos_bound x h Hh) as B1.
  pose proof (Z.div_mod q 2 ltac:(lia)) as E2. pose proof (Z.mod_pos_bound q 2 ltac:(lia)) as B2.
  set (r := x mod h) in *. set (q2 := q / 2) in *. set (b := q mod 2) in *. clearbody q r b q2.
  assert (Hm : x mod (2 * h) = b * h + r).
  { symmetry. apply (Z.mod_unique x (2 * h) q2); nia. }
  assert (Hd : (x + h) / (2 * h) = q2 + b).
  { assert (b = 0 \/ b = 1) as [Hb|Hb] by lia; subst b; symmetry.
    - apply (Z.div_unique (x + h) (2 * h) (q2 + 0) (h + r)); nia.
    - apply (Z.div_unique (x + h) (2 * h) (q2 + 1) r); nia. }
  rewrite Hm, Hd. nia.
Qed.

Lemma i64_round_ok : forall o x p, - 2^63 <= x < 2^63 -> (p < 63)%nat ->
  - 2^63 <= round_to p x < 2^63 -> i64_round_at o x p = ret (round_to p x).
Proof.
  intros o x [|p] Hx Hp Hr; [rewrite round_to_0; auto|]. unfold i64_round_at.
  replace (63 <=? S p)%nat with false by lia. rewrite land_mask, land_bit.
  rewrite round_half in *. set (b := (x / 2 ^ Z.of_nat p) mod 2) in *.
  assert (Hb : 0 <= b < 2) by (apply Z.mod_pos_bound; lia).
  assert (H62 : 0 < 2 ^ Z.of_nat p <= 2 ^ 61) by (split; [apply Z.pow_pos_nonneg; lia|apply Z.pow_le_mono_r; lia]).
  pose proof (Z.mod_pos_bound x (2 ^ Z.of_nat (S p)) ltac:(apply Z.pow_pos_nonneg; lia)) as HM.
  rewrite (chk_i64_in _ (x - x mod 2 ^ Z.of_nat (S p))).
  2:{ unfold I64_MIN, I64_MAX. split; [|lia].
      pose proof (Z.div_mod x (2 ^ Z.of_nat (S p)) ltac:(pose proof (pow2_pos (S p)); lia)) as E.
      replace (x - x mod 2 ^ Z.of_nat (S p)) with (2 ^ Z.of_nat (S p) * (x / 2 ^ Z.of_nat (S p))) by lia.
      assert (E63 : 2 ^ 63 = 2 ^ Z.of_nat (S p) * 2 ^ Z.of_nat (63 - S p)).
      { rewrite <- pow2_add. f_equal. lia. }
      assert (- 2 ^ Z.of_nat (63 - S p) <= x / 2 ^ Z.of_nat (S p)).
      { apply Z.div_le_lower_bound; [pose proof (pow2_pos (S p)); lia|]. lia. }
      pose proof (pow2_pos (S p)). nia. }
  rewrite ret_bind. replace (i64 (b * 2 ^ Z.of_nat p * 2)) with (b * 2 ^ Z.of_nat p * 2).
  2:{ unfold i64. rewrite Z.mod_small by nia. lia. }
  apply chk_i64_in. unfold I64_MIN, I64_MAX. lia.
Qed.

Theorem run_i64_ok : forall o e env, fits env e ->
  okP (run (arith_i64 o) env e) (fun z => z = zeval env e).
Proof.
  intros o. induction e; intros env Hf; cbn [run zeval fits] in *;
    destruct Hf as [Hr Hf];
    repeat match goal with H : _ /\ _ |- _ => destruct H end;
    try (eapply okP_bind; [eauto; fail|]; let x := fresh "x" in intros x ->);
    try (eapply okP_bind; [eauto; fail|]; let y := fresh "y" in intros y ->);
    cbn [arith_i64 a_zero a_opp a_shift a_add a_sub a_add_const a_scalar_mul a_sgn a_max a_relu a_mul a_squ a_round_at];
    try (rewrite chk_i64_in by (unfold I64_MIN, I64_MAX; lia));
    try (apply okP_ret; reflexivity).
  - apply (IHe2 (zeval env e1 :: env)); auto.
  - unfold i64_shift, shift_amount. replace (Z.of_nat k <? 64) with true by lia.
    rewrite ret_bind. apply okP_ret. unfold i64. rewrite Z.mod_small by lia. lia.
  - rewrite i64_round_ok; auto; [apply okP_ret; reflexivity|].
    destruct e; cbn [fits] in *; tauto.
Qed.

(* ------------------------------------------------------------------ *)
(** ** Neural networks *)
Section NN.
Context {T : Type} (A : arith T) (X : err -> Prop) (R : T -> Z -> Prop).

(** A computes integer arithmetic, or panics *)
Record nn_sim : Prop := mkSim {
  s_zero : R (a_zero A) 0;
  s_add : forall x y vx vy, R x vx -> R y vy -> outP X (a_add A x y) (fun z => R z (vx + vy));
  s_addc : forall x v k, R x v -> - 2^63 < k < 2^63 -> outP X (a_add_const A x k) (fun z => R z (v + k));
  s_scm : forall x v k, R x v -> - 2^31 <= k < 2^31 -> outP X (a_scalar_mul A k x) (fun z => R z (k * v));
  s_max : forall x y vx vy, R x vx -> R y vy -> outP X (a_max A x y) (fun z => R z (Z.max vx vy));
  s_relu : forall x v, R x v -> outP X (a_relu A x) (fun z => R z (Z.max 0 v))
}.
Hypothesis S : nn_sim.

Lemma affine_ok : forall w xs vs b, Forall (fun w => - 2^31 <= w < 2^31) w -> - 2^63 < b < 2^63 ->
  Forall2 R xs vs -> outP X (affine_pool A w xs b) (fun z => R z (dot w vs + b)).
Proof.
  intros w xs vs b Hw Hb Hx. unfold affine_pool.
  assert (H : forall acc va, R acc va ->
    outP X (foldM (fun res (wa : Z * T) => scm <- a_scalar_mul A (fst wa) (snd wa) ;; a_add A res scm)
                  (combine w xs) acc) (fun z => R z (va + dot w vs))).
  { revert xs vs Hx. induction Hw as [|wi w Hwi Hw IH]; intros xs vs Hx acc va Ha; cbn [combine foldM dot].
    - apply outP_ret. rewrite Z.add_0_r. auto.
    - destruct Hx as [|xi vi xs vs Hxi Hx]; cbn [combine foldM dot].
      + apply outP_ret. rewrite Z.add_0_r. auto.
      + apply outP_bind with (P := fun z => R z (va + wi * vi)).
        { eapply outP_bind; [apply (s_scm S xi vi wi); auto|]. intros z Hz. apply (s_add S); auto. }
        intros z Hz. cbv beta in Hz. eapply outP_conseq; [apply (IH xs vs Hx _ _ Hz)|].
        intros z' Hz'. replace (va + (wi * vi + dot w vs)) with (va + wi * vi + dot w vs) by ring. auto. }
  eapply outP_bind; [apply (H (a_zero A) 0), S|]. intros z Hz. rewrite Z.add_0_l in Hz.
  apply (s_addc S); auto.
Qed.

Fixpoint pairs_max (l : list Z) : list Z :=
  match l with
  | x :: y :: t => Z.max x y :: pairs_max t
  | [x] => [x]
  | [] => []
  end.
Lemma max_pairs_ok : forall n xs vs, (length xs <= n)%nat -> Forall2 R xs vs ->
  outP X (max_pairs A xs) (fun zs => Forall2 R zs (pairs_max vs)).
Proof.
  induction n as [|n IH]; intros xs vs Hn H; destruct H as [|x v xs vs Hx H]; cbn [length] in *;
    [apply outP_ret; constructor|lia|apply outP_ret; constructor|].
  destruct H as [|y u xs vs Hy H]; cbn [max_pairs pairs_max]; [apply outP_ret; repeat constructor; auto|].
  eapply outP_bind; [apply (s_max S); eauto|]. intros m Hm.
  eapply outP_bind; [apply (IH xs vs); auto; cbn [length] in *; lia|]. intros r Hr.
  apply outP_ret. constructor; auto.
Qed.
Lemma fold_max : forall l a, fold_left Z.max l a = Z.max a (match l with [] => a | _ => list_max l end).
Proof.
  assert (H : forall l a b, fold_left Z.max l (Z.max a b) = Z.max a (fold_left Z.max l b)).
  { induction l as [|c l IH]; intros a b; cbn [fold_left]; auto.
    rewrite <- Z.max_assoc. apply IH. }
  intros [|b l] a; cbn [fold_left list_max]; [lia|]. apply H.
Qed.
Lemma list_max_cons : forall a l, list_max (a :: l) = match l with [] => a | _ => Z.max a (list_max l) end.
Proof. intros a [|b l]; auto. cbn [list_max]. cbn [fold_left]. rewrite (fold_max l), (fold_max l b). destruct l; lia. Qed.
Lemma pairs_max_ok : forall n l, (length l <= n)%nat ->
  list_max (pairs_max l) = list_max l /\ length (pairs_max l) = ((length l + 1) / 2)%nat.
Proof.
  induction n as [|n IH]; intros l Hn; destruct l as [|x [|y l]]; cbn [length] in *; try lia; auto.
  cbn [pairs_max]. destruct (IH l ltac:(lia)) as [H1 H2]. split.
  - rewrite !list_max_cons, H1. destruct l as [|z l]; [reflexivity|].
    assert (pairs_max (z :: l) <> []) by (destruct l; discriminate).
    destruct (pairs_max (z :: l)); [congruence|]. lia.
  - cbn [length]. rewrite H2. replace (Datatypes.S (Datatypes.S (length l)) + 1)%nat with (length l + 1 + 1 * 2)%nat by lia.
    rewrite Nat.div_add by lia. lia.
Qed.

Lemma max_pool_rec_ok : forall f xs vs, (length xs < f)%nat -> Forall2 R xs vs ->
  outP X (max_pool_recursion A f xs) (fun z => R z (list_max vs)).
Proof.
  induction f as [|f IH]; intros xs vs Hf H; [lia|]. cbn [max_pool_recursion].
  destruct H as [|x v xs vs Hx H]; [apply outP_ret, S|].
  destruct H as [|y u xs vs Hy H]; [apply outP_ret; auto|].
  assert (HH : Forall2 R (x :: y :: xs) (v :: u :: vs)) by (repeat constructor; auto).
  eapply outP_bind; [apply (max_pairs_ok (length (x :: y :: xs)) _ _ (le_n _) HH)|].
  intros h Hh. destruct (pairs_max_ok (length (v :: u :: vs)) (v :: u :: vs) (le_n _)) as [E1 E2].
  rewrite <- E1. apply IH; auto.
  rewrite (Forall2_len _ _ _ _ _ Hh), E2. rewrite <- (Forall2_len _ _ _ _ _ HH).
  apply Nat.div_lt_upper_bound; cbn [length] in *; lia.
Qed.

Lemma max_pool_ok : forall w xs vs b, Forall (fun w => - 2^31 <= w < 2^31) w -> - 2^63 < b < 2^63 ->
  Forall2 R xs vs -> outP X (max_pool A w xs b) (fun z => R z (list_max (products w vs) + b)).
Proof.
  intros w xs vs b Hw Hb Hx. unfold max_pool.
  assert (H : outP X (mapM (fun wa : Z * T => a_scalar_mul A (fst wa) (snd wa)) (combine w xs))
                (fun zs => Forall2 R zs (products w vs))).
  { revert xs vs Hx. induction Hw as [|wi w Hwi Hw IH]; intros xs vs Hx; cbn [combine mapM products].
    - apply outP_ret. constructor.
    - destruct Hx as [|xi vi xs vs Hxi Hx]; cbn [combine mapM products]; [apply outP_ret; constructor|].
      eapply outP_bind; [apply (s_scm S xi vi wi); auto|]. intros z Hz.
      eapply outP_bind; [apply (IH xs vs Hx)|]. intros r Hr. apply outP_ret. constructor; auto. }
  eapply outP_bind; [exact H|]. intros zs Hzs.
  eapply outP_bind; [apply (max_pool_rec_ok _ zs _ (Nat.lt_succ_diag_r _) Hzs)|]. intros z Hz.
  apply (s_addc S); auto.
Qed.

Definition p_ok (p : perceptron) : Prop :=
  Forall (fun w => - 2^31 <= w < 2^31) (p_w p) /\ - 2^63 < p_b p < 2^63.

Lemma perceptron_ok : forall xs vs p, p_ok p -> Forall2 R xs vs ->
  outP X (eval_perceptron A xs p) (fun z => R z (perceptron_spec vs p)).
Proof.
  intros xs vs p [Hw Hb] Hx. unfold eval_perceptron, perceptron_spec. apply outP_measure.
  destruct (p_t p).
  - apply max_pool_ok; auto.
  - apply affine_ok; auto.
  - eapply outP_bind; [apply (affine_ok _ _ _ _ Hw Hb Hx)|]. intros z Hz. apply (s_relu S); auto.
Qed.
Lemma layer_ok : forall l xs vs, Forall p_ok l -> Forall2 R xs vs ->
  outP X (eval_layer A l xs) (fun zs => Forall2 R zs (map (perceptron_spec vs) l)).
Proof.
  intros l xs vs Hl Hx. unfold eval_layer.
  eapply outP_conseq; [apply (outP_mapM _ _ _ _ (fun p z => R z (perceptron_spec vs p)))|].
  - intros p Hp. rewrite Forall_forall in Hl. apply perceptron_ok; auto.
  - intros zs H. clear Hl Hx. induction H; cbn [map]; constructor; auto.
Qed.

Theorem nn_eval_ok : forall nn xs vs, nn_consts nn -> Forall2 R xs vs ->
  outP X (nn_eval A nn xs) (fun zs => Forall2 R zs (layers_spec (nn_layers nn) vs)).
Proof.
  intros nn xs vs Hn Hx. unfold nn_eval. unfold nn_consts in Hn.
  assert (H : outP X (eval_layers A (nn_layers nn) xs) (fun st => Forall2 R (snd st) (layers_spec (nn_layers nn) vs))).
  { unfold eval_layers. generalize (nn_layers nn) Hn. clear nn Hn.
    assert (H : forall ls l xs vs, Forall p_ok l -> Forall (Forall p_ok) ls -> Forall2 R xs vs ->
      forall ol, outP X (foldM (fun st l => measure (ol <- eval_layer A l (fst st) ;; ret (ol, ol))) (l :: ls) (xs, ol))
       (fun st => Forall2 R (snd st) (layers_spec (l :: ls) vs))).
    { clear xs vs Hx. induction ls as [|l2 ls IH]; intros l xs vs Hl Hls Hx ol.
      - cbn [foldM layers_spec]. eapply outP_bind; [apply outP_measure|].
        + eapply outP_bind; [apply (layer_ok l xs vs Hl Hx)|]. intros zs Hzs. apply outP_ret.
          refine ((fun H => H) Hzs : (fun st => Forall2 R (snd st) _) (zs, zs)).
        + intros st Hst. apply outP_ret. exact Hst.
      - inversion Hls; subst. change (layers_spec (l :: l2 :: ls) vs) with (layers_spec (l2 :: ls) (map (perceptron_spec vs) l)).
        cbn [foldM]. eapply outP_bind; [apply outP_measure|].
        + eapply outP_bind; [apply (layer_ok l xs vs Hl Hx)|]. intros zs Hzs. apply outP_ret.
          refine ((fun H => H) _ : (fun st => exists zs, st = (zs, zs) /\ Forall2 R zs _) (zs, zs)).
          exists zs. split; [reflexivity|exact Hzs].
        + intros st [zs [-> Hzs]]. apply (IH l2 zs _ ltac:(assumption) ltac:(assumption) Hzs). }
    intros [|l ls] Hn; [cbn; constructor|]. inversion Hn; subst. apply H; auto. }
  eapply outP_bind; [apply outP_measure, H|]. intros st Hst. apply outP_ret. exact Hst.
Qed.
End NN.

Lemma sim_ct : forall {B : backend} {qw : Z} (C : contract B qw) pc g,
  quad_weight (cparams pc) = qw -> bit_precision (cparams pc) = 5%nat -> table_valid g (asc_12 pc) ->
  nn_sim (arith_ct pc) (fun e => ovf pc = true /\ e = P_overflow) (enc_val C).
Proof.
  intros B qw C pc g Hq Hbp HT. constructor; intros; cbn [arith_ct a_zero a_add a_add_const a_scalar_mul a_max a_relu].
  - apply enc_val_nil.
  - apply okP_outP. eapply okP_conseq; [apply (pa_add_ok C); eauto|]. intros z [Hz _]. auto.
  - apply okP_outP. eapply okP_conseq; [apply (pa_add_const_ok C); eauto; unfold I64_MIN, I64_MAX; lia|].
    intros z [Hz _]. auto.
  - eapply outP_conseq; [apply (scalar_mul_ok C pc g k x v HT); auto; unfold I32_MIN, I32_MAX; lia|].
    intros z [Hz _]. auto.
  - apply okP_outP. eapply okP_conseq; [apply (pa_max_ok C pc Hq); eauto|]. intros z [Hz _]. auto.
  - apply okP_outP. eapply okP_conseq; [apply (pa_relu_ok C pc Hq); eauto|]. intros z [Hz _]. auto.
Qed.

Lemma sim_i64 : nn_sim (arith_i64 true) (fun e => e = P_overflow) (fun x v => x = v).
Proof.
  assert (H : forall z, outP (fun e => e = P_overflow) (chk_i64 true z) (fun r => r = z)).
  { intros z. unfold chk_i64. destruct (in_i64 z); reflexivity. }
  constructor; intros; subst; cbn [arith_i64 a_zero a_add a_add_const a_scalar_mul a_max a_relu]; auto; reflexivity.
Qed.
