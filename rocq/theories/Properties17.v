(** C06 for every polynomial size; C34 for products and squares of every length *)
From Verif Require Import Base Backend Words Params Pbs Addition Multiplication Squaring
  Symbolic Weights BaseProofs RelProofs WeightHash AccProofs Instances Properties8.
From Coq Require Import ZifyBool ZifyNat.

(* ------------------------------------------------------------------ *)
(** ** C06: the accumulator at sizes that are not multiples of 32 *)

(** Position j holds the entry whose box contains j plus half a box; what the 16
    boxes do not fill is zero; the end holds the negated first half box. *)
Theorem C06_every_size : forall N h, (forall i, 0 <= nth i h 0 < 64) ->
  let acc := gen_no_padding_acc N h in let box := (N / 16)%nat in
  length acc = N /\
  (forall j i r, (j + box / 2 = i * box + r)%nat -> (r < box)%nat -> (i < 16)%nat -> (j < N)%nat ->
     nth j acc 0 = nth i h 0 * 2^58) /\
  (forall j, (16 * box <= j + box / 2 < N)%nat -> nth j acc 0 = 0) /\
  (forall j, (N <= j + box / 2)%nat -> (j < N)%nat -> nth j acc 0 = (2^64 - nth 0 h 0 * 2^58) mod 2^64).
Proof.
  intros N h Hh acc box. destruct (acc_any N h) as [L H]. fold acc in L, H. fold box in H.
  assert (E : forall i, entry h i = nth i h 0 * 2^58).
  { intros i. specialize (Hh i). unfold entry, sat_u64. lia. }
  split; [exact L|]. split; [|split].
  - intros j i r Ej Hr Hi Hj. rewrite H by auto. cbv zeta. rewrite Ej.
    replace (i * box + r <? 16 * box)%nat with true by (symmetry; apply Nat.ltb_lt; nia).
    rewrite (Nat.add_comm (i * box)), Nat.div_add, Nat.div_small by lia. apply E.
  - intros j [H1 H2]. rewrite H by lia. cbv zeta.
    rewrite (proj2 (Nat.ltb_ge _ _) H1), (proj2 (Nat.ltb_lt _ _) H2). reflexivity.
  - intros j H1 Hj. rewrite H by lia. cbv zeta. pose proof (Nat.div_mod N 16) as D. fold box in D.
    replace (j + box / 2 <? 16 * box)%nat with false by lia. replace (j + box / 2 <? N)%nat with false by lia.
    rewrite E. unfold u64. rewrite <- (Z.mod_add (- _) 1 (2^64)) by lia. f_equal. lia.
Qed.
Print Assumptions C06_every_size.
(** a size that is not a multiple of 16: boxes of three, two positions left over *)
Example C06_size_50 :
  let acc := gen_no_padding_acc 50 [1;2;3;4;5;6;7;8;9;10;11;12;13;14;15;16] in
  map (fun z => z / 2^58) acc =
  [1;1;2;2;2;3;3;3;4;4;4;5;5;5;6;6;6;7;7;7;8;8;8;9;9;9;10;10;10;11;11;11;12;12;12;13;13;13;14;14;14;15;15;15;16;16;16;0;0;63].
Proof. vm_compute. reflexivity. Qed.

(* ------------------------------------------------------------------ *)
(** ** C34: products and squares of every length *)

Lemma within_mono : forall m n N (z : ciphertext (sym N)), m <= n -> within m z -> within n z.
Proof. intros m n N z L H t u Ht Hu l Hl. specialize (H t u Ht Hu l Hl). lia. Qed.

(** Operands of the same length, all words encrypted and independent: the
    product exists for 1 to 32 words and no bootstrap behind it exceeds 22. *)
Theorem C34_mul_lengths : forall pc N n, MIN_QUAD_WEIGHT <= quad_weight (cparams pc) -> (n <= 32)%nat ->
  keeps pc (pa_mul (input1 N (repeat None n)) (input2 N (repeat None n) (repeat None n))).
Proof.
  intros pc N n H Hn. destruct (Nat.lt_ge_cases n 16) as [C|C]; [apply C34_mul; auto|].
  destruct (Nat.eq_dec n 17) as [->|C']; [apply C34_mul; auto|].
  assert (Hin : In n (16%nat :: seq 18 15)).
  { destruct (Nat.eq_dec n 16) as [->|]; [left; reflexivity|right; apply in_seq; lia]. }
  pose proof (proj1 (forallb_forall _ _) mul_light_all n Hin) as K. unfold mul_light in K.
  unfold input1, input2. rewrite nsecret_enc.
  destruct (light_within blind N 0 (tp_only True) 22 _ _
    (mr_mul (X := tp_only True) (print_sim blind N 0 (fun _ => eq_refl)) (fun _ => I) _ _ _ _
       (pinput_rel blind N 0 (repeat None n) 0) (pinput_rel blind N 0 (repeat None n) n)) K) as [z [E W]].
  intros z' E'. rewrite E in E'. injection E' as <-. eapply within_mono; [exact H|exact W].
Qed.
Print Assumptions C34_mul_lengths.
(** Squares of up to 32 words, for every polynomial size that has boxes at all *)
Theorem C34_squ_lengths : forall pc N n, MIN_QUAD_WEIGHT <= quad_weight (cparams pc) -> (n <= 32)%nat -> (16 <= N)%nat ->
  keeps pc (pa_squ (input1 N (repeat None n))).
Proof.
  intros pc N n H Hn HN. destruct (Nat.lt_ge_cases n 2) as [C|C].
  { apply C34_squ; auto. rewrite repeat_length. lia. }
  assert (Hin : In n (seq 2 31)) by (apply in_seq; lia).
  pose proof (proj1 (forallb_forall _ _) squ_light_all n Hin) as K. unfold squ_light in K. unfold input1.
  destruct (light_within peek N 16 (tp_only True) 22 _ _
    (mr_squ (X := tp_only True) (print_sim peek N 16 (fun h => peek_any N 16 h HN (le_n 16))) (fun _ => I) _ _
       (pinput_rel peek N 16 (repeat None n) 0)) K) as [z [E W]].
  intros z' E'. rewrite E in E'. injection E' as <-. eapply within_mono; [exact H|exact W].
Qed.
Print Assumptions C34_squ_lengths.

(** These circuits exist; a square of five words comes within one of the minimum. *)
Example C34_squ_five : heaviest (pa_squ (input1 32 (repeat None 5))) = Some 21.
Proof. vm_compute. reflexivity. Qed.
Example C34_mul_sixteen :
  match fst (pa_mul (input1 32 (repeat None 16)) (input2 32 (repeat None 16) (repeat None 16))) with
  | Ok z => (length z, length (secrets z))
  | _ => (0, 0)%nat
  end = (33, 33)%nat.
Proof. vm_compute. reflexivity. Qed.
