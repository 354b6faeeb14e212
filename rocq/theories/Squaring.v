(** Model of src/cloudovo/squaring.rs *)
From Verif Require Import Base Backend Words Params Pbs Addition Multiplication.

Section Squaring.
Context {B : backend}.

(** squaring.rs:118-132 *)
Definition squ_1word (x : ciphertext B) : M (ciphertext B) :=
  sqbit <- measure (x0 <- index x 0 ;; a_1_pi_5 x0) ;;
  ret (ct_single sqbit).

(** squaring.rs:135-187 *)
Definition squ_2_3word (x : ciphertext B) : M (ciphertext B) :=
  if negb ((length x =? 2) || (length x =? 3))%nat then panic P_assert
  else
    res_pbs <- measure (
      let x_val :=
        if (length x =? 2)%nat then
          w_add (w_mul_const (nth 1 x triv0) 2) (nth 0 x triv0)
        else
          let v := w_mul_const (nth 2 x triv0) 2 in
          let v := w_add v (nth 1 x triv0) in
          let v := w_mul_const v 2 in
          w_add v (nth 0 x triv0) in
      mapM (fun i => squ_3_bit_pi_5 x_val (if (i <? 1)%nat then i else i + 1)%nat)
           (seq 0 (2 * length x - 1))) ;;
    (* 180-184: res[0] = res_pbs[0], res[1] = 0, res[2..] = res_pbs[1..] *)
    r0 <- index res_pbs 0 ;;
    ret (r0 :: encrypt_word_triv 0 :: skipn 1 res_pbs).

(** squaring.rs:45-115; [rec] is ParmArithmetics::squ *)
Definition squ_dnq (rec : ciphertext B -> M (ciphertext B)) (x : ciphertext B)
  : M (ciphertext B) :=
  let len0 := ((length x + 1) / 2)%nat in
  let x0 := firstn len0 x in
  let x1 := skipn len0 x in
  measure (
    a <- rec x1 ;;                                                 (* 84 *)
    b <- rec x0 ;;                                                 (* 88 *)
    c_plain <- pa_mul x0 x1 ;;                                     (* 92-93 *)
    let c := pa_shift c_plain (len0 + 1) in
    if (length b =? 2 * len0)%nat then
      pa_add (b ++ a) c
    else
      b_c <- pa_add b c ;;
      pa_add (pa_shift a (2 * len0)) b_c).

(** squaring.rs:30-42 *)
Definition squ_impl (rec : ciphertext B -> M (ciphertext B)) (x : ciphertext B)
  : M (ciphertext B) :=
  let l := length x in
  if (l =? 0)%nat then ret pa_zero
  else if (l =? 1)%nat then squ_1word x
  else if (l <=? 3)%nat then squ_2_3word x
  else if (l <=? 32)%nat then squ_dnq rec x
  else err_ E_squ_long.

(** arithmetics.rs:439-455 *)
Fixpoint squ_fuel (fuel : nat) (x : ciphertext B) : M (ciphertext B) :=
  match fuel with
  | O => panic P_fuel
  | S f => analysed (squ_impl (squ_fuel f) x)
  end.

Definition pa_squ (x : ciphertext B) : M (ciphertext B) :=
  squ_fuel (S (length x)) x.

End Squaring.
