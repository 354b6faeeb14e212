(** Model of src/cloudovo/maximum.rs *)
From Verif Require Import Base Backend Words Params Pbs Addition Signum.

Section Maximum.
Context {B : backend}.

(** maximum.rs:66-84: the selector of one word *)
Definition max_word (pc : cloud) (s : word B) (xy : word B * word B) : M (word B) :=
  let (xi, yi) := xy in
  t <- (if 41 <=? quad_weight (cparams pc)
        then ret (w_mul_const yi 6)
        else f_1_pi_5 yi 6) ;;
  let t := w_add t (w_mul_const xi 2) in
  let t := w_add t s in
  max_s_2x_6y_pi_5 t.

(** maximum.rs:19-89 *)
Definition max_impl (pc : cloud) (x y : ciphertext B) : M (ciphertext B) :=
  measure (
    r <- pa_sub x y ;;                                             (* 31 *)
    s_raw <- sgn_recursion_raw pc r true ;;                        (* 35-39 *)
    s0 <- index s_raw 0 ;;
    s <- nonneg_pi_5 s0 ;;                                         (* 41-44 *)
    let xa := x ++ ct_triv (length y - length x) in                (* 47-54 *)
    let ya := y ++ ct_triv (length x - length y) in
    mapM (max_word pc s) (combine xa ya)).                         (* 56-84 *)

(** arithmetics.rs:380-417 *)
Definition pa_max (pc : cloud) (x y : ciphertext B) := analysed (max_impl pc x y).
Definition pa_relu (pc : cloud) (x : ciphertext B) := analysed (max_impl pc pa_zero x).

End Maximum.
