(** Model of src/cloudovo/rounding.rs *)
From Verif Require Import Base Backend Words Params Pbs Addition Signum.

Section Rounding.
Context {B : backend}.

(** rounding.rs:14-69 *)
Definition round_at_impl (pc : cloud) (x : ciphertext B) (pos : nat) : M (ciphertext B) :=
  match pos with
  | O => ret x
  | S pos1 =>
      if (length x + 1 <=? pos)%nat then ret pa_zero
      else
        sr <- measure (
          s <- pa_sgn pc (firstn pos1 x) ;;                        (* 47 *)
          let yy_s := w_mul_const (nth pos1 x triv0) 2 in          (* 49 *)
          let yy_s := match s with                                 (* 51 *)
                      | [] => yy_s
                      | s0 :: _ => w_add yy_s s0
                      end in
          rw <- round_2y_s_pi_5 yy_s ;;                            (* 54-55 *)
          ret (pa_shift (skipn pos x) pos, ct_triv pos ++ [rw])) ;;
        let (slx, r) := sr : ciphertext B * ciphertext B in
        pa_add slx r                                               (* 66 *)
  end.

(** arithmetics.rs:457-475 *)
Definition pa_round_at (pc : cloud) (x : ciphertext B) (pos : nat) :=
  analysed (round_at_impl pc x pos).

End Rounding.
