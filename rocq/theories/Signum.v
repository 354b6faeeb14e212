(** Model of src/cloudovo/signum.rs *)
From Verif Require Import Base Backend Words Params Pbs Addition.

Section Signum.
Context {B : backend}.

(** signum.rs:64 *)
Definition GAMMA : nat := 4.

(** signum.rs:96-117: one group of the first round *)
Definition sgn_first_group (pc : cloud) (x : ciphertext B) (j : nat) : M (word B) :=
  let bj := triv0 in
  bj <- (if (GAMMA * j + 3 <? length x)%nat then
           sj3 <- (if 85 <=? quad_weight (cparams pc)
                   then ret (w_mul_const (nth (GAMMA * j + 3) x triv0) 8)
                   else f_1_pi_5 (nth (GAMMA * j + 3) x triv0) 8) ;;
           ret (w_add bj sj3)
         else ret bj) ;;
  ret (fold_left (fun b i =>
         if (GAMMA * j + i <? length x)%nat
         then w_add b (if (i =? 0)%nat then nth (GAMMA * j + i) x triv0
                       else w_mul_const (nth (GAMMA * j + i) x triv0) (2 ^ Z.of_nat i))
         else b)
       [0; 1; 2]%nat bj).

(** signum.rs:119-143: one group of a later round *)
Definition sgn_next_group (x : ciphertext B) (j : nat) : M (word B) :=
  sj <- mapM (fun i =>
          if (GAMMA * j + i <? length x)%nat
          then f_1_pi_5 (nth (GAMMA * j + i) x triv0) (2 ^ Z.of_nat i)
          else ret triv0)
        (seq 0 GAMMA) ;;
  ret (fold_left w_add sj triv0).

(** signum.rs:59-155. The length drops from n >= 2 to (n-1)/4+1 < n, so fuel
    equal to the length suffices. *)
Fixpoint sgn_recursion_fuel (fuel : nat) (pc : cloud) (x : ciphertext B)
    (first_round : bool) : M (ciphertext B) :=
  match fuel with
  | O => panic P_fuel
  | S fuel' =>
      if (length x =? 0)%nat then ret (ct_triv 1)                  (* 67-70 *)
      else if (length x =? 1)%nat then ret x                       (* 74-76 *)
      else
        measure (
          b <- mapM (fun j => if first_round then sgn_first_group pc x j
                              else sgn_next_group x j)
                    (seq 0 ((length x - 1) / GAMMA + 1)) ;;
          sgn_recursion_fuel fuel' pc b false)
  end.

Definition sgn_recursion_raw (pc : cloud) (x : ciphertext B) (first_round : bool) :=
  sgn_recursion_fuel (S (length x)) pc x first_round.

(** signum.rs:19-53 *)
Definition sgn_impl (pc : cloud) (x : ciphertext B) : M (ciphertext B) :=
  if (length x =? 0)%nat then ret pa_zero
  else if (length x =? 1)%nat then ret x
  else
    s_lwe <- measure (
      s_raw <- sgn_recursion_raw pc x true ;;
      s0 <- index s_raw 0 ;;
      f_1_pi_5 s0 1) ;;
    ret (ct_single s_lwe).

(** arithmetics.rs:362-378 *)
Definition pa_sgn (pc : cloud) (x : ciphertext B) := analysed (sgn_impl pc x).

End Signum.
