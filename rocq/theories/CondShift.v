(** The conditional shift that src/lib.rs:203-209 asks for (C78). Not code of the target: what the note describes,
    built from lookups that the library has. *)
From Verif Require Import Base Backend Words Params Pbs Maximum.

Section CondShift.
Context {B : backend}.

(** "bootstrap the leading position in a maximum-like manner; here, at i-th position, pick either x_i (leading +-1), or
    x_i-1 (leading 0)": one lookup tells whether the leading word is 0, then every word is picked as in
    maximum.rs:66-84. The result has one word less. *)
Definition cond_shift (pc : cloud) (x : ciphertext B) : M (ciphertext B) :=
  s <- a_1_pi_5 (last x triv0) ;;
  mapM (max_word pc s) (combine (tl x) (removelast x)).

(** the same [k] times: all but a number of leading zeros greater than [k] are gone, if the number is that long *)
Fixpoint cond_shifts (k : nat) (pc : cloud) (x : ciphertext B) : M (ciphertext B) :=
  match k with
  | O => ret x
  | S k => y <- cond_shift pc x ;; cond_shifts k pc y
  end.

End CondShift.
