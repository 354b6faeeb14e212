(** Model of src/cloudovo/scalar_multiplication/asc.rs *)
From Verif Require Import Base Params.

(** asc.rs:37-67, generic in the three ParmArithmetics operations it uses.
    The operands of [opp] at line 51 and of [shift] are evaluated whether or
    not they are used. *)
Section Eval.
Context {T : Type}.
Variable opp : T -> M T.
Variable shift : T -> nat -> M T.
Variable add : T -> T -> M T.

Definition asc_step (vals : list T) (a : add_shift) : M (list T) :=
  l <- index vals (l_idx a) ;;
  neg_l <- opp l ;;
  r <- index vals (r_idx a) ;;
  r_sh <- shift r (r_shift a) ;;
  neg_r_sh <- opp r_sh ;;
  s <- add (if l_pos a then l else neg_l) (if r_pos a then r_sh else neg_r_sh) ;;
  ret (vals ++ [s]).

Definition asc_eval (c : asc) (x : T) : M T :=
  vals <- foldM asc_step c [x] ;;
  ret (last vals x).

End Eval.

(** lib.rs:81 [ASC_12[&k]]: panics on a missing key *)
Fixpoint asc_get (m : asc_map) (k : Z) : M asc :=
  match m with
  | [] => panic P_key
  | (k', c) :: t => if k =? k' then ret c else asc_get t k
  end.

(** asc.rs:96-128. [file] is the parsed content of the YAML file, if there is
    one; parsing itself is serde_yaml. The chains are not evaluated. *)
Definition map_from_yaml (bitlen : nat) (file : option (option asc_map)) : M asc_map :=
  match file with
  | None => err_ E_asc_missing
  | Some None => err_ E_decode
  | Some (Some m) =>
      if Z.of_nat (length m) =? 2 ^ Z.of_nat bitlen / 2 then ret m
      else err_ E_asc_count
  end.
