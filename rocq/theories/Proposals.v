(** Changes to multiplication that the notes at the end of src/lib.rs ask about (C73). Not code of the
    target: the same functions with another order of additions, or another split. *)
From Verif Require Import Base Backend Words Addition Multiplication.

Section Proposals.
Context {B : backend}.

(** src/lib.rs:187 "parallel mulary reduction? is it worth?": rows are added in pairs, the sums in pairs
    again, instead of one row after another (multiplication.rs:322-337); the last [keep] rows are added one after
    another afterwards (keep = 1: "except for the longest number", multiplication.rs:330) *)
Fixpoint pair_up (rows : list (ciphertext B)) : M (list (ciphertext B)) :=
  match rows with
  | a :: b :: t =>
      s <- pa_add a b ;;
      r <- pair_up t ;;
      ret (s :: r)
  | _ => ret rows
  end.
Fixpoint reduce_pairs (fuel : nat) (rows : list (ciphertext B)) : M (ciphertext B) :=
  match rows with
  | [] => ret []
  | [a] => ret a
  | _ =>
      match fuel with
      | O => panic P_fuel
      | S f => bind (pair_up rows) (reduce_pairs f)
      end
  end.
Definition mul_pairs (keep : nat) (x y : ciphertext B) : M (ciphertext B) :=
  measure (
    mulary <- fill_mulary x y ;;
    acc <- reduce_pairs (length mulary) (firstn (length mulary - keep) mulary) ;;
    foldM (fun acc row => pa_add acc row) (skipn (length mulary - keep) mulary) acc).

(** src/lib.rs:196-198: Karatsuba with the low part [len0] words long, and [low] for the product of the low
    parts (multiplication.rs:89-206 has len0 = (n + 1) / 2 and low = mul) *)
Definition karatsuba_at (len0 : nat) (low : ciphertext B -> ciphertext B -> M (ciphertext B))
    (x y : ciphertext B) : M (ciphertext B) :=
  if negb (length x =? length y)%nat then panic P_assert
  else
    let x0 := firstn len0 x in
    let x1 := skipn len0 x in
    let y0 := firstn len0 y in
    let y1 := skipn len0 y in
    measure (
      a <- pa_mul x1 y1 ;;
      b <- low x0 y0 ;;
      pa_pb <- pa_add a b ;;
      let na_nb := ct_triv len0 ++ map w_opp pa_pb in
      x01 <- pa_add x0 x1 ;;
      y01 <- pa_add y0 y1 ;;
      c_plain <- pa_mul x01 y01 ;;
      let c := ct_triv len0 ++ c_plain in
      c_nanb <- pa_add c na_nb ;;
      if (length b =? 2 * len0)%nat then
        pa_add (b ++ a) c_nanb
      else
        b_cnanb <- pa_add b c_nanb ;;
        pa_add (pa_shift a (2 * len0)) b_cnanb).

End Proposals.
