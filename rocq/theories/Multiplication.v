(** Model of src/cloudovo/multiplication.rs *)
From Verif Require Import Base Backend Words Params Pbs Addition.

Section Multiplication.
Context {B : backend}.

(** multiplication.rs:289-319 *)
Definition mul_lwe (x y : word B) : M (word B) :=
  if is_triv x then
    mx <- decrypt_mi None x ;; ret (w_mul_const y mx)
  else if is_triv y then
    my <- decrypt_mi None y ;; ret (w_mul_const x my)
  else
    mul_bit_pi_5 (w_add (w_mul_const x 3) y).

(** multiplication.rs:247-285. Row j is 2*len trivial zeros with
    [j..j+len] overwritten by the products. *)
Definition fill_mulary (x y : ciphertext B) : M (list (ciphertext B)) :=
  if negb (length x =? length y)%nat then panic P_assert
  else
    let len := length x in
    mapM (fun jyj : nat * word B =>
            let (j, yj) := jyj in
            row <- mapM (fun xi => expect (mul_lwe xi yj)) x ;;
            ret (ct_triv j ++ row ++ ct_triv (2 * len - j - len)))
         (combine (seq 0 len) y).

(** multiplication.rs:322-337: intmd[0], intmd[1] alternate; only the last
    written one is read, so a single accumulator suffices. *)
Definition reduce_mulsquary (mulary : list (ciphertext B)) : M (ciphertext B) :=
  m0 <- index mulary 0 ;;
  m1 <- index mulary 1 ;;
  acc <- pa_add m0 m1 ;;
  foldM (fun acc row => pa_add acc row) (skipn 2 mulary) acc.

(** multiplication.rs:229-244 *)
Definition mul_1word (x y : ciphertext B) : M (ciphertext B) :=
  mulary <- measure (fill_mulary x y) ;;
  index mulary 0.

(** multiplication.rs:209-226 *)
Definition mul_schoolbook (x y : ciphertext B) : M (ciphertext B) :=
  measure (
    mulary <- fill_mulary x y ;;
    reduce_mulsquary mulary).

(** multiplication.rs:89-206; [rec] is ParmArithmetics::mul. The nested thread
    scopes are run in spawn order (as seq_utils does), see Parallel.v. *)
Definition mul_karatsuba
    (rec : ciphertext B -> ciphertext B -> M (ciphertext B))
    (x y : ciphertext B) : M (ciphertext B) :=
  if negb (length x =? length y)%nat then panic P_assert
  else
    let len0 := ((length x + 1) / 2)%nat in                        (* 103 *)
    let x0 := firstn len0 x in
    let x1 := skipn len0 x in
    let y0 := firstn len0 y in
    let y1 := skipn len0 y in
    measure (
      a <- rec x1 y1 ;;                                            (* 147 *)
      b <- rec x0 y0 ;;                                            (* 151 *)
      pa_pb <- pa_add a b ;;                                       (* 155 *)
      let na_nb := ct_triv len0 ++ map w_opp pa_pb in              (* 156-158 *)
      x01 <- pa_add x0 x1 ;;                                       (* 170 *)
      y01 <- pa_add y0 y1 ;;                                       (* 173 *)
      c_plain <- rec x01 y01 ;;                                    (* 177-178 *)
      let c := ct_triv len0 ++ c_plain in
      c_nanb <- pa_add c na_nb ;;                                  (* 187 *)
      if (length b =? 2 * len0)%nat then                           (* 190-201 *)
        pa_add (b ++ a) c_nanb
      else
        b_cnanb <- pa_add b c_nanb ;;
        pa_add (pa_shift a (2 * len0)) b_cnanb).

(** multiplication.rs:30-86 *)
Definition mul_impl
    (rec : ciphertext B -> ciphertext B -> M (ciphertext B))
    (x y : ciphertext B) : M (ciphertext B) :=
  let x_in := x ++ ct_triv (length y - length x) in                (* 51-65 *)
  let y_in := y ++ ct_triv (length x - length y) in
  let l := length x_in in
  if (l =? 0)%nat then ret pa_zero
  else if (l =? 1)%nat then mul_1word x_in y_in
  else if ((l <? 16) || (l =? 17))%nat then mul_schoolbook x_in y_in
  else if (l <=? 32)%nat then mul_karatsuba rec x_in y_in
  else err_ E_mul_long.

(** arithmetics.rs:419-437. The recursion strictly shortens the operands. *)
Fixpoint mul_fuel (fuel : nat) (x y : ciphertext B) : M (ciphertext B) :=
  match fuel with
  | O => panic P_fuel
  | S f => analysed (mul_impl (mul_fuel f) x y)
  end.

Definition pa_mul (x y : ciphertext B) : M (ciphertext B) :=
  mul_fuel (S (Nat.max (length x) (length y))) x y.

End Multiplication.
