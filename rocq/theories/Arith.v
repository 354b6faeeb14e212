(** Model of src/arithmetics.rs: the trait, its i64 instance and its
    ciphertext instance *)
From Verif Require Import Base Backend Words Params Addition Signum Maximum
  Multiplication Squaring Rounding Naf Asc ScalarMul.

(** arithmetics.rs:15-120 *)
Record arith (T : Type) : Type := mkArith {
  a_zero : T;
  a_opp : T -> M T;
  a_shift : T -> nat -> M T;
  a_add : T -> T -> M T;
  a_sub : T -> T -> M T;
  a_add_noisy : T -> T -> M T;
  a_sub_noisy : T -> T -> M T;
  a_add_const : T -> Z -> M T;
  a_scalar_mul : Z -> T -> M T;
  a_sgn : T -> M T;
  a_max : T -> T -> M T;
  a_relu : T -> M T;
  a_mul : T -> T -> M T;
  a_squ : T -> M T;
  a_round_at : T -> nat -> M T
}.
Arguments a_zero {T} a.
Arguments a_opp {T} a _.
Arguments a_shift {T} a _ _.
Arguments a_add {T} a _ _.
Arguments a_sub {T} a _ _.
Arguments a_add_noisy {T} a _ _.
Arguments a_sub_noisy {T} a _ _.
Arguments a_add_const {T} a _ _.
Arguments a_scalar_mul {T} a _ _.
Arguments a_sgn {T} a _.
Arguments a_max {T} a _ _.
Arguments a_relu {T} a _.
Arguments a_mul {T} a _ _.
Arguments a_squ {T} a _.
Arguments a_round_at {T} a _ _.

(* ------------------------------------------------------------------ *)
(** ** i64, arithmetics.rs:122-212 *)

(** 131: [x << k] drops high bits; only the amount is checked *)
Definition i64_shift (ovf : bool) (x : Z) (k : nat) : M Z :=
  s <- shift_amount ovf 64 k ;; ret (i64 (x * 2 ^ s)).

(** 196-211 *)
Definition i64_round_at (ovf : bool) (x : Z) (pos : nat) : M Z :=
  match pos with
  | O => ret x
  | S pos1 =>
      if (63 <=? pos)%nat then panic P_round_pos
      else
        a <- chk_i64 ovf (x - Z.land x (2 ^ Z.of_nat pos - 1)) ;;
        chk_i64 ovf (a + i64 (Z.land x (2 ^ Z.of_nat pos1) * 2))
  end.

Definition arith_i64 (ovf : bool) : arith Z := {|
  a_zero := 0;
  a_opp x := chk_i64 ovf (- x);
  a_shift x k := i64_shift ovf x k;
  a_add x y := chk_i64 ovf (x + y);
  a_sub x y := chk_i64 ovf (x - y);
  a_add_noisy x y := chk_i64 ovf (x + y);
  a_sub_noisy x y := chk_i64 ovf (x - y);
  a_add_const x k := chk_i64 ovf (x + k);
  a_scalar_mul k x := chk_i64 ovf (k * x);
  a_sgn x := ret (Z.sgn x);
  a_max x y := ret (Z.max x y);
  a_relu x := ret (Z.max 0 x);
  a_mul x y := chk_i64 ovf (x * y);
  a_squ x := chk_i64 ovf (x * x);
  a_round_at x pos := i64_round_at ovf x pos
|}.

(** asc.rs:83-89 *)
Definition asc_value (ovf : bool) (c : asc) : M Z :=
  let a := arith_i64 ovf in
  expect (asc_eval (a_opp a) (a_shift a) (a_add a) c 1).

(* ------------------------------------------------------------------ *)
(** ** ParmCiphertext, arithmetics.rs:214-476 *)

Definition arith_ct {B : backend} (pc : cloud) : arith (ciphertext B) := {|
  a_zero := pa_zero;
  a_opp x := ret (pa_opp x);
  a_shift x k := ret (pa_shift x k);
  a_add x y := pa_add x y;
  a_sub x y := pa_sub x y;
  a_add_noisy x y := pa_add_noisy x y;
  a_sub_noisy x y := pa_sub_noisy x y;
  a_add_const x k := pa_add_const pc x k;
  a_scalar_mul k x := pa_scalar_mul pc k x;
  a_sgn x := pa_sgn pc x;
  a_max x y := pa_max pc x y;
  a_relu x := pa_relu pc x;
  a_mul x y := pa_mul x y;
  a_squ x := pa_squ x;
  a_round_at x pos := pa_round_at pc x pos
|}.
