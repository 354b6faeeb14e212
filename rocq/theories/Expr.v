(** Programs over the arithmetic interface, and their meaning over the integers *)
From Verif Require Import Base Arith NeuralNetwork Spec.

(** Expressions over the operations of ParmArithmetics (arithmetics.rs:15-120)
    whose results can be used again without restriction: all but add_noisy and
    sub_noisy. [Let] names an intermediate result, so that programs may share
    values. *)
Inductive expr : Type :=
| Var (i : nat)
| Zero
| Let (e1 e2 : expr)
| Opp (e : expr)
| Shift (e : expr) (k : nat)
| Add (e1 e2 : expr)
| Sub (e1 e2 : expr)
| AddC (e : expr) (k : Z)
| ScMul (k : Z) (e : expr)
| Sgn (e : expr)
| Max (e1 e2 : expr)
| Relu (e : expr)
| Mul (e1 e2 : expr)
| Squ (e : expr)
| Round (e : expr) (p : nat).

(** meaning *)
Fixpoint zeval (env : list Z) (e : expr) : Z :=
  match e with
  | Var i => nth i env 0
  | Zero => 0
  | Let e1 e2 => zeval (zeval env e1 :: env) e2
  | Opp e => - zeval env e
  | Shift e k => zeval env e * 2 ^ Z.of_nat k
  | Add e1 e2 => zeval env e1 + zeval env e2
  | Sub e1 e2 => zeval env e1 - zeval env e2
  | AddC e k => zeval env e + k
  | ScMul k e => k * zeval env e
  | Sgn e => Z.sgn (zeval env e)
  | Max e1 e2 => Z.max (zeval env e1) (zeval env e2)
  | Relu e => Z.max 0 (zeval env e)
  | Mul e1 e2 => zeval env e1 * zeval env e2
  | Squ e => zeval env e * zeval env e
  | Round e p => round_to p (zeval env e)
  end.

(** execution on an instance of the interface *)
Fixpoint run {T} (A : arith T) (env : list T) (e : expr) : M T :=
  match e with
  | Var i => ret (nth i env (a_zero A))
  | Zero => ret (a_zero A)
  | Let e1 e2 => x <- run A env e1 ;; run A (x :: env) e2
  | Opp e => x <- run A env e ;; a_opp A x
  | Shift e k => x <- run A env e ;; a_shift A x k
  | Add e1 e2 => x <- run A env e1 ;; y <- run A env e2 ;; a_add A x y
  | Sub e1 e2 => x <- run A env e1 ;; y <- run A env e2 ;; a_sub A x y
  | AddC e k => x <- run A env e ;; a_add_const A x k
  | ScMul k e => x <- run A env e ;; a_scalar_mul A k x
  | Sgn e => x <- run A env e ;; a_sgn A x
  | Max e1 e2 => x <- run A env e1 ;; y <- run A env e2 ;; a_max A x y
  | Relu e => x <- run A env e ;; a_relu A x
  | Mul e1 e2 => x <- run A env e1 ;; y <- run A env e2 ;; a_mul A x y
  | Squ e => x <- run A env e ;; a_squ A x
  | Round e p => x <- run A env e ;; a_round_at A x p
  end.

(** constants have the Rust types i64 and i32; i64::MIN is excluded, see C13 *)
Fixpoint consts (e : expr) : Prop :=
  match e with
  | Var _ | Zero => True
  | Opp e | Shift e _ | Sgn e | Relu e | Squ e | Round e _ => consts e
  | Let e1 e2 | Add e1 e2 | Sub e1 e2 | Max e1 e2 | Mul e1 e2 => consts e1 /\ consts e2
  | AddC e k => - 2^63 < k < 2^63 /\ consts e
  | ScMul k e => - 2^31 <= k < 2^31 /\ consts e
  end.

(** every intermediate value is an i64, no shift by 64 or more, no rounding at
    63 or more *)
Fixpoint fits (env : list Z) (e : expr) : Prop :=
  - 2^63 <= zeval env e < 2^63 /\
  match e with
  | Var _ | Zero => True
  | Opp e | Sgn e | Relu e | Squ e | AddC e _ | ScMul _ e => fits env e
  | Let e1 e2 => fits env e1 /\ fits (zeval env e1 :: env) e2
  | Add e1 e2 | Sub e1 e2 | Max e1 e2 | Mul e1 e2 => fits env e1 /\ fits env e2
  | Shift e k => (k < 64)%nat /\ fits env e
  | Round e p => (p < 63)%nat /\ fits env e
  end.

(* ------------------------------------------------------------------ *)
(** ** Neural networks *)

(** sum of w_i * x_i over the weights and inputs present *)
Fixpoint dot (w x : list Z) : Z :=
  match w, x with
  | wi :: w, xi :: x => wi * xi + dot w x
  | _, _ => 0
  end.
Definition list_max (l : list Z) : Z :=
  match l with [] => 0 | x :: t => fold_left Z.max t x end.
Fixpoint products (w x : list Z) : list Z :=
  match w, x with
  | wi :: w, xi :: x => wi * xi :: products w x
  | _, _ => []
  end.
Definition perceptron_spec (x : list Z) (p : perceptron) : Z :=
  match p_t p with
  | LIN => dot (p_w p) x + p_b p
  | ACT => Z.max 0 (dot (p_w p) x + p_b p)
  | MAX => list_max (products (p_w p) x) + p_b p
  end.
(** outputs of the last layer; nothing if there is no layer *)
Fixpoint layers_spec (ls : list layer) (x : list Z) : list Z :=
  match ls with
  | [] => []
  | [l] => map (perceptron_spec x) l
  | l :: ls => layers_spec ls (map (perceptron_spec x) l)
  end.

Definition nn_consts (nn : neural_network) : Prop :=
  Forall (Forall (fun p => Forall (fun w => - 2^31 <= w < 2^31) (p_w p) /\ - 2^63 < p_b p < 2^63))
         (nn_layers nn).
