(** Model of src/cloudovo/neural_network.rs *)
From Verif Require Import Base Arith.

(** neural_network.rs:58-65 *)
Inductive perc_type : Type := MAX | LIN | ACT.

(** neural_network.rs:68-75 *)
Record perceptron : Type := mkPerceptron {
  p_t : perc_type;
  p_w : list Z;
  p_b : Z
}.

(** neural_network.rs:78 *)
Definition layer : Type := list perceptron.

(** neural_network.rs:81-86 *)
Record neural_network : Type := mkNN {
  nn_layers : list layer;
  nn_inputs : nat
}.

Section NN.
Context {T : Type} (A : arith T).

(** neural_network.rs:157-186 *)
Definition affine_pool (w : list Z) (a : list T) (b : Z) : M T :=
  res <- foldM (fun res (wa : Z * T) =>
                  scm <- a_scalar_mul A (fst wa) (snd wa) ;;
                  a_add A res scm)
               (combine w a) (a_zero A) ;;
  a_add_const A res b.

(** neural_network.rs:223-229 *)
Fixpoint max_pairs (a : list T) : M (list T) :=
  match a with
  | x :: y :: t => m <- a_max A x y ;; r <- max_pairs t ;; ret (m :: r)
  | [x] => ret [x]
  | [] => ret []
  end.

(** neural_network.rs:210-232; the length n >= 2 drops to (n+1)/2 *)
Fixpoint max_pool_recursion (fuel : nat) (a : list T) : M T :=
  match fuel with
  | O => panic P_fuel
  | S f =>
      match a with
      | [] => ret (a_zero A)
      | [x] => ret x
      | _ => h <- max_pairs a ;; max_pool_recursion f h
      end
  end.

(** neural_network.rs:188-208 *)
Definition max_pool (w : list Z) (a : list T) (b : Z) : M T :=
  wa <- mapM (fun wa : Z * T => a_scalar_mul A (fst wa) (snd wa)) (combine w a) ;;
  res <- max_pool_recursion (S (length wa)) wa ;;
  a_add_const A res b.

(** neural_network.rs:234-240 *)
Definition act_fn (lc : T) : M T := a_relu A lc.

(** neural_network.rs:133-153 *)
Definition eval_perceptron (input : list T) (p : perceptron) : M T :=
  measure (
    match p_t p with
    | MAX => max_pool (p_w p) input (p_b p)
    | LIN => affine_pool (p_w p) input (p_b p)
    | ACT => aff <- affine_pool (p_w p) input (p_b p) ;; act_fn aff
    end).

(** neural_network.rs:120-155 *)
Definition eval_layer (l : layer) (input : list T) : M (list T) :=
  mapM (eval_perceptron input) l.

(** neural_network.rs:103-112; state is (il, ol) *)
Definition eval_layers (ls : list layer) (il : list T) : M (list T * list T) :=
  foldM (fun st l => measure (ol <- eval_layer l (fst st) ;; ret (ol, ol)))
        ls (il, []).

(** neural_network.rs:91-117 *)
Definition nn_eval (nn : neural_network) (inputs : list T) : M (list T) :=
  st <- measure (eval_layers (nn_layers nn) inputs) ;;
  ret (snd st).

End NN.
