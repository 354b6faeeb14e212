(** Linear combinations of samples, and their quadratic weight.
    Not a model of code: what C34 talks about. *)
From Verif Require Import Base Backend Words Symbolic.

Definition term_eq_dec : forall a b : term, {a = b} + {a <> b}.
Proof. decide equality; auto using Nat.eq_dec, Z.eq_dec, list_eq_dec. Defined.
#[global] Arguments term_eq_dec : simpl never.

(** A sample is a fresh encryption (a variable) or the output of a bootstrap;
    everything else is a linear combination of samples. The coefficient of the
    sample [a] in [t]. *)
Fixpoint coef (t a : term) : Z :=
  match t with
  | TVar _ | TLut _ _ => if term_eq_dec t a then 1 else 0
  | TAdd u v => coef u a + coef v a
  | TAddPt u _ => coef u a
  | TOpp u => - coef u a
  | TMul u k => k * coef u a
  end.

(** Sum of the squares of the coefficients of the samples in [l] *)
Definition sq_sum (f : term -> Z) (l : list term) : Z :=
  fold_right (fun a s => f a * f a + s) 0 l.
(** The quadratic weight of a combination is at most [n]: so is the sum of
    squares over any samples, each taken once. *)
Definition qle (f : term -> Z) (n : Z) : Prop := forall l, NoDup l -> sq_sum f l <= n.
(** ... exceeds [n] *)
Definition qgt (f : term -> Z) (n : Z) : Prop := exists l, NoDup l /\ n < sq_sum f l.

(** The inputs of all bootstraps in a circuit *)
Fixpoint boot_inputs (t : term) : list term :=
  match t with
  | TVar _ => []
  | TAdd u v => boot_inputs u ++ boot_inputs v
  | TAddPt u _ | TOpp u | TMul u _ => boot_inputs u
  | TLut _ u => u :: boot_inputs u
  end.
(** all bootstraps behind a result are within the budget [n] *)
Definition within (n : Z) {N} (z : ciphertext (sym N)) : Prop :=
  forall t u, In t (secrets z) -> In u (boot_inputs t) -> qle (coef u) n.
(** some bootstrap exceeds it *)
Definition beyond (n : Z) {N} (z : ciphertext (sym N)) : Prop :=
  exists t u, In t (secrets z) /\ In u (boot_inputs t) /\ qgt (coef u) n.
