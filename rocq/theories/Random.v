(** What quad_weight is about (C75): random noise. Not a model of code: the part of tfhe-rs that the
    contract (Contract.v) simplifies to a bound on every single noise. *)
From Verif Require Import Base Backend Words Spec Symbolic Weights.

(** A bootstrapping backend whose noise is whatever it is: the linear operations are exact, a bootstrap rotates
    by the rounded phase and adds some noise. Unlike in [contract] nothing bounds the noise. *)
Record torus (B : backend) : Type := mkTorus {
  (** body minus mask times key, modulo 2^64 *)
  tph : ct B -> Z;
  (** by how much a bootstrap rotates the accumulator *)
  rot : ct B -> Z;
  (** the noise that a bootstrap puts into its result *)
  boot_err : list Z -> ct B -> Z;
  (** bound on the error of switching to the modulus 2N, times 2^64 *)
  tms : Z;
  t_add : forall a b, teq (tph (ct_add B a b)) (tph a + tph b);
  t_add_pt : forall a p, teq (tph (ct_add_pt B a p)) (tph a + p);
  t_opp : forall a, teq (tph (ct_opp B a)) (- tph a);
  t_mul : forall a k, teq (tph (ct_mul B a k)) (tph a * k);
  t_rot : forall c, exists d q, let N2 := 2 * Z.of_nat (poly_size B) in
    tph c * N2 + d = (rot c + q * N2) * 2 ^ 64 /\ Z.abs d <= tms;
  t_lut : forall acc c, teq (tph (ct_lut B acc c)) (ncoef acc (rot c) + boot_err acc c)
}.
Arguments tph {B} _ _.
Arguments rot {B} _ _.
Arguments boot_err {B} _ _ _.
Arguments tms {B} _.

(** decryption rounds the phase to the nearest step *)
Definition rounds {B} (T : torus B) (cl : client B) : Prop := forall c m e,
  teq (tph T c) (m * step + e) -> - (step / 2) <= e < step / 2 -> ct_dec cl c = m mod 32.

(** noise of a sample of a circuit: of input [i], and of a bootstrap *)
Definition err {B} (T : torus B) (inp : nat -> ct B) (ierr : nat -> Z) (a : term) : Z :=
  match a with
  | TVar i => ierr i
  | TLut acc u => boot_err T acc (teval B inp u)
  | _ => 0
  end.
(** noise of a combination of samples *)
Fixpoint noise (e : term -> Z) (t : term) : Z :=
  match t with
  | TVar _ | TLut _ _ => e t
  | TAdd u v => noise e u + noise e v
  | TAddPt u _ => noise e u
  | TOpp u => - noise e u
  | TMul u k => noise e u * k
  end.
(** all samples in a circuit *)
Fixpoint samples_of (t : term) : list term :=
  match t with
  | TVar _ => [t]
  | TAdd u v => samples_of u ++ samples_of v
  | TAddPt u _ | TOpp u | TMul u _ => samples_of u
  | TLut _ u => t :: samples_of u
  end.

(** Finitely many outcomes of all random choices (keys, encryptions), with weights: the probability of an
    outcome is its weight divided by the total. [total outs f] is the weighted sum of [f]. *)
Definition total {Om : Type} (outs : list (Z * Om)) (f : Om -> Z) : Z :=
  fold_right (fun p s => fst p * f (snd p) + s) 0 outs.
(** the total weight of the outcomes where [bad] *)
Definition mass {Om : Type} (outs : list (Z * Om)) (bad : Om -> bool) : Z :=
  total outs (fun w => if bad w then 1 else 0).
(** Random variables [x a], one for each sample in [l]: any two of them uncorrelated (their product has mean
    zero), each with mean square at most [v] *)
Definition uncorrelated {Om : Type} (outs : list (Z * Om)) (x : term -> Om -> Z) (l : list term) (v : Z) : Prop :=
  Forall (fun p => 0 <= fst p) outs /\ 0 <= v /\
  (forall a b, In a l -> In b l -> a <> b -> total outs (fun w => x a w * x b w) = 0) /\
  (forall a, In a l -> total outs (fun w => x a w * x a w) <= v * total outs (fun _ => 1)).

(** ** Running programs *)

(** One outcome of all random choices: keys and encryptions, with all that they determine *)
Record world (N : nat) : Type := mkWorld {
  wb_ : backend;
  w_size : poly_size wb_ = N;
  w_torus : torus wb_;
  w_client : client wb_;
  (** the encrypted words of the inputs, numbered from the first input on, and their noise *)
  w_inp : nat -> ct wb_;
  w_ierr : nat -> Z
}.
Arguments wb_ {N} _.
Arguments w_size {N} _.
Arguments w_torus {N} _.
Arguments w_client {N} _.
Arguments w_inp {N} _ _.
Arguments w_ierr {N} _ _.
Definition w_err {N} (w : world N) (a : term) : Z := err (w_torus w) (w_inp w) (w_ierr w) a.

(** An input: its digits, each either public (a trivial word) or encrypted *)
Definition input := list (bool * Z).
Definition in_value (x : input) : Z := value (map snd x).
Definition in_shape (x : input) : list (option Z) := map (fun p : bool * Z => if fst p then Some ((snd p * 2 ^ 59) mod 2 ^ 64) else None) x.
Definition in_secrets (x : input) : list Z := flat_map (fun p : bool * Z => if fst p then [] else [snd p]) x.
(** the inputs as an outcome has them *)
Definition w_env {N} (w : world N) (xs : list input) : list (ciphertext (wb_ w)) :=
  map (map (wmap (w_inp w))) (sinputs N 0 (map in_shape xs)).
(** decryption rounds, switching the modulus errs by at most [M], and the encrypted words have the noise that they
    are said to have. How large that noise is is not bounded. *)
Definition w_ok {N} (M : Z) (xs : list input) (w : world N) : Prop :=
  rounds (w_torus w) (w_client w) /\ tms (w_torus w) <= M /\
  forall i d, nth_error (flat_map in_secrets xs) i = Some d -> teq (tph (w_torus w) (w_inp w i)) (d * step + w_ierr w i).
