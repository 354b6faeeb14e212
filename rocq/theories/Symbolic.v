(** Free terms as a backend: the circuit that an operation builds.
    Not a model of code: a tool to state what depends on what. *)
From Verif Require Import Base Backend Words.

Inductive term : Type :=
| TVar (i : nat)
| TAdd (a b : term)
| TAddPt (a : term) (p : Z)
| TOpp (a : term)
| TMul (a : term) (k : Z)
| TLut (acc : list Z) (a : term).

Definition sym (N : nat) : backend := mkBackend term TAdd TAddPt TOpp TMul TLut N.

(** value of a circuit on given ciphertexts *)
Fixpoint teval (B : backend) (inp : nat -> ct B) (t : term) : ct B :=
  match t with
  | TVar i => inp i
  | TAdd a b => ct_add B (teval B inp a) (teval B inp b)
  | TAddPt a p => ct_add_pt B (teval B inp a) p
  | TOpp a => ct_opp B (teval B inp a)
  | TMul a k => ct_mul B (teval B inp a) k
  | TLut acc a => ct_lut B acc (teval B inp a)
  end.

(** longest chain of dependent bootstraps *)
Fixpoint tdepth (t : term) : nat :=
  match t with
  | TVar _ => 0
  | TAdd a b => Nat.max (tdepth a) (tdepth b)
  | TAddPt a _ | TOpp a | TMul a _ => tdepth a
  | TLut _ a => S (tdepth a)
  end.

(** ** Public shape *)

(** what everybody sees of a word: a trivial word, or that it is encrypted *)
Definition wshape {B : backend} (w : word B) : option Z :=
  match w with Ct _ => None | Triv p => Some p end.
Definition shape {B : backend} (x : ciphertext B) : list (option Z) := map wshape x.

(** the contents that are not public *)
Definition secrets {B : backend} (x : ciphertext B) : list (ct B) :=
  flat_map (fun w => match w with Ct c => [c] | Triv _ => [] end) x.

(** symbolic inputs of a given shape, variables numbered from [n] *)
Fixpoint sinput (N n : nat) (s : list (option Z)) : ciphertext (sym N) :=
  match s with
  | [] => []
  | Some p :: t => Triv p :: sinput N n t
  | None :: t => @Ct (sym N) (TVar n) :: sinput N (S n) t
  end.
Definition nsecret (s : list (option Z)) : nat :=
  length (filter (fun o => match o with None => true | _ => false end) s).
Fixpoint sinputs (N n : nat) (ss : list (list (option Z))) : list (ciphertext (sym N)) :=
  match ss with
  | [] => []
  | s :: t => sinput N n s :: sinputs N (n + nsecret s) t
  end.

(** a symbolic result, evaluated *)
Definition wmap {N : nat} {B : backend} (inp : nat -> ct B) (w : word (sym N)) : word B :=
  match w with Ct t => Ct (teval B inp t) | Triv p => Triv p end.
Definition omap {S T} (f : S -> T) (o : outcome S) : outcome T :=
  match o with Ok a => Ok (f a) | Err e => Err e | Panic e => Panic e end.
