(** Vocabulary of the properties. Nothing here refers to the model. *)
From Coq Require Export List Arith ZArith Lia Bool.
Export ListNotations.
Global Open Scope Z_scope.

(** Signed binary digits *)
Definition digit (d : Z) : Prop := -1 <= d <= 1.
Definition digits (l : list Z) : Prop := Forall digit l.

(** Integer denoted by a digit vector, least significant first *)
Fixpoint value (l : list Z) : Z :=
  match l with
  | [] => 0
  | d :: t => d + 2 * value t
  end.

(** Congruence modulo 2^64: equality on the discretised torus *)
Definition teq (a b : Z) : Prop := exists q, a = b + q * 2^64.

(** The encoding step of a 32-element message space on the 64-bit torus *)
Definition step : Z := 2^59.

(** The representative of m modulo p in [-p/2, p/2) *)
Definition centred (p m r : Z) : Prop :=
  (exists q, m = r + q * p) /\ - p <= 2 * r < p.

(** Extension of a 16-entry table to all messages by f(m+16) = -f(m) *)
Definition negacyclic (tbl : list Z) (m : Z) : Z :=
  let m := m mod 32 in
  if m <? 16 then nth (Z.to_nat m) tbl 0 else - nth (Z.to_nat (m - 16)) tbl 0.

(** Coefficient r (any integer) of the negacyclic rotation of a polynomial
    with N = length p coefficients: X^N = -1 *)
Definition ncoef (p : list Z) (r : Z) : Z :=
  let N := Z.of_nat (length p) in
  let r := r mod (2 * N) in
  if r <? N then nth (Z.to_nat r) p 0 else - nth (Z.to_nat (r - N)) p 0.

(** Largest sum of absolute weights of fresh samples that Parmesan feeds to a
    bootstrap for a given quadratic weight of the parameters *)
Definition l1_need (qw : Z) : Z :=
  if 85 <=? qw then 15 else if 41 <=? qw then 9 else 8.

(** Nearest multiple of 2^p, ties towards plus infinity *)
Definition round_to (p : nat) (v : Z) : Z :=
  (v + 2 ^ Z.of_nat p / 2) / 2 ^ Z.of_nat p * 2 ^ Z.of_nat p.

(** Sum of windows (value, shift), and distance between consecutive shifts *)
Fixpoint wsum (ws : list (Z * nat)) : Z :=
  match ws with [] => 0 | (w, s) :: r => w * 2 ^ Z.of_nat s + wsum r end.
Fixpoint spaced (d lo : nat) (ws : list (Z * nat)) : Prop :=
  match ws with [] => True | (w, s) :: r => (lo <= s)%nat /\ spaced d (s + d) r end.

(** Number of non-zero digits; absence of two adjacent non-zero digits *)
Definition weight (l : list Z) : nat := length (filter (fun d => negb (d =? 0)) l).
Definition non_adjacent (l : list Z) : Prop :=
  forall i, nth i l 0 = 0 \/ nth (S i) l 0 = 0.
