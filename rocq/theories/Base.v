(** Base of the model: outcomes, observable events, machine integers.
    Rust's [Result], panics, and the effects seen by the [measure] and
    [seq_analyze] features become data. *)
From Coq Require Export List Arith ZArith Lia Bool.
Export ListNotations.
Global Open Scope Z_scope.

(** Reasons of [Err] results and of panics. The same type serves both, because
    [.expect(..)] turns an [Err] into a panic. *)
Inductive err : Type :=
| E_no_key            (* ciphertexts.rs:62 "Client key is None ..." *)
| E_enc_alphabet      (* userovo/encryption.rs:40 *)
| E_too_long          (* userovo/encryption.rs:110 *)
| E_dec_alphabet      (* userovo/encryption.rs:117 *)
| E_hw                (* userovo/encryption.rs:127 *)
| E_add_fatal         (* cloudovo/addition.rs:104 "Unexpected fatal error!" *)
| E_mul_long          (* cloudovo/multiplication.rs:84 *)
| E_squ_long          (* cloudovo/squaring.rs:40 *)
| E_quad_weight       (* lib.rs:114 *)
| E_asc_missing       (* asc.rs:113 *)
| E_asc_count         (* asc.rs:117 *)
| E_io                (* any std::io error *)
| E_decode            (* bincode / serde_yaml decoding error *)
| P_overflow          (* arithmetic or shift overflow in a checked build *)
| P_index             (* index or slice out of range *)
| P_key               (* missing key of a BTreeMap *)
| P_assert            (* assert!, assert_eq! *)
| P_lut_range         (* pbs.rs:76 *)
| P_squ_pos           (* pbs.rs:335 *)
| P_round_pos         (* arithmetics.rs:203 *)
| P_fuel.             (* not in the code: recursion fuel of the model used up *)

Inductive outcome (A : Type) : Type :=
| Ok (a : A)
| Err (e : err)
| Panic (e : err).
Arguments Ok {A} a.
Arguments Err {A} e.
Arguments Panic {A} e.

(** What the instrumented builds observe, in sequential order. *)
Inductive event : Type :=
| EPbs                (* one bootstrap: pbs.rs:62-63 [N_PBS.last += 1] *)
| EStart              (* misc.rs:138-140 start_pbs_analysis! *)
| EFinish             (* misc.rs:144-151 finish_pbs_analysis! *)
| EEnter              (* misc.rs:11-23  entering a measure_duration! block *)
| EExit.              (* misc.rs:28-54  leaving it normally *)

(** A computation: how it ends, and the events up to that point. *)
Definition M (A : Type) : Type := (outcome A * list event)%type.

Definition ret {A} (a : A) : M A := (Ok a, []).
Definition err_ {A} (e : err) : M A := (Err e, []).
Definition panic {A} (e : err) : M A := (Panic e, []).
Definition tell (e : event) : M unit := (Ok tt, [e]).

Definition bind {A B} (m : M A) (f : A -> M B) : M B :=
  match m with
  | (Ok a, t) => let (o, t') := f a in (o, t ++ t')
  | (Err e, t) => (Err e, t)
  | (Panic e, t) => (Panic e, t)
  end.

Notation "x <- m ;; k" := (bind m (fun x => k))
  (at level 61, m at next level, right associativity).
Notation "m ;;; k" := (bind m (fun _ => k))
  (at level 61, right associativity).

(** [.expect(..)] *)
Definition expect {A} (m : M A) : M A :=
  match m with
  | (Err e, t) => (Panic e, t)
  | (o, t) => (o, t)
  end.

(** Sequential [for] over a list, collecting results. This is the model of
    [par_iter_mut().zip(..).for_each(|..| *slot = f(..))]: every task writes
    its own slot, see Parallel.v. *)
Fixpoint mapM {A B} (f : A -> M B) (l : list A) : M (list B) :=
  match l with
  | [] => ret []
  | a :: t => b <- f a ;; r <- mapM f t ;; ret (b :: r)
  end.

(** Sequential [for] with an accumulator. *)
Fixpoint foldM {A S} (f : S -> A -> M S) (l : list A) (s : S) : M S :=
  match l with
  | [] => ret s
  | a :: t => s' <- f s a ;; foldM f t s'
  end.

(** misc.rs:5-56 measure_duration!: the exit part runs only if the block does
    not leave by [return Err(..)], [?] or panic. *)
Definition measure {A} (m : M A) : M A :=
  tell EEnter ;;; (a <- m ;; tell EExit ;;; ret a).

(** misc.rs:138-151 around the body of every ParmArithmetics operation
    (arithmetics.rs:234-475); the [.expect(..)] is inside. *)
Definition analysed {A} (m : M A) : M A :=
  tell EStart ;;; (a <- expect m ;; tell EFinish ;;; ret a).

(** Indexing a slice: panics out of range. *)
Definition index {A} (l : list A) (i : nat) : M A :=
  match nth_error l i with
  | Some a => ret a
  | None => panic P_index
  end.

Fixpoint set_nth {A} (l : list A) (i : nat) (a : A) : list A :=
  match l, i with
  | [], _ => []
  | _ :: t, O => a :: t
  | h :: t, S i' => h :: set_nth t i' a
  end.

(** [v[i] = a]: panics out of range. *)
Definition upd {A} (l : list A) (i : nat) (a : A) : M (list A) :=
  if (i <? length l)%nat then ret (set_nth l i a) else panic P_index.

(* ------------------------------------------------------------------ *)
(** ** Machine integers, as Z with explicit wrap-around *)

Definition u64 (z : Z) : Z := z mod 2^64.
Definition u32 (z : Z) : Z := z mod 2^32.
Definition i64 (z : Z) : Z := (z + 2^63) mod 2^64 - 2^63.
Definition i32 (z : Z) : Z := (z + 2^31) mod 2^32 - 2^31.

Definition I64_MIN : Z := - 2^63.
Definition I64_MAX : Z := 2^63 - 1.
Definition I32_MIN : Z := - 2^31.
Definition I32_MAX : Z := 2^31 - 1.

Definition in_i64 (z : Z) : bool := (I64_MIN <=? z) && (z <=? I64_MAX).
Definition in_i32 (z : Z) : bool := (I32_MIN <=? z) && (z <=? I32_MAX).
Definition in_u32 (z : Z) : bool := (0 <=? z) && (z <? 2^32).

(** Result of an i64 operator: [ovf] is true in builds with overflow checks. *)
Definition chk_i64 (ovf : bool) (z : Z) : M Z :=
  if in_i64 z then ret z else if ovf then panic P_overflow else ret (i64 z).
Definition chk_i32 (ovf : bool) (z : Z) : M Z :=
  if in_i32 z then ret z else if ovf then panic P_overflow else ret (i32 z).
Definition chk_u32 (ovf : bool) (z : Z) : M Z :=
  if in_u32 z then ret z else if ovf then panic P_overflow else ret (u32 z).

(** Shift amounts: a checked build panics when the amount reaches the width,
    an unchecked one masks it. *)
Definition shift_amount (ovf : bool) (width : Z) (k : nat) : M Z :=
  if Z.of_nat k <? width then ret (Z.of_nat k)
  else if ovf then panic P_overflow else ret (Z.of_nat k mod width).

(** Bit j of a non-negative number: [(k >> j) & 1]. *)
Definition bit (k : Z) (j : nat) : Z := Z.b2z (Z.testbit k (Z.of_nat j)).
