(** Model of scripts/add-sub-special-chains/gen-chains.rb, which lists the sums of two
    signed powers of two. Text is left out: the state keeps the pairs for which "Skipping ..."
    is printed and the entries that are dumped. LIMIT_LOG (line 3, 10) is a parameter. An exception
    is None. *)
From Verif Require Import Base.

(** An object of class NumRepre (lines 5-45) or ASPair (47-71) *)
Inductive entry : Type :=
| NumRepre (bary : list Z)
| ASPair (first last : entry) (nrep : list Z).

(** 9-14. Of an empty array [reduce] gives nil, which raises as well. *)
Definition new_num (LIMIT_LOG : nat) (bitary : list Z) : option (list Z) :=
  if (length bitary =? LIMIT_LOG)%nat then
    if match bitary with [] => false | _ => forallb (fun e => (e =? 0) || (e =? 1) || (e =? -1)) bitary end
    then Some bitary else None
  else None.

(** 21-27: digits from place [ei] on *)
Fixpoint eval_from (ei : nat) (bary : list Z) (v : Z) : Z :=
  match bary with
  | [] => v
  | e :: t => eval_from (S ei) t (v + e * Z.shiftl 1 (Z.of_nat ei))
  end.
Definition eval_num (bary : list Z) : Z := eval_from 0 bary 0.

(** Array#zip pads the shorter second array with nil, and e + nil raises; both have
    LIMIT_LOG digits here, so [combine] does *)
Definition add_num (LIMIT_LOG : nat) (a b : list Z) : option (list Z) :=
  new_num LIMIT_LOG (map (fun e => fst e + snd e) (combine a b)).  (* 29-34 *)

(** 36-38 and attr_reader, 49 *)
Definition nrep (p : entry) : list Z := match p with NumRepre b => b | ASPair _ _ n => n end.
(** 21-27, 65-67 *)
Definition eval (p : entry) : Z := eval_num (nrep p).
(** 40-42, 69-71 *)
Fixpoint nops (p : entry) : nat :=
  match p with NumRepre _ => 0 | ASPair a b _ => nops a + nops b + 1 end.

(** 51-57; the checks of lines 52-53 always pass, by type *)
Definition new_pair (LIMIT_LOG : nat) (a b : entry) : option entry :=
  option_map (ASPair a b) (add_num LIMIT_LOG (nrep a) (nrep b)).

(** a Hash from values to entries: in the order of insertion; an update keeps the place *)
Definition db : Type := list (Z * entry).
Fixpoint db_get (d : db) (k : Z) : option entry :=
  match d with
  | [] => None
  | (k', p) :: t => if k =? k' then Some p else db_get t k
  end.
Fixpoint db_set (d : db) (k : Z) (p : entry) : db :=
  match d with
  | [] => [(k, p)]
  | (k', p') :: t => if k =? k' then (k, p) :: t else (k', p') :: db_set t k p
  end.

(** 78-91: 0 everywhere but [s] at place [i] *)
Definition unit_ary (LIMIT_LOG i : nat) (s : Z) : list Z :=
  repeat 0 i ++ s :: repeat 0 (LIMIT_LOG - S i).
Definition add_unit (LIMIT_LOG : nat) (s : Z) (i : nat) (d : option db) : option db :=
  match d, new_num LIMIT_LOG (unit_ary LIMIT_LOG i s) with
  | Some d, Some b => Some (db_set d (eval_num b) (NumRepre b))
  | _, _ => None
  end.
Definition init_db (LIMIT_LOG : nat) : option db :=
  fold_left (fun d i => add_unit LIMIT_LOG (-1) i (add_unit LIMIT_LOG 1 i d)) (seq 0 LIMIT_LOG) (Some []).

(** 97-105, one pair. The state is the database and the skipped pairs. *)
Definition try_pair (LIMIT_LOG : nat) (s : db * list (entry * entry)) (pu pv : entry) : db * list (entry * entry) :=
  match new_pair LIMIT_LOG pu pv with
  | None => (fst s, snd s ++ [(pu, pv)])
  | Some p =>
      let better := match db_get (fst s) (eval p) with
                    | None => true
                    | Some q => (nops p <? nops q)%nat
                    end in
      (if better then db_set (fst s) (eval p) p else fst s, snd s)
  end.
(** 94-107 *)
Definition all_pairs (LIMIT_LOG : nat) (prev_db : db) : db * list (entry * entry) :=
  fold_left (fun s u => fold_left (fun s v => try_pair LIMIT_LOG s (snd u) (snd v)) prev_db s) prev_db (prev_db, []).

(** 111: sort_by the value *)
Fixpoint insert (x : Z * entry) (l : db) : db :=
  match l with
  | [] => [x]
  | y :: t => if fst x <=? fst y then x :: l else y :: insert x t
  end.
Definition sort_by (d : db) : db := fold_right insert [] d.

(** the whole script: the pairs skipped and the entries dumped *)
Definition gen_chains (LIMIT_LOG : nat) : option (list (entry * entry) * db) :=
  option_map (fun d => let s := all_pairs LIMIT_LOG d in (snd s, sort_by (fst s))) (init_db LIMIT_LOG).
