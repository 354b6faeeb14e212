(** Two calls of PrivKeySet::new (src/userovo/keys.rs) at the same time, on one
    key file. The test suite has two lazily initialised statics that each call
    it (tests/common/mod.rs:17-22), and tests run in several threads. *)
From Verif Require Import Base Params.

Section KeysConcurrent.
Context {K : Type}.
(** bincode of the pair of keys; one element stands for what one call of
    write(2) puts into the file *)
Variable encode : K -> list Z.
Variable decode : list Z -> option K.

(** Where one call is in keys.rs:34-72. Making the directory (43) and the
    failures of the file system are left out, see Keys.v. *)
Inductive stage : Type :=
  | AtCheck                              (* before [path.is_file()], 41 *)
  | AtCreate                             (* no file: keys generated, before File::create, 45-56 *)
  | Writing (at_ : nat)                  (* 57, at this offset of its own file handle *)
  | AtRead                               (* there is a file: before opening it, 61-67 *)
  | Done (r : outcome K).

(** [write] at offset [i]: replaces what is there; after the end of the file (it
    may have been truncated meanwhile) the gap reads as zeros *)
Definition write_at (f : list Z) (i : nat) (b : Z) : list Z :=
  firstn i f ++ repeat 0 (i - length f) ++ [b] ++ skipn (S i) f.

(** One step of a call whose generated keys are [k] (or would be). The file is
    read in one step. *)
Definition key_step (k : K) (st : stage) (f : option (list Z)) : stage * option (list Z) :=
  match st with
  | AtCheck => (match f with None => AtCreate | Some _ => AtRead end, f)
  | AtCreate => (Writing 0, Some [])                                  (* truncates *)
  | Writing i =>
      match nth_error (encode k) i with
      | Some b => (Writing (S i), Some (write_at (match f with Some c => c | None => [] end) i b))
      | None => (Done (Ok k), f)
      end
  | AtRead =>
      (Done (match f with
             | Some c => match decode c with Some k' => Ok k' | None => Err E_decode end
             | None => Err E_io
             end), f)
  | Done r => (Done r, f)
  end.

(** both calls and the file *)
Record world : Type := mkWorld { w1 : stage; w2 : stage; wf : option (list Z) }.

(** Run a schedule: [true] lets the first call make a step, [false] the second *)
Definition turn (k1 k2 : K) (w : world) (who : bool) : world :=
  if who then let (s, f) := key_step k1 (w1 w) (wf w) in mkWorld s (w2 w) f
  else let (s, f) := key_step k2 (w2 w) (wf w) in mkWorld (w1 w) s f.
Definition schedule (k1 k2 : K) (sched : list bool) (w : world) : world :=
  fold_left (turn k1 k2) sched w.

Definition start (f : option (list Z)) : world := mkWorld AtCheck AtCheck f.

End KeysConcurrent.
