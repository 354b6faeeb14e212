(** Model of the bookkeeping in src/misc.rs: the bootstrap counter, the log
    level and the log file. *)
From Verif Require Import Base.

(* ------------------------------------------------------------------ *)
(** ** Bootstrap counter (feature seq_analyze) *)

(** lib.rs:91 N_PBS, last element first; and the numbers printed so far, in order *)
Record counter : Type := mkCounter {
  n_pbs : list nat;
  reports : list nat
}.

(** pbs.rs:62-63 and misc.rs:138-151 *)
Definition counter_step (s : counter) (e : event) : counter :=
  match e with
  | EPbs => match n_pbs s with
            | [] => s
            | n :: t => mkCounter (S n :: t) (reports s)
            end
  | EStart => mkCounter (0%nat :: n_pbs s) (reports s)
  | EFinish => match n_pbs s with
               | [] => s
               | n :: t => mkCounter (match t with
                                      | [] => []
                                      | m :: t' => (m + n)%nat :: t'
                                      end)
                                     (reports s ++ [n])
               end
  | EEnter | EExit => s
  end.

Definition counter_run (s : counter) (tr : list event) : counter :=
  fold_left counter_step tr s.

(* ------------------------------------------------------------------ *)
(** ** Log level (feature measure) *)

(** misc.rs:18 and 42, LOG_LVL : u8; second component: the levels written to the
    log by misc.rs:52, in order *)
Definition level_step (s : Z * list Z) (e : event) : Z * list Z :=
  let (lvl, out) := s in
  match e with
  | EEnter => (if lvl <? 255 then lvl + 1 else lvl, out)
  | EExit => let lvl := if 0 <? lvl then lvl - 1 else lvl in (lvl, out ++ [lvl])
  | _ => s
  end.

Definition level_run (lvl : Z) (tr : list event) : Z * list Z :=
  fold_left level_step tr (lvl, []).

(* ------------------------------------------------------------------ *)
(** ** Log file *)

(** lib.rs:87-88: LOG_INITED and the file, if it exists, as its lines *)
Record logstate (msg : Type) : Type := mkLog {
  log_inited : bool;
  log_file : option (list msg)
}.
Arguments mkLog {msg} _ _.
Arguments log_inited {msg} _.
Arguments log_file {msg} _.

(** misc.rs:113-134. [ok] tells whether writeln! succeeds; a failure is only
    printed. Removing and creating the file are assumed to succeed. *)
Definition log_call {msg} (s : logstate msg) (m : msg) (ok : bool)
  : outcome (logstate msg) :=
  if log_inited s then
    match log_file s with
    | None => Panic E_io                          (* misc.rs:120 unwrap *)
    | Some l => Ok (mkLog true (Some (if ok then l ++ [m] else l)))
    end
  else Ok (mkLog true (Some (if ok then [m] else []))).

(** a sequence of calls, each with the success of its writeln! *)
Fixpoint log_calls {msg} (s : logstate msg) (ms : list (msg * bool)) : outcome (logstate msg) :=
  match ms with
  | [] => Ok s
  | (m, ok) :: t => match log_call s m ok with
                    | Ok s' => log_calls s' t
                    | Err e => Err e
                    | Panic e => Panic e
                    end
  end.
