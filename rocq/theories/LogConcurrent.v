(** The log level and the log file (src/misc.rs, lib.rs:85-88) when measured
    blocks run in several threads: Karatsuba and squaring spawn threads whose
    operations are measured (multiplication.rs:142-172, squaring.rs:82-90), and
    with feature measure but not seq_analyze these are real threads. The
    variables are [static mut] and accessed without synchronisation. *)
From Verif Require Import Base.

(* ------------------------------------------------------------------ *)
(** ** The level *)

(** Accesses of LOG_LVL : u8, each one step. The comparison and the assignment
    operator read the variable separately, as the text says; a compiler may
    merge the reads. Simplification: unsynchronised accesses are undefined
    behaviour in Rust, here they take effect in some order. *)
Inductive access : Type :=
  | Guard (up : bool)      (* 18 [LOG_LVL < u8::MAX], 42 [LOG_LVL > 0] *)
  | Fetch                  (* the read of [+=] or [-=] *)
  | Store (up : bool)      (* and its write *)
  | Note.                  (* 44-52: the level is printed and logged *)

(** misc.rs:17-19 and 40-52 *)
Definition accesses (e : event) : list access :=
  match e with
  | EEnter => [Guard true; Fetch; Store true]
  | EExit => [Guard false; Fetch; Store false; Note]
  | _ => []
  end.

(** a thread: what it still has to do, and the value that it has read *)
Definition thread : Type := (list access * Z)%type.
Definition thread_of (t : list event) : thread := (flat_map accesses t, 0).

(** the level, the levels written to the log so far, whether a thread has
    panicked, and the threads *)
Record levels : Type := mkLevels {
  lv : Z; noted : list Z; panicked : bool; threads : list thread
}.

(** thread [i] makes one access; [o] tells whether overflow is checked *)
Definition level_turn (o : bool) (s : levels) (i : nat) : levels :=
  match nth_error (threads s) i with
  | None | Some ([], _) => s
  | Some (a :: rest, r) =>
      let at_ th := set_nth (threads s) i th in
      match a with
      | Guard up =>
          if (if up then lv s <? 255 else 0 <? lv s)
          then mkLevels (lv s) (noted s) (panicked s) (at_ (rest, r))
          else mkLevels (lv s) (noted s) (panicked s) (at_ (skipn 2 rest, r))
      | Fetch => mkLevels (lv s) (noted s) (panicked s) (at_ (rest, lv s))
      | Store up =>
          let v := if up then r + 1 else r - 1 in
          if o && ((v <? 0) || (255 <? v))
          then mkLevels (lv s) (noted s) true (at_ ([], r))
          else mkLevels (v mod 256) (noted s) (panicked s) (at_ (rest, r))
      | Note => mkLevels (lv s) (noted s ++ [lv s]) (panicked s) (at_ (rest, r))
      end
  end.
Definition level_sched (o : bool) (s : levels) (sched : list nat) : levels :=
  fold_left (level_turn o) sched s.
Definition level_start (lvl : Z) (ts : list (list event)) : levels :=
  mkLevels lvl [] false (map thread_of ts).
Definition level_done (s : levels) : bool :=
  forallb (fun th : thread => match fst th with [] => true | _ => false end) (threads s).

(* ------------------------------------------------------------------ *)
(** ** The file *)

(** The files that there are or were, and the one that the name LOGFILE stands
    for. A removed file can still be written through an open handle. *)
Record disk : Type := mkDisk { store : list (list Z); entry : option nat }.
Definition content (d : disk) : option (list Z) :=
  match entry d with Some n => nth_error (store d) n | None => None end.
Definition change (d : disk) (n : nat) (g : list Z -> list Z) : disk :=
  mkDisk (set_nth (store d) n (g (nth n (store d) []))) (entry d).

(** Where one call of parm_log_plain! (misc.rs:113-134) is. *)
Inductive log_stage : Type :=
  | AtInited                               (* before reading LOG_INITED, 119 *)
  | AtOpen                                 (* it was true: before opening for appending, 120 *)
  | Appending (file : nat) (todo : list (list Z))          (* 131, what is still to be written *)
  | AtExists                               (* it was false: before Path::exists, 123 *)
  | AtRemove                               (* 124 *)
  | AtSet                                  (* 126 *)
  | AtNew                                  (* File::create, 127 *)
  | WritingAt (file pos : nat) (todo : list (list Z))      (* 131, own position in the file *)
  | LogDone
  | OpenPanic                              (* 120 unwrap *)
  | RemovePanic.                           (* 124 expect *)

(** LOG_INITED, the disk, and the calls with their messages *)
Record logs : Type := mkLogs {
  inited : bool; files : disk; calls : list (list Z * log_stage)
}.

(** [writeln!(f, "{}", m)] on an unbuffered file writes the message and the
    line feed separately *)
Definition pieces (m : list Z) : list (list Z) := [m; [10]].

(** bytes [b] at position [i] *)
Definition overwrite (i : nat) (b f : list Z) : list Z :=
  firstn i f ++ repeat 0 (i - length f) ++ b ++ skipn (i + length b) f.

(** One step of a call that logs [m]. Creating a file and writing succeed
    (Misc.v has writes that fail). *)
Definition log_step (m : list Z) (st : log_stage) (ini : bool) (d : disk) : log_stage * bool * disk :=
  match st with
  | AtInited => (if ini then AtOpen else AtExists, ini, d)
  | AtOpen => (match entry d with Some n => Appending n (pieces m) | None => OpenPanic end, ini, d)
  | Appending n [] => (LogDone, ini, d)
  | Appending n (p :: ps) => (Appending n ps, ini, change d n (fun c => c ++ p))
  | AtExists => (match entry d with Some _ => AtRemove | None => AtSet end, ini, d)
  | AtRemove => match entry d with
                | Some _ => (AtSet, ini, mkDisk (store d) None)
                | None => (RemovePanic, ini, d)
                end
  | AtSet => (AtNew, true, d)
  | AtNew => match entry d with
             | Some n => (WritingAt n 0 (pieces m), ini, change d n (fun _ => []))      (* truncates *)
             | None => (WritingAt (length (store d)) 0 (pieces m), ini,
                        mkDisk (store d ++ [[]]) (Some (length (store d))))
             end
  | WritingAt n i [] => (LogDone, ini, d)
  | WritingAt n i (p :: ps) => (WritingAt n (i + length p) ps, ini, change d n (overwrite i p))
  | LogDone | OpenPanic | RemovePanic => (st, ini, d)
  end.
Definition log_turn (s : logs) (i : nat) : logs :=
  match nth_error (calls s) i with
  | None => s
  | Some (m, st) =>
      let '(st', ini, d) := log_step m st (inited s) (files s) in
      mkLogs ini d (set_nth (calls s) i (m, st'))
  end.
Definition log_sched (s : logs) (sched : list nat) : logs := fold_left log_turn sched s.
Definition log_begin (ini : bool) (d : disk) (ms : list (list Z)) : logs :=
  mkLogs ini d (map (fun m => (m, AtInited)) ms).
Definition ended (st : log_stage) : bool := match st with LogDone => true | _ => false end.
Definition log_done (s : logs) : bool := forallb (fun c => ended (snd c)) (calls s).
