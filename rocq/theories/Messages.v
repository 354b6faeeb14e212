(** Model of the message formatting macros of src/misc.rs and of the lines that
    the instrumented builds print. Strings are lists of Unicode code points. *)
From Coq Require Import String Ascii.
From Verif Require Import Base.

Definition str : Type := list Z.
(** string literals that are plain ASCII *)
Definition txt (s : string) : str := List.map (fun a => Z.of_N (N_of_ascii a)) (list_ascii_of_string s).

Definition NL : Z := 10.
Definition BAR : Z := 9474.       (* U+2502 │ *)
Definition SHADE : Z := 9618.     (* U+2592 ▒ *)
Definition CORNER : Z := 9492.    (* U+2514 └ *)
Definition JOIN : Z := 9566.      (* U+255E ╞ *)
Definition CHEESE : Z := 129472.  (* U+1F9C0 🧀 *)
Definition FONDUE : Z := 129749.  (* U+1FAD5 🫕 *)

(** bytes of a code point in a Rust String (UTF-8) *)
Definition utf8_len (c : Z) : Z :=
  if c <? 128 then 1 else if c <? 2048 then 2 else if c <? 65536 then 3 else 4.

(** [str::repeat], [str::replace("\n", ..)] *)
Definition repeat_str (s : str) (n : nat) : str := concat (repeat s n).
Definition replace_nl (s r : str) : str := flat_map (fun c => if c =? NL then r else [c]) s.

(** [String::truncate(n)]: nothing if the string is not longer; panics if byte n
    is not at the boundary of a character *)
Fixpoint truncate (n : Z) (s : str) : M str :=
  match s with
  | [] => ret []
  | c :: t =>
      if n =? 0 then ret []
      else if n <? utf8_len c then panic P_assert
      else r <- truncate (n - utf8_len c) t ;; ret (c :: r)
  end.

(** Crate [colored]: with colours on, the escape sequence of the style, the text,
    and the reset sequence; otherwise just the text. The painted texts of misc.rs
    contain no escape sequences themselves. *)
Inductive style := Yellow | RedBold.
Definition paint (on : bool) (st : style) (s : str) : str :=
  if on then
    [27] ++ txt (match st with Yellow => "[33m" | RedBold => "[1;31m" end) ++ s ++ [27] ++ txt "[0m"
  else s.

(** misc.rs:198-210. [lvl] is LOG_LVL, a u8. *)
Definition parm_format_info (lvl : nat) (m : str) : str :=
  let indent := repeat_str [32; 32; BAR; 32] lvl in
  let msg := indent ++ [32; CHEESE; 32] ++ m in
  let indent := [NL] ++ indent ++ txt "    " in
  replace_nl msg indent.

(** misc.rs:212-225 *)
Definition parm_format_dbg (on : bool) (lvl : nat) (m : str) : str :=
  let indent := repeat_str [32; 32; BAR; 32] lvl in
  let msg := indent ++ paint on RedBold (txt "DBG") ++ [32] ++ m in
  let indent := [NL] ++ indent ++ txt "    " in
  replace_nl msg indent.

(** misc.rs:227-246: ┏ ━ ┓ ┗ ┛ ┃ *)
Definition parm_format_infobox (on : bool) (lvl : nat) (m : str) : M str :=
  ms <- truncate 100 m ;;
  let msg := replace_nl ms (txt " | ") in
  let y := paint on Yellow in
  let top := y [9487] ++ y (repeat_str [9473] (length msg + 4)) ++ y [9491] in
  let bot := y [9495] ++ y (repeat_str [9473] (length msg + 4)) ++ y [9499] in
  let msg := txt "    " ++ top ++ [NL] ++ y [9475] ++ txt "  " ++ msg ++ txt "  " ++ y [9475] ++ [NL] ++ bot in
  let indent := repeat_str [32; 32; BAR; 32] lvl in
  let msg := indent ++ msg in
  let indent := [NL] ++ indent ++ txt "    " in
  ret (replace_nl msg indent).

(** misc.rs:248-263 *)
Definition parm_format_err (on : bool) (lvl : nat) (m : str) : str :=
  let indent := repeat_str [32; 32; SHADE; 32] lvl in
  let msg := indent ++ [32; FONDUE; 32; 32] ++ paint on RedBold (txt "ERR ") ++ m in
  let indent := [NL] ++ indent ++ txt "        " in
  replace_nl msg indent.

(** ** What a measured run prints *)

(** The beginning of a printed line; what follows (title, duration, count) is
    left out. [analyze] is feature seq_analyze.
    Title: misc.rs:15 through infoln!; done: misc.rs:43-48; boots: misc.rs:147. *)
Definition title_line (lvl : nat) : str := parm_format_info lvl [].
Definition done_line (analyze : bool) (lvl : nat) : str :=
  repeat_str [32; 32; BAR; 32] lvl ++ [32; 32; if analyze then JOIN else CORNER; 32].
Definition boots_line (lvl : nat) : str := repeat_str [32; 32; BAR; 32] lvl ++ [32; 32; CORNER; 32].

(** One event at level [lvl]: the new level and the line, if any. The level is a
    u8 that saturates (misc.rs:17-19, 41). Without seq_analyze the analysis
    macros are not called (arithmetics.rs:239, 250 ..); finish_pbs_analysis!
    prints when the stack is not empty, and here it never is, because every
    EFinish comes after its EStart. Feature measure is on. *)
Definition print_event (analyze : bool) (lvl : nat) (e : event) : nat * list str :=
  match e with
  | EPbs | EStart => (lvl, [])
  | EEnter => (if (lvl <? 255)%nat then S lvl else lvl, [title_line lvl])
  | EExit => (pred lvl, [done_line analyze (pred lvl)])
  | EFinish => (lvl, if analyze then [boots_line lvl] else [])
  end.
Fixpoint print_run (analyze : bool) (lvl : nat) (t : list event) : nat * list str :=
  match t with
  | [] => (lvl, [])
  | e :: t => let (l1, o1) := print_event analyze lvl e in
              let (l2, o2) := print_run analyze l1 t in (l2, o1 ++ o2)
  end.

(** ciphertexts.rs:298-306: the loop over the words is commented out *)
Definition to_str {A} (_ : list A) : str := txt "[[" ++ txt "]]".
