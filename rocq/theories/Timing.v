(** Model of the times that src/misc.rs prints and logs: the line of parm_log_ts! and the duration of
    measure_duration! and simple_duration!. Strings are lists of code points; colours are left out. *)
From Coq Require Import String Ascii.
From Verif Require Import Base Messages ChainScript.

(** [{:0w}] and [{:w}] of a number that is not negative *)
Definition pad0 (w : nat) (n : Z) : str := repeat 48 (w - length (show n)) ++ show n.
Definition pad (w : nat) (n : Z) : str := repeat 32 (w - length (show n)) ++ show n.

(** A chrono::DateTime<Utc> is the number of microseconds since the epoch, not before it. Simplification: no leap
    seconds, which Utc::now() does not give. [format("%M %S")] and [timestamp_subsec_millis] (misc.rs:104-107) *)
Definition minute (t : Z) : Z := t / 60000000 mod 60.
Definition second (t : Z) : Z := t / 1000000 mod 60.
Definition millis (t : Z) : Z := t / 1000 mod 1000.
Definition stamp (t : Z) : str := pad0 2 (minute t) ++ [32] ++ pad0 2 (second t) ++ [46] ++ pad0 3 (millis t).

(** misc.rs:99-110, the line without its end *)
Definition log_line (lvl t_start t_end : Z) (m : str) : str :=
  pad 2 lvl ++ txt "  " ++ stamp t_start ++ txt "   " ++ stamp t_end ++ txt "   " ++ [34] ++ m ++ [34].

(** misc.rs:31-39 and 82-89, for a duration of [n] microseconds (as_micros, exact as an f64 up to 2^53).
    [Display] of an f64 writes the shortest decimal that reads back as that f64: below a second n / 1000 has at
    most six significant digits, so that is n / 1000 itself without zeros at the end. [{:.3}] rounds the f64 next
    to n / 1000000 to thousandths; where n / 1000000 lies half-way between two of these, it depends on the f64
    which one it is: [up]. *)
Definition MICRO : Z := 956.   (* U+03BC *)
Fixpoint strip0 (s : str) : str :=
  match s with
  | [] => []
  | c :: t => match strip0 t with [] => if c =? 48 then [] else [c] | r => c :: r end
  end.
Definition display_ms (n : Z) : str :=
  show (n / 1000) ++ (if n mod 1000 =? 0 then [] else [46] ++ strip0 (pad0 3 (n mod 1000))).
Definition display_s (up : Z -> bool) (n : Z) : str :=
  let r := n / 1000 + (if (500 <? n mod 1000) || ((n mod 1000 =? 500) && up n) then 1 else 0) in
  show (r / 1000) ++ [46] ++ pad0 3 (r mod 1000).
Definition duration_text (up : Z -> bool) (n : Z) : str :=
  if n <? 1000 then show n ++ [32; MICRO] ++ txt "s"
  else if n <? 1000000 then display_ms n ++ txt " ms"
  else display_s up n ++ txt " s".
