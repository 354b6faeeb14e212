(** The YAML in which assets/asc-12.yaml is written and read: a block mapping from
    integers to block sequences of block mappings with the five fields of AddShift.
    [read_yaml] stands for serde_yaml (asc.rs:109). [write_yaml] lays the table out as the file
    has it (and as serde_yaml would write it); what parse-asc_log-to-yaml.rb:33 writes has colons
    in front of the field names and is in ChainLog.v. Simplifications: the reader takes the layout that the
    writer produces and no other (serde_yaml takes any YAML, fields in any order); the entries
    are kept in the order of the file, where the library has a BTreeMap. *)
From Coq Require Import String Ascii Decimal DecimalString.
From Verif Require Import Base Params.
Local Open Scope string_scope.

Definition newline : ascii := Ascii.ascii_of_nat 10.
Definition colon : ascii := ":"%char.

(** ** writing *)
Definition num_text (n : N) : string := NilEmpty.string_of_uint (N.to_uint n).
Definition bool_text (b : bool) : string := if b then "true" else "false".
Definition line (s : string) : string := s ++ String newline "".
Definition step_text (a : add_shift) : string :=
  line ("- l_pos: " ++ bool_text (l_pos a)) ++
  line ("  l_idx: " ++ num_text (N.of_nat (l_idx a))) ++
  line ("  r_pos: " ++ bool_text (r_pos a)) ++
  line ("  r_idx: " ++ num_text (N.of_nat (r_idx a))) ++
  line ("  r_shift: " ++ num_text (N.of_nat (r_shift a))).
Definition steps_text (c : asc) : string := fold_right (fun a s => step_text a ++ s) "" c.
Definition entry_text (kc : Z * asc) : string :=
  match snd kc with
  | [] => line (num_text (Z.to_N (fst kc)) ++ ": []")
  | c => line (num_text (Z.to_N (fst kc)) ++ ":") ++ steps_text c
  end.
Definition entries_text (m : asc_map) : string := fold_right (fun e s => entry_text e ++ s) "" m.
Definition write_yaml (m : asc_map) : string := line "---" ++ entries_text m.

(** ** reading *)
Fixpoint lines (s : string) : list string :=
  match s with
  | "" => []
  | String c r =>
      if Ascii.eqb c newline then "" :: lines r
      else match lines r with [] => [String c ""] | h :: t => String c h :: t end
  end.
(** what follows a prefix *)
Fixpoint after (p s : string) : option string :=
  match p, s with
  | "", _ => Some s
  | String a p', String b s' => if Ascii.eqb a b then after p' s' else None
  | _, _ => None
  end.
(** a usize: digits, a value below 2^64 *)
Definition read_num (s : string) : option N :=
  match s with
  | "" => None
  | _ => match NilEmpty.uint_of_string s with
         | Some d => if (N.of_uint d <? 2 ^ 64)%N then Some (N.of_uint d) else None
         | None => None
         end
  end.
Definition read_bool (s : string) : option bool :=
  if String.eqb s "true" then Some true else if String.eqb s "false" then Some false else None.
Definition opt_bind {A C} (x : option A) (f : A -> option C) : option C :=
  match x with Some a => f a | None => None end.
Definition field {A} (name : string) (read : string -> option A) (l : string) : option A :=
  opt_bind (after name l) read.
Definition read_step (a b c d e : string) : option add_shift :=
  opt_bind (field "- l_pos: " read_bool a) (fun lp =>
  opt_bind (field "  l_idx: " read_num b) (fun li =>
  opt_bind (field "  r_pos: " read_bool c) (fun rp =>
  opt_bind (field "  r_idx: " read_num d) (fun ri =>
  opt_bind (field "  r_shift: " read_num e) (fun rs =>
  Some (mkAddShift lp (N.to_nat li) rp (N.to_nat ri) (N.to_nat rs))))))).
(** the text in front of the first colon, and what follows it *)
Fixpoint cut (s : string) : option (string * string) :=
  match s with
  | "" => None
  | String c r =>
      if Ascii.eqb c colon then Some ("", r)
      else option_map (fun x => (String c (fst x), snd x)) (cut r)
  end.
(** a key, and whether an empty sequence follows it on its line *)
Definition read_key (l : string) : option (Z * bool) :=
  opt_bind (cut l) (fun x =>
  opt_bind (read_num (fst x)) (fun k =>
  if String.eqb (snd x) "" then Some (Z.of_N k, false)
  else if String.eqb (snd x) " []" then Some (Z.of_N k, true) else None)).
(** the steps in front of the first key, and the entries *)
Fixpoint read_body (ls : list string) : option (asc * asc_map) :=
  match ls with
  | [] => Some ([], [])
  | l :: t =>
      match read_key l with
      | Some (k, true) =>
          match read_body t with Some ([], m) => Some ([], (k, []) :: m) | _ => None end
      | Some (k, false) =>
          match read_body t with Some (a :: c, m) => Some ([], (k, a :: c) :: m) | _ => None end
      | None =>
          match t with
          | b :: c :: d :: e :: t' =>
              opt_bind (read_step l b c d e) (fun a =>
              opt_bind (read_body t') (fun r => Some (a :: fst r, snd r)))
          | _ => None
          end
      end
  end.
Definition read_yaml (s : string) : option asc_map :=
  match lines s with
  | h :: t => if String.eqb h "---" then match read_body t with Some ([], m) => Some m | _ => None end else None
  | [] => None
  end.
