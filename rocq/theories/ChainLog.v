(** The files between the search for chains and the library: parse-asc_log-to-yaml.rb as
    a function from the bytes of asc.dat to the text that it writes. *)
From Coq Require Import String Ascii.
From Verif Require Import Base Params Messages ChainScript Yaml.

(** ** UTF-8, the encoding in which File.read takes the file *)
Definition continuation (b : Z) : bool := (128 <=? b) && (b <? 192).
(** Code points of up to three bytes. Longer ones, forms that are longer than needed and
    surrogates are refused; Ruby refuses the last two. *)
Fixpoint decode (s : list Z) : option str :=
  match s with
  | [] => Some []
  | b :: t =>
      if (0 <=? b) && (b <? 128) then option_map (cons b) (decode t)
      else if (194 <=? b) && (b <? 224) then
        match t with
        | b1 :: t => if continuation b1 then option_map (cons ((b - 192) * 64 + (b1 - 128))) (decode t) else None
        | _ => None
        end
      else if (224 <=? b) && (b <? 240) then
        match t with
        | b1 :: b2 :: t =>
            let c := ((b - 224) * 64 + (b1 - 128)) * 64 + (b2 - 128) in
            if continuation b1 && continuation b2 && (2048 <=? c) && negb ((55296 <=? c) && (c <? 57344))
            then option_map (cons c) (decode t) else None
        | _ => None
        end
      else None
  end.

(** ** parse-asc_log-to-yaml.rb:3-31: the hash built from the file. A line with a number
    that has been seen before would replace the earlier chain; here both are kept. *)
Definition parse_file (bytes : list Z) : option asc_map :=
  match decode bytes with
  | Some s => parse_lines (split_at (fun c => c =? 10) s)
  | None => None
  end.

Local Open Scope string_scope.
(** ** parse-asc_log-to-yaml.rb:33: YAML.dump. The keys of the inner hashes are symbols (22-28),
    which are written with a colon in front. *)
Definition step_dump (a : add_shift) : string :=
  line ("- :l_pos: " ++ bool_text (l_pos a)) ++
  line ("  :l_idx: " ++ num_text (N.of_nat (l_idx a))) ++
  line ("  :r_pos: " ++ bool_text (r_pos a)) ++
  line ("  :r_idx: " ++ num_text (N.of_nat (r_idx a))) ++
  line ("  :r_shift: " ++ num_text (N.of_nat (r_shift a))).
Definition steps_dump (c : asc) : string := fold_right (fun a s => step_dump a ++ s) "" c.
Definition entry_dump (kc : Z * asc) : string :=
  match snd kc with
  | [] => line (num_text (Z.to_N (fst kc)) ++ ": []")
  | c => line (num_text (Z.to_N (fst kc)) ++ ":") ++ steps_dump c
  end.
Definition entries_dump (m : asc_map) : string := fold_right (fun e s => entry_dump e ++ s) "" m.
Definition dump_yaml (m : asc_map) : string := line "---" ++ entries_dump m.

(** the whole script *)
Definition parse_script (bytes : list Z) : option string := option_map dump_yaml (parse_file bytes).
