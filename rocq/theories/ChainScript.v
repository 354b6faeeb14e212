(** Model of the Ruby scripts that made assets/asc-12.yaml:
    scripts/add-sub-special-chains/variant.rb searches for chains and prints them,
    scripts/add-sub-special-chains/parse-asc_log-to-yaml.rb reads the printed lines
    and writes the table. An exception in Ruby is [None]. *)
From Coq Require Import String.
From Verif Require Import Base Params Messages.

(* ------------------------------------------------------------------ *)
(** ** variant.rb: the search *)

(** variant.rb:14-51 OddClass: the unit, or +-p +- 2^r q. The fields posi and negi
    are left out: only the commented-out line 49 would read them. *)
Inductive odd_class : Type :=
| Unit
| Node (p_pos : bool) (p : odd_class) (q_pos : bool) (q : odd_class) (r : nat).

(** variant.rb:26, 38 *)
Fixpoint oval (c : odd_class) : Z :=
  match c with
  | Unit => 1
  | Node p_pos p q_pos q r =>
      (if p_pos then 1 else -1) * oval p + (if q_pos then 1 else -1) * oval q * 2 ^ Z.of_nat r
  end.
(** variant.rb:27, 39 *)
Fixpoint owid (c : odd_class) : nat :=
  match c with
  | Unit => 1
  | Node _ p _ q r => Nat.max (owid p) (owid q + r)
  end.

(** variant.rb:70 ASChain < Array *)
Definition aschain : Type := list odd_class.
(** variant.rb:95-99 *)
Definition to_vals (c : aschain) : list Z := map oval c.

(** variant.rb:84-90: first index at which one of the chains has ended or the
    values differ, else the size of [self] *)
Fixpoint difi (self other : aschain) : nat :=
  match self, other with
  | a :: self', b :: other' => if oval a =? oval b then S (difi self' other') else O
  | _, _ => O
  end.
(** variant.rb:82-93 *)
Definition merge (self other : aschain) : option aschain :=
  match difi self other with
  | O => None
  | S d => Some (self ++ skipn (S d) other)
  end.

(** variant.rb:174 [db]: a Hash from values to the chains found, in order of insertion *)
Definition database : Type := list (Z * list aschain).
Fixpoint db_get (v : Z) (db : database) : option (list aschain) :=
  match db with
  | [] => None
  | (v', cs) :: t => if v =? v' then Some cs else db_get v t
  end.
(** variant.rb:151-155 *)
Fixpoint db_push (v : Z) (c : aschain) (db : database) : database :=
  match db with
  | [] => [(v, [c])]
  | (v', cs) :: t => if v =? v' then (v', cs ++ [c]) :: t else (v', cs) :: db_push v c t
  end.

Fixpoint vals_eqb (a b : list Z) : bool :=
  match a, b with
  | [], [] => true
  | x :: a, y :: b => (x =? y) && vals_eqb a b
  | _, _ => false
  end.

(** variant.rb:146-147 *)
Definition acceptable (db : database) (v : Z) (cand : aschain) : bool :=
  match db_get v db with
  | None => true
  | Some cs =>
      match cs with
      | [] => false
      | c :: _ => (length c =? length cand)%nat &&
                  negb (existsb (fun c => vals_eqb (to_vals c) (to_vals cand)) cs)
      end
  end.

(** variant.rb:142-157, for one choice of r and of the signs; the state is (ecs, db) *)
Definition try_node (cpq : aschain) (p q : odd_class) (s : list aschain * database)
    (x : nat * (bool * bool)) : list aschain * database :=
  let (r, signs) := x in
  let (p_pos, q_pos) := signs in
  let (ecs, db) := s in
  let on := Node p_pos p q_pos q r in
  let cand := cpq ++ [on] in
  if (0 <? oval on) && acceptable db (oval on) cand
  then (ecs ++ [cand], db_push (oval on) cand db)
  else (ecs, db).

(** variant.rb:137-140: the choices of r, p_pos, q_pos, in this order; [1..n] is
    empty when n < 1 *)
Definition choices (limit : nat) (q : odd_class) : list (nat * (bool * bool)) :=
  list_prod (seq 1 (limit - owid q)) (list_prod [true; false] [true; false]).

(** variant.rb:120-163, for one choice of the two chains. [last] of an empty
    array would be nil; the check at line 112 excludes it. *)
Definition try_pair (limit lvl : nat) (s : option (list aschain * database))
    (pair : aschain * aschain) : option (list aschain * database) :=
  let (cp, cq) := pair in
  match s with
  | None => None
  | Some s =>
      match merge cp cq with
      | None => None
      | Some cpq =>
          if (length cpq =? lvl)%nat then
            Some (fold_left (try_node cpq (last cp Unit) (last cq Unit)) (choices limit (last cq Unit)) s)
          else Some s
      end
  end.

(** variant.rb:112-113: level i holds chains of i+1 elements. An empty level
    makes [reduce] return nil, which also raises. *)
Fixpoint structure_ok (i : nat) (arys : list (list aschain)) : bool :=
  match arys with
  | [] => true
  | cary :: t => match cary with
                 | [] => false
                 | _ => forallb (fun c => length c =? S i)%nat cary && structure_ok (S i) t
                 end
  end.

(** variant.rb:109-168; LIMIT_WID is [limit] *)
Definition extend_chains_ary (limit : nat) (arys : list (list aschain)) (db : database)
  : option (list aschain * database) :=
  match arys with
  | [] => None
  | _ =>
      if structure_ok 0 arys then
        let lvl := length (last (last arys []) []) in
        let flat := concat arys in
        fold_left (try_pair limit lvl) (list_prod flat flat) (Some ([], db))
      else None
  end.

(** variant.rb:171-190: the number of extensions is 4 in the file *)
Fixpoint search (rounds limit : nat) : option (list (list aschain) * database) :=
  match rounds with
  | O => Some ([[[Unit]]], [(1, [[Unit]])])
  | S n =>
      match search n limit with
      | None => None
      | Some (arys, db) =>
          match extend_chains_ary limit arys db with
          | None => None
          | Some (ecs, db') => Some (arys ++ [ecs], db')
          end
      end
  end.

(* ------------------------------------------------------------------ *)
(** ** variant.rb: the printed lines *)

Definition LEFT : Z := 9686.   (* U+25D6 *)
Definition RIGHT : Z := 9687.  (* U+25D7 *)
Definition DOT : Z := 183.     (* U+00B7 *)

(** Integer#to_s *)
Fixpoint show_pos (fuel : nat) (n : Z) (acc : str) : str :=
  match fuel with
  | O => acc
  | S f => let acc := (48 + n mod 10) :: acc in
           if n <? 10 then acc else show_pos f (n / 10) acc
  end.
Definition show (n : Z) : str :=
  if n <? 0 then 45 :: show_pos (S (Z.to_nat (Z.log2 (- n)))) (- n) []
  else show_pos (S (Z.to_nat (Z.log2 n))) n [].

(** variant.rb:57-60 *)
Definition show_class (c : odd_class) : str :=
  LEFT :: 32 :: show (oval c) ++
  match c with
  | Unit => []
  | Node p_pos p q_pos q r =>
      txt " = " ++ (if p_pos then 32 else 45) :: show (oval p) ++
      32 :: (if q_pos then 43 else 45) :: 32 :: show (oval q) ++ DOT :: txt "2^" ++ show (Z.of_nat r)
  end ++ [32; RIGHT].

(** Array#to_s *)
Fixpoint join (l : list str) : str :=
  match l with
  | [] => []
  | [a] => a
  | a :: t => a ++ txt ", " ++ join t
  end.
Definition show_chain (c : aschain) : str := 91 :: join (map show_class c) ++ [93].

(** [%5d] *)
Definition pad5 (s : str) : str := repeat 32 (5 - length s) ++ s.

(** variant.rb:205, for an entry of the guaranteed part *)
Definition show_entry (v : Z) (c : aschain) : str :=
  pad5 (show v) ++ txt " /" ++ show (Z.of_nat (length c) - 1) ++ txt "/ " ++ show_chain c.

(* ------------------------------------------------------------------ *)
(** ** parse-asc_log-to-yaml.rb *)

(** String#split: the pieces between the separators *)
Fixpoint pieces (sep : Z -> bool) (s : str) : list str :=
  match s with
  | [] => [[]]
  | c :: t =>
      if sep c then [] :: pieces sep t
      else match pieces sep t with
           | h :: r => (c :: h) :: r
           | [] => [[c]]
           end
  end.
Definition empty (s : str) : bool := match s with [] => true | _ => false end.
(** with a separator, empty pieces at the end are dropped *)
Fixpoint drop_empty (l : list str) : list str :=
  match l with
  | s :: t => if empty s then drop_empty t else l
  | [] => []
  end.
Definition split_at (sep : Z -> bool) (s : str) : list str := rev (drop_empty (rev (pieces sep s))).
(** without one, the string is split at white space and all empty pieces are dropped *)
Definition white (c : Z) : bool := (c =? 32) || ((9 <=? c) && (c <=? 13)).
Definition split_white (s : str) : list str := filter (fun s => negb (empty s)) (pieces white s).

(** String#to_i: an optional sign and the digits up to the first other character.
    Simplification: no white space in front, no underscores. *)
Fixpoint read_digits (acc : Z) (s : str) : Z :=
  match s with
  | c :: t => if (48 <=? c) && (c <=? 57) then read_digits (10 * acc + (c - 48)) t else acc
  | [] => acc
  end.
Definition to_i (s : str) : Z :=
  match s with
  | 45 :: t => - read_digits 0 t
  | 43 :: t => read_digits 0 t
  | _ => read_digits 0 s
  end.

(** Array#find_index *)
Fixpoint find_index (v : Z) (l : list Z) : option nat :=
  match l with
  | [] => None
  | x :: t => if x =? v then Some O else option_map S (find_index v t)
  end.

(** parse-asc_log-to-yaml.rb:13-29, for the text after one left half-circle. A
    missing index is nil in Ruby and would be written as null, which the library
    cannot read: None here. A missing token is nil, and nil.to_i is 0. *)
Definition parse_step (vals : list Z) (piece : str) : option (list Z * add_shift) :=
  match split_at (fun c => c =? RIGHT) piece with
  | [] => None
  | ads :: _ =>
      let ads := split_white ads in
      match ads with
      | [] => None
      | _ =>
          let vals := vals ++ [to_i (hd [] ads)] in
          let l := to_i (nth 2 ads []) in
          let ra := split_at (fun c => white c || (c =? 94) || (c =? DOT)) (last ads []) in
          let r := to_i (hd [] ra) in
          match find_index (Z.abs l) vals, find_index r vals with
          | Some li, Some ri =>
              Some (vals, mkAddShift (0 <? l) li
                            (vals_eqb (nth 3 ads []) [43]) ri (Z.to_nat (to_i (last ra []))))
          | _, _ => None
          end
      end
  end.
Fixpoint parse_steps (vals : list Z) (ps : list str) : option asc :=
  match ps with
  | [] => Some []
  | p :: t =>
      match parse_step vals p with
      | None => None
      | Some (vals, a) => option_map (cons a) (parse_steps vals t)
      end
  end.

(** parse-asc_log-to-yaml.rb:7-30, one line; [2..] of an array of one element is nil *)
Definition parse_line (line : str) : option (Z * asc) :=
  match split_at (fun c => c =? LEFT) line with
  | _ :: _ :: ps =>
      option_map (pair (to_i (hd [] (split_white line)))) (parse_steps [1] ps)
  | _ => None
  end.

(* ------------------------------------------------------------------ *)
(** ** From the search to the table *)

(** variant.rb:195 [db.sort_by] on the values *)
Fixpoint insert_entry (e : Z * list aschain) (l : database) : database :=
  match l with
  | [] => [e]
  | h :: t => if fst e <=? fst h then e :: l else h :: insert_entry e t
  end.
Definition sort_db (db : database) : database := fold_right insert_entry [] db.

(** variant.rb:195-207: the lines before "no guarantee", without the lines "----"
    that mark gaps; this is asc.dat. [ca.first] is the chain printed. *)
Definition data_lines (limit : nat) (db : database) : list str :=
  map (fun e => show_entry (fst e) (hd [] (snd e)))
      (filter (fun e => fst e <=? 2 ^ Z.of_nat (limit - 1)) (sort_db db)).

(** parse-asc_log-to-yaml.rb:3-33 *)
Fixpoint parse_lines (lines : list str) : option asc_map :=
  match lines with
  | [] => Some []
  | l :: t =>
      match parse_line l, parse_lines t with
      | Some e, Some m => Some (e :: m)
      | _, _ => None
      end
  end.

(** both scripts, one after the other *)
Definition generate (rounds limit : nat) : option asc_map :=
  match search rounds limit with
  | None => None
  | Some (_, db) => parse_lines (data_lines limit db)
  end.
