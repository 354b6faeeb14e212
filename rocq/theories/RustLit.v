(** Functions that return a network, as Rust source: tokens, and what a compiler makes of them.
    The grammar is that of the two functions of demos.rs (a struct literal with the fields in the
    order of their declaration, [vec!] with or without a comma at the end, decimal literals);
    rustc accepts much more. Comments are not recognised: there are none in these functions. *)
From Coq Require Import String Ascii Decimal DecimalString.
From Verif Require Import Base NeuralNetwork.

(** ** tokens *)
Inductive token : Type := Word (w : string) | Sym (c : ascii).
Definition code (c : ascii) : nat := nat_of_ascii c.
Definition word_char (c : ascii) : bool :=
  let n := code c in
  ((48 <=? n) && (n <=? 57) || (65 <=? n) && (n <=? 90) || (97 <=? n) && (n <=? 122) || (n =? 95))%nat.
Definition space (c : ascii) : bool := ((code c =? 32) || (code c =? 10) || (code c =? 9))%nat.
Definition flush (w : string) (ts : list token) : list token :=
  match w with EmptyString => ts | _ => Word w :: ts end.
(** the word at the front, and the tokens after it *)
Fixpoint lex (s : string) : string * list token :=
  match s with
  | EmptyString => (EmptyString, [])
  | String c r =>
      let (w, ts) := lex r in
      if word_char c then (String c w, ts)
      else (EmptyString, if space c then flush w ts else Sym c :: flush w ts)
  end.
Definition tokens (s : string) : list token := let (w, ts) := lex s in flush w ts.

(** ** reading *)
Definition tok_eqb (a b : token) : bool :=
  match a, b with
  | Word v, Word w => String.eqb v w
  | Sym c, Sym d => Ascii.eqb c d
  | _, _ => false
  end.
(** the tokens after a given beginning *)
Fixpoint expect (p ts : list token) : option (list token) :=
  match p, ts with
  | [], _ => Some ts
  | a :: p', b :: ts' => if tok_eqb a b then expect p' ts' else None
  | _, [] => None
  end.
Definition opt_bind {A C} (x : option A) (f : A -> option C) : option C :=
  match x with Some a => f a | None => None end.
(** a decimal literal between two bounds; a larger one is an error (lint overflowing_literals) *)
Definition number (w : string) : option Z :=
  match w with
  | EmptyString => None
  | _ => option_map (fun d => Z.of_N (N.of_uint d)) (NilEmpty.uint_of_string w)
  end.
Definition within (lo hi v : Z) : option Z := if (lo <=? v) && (v <=? hi) then Some v else None.
Definition read_int (lo hi : Z) (ts : list token) : option (Z * list token) :=
  match ts with
  | Sym "-" :: Word w :: r => opt_bind (number w) (fun v => option_map (fun v => (v, r)) (within lo hi (- v)))
  | Word w :: r => opt_bind (number w) (fun v => option_map (fun v => (v, r)) (within lo hi v))
  | _ => None
  end.
(** elements with commas between them, perhaps one at the end, up to a closing bracket *)
Fixpoint sequence {A} (fuel : nat) (elem : list token -> option (A * list token)) (ts : list token)
  : option (list A * list token) :=
  match fuel with
  | O => None
  | S f =>
      match ts with
      | Sym "]" :: r => Some ([], r)
      | _ =>
          opt_bind (elem ts) (fun x =>
          match snd x with
          | Sym "," :: r => option_map (fun y => (fst x :: fst y, snd y)) (sequence f elem r)
          | Sym "]" :: r => Some ([fst x], r)
          | _ => None
          end)
      end
  end.
Definition vec_ {A} (elem : list token -> option (A * list token)) (ts : list token) : option (list A * list token) :=
  opt_bind (expect [Word "vec"; Sym "!"; Sym "["] ts) (fun r => sequence (length r) elem r).
(** the end of a struct literal *)
Definition close (ts : list token) : option (list token) :=
  match ts with Sym "," :: r => expect [Sym "}"] r | _ => expect [Sym "}"] ts end.
Definition read_type (ts : list token) : option (perc_type * list token) :=
  opt_bind (expect [Word "PercType"; Sym ":"; Sym ":"] ts) (fun r =>
  match r with
  | Word w :: r' =>
      if String.eqb w "MAX" then Some (MAX, r')
      else if String.eqb w "LIN" then Some (LIN, r')
      else if String.eqb w "ACT" then Some (ACT, r') else None
  | _ => None
  end).
(** neural_network.rs:68-75: t, w: Vec<i32>, b: i64 *)
Definition read_perceptron (ts : list token) : option (perceptron * list token) :=
  opt_bind (expect [Word "Perceptron"; Sym "{"; Word "t"; Sym ":"] ts) (fun r =>
  opt_bind (read_type r) (fun t =>
  opt_bind (expect [Sym ","; Word "w"; Sym ":"] (snd t)) (fun r =>
  opt_bind (vec_ (read_int (- 2 ^ 31) (2 ^ 31 - 1)) r) (fun w =>
  opt_bind (expect [Sym ","; Word "b"; Sym ":"] (snd w)) (fun r =>
  opt_bind (read_int (- 2 ^ 63) (2 ^ 63 - 1) r) (fun b =>
  option_map (fun r => (mkPerceptron (fst t) (fst w) (fst b), r)) (close (snd b)))))))).
(** neural_network.rs:81-86: layers, n_inputs: usize *)
Definition read_network (ts : list token) : option (neural_network * list token) :=
  opt_bind (expect [Word "NeuralNetwork"; Sym "{"; Word "layers"; Sym ":"] ts) (fun r =>
  opt_bind (vec_ (vec_ read_perceptron) r) (fun ls =>
  opt_bind (expect [Sym ","; Word "n_inputs"; Sym ":"] (snd ls)) (fun r =>
  opt_bind (read_int 0 (2 ^ 64 - 1) r) (fun n =>
  option_map (fun r => (mkNN (fst ls) (Z.to_nat (fst n)), r)) (close (snd n)))))).
(** a function without arguments that returns a network, and nothing after it *)
Definition read_function (name s : string) : option neural_network :=
  opt_bind (expect [Word "pub"; Word "fn"; Word name; Sym "("; Sym ")"; Sym "-"; Sym ">"; Word "NeuralNetwork"; Sym "{"] (tokens s)) (fun r =>
  opt_bind (read_network r) (fun x =>
  match snd x with [Sym "}"] => Some (fst x) | _ => None end)).
