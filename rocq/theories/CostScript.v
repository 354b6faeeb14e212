(** Model of scripts/optimal-multiplication/search-optimum-multiplication.rb, which
    predicts the number of bootstraps of products and squares. Reading a missing
    key of a Hash gives nil, and arithmetic on nil raises: None here. The table MP
    (lines 26-36) only appears in the printed text and is left out, and so is
    the key 0, whose value NaN is never read. *)
From Verif Require Import Base.

(** search-optimum-multiplication.rb:15-20 *)
Definition COST_A : Z := 2.
Definition COST_M : Z := 1.
Definition COST_S : Z := 1.

(** search-optimum-multiplication.rb:45-47 *)
Definition cost_m (n : Z) : Z := COST_M * n ^ 2 + COST_A * n * (n - 1).
(** search-optimum-multiplication.rb:50-52; the division of integers rounds down *)
Definition cost_s (n : Z) : Z := COST_M * n * (n - 1) / 2 + COST_S * n + COST_A * n * (n - 1).

(** a Hash, the latest entry first *)
Definition hash : Type := list (Z * Z).
Fixpoint fetch (h : hash) (k : Z) : option Z :=
  match h with
  | [] => None
  | (k', v) :: t => if k =? k' then Some v else fetch t k
  end.

(** search-optimum-multiplication.rb:55-60 *)
Definition jm_start : hash := [(4, cost_m 4); (3, cost_m 3); (2, cost_m 2); (1, cost_m 1)].
(** search-optimum-multiplication.rb:63-67 *)
Definition js_start : hash := [(3, 5); (2, 3); (1, cost_s 1)].

(** search-optimum-multiplication.rb:79-80: the costs of one Karatsuba step for 2n and 2n+1 words *)
Definition kara_even (jm : hash) (n : Z) : option Z :=
  match fetch jm n, fetch jm (n + 1) with
  | Some a, Some b => Some (2 * a + b + COST_A * (2 * n + 2 * n + 2 * (n + 1) + 3 * n))
  | _, _ => None
  end.
Definition kara_odd (jm : hash) (n : Z) : option Z :=
  match fetch jm n, fetch jm (n + 1), fetch jm (n + 2) with
  | Some a, Some b, Some c => Some (a + b + c + COST_A * (2 * (n + 1) + 2 * (n + 1) + 2 * (n + 2) + (3 * n + 1)))
  | _, _, _ => None
  end.

(** which method is printed *)
Inductive method : Type := Schoolbook | Divide.
(** a printed line: the length, the cost, the method, and the cost of the other method *)
Definition line : Type := Z * Z * method * Z.

(** search-optimum-multiplication.rb:73-90, one n. Both costs are computed before the
    table is changed. The state is the table and the lines printed so far, as
    described above. *)
Definition mul_round (s : option (hash * list line)) (n : Z) : option (hash * list line) :=
  match s with
  | None => None
  | Some (jm, out) =>
      match kara_even jm n, kara_odd jm n with
      | Some k0, Some k1 =>
          let m0 := cost_m (2 * n) in
          let m1 := cost_m (2 * n + 1) in
          Some ((2 * n + 1, Z.min k1 m1) :: (2 * n, Z.min k0 m0) :: jm,
                out ++ [(2 * n, Z.min k0 m0, if k0 <? m0 then Divide else Schoolbook, Z.max k0 m0);
                        (2 * n + 1, Z.min k1 m1, if k1 <? m1 then Divide else Schoolbook, Z.max k1 m1)])
      | _, _ => None
      end
  end.

(** search-optimum-multiplication.rb:102-109 *)
Definition dnq_even (jm js : hash) (n : Z) : option Z :=
  match fetch js n, fetch jm n with
  | Some a, Some c => Some (2 * a + c + COST_A * (if n <? 4 then 3 * n - 1 else 2 * n + (2 * n + 1)))
  | _, _ => None
  end.
Definition dnq_odd (jm js : hash) (n : Z) : option Z :=
  match fetch js n, fetch js (n + 1), fetch jm (n + 1) with
  | Some a, Some b, Some c => Some (a + b + c + COST_A * (3 * n))
  | _, _, _ => None
  end.
(** search-optimum-multiplication.rb:99-119, one n *)
Definition squ_round (jm : hash) (s : option (hash * list line)) (n : Z) : option (hash * list line) :=
  match s with
  | None => None
  | Some (js, out) =>
      match dnq_even jm js n, dnq_odd jm js n with
      | Some d0, Some d1 =>
          let s0 := cost_s (2 * n) in
          let s1 := cost_s (2 * n + 1) in
          Some ((2 * n + 1, Z.min d1 s1) :: (2 * n, Z.min d0 s0) :: js,
                out ++ [(2 * n, Z.min d0 s0, if d0 <? s0 then Divide else Schoolbook, Z.max d0 s0);
                        (2 * n + 1, Z.min d1 s1, if d1 <? s1 then Divide else Schoolbook, Z.max d1 s1)])
      | _, _ => None
      end
  end.

(** the range (2..16) of lines 73 and 99 *)
Definition rounds_2_16 : list Z := map Z.of_nat (seq 2 15).

(** the whole script: the two tables and the lines printed for each *)
Definition cost_script : option ((hash * list line) * (hash * list line)) :=
  match fold_left mul_round rounds_2_16 (Some (jm_start, [])) with
  | None => None
  | Some (jm, out) =>
      option_map (pair (jm, out)) (fold_left (squ_round jm) rounds_2_16 (Some (js_start, [])))
  end.
