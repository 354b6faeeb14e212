(** Model of scripts/koyama-tsuruoka/kt.rb, the Ruby prototype of the recoding in
    src/cloudovo/scalar_multiplication/naf.rs. Ruby integers are unbounded, so the
    numbers are plain Z and nothing wraps or panics. *)
From Verif Require Import Base.

(** [k_vec[j] = d] on a Ruby array: writing past the end extends the array.
    Simplification: the gap is filled with 0 where Ruby has nil. *)
Definition rb_set (kv : list Z) (j : nat) (d : Z) : list Z :=
  if (j <? length kv)%nat then set_nth kv j d
  else kv ++ repeat 0 (j - length kv) ++ [d].

(** [while j < e do k_vec[j] = f(j); j += 1 end], [n] = e - j rounds *)
Fixpoint rb_fill (n j : nat) (f : nat -> Z) (kv : list Z) : list Z :=
  match n with
  | O => kv
  | S n' => rb_fill n' (S j) f (rb_set kv j (f j))
  end.

(** kt.rb:24-26: the variables of the loop and the array *)
Record rb_state : Type := mkRb {
  rb_j : nat; rb_m : Z; rb_x : nat; rb_y : Z; rb_z : Z;
  rb_u : nat; rb_v : Z; rb_w : nat; rb_vec : list Z
}.

(** kt.rb:28-57: the body of the loop *)
Definition rb_step (k : Z) (s : rb_state) : rb_state :=
  let (j, m, x, y, z, u, v, w, kv) := s in
  let y := if bit k x =? 1 then y + 1 else y - 1 in
  let x := S x in
  if m =? 0 then
    if z + 3 <=? y then
      let kv := rb_fill (w - j) j (bit k) kv in
      let j := Nat.max j w in
      mkRb (S j) 1 x y z x y w (rb_set kv j (-1))
    else if y <? z then mkRb j m x y y u v x kv
    else mkRb j m x y z u v w kv
  else
    if y + 3 <=? v then
      let kv := rb_fill (u - j) j (fun j => bit k j - 1) kv in
      let j := Nat.max j u in
      mkRb (S j) 0 x y y u v x (rb_set kv j 1)
    else if v <? y then mkRb j m x y z x y w kv
    else mkRb j m x y z u v w kv.

(** kt.rb:28: x starts at 0 and grows by one, so [x < k_len - 1] holds k_len - 1 times *)
Fixpoint rb_loop (n : nat) (k : Z) (s : rb_state) : rb_state :=
  match n with
  | O => s
  | S n' => rb_loop n' k (rb_step k s)
  end.

(** kt.rb:59-80 *)
Definition rb_end (k : Z) (s : rb_state) : list Z :=
  let (j, m, x, y, z, u, v, w, kv) := s in
  if (m =? 0) || ((m =? 1) && (v <=? y)) then
    let kv := rb_fill (x - j) j (fun j => bit k j - m) kv in
    let j := Nat.max j x in
    rb_set (rb_set kv j (1 - m)) (S j) m
  else
    let kv := rb_fill (u - j) j (fun j => bit k j - 1) kv in
    let j := Nat.max j u in
    let kv := rb_set kv j 1 in
    let j := S j in
    let kv := rb_fill (x - j) j (bit k) kv in
    let j := Nat.max j x in
    rb_set (rb_set kv j 1) (S j) 0.

(** kt.rb:86: [k_vec.pop if k_vec.last == 0] *)
Definition rb_pop (kv : list Z) : list Z :=
  match rev kv with
  | d :: r => if d =? 0 then rev r else kv
  | [] => kv
  end.

(** kt.rb:5-89. [k_len] is [Math::log2(k).floor + 1] (line 13), a floating-point
    computation: it is a parameter here and the theorems say what it has to be. *)
Definition kt_rb (k_len : nat) (k : Z) : list Z :=
  if k =? 0 then [0]
  else if k =? 1 then [1]
  else
    rb_pop (rb_end k (rb_loop (k_len - 1) k
      (mkRb 0 0 0 0 0 0 0 0 (repeat 0 (k_len + 1))))).

(** kt.rb:3, 91: the digits printed for a command-line argument, highest first *)
Definition kt_rb_main (k_len : Z -> nat) (arg : Z) : Z * list Z :=
  let val := Z.abs arg in (val, rev (kt_rb (k_len val) val)).
