(** The operations as they run without the feature seq_analyze: par_iter loops
    and thread scopes over shared memory *)
From Verif Require Import Base Backend Words Params Pbs Addition Signum Maximum
  Multiplication Squaring Rounding Naf Asc ScalarMul Arith NeuralNetwork Parallel.
From Verif Require Import Expr.

Section Ops.
Context {B : backend}.

(** Contents of a cell. A thread that panics leaves [VPanic] for whoever joins
    it: [expect("thread::scope .. failed")], and rayon, then panic as well.
    Simplification: the panic message is dropped, and the other threads run to
    their end. *)
Inductive val : Type :=
| VWord (w : word B)
| VCt (c : ciphertext B)
| VCts (l : list (ciphertext B))
| VPanic.
Record kind (A : Type) : Type := mkKind {
  inj : A -> val;
  prj : val -> option A
}.
Arguments inj {A} k _.
Arguments prj {A} k _.
Definition kword : kind (word B) := mkKind _ VWord (fun v => match v with VWord w => Some w | _ => None end).
Definition kct : kind (ciphertext B) := mkKind _ VCt (fun v => match v with VCt c => Some c | _ => None end).
Definition kcts : kind (list (ciphertext B)) := mkKind _ VCts (fun v => match v with VCts c => Some c | _ => None end).
Definition put {A} (k : kind A) (o : option A) : val :=
  match o with Some a => inj k a | None => VPanic end.

(** A function: the cells it may use are those below a path; it goes on with
    its result, or with [None] if it panics. *)
Definition P (A : Type) : Type := path -> (option A -> prog val) -> prog val.
Definition pret {A} (a : A) : P A := fun _ k => k (Some a).
Definition pfail {A} : P A := fun _ k => k None.
Definition pbind {A C} (m : P A) (f : A -> P C) : P C :=
  fun p k => m (p ++ [0%nat]) (fun o => match o with Some a => f a (p ++ [1%nat]) k | None => k None end).
(** code that touches no shared memory, with its bootstraps *)
Definition count_pbs (t : list event) : nat :=
  length (filter (fun e => match e with EPbs => true | _ => false end) t).
Definition to_option {A} (o : outcome A) : option A := match o with Ok a => Some a | _ => None end.
Fixpoint ticks (n : nat) (k : prog val) : prog val :=
  match n with O => k | S n => Tick (ticks n k) end.
Definition lift {A} (m : M A) : P A := fun _ k => ticks (count_pbs (snd m)) (k (to_option (fst m))).

(** Tasks that run at the same time, the i-th writing its own slot. This is
    [slots.par_iter_mut()..for_each(|slot| *slot = task)] and
    [thread::scope(|s| { s.spawn(|_| *r = task); .. })]. *)
Fixpoint tasks {A} (c : kind A) (p : path) (i : nat) (ms : list (P A)) : prog val :=
  match ms with
  | [] => Done
  | m :: ms => Par (m (p ++ [i; 1%nat]) (fun o => Write (p ++ [i; 0%nat]) (put c o) Done))
                   (tasks c p (S i) ms) Done
  end.
(** after all have ended *)
Fixpoint collect {A} (c : kind A) (p : path) (i n : nat) (k : option (list A) -> prog val) : prog val :=
  match n with
  | O => k (Some [])
  | S n => Read (p ++ [i; 0%nat]) (fun v =>
             match prj c v with
             | None => k None
             | Some a => collect c p (S i) n (fun o => k (option_map (cons a) o))
             end)
  end.
Definition ppar {A} (c : kind A) (ms : list (P A)) : P (list A) :=
  fun p k => Par (tasks c p 0 ms) Done (collect c p 0 (length ms) k).
(** Variables that tasks read through shared references: [body] gets a reader *)
Fixpoint share_all {A} (c : kind A) (p : path) (i : nat) (l : list A) (k : prog val) : prog val :=
  match l with
  | [] => k
  | a :: l => Write (p ++ [0; i]%nat) (inj c a) (share_all c p (S i) l k)
  end.
Definition pread {A} (c : kind A) (x : path) : P A := fun _ k => Read x (fun v => k (prj c v)).
Definition pshare {A C} (c : kind A) (l : list A) (body : (nat -> P A) -> P C) : P C :=
  fun p k => share_all c p 0 l (body (fun i => pread c (p ++ [0; i]%nat)) (p ++ [1%nat]) k).

Fixpoint pfold {A S} (f : S -> A -> P S) (l : list A) (s : S) : P S :=
  match l with
  | [] => pret s
  | a :: t => pbind (f s a) (pfold f t)
  end.
Fixpoint pmap {A C} (f : A -> P C) (l : list A) : P (list C) :=
  match l with
  | [] => pret []
  | a :: t => pbind (f a) (fun b => pbind (pmap f t) (fun r => pret (b :: r)))
  end.
Notation "x <~ m ;; k" := (pbind m (fun x => k)) (at level 61, m at next level, right associativity).

(* ------------------------------------------------------------------ *)
(** ** addition.rs *)

(** 20-160; only 107-120 and 135-145 are parallel *)
Definition par_add_sub (is_add : bool) (x y : ciphertext B) (refresh : bool) : P (ciphertext B) :=
  let x_rzero := count_triv_zeros x in
  let y_rzero := count_triv_zeros y in
  if (x_rzero =? length x)%nat then pret (if is_add then y else pa_opp y)
  else if (y_rzero =? length y)%nat then pret x
  else
    let r_triv := Nat.max x_rzero y_rzero in
    let x_lzero := count_triv_zeros (rev x) in
    let y_lzero := count_triv_zeros (rev y) in
    let wlen := Nat.max (length x - x_lzero) (length y - y_lzero) in
    let w0 := firstn wlen x ++ ct_triv (wlen - length x) in
    let w := zip_inplace (if is_add then w_add else w_sub) w0 y in
    if (wlen <=? r_triv)%nat then pfail
    else
      q_hi <~ pshare kword w (fun rd =>                            (* 107-120 *)
                ppar kword (map (fun i0 =>
                  let i := (i0 + r_triv)%nat in
                  wi <~ rd i ;;
                  if (0 <? i0)%nat
                  then wm <~ rd (i - 1)%nat ;;
                       lift (f_4_pi_5 (w_add (w_mul_const wi 3) wm))
                  else lift (f_4_pi_5 (w_mul_const wi 3)))
                (seq 0 (wlen - r_triv)))) ;;
      let q := ct_triv r_triv ++ q_hi in
      let w' := map (fun i =>
                  let wi := w_sub (nth i w triv0) (w_mul_const (nth i q triv0) 2) in
                  if (0 <? i)%nat then w_add wi (nth (i - 1) q triv0) else wi)
                (seq 0 wlen) in
      z_hi <~ (if refresh
               then pshare kword (skipn r_triv w') (fun rd =>      (* 135-145 *)
                      ppar kword (map (fun i => wi <~ rd i ;; lift (id_pi_5 wi))
                                      (seq 0 (length (skipn r_triv w')))))
               else pret (skipn r_triv w')) ;;
      pret (firstn r_triv w' ++ z_hi ++ [last q triv0]).

Definition par_add (x y : ciphertext B) := par_add_sub true x y true.
Definition par_sub (x y : ciphertext B) := par_add_sub false x y true.

(** 172-206 *)
Definition par_add_const (pc : cloud) (x : ciphertext B) (k : Z) : P (ciphertext B) :=
  if k =? 0 then pret x
  else
    k_abs <~ lift (chk_i64 (ovf pc) (Z.abs k)) ;;
    let k_pos := 0 <=? k in
    let k_len := fold_left
      (fun len i => if Z.testbit k_abs (Z.of_nat i) then S i else len) (seq 0 63) 0%nat in
    ck <~ lift (mapM (fun i =>
            bind (if Z.testbit k_abs (Z.of_nat i)
                  then (if k_pos then ret 1 else plaintext_mask (ovf pc) (cparams pc))
                  else ret 0)
            (fun ki => ret (encrypt_word_triv (i32 ki))))
          (seq 0 k_len)) ;;
    par_add x ck.

(* ------------------------------------------------------------------ *)
(** ** signum.rs *)

(** 96-117, a task of the loop 88-144; [rd] reads a word of x *)
Definition par_first_group (pc : cloud) (len : nat) (rd : nat -> P (word B)) (j : nat) : P (word B) :=
  let bj := triv0 in
  bj <~ (if (GAMMA * j + 3 <? len)%nat then
           x3 <~ rd (GAMMA * j + 3)%nat ;;
           sj3 <~ (if 85 <=? quad_weight (cparams pc)
                   then pret (w_mul_const x3 8)
                   else lift (f_1_pi_5 x3 8)) ;;
           pret (w_add bj sj3)
         else pret bj) ;;
  pfold (fun b i =>
         if (GAMMA * j + i <? len)%nat
         then xi <~ rd (GAMMA * j + i)%nat ;;
              pret (w_add b (if (i =? 0)%nat then xi else w_mul_const xi (2 ^ Z.of_nat i)))
         else pret b)
       [0; 1; 2]%nat bj.

(** 119-143, a task with a loop of its own, 124-137 *)
Definition par_next_group (len : nat) (rd : nat -> P (word B)) (j : nat) : P (word B) :=
  sj <~ ppar kword (map (fun i =>
          if (GAMMA * j + i <? len)%nat
          then xi <~ rd (GAMMA * j + i)%nat ;; lift (f_1_pi_5 xi (2 ^ Z.of_nat i))
          else pret triv0)
        (seq 0 GAMMA)) ;;
  pret (fold_left w_add sj triv0).

Fixpoint par_sgn_fuel (fuel : nat) (pc : cloud) (x : ciphertext B) (first_round : bool) : P (ciphertext B) :=
  match fuel with
  | O => pfail
  | S fuel' =>
      if (length x =? 0)%nat then pret (ct_triv 1)
      else if (length x =? 1)%nat then pret x
      else
        b <~ pshare kword x (fun rd =>                             (* 88-144 *)
               ppar kword (map (fun j => if first_round then par_first_group pc (length x) rd j
                                         else par_next_group (length x) rd j)
                               (seq 0 ((length x - 1) / GAMMA + 1)))) ;;
        par_sgn_fuel fuel' pc b false
  end.
Definition par_sgn_raw (pc : cloud) (x : ciphertext B) (first_round : bool) :=
  par_sgn_fuel (S (length x)) pc x first_round.
Definition par_sgn (pc : cloud) (x : ciphertext B) : P (ciphertext B) :=
  if (length x =? 0)%nat then pret pa_zero
  else if (length x =? 1)%nat then pret x
  else
    s_raw <~ par_sgn_raw pc x true ;;
    s0 <~ lift (index s_raw 0) ;;
    s <~ lift (f_1_pi_5 s0 1) ;;
    pret (ct_single s).

(* ------------------------------------------------------------------ *)
(** ** maximum.rs *)

(** 66-84, a task of the loop 60-84 *)
Definition par_max_word (pc : cloud) (rs rx ry : P (word B)) : P (word B) :=
  yi <~ ry ;;
  t <~ (if 41 <=? quad_weight (cparams pc) then pret (w_mul_const yi 6) else lift (f_1_pi_5 yi 6)) ;;
  xi <~ rx ;;
  s <~ rs ;;
  lift (max_s_2x_6y_pi_5 (w_add (w_add t (w_mul_const xi 2)) s)).
Definition par_max (pc : cloud) (x y : ciphertext B) : P (ciphertext B) :=
  r <~ par_sub x y ;;
  s_raw <~ par_sgn_raw pc r true ;;
  s0 <~ lift (index s_raw 0) ;;
  s <~ lift (nonneg_pi_5 s0) ;;
  let xa := x ++ ct_triv (length y - length x) in
  let ya := y ++ ct_triv (length x - length y) in
  pshare kword [s] (fun rs => pshare kword xa (fun rx => pshare kword ya (fun ry =>
    ppar kword (map (fun i => par_max_word pc (rs 0%nat) (rx i) (ry i)) (seq 0 (length xa)))))).
Definition par_relu (pc : cloud) (x : ciphertext B) := par_max pc pa_zero x.

(* ------------------------------------------------------------------ *)
(** ** multiplication.rs *)

(** 247-285: a loop over the rows, and in each row a loop over the words *)
Definition par_fill (x y : ciphertext B) : P (list (ciphertext B)) :=
  if negb (length x =? length y)%nat then pfail
  else
    let len := length x in
    pshare kword x (fun rx => pshare kword y (fun ry =>
      ppar kct (map (fun j =>
        row <~ ppar kword (map (fun i =>
                 yj <~ ry j ;; xi <~ rx i ;; lift (mul_lwe xi yj)) (seq 0 len)) ;;
        pret (ct_triv j ++ row ++ ct_triv (2 * len - j - len)))
      (seq 0 len)))).
(** 322-337, sequential *)
Definition par_reduce (mulary : list (ciphertext B)) : P (ciphertext B) :=
  m0 <~ lift (index mulary 0) ;;
  m1 <~ lift (index mulary 1) ;;
  acc <~ par_add m0 m1 ;;
  pfold par_add (skipn 2 mulary) acc.

(** 89-206. Threads: abc_scope { [ab_scope { A; B }; -A-B]; [c_scope { x01; y01 }; C] }.
    The four halves are read through shared references. The variables a, b and
    na_nb, all written below the first thread of abc_scope, are one cell here. *)
Definition par_karatsuba (rec : ciphertext B -> ciphertext B -> P (ciphertext B)) (x y : ciphertext B)
  : P (ciphertext B) :=
  if negb (length x =? length y)%nat then pfail
  else
    let len0 := ((length x + 1) / 2)%nat in
    let x0 := firstn len0 x in
    let x1 := skipn len0 x in
    let y0 := firstn len0 y in
    let y1 := skipn len0 y in
    abc <~ pshare kct [x0; x1; y0; y1] (fun rd =>
      ppar kcts [
        (* 142-160 *)
        ab <~ ppar kct [
                (x1 <~ rd 1%nat ;; y1 <~ rd 3%nat ;; rec x1 y1);
                (x0 <~ rd 0%nat ;; y0 <~ rd 2%nat ;; rec x0 y0) ] ;;
        (match ab with
         | [a; b] => s <~ par_add a b ;; pret [a; b; ct_triv len0 ++ map w_opp s]
         | _ => pfail
         end);
        (* 162-179 *)
        xy <~ ppar kct [
                (x0 <~ rd 0%nat ;; x1 <~ rd 1%nat ;; par_add x0 x1);
                (y0 <~ rd 2%nat ;; y1 <~ rd 3%nat ;; par_add y0 y1) ] ;;
        (match xy with
         | [x01; y01] => c <~ rec x01 y01 ;; pret [ct_triv len0 ++ c]
         | _ => pfail
         end) ]) ;;
    match abc with
    | [[a; b; na_nb]; [c]] =>
        c_nanb <~ par_add c na_nb ;;
        if (length b =? 2 * len0)%nat then par_add (b ++ a) c_nanb
        else
          b_cnanb <~ par_add b c_nanb ;;
          par_add (pa_shift a (2 * len0)) b_cnanb
    | _ => pfail
    end.

Definition par_mul_impl (rec : ciphertext B -> ciphertext B -> P (ciphertext B)) (x y : ciphertext B)
  : P (ciphertext B) :=
  let x_in := x ++ ct_triv (length y - length x) in
  let y_in := y ++ ct_triv (length x - length y) in
  let l := length x_in in
  if (l =? 0)%nat then pret pa_zero
  else if (l =? 1)%nat then m <~ par_fill x_in y_in ;; lift (index m 0)
  else if ((l <? 16) || (l =? 17))%nat then m <~ par_fill x_in y_in ;; par_reduce m
  else if (l <=? 32)%nat then par_karatsuba rec x_in y_in
  else pfail.
Fixpoint par_mul_fuel (fuel : nat) (x y : ciphertext B) : P (ciphertext B) :=
  match fuel with
  | O => pfail
  | S f => par_mul_impl (par_mul_fuel f) x y
  end.
Definition par_mul (x y : ciphertext B) : P (ciphertext B) :=
  par_mul_fuel (S (Nat.max (length x) (length y))) x y.

(* ------------------------------------------------------------------ *)
(** ** squaring.rs *)

(** 135-187; loop 168-178 *)
Definition par_squ_2_3 (x : ciphertext B) : P (ciphertext B) :=
  if negb ((length x =? 2) || (length x =? 3))%nat then pfail
  else
    let x_val :=
      if (length x =? 2)%nat then
        w_add (w_mul_const (nth 1 x triv0) 2) (nth 0 x triv0)
      else
        let v := w_mul_const (nth 2 x triv0) 2 in
        let v := w_add v (nth 1 x triv0) in
        let v := w_mul_const v 2 in
        w_add v (nth 0 x triv0) in
    res_pbs <~ pshare kword [x_val] (fun rv =>
      ppar kword (map (fun i => v <~ rv 0%nat ;;
                                lift (squ_3_bit_pi_5 v (if (i <? 1)%nat then i else i + 1)%nat))
                      (seq 0 (2 * length x - 1)))) ;;
    r0 <~ lift (index res_pbs 0) ;;
    pret (r0 :: encrypt_word_triv 0 :: skipn 1 res_pbs).

(** 45-115: three threads *)
Definition par_squ_dnq (rec : ciphertext B -> P (ciphertext B)) (x : ciphertext B) : P (ciphertext B) :=
  let len0 := ((length x + 1) / 2)%nat in
  abc <~ pshare kct [firstn len0 x; skipn len0 x] (fun rd =>
    ppar kct [
      (x1 <~ rd 1%nat ;; rec x1);
      (x0 <~ rd 0%nat ;; rec x0);
      (x0 <~ rd 0%nat ;; x1 <~ rd 1%nat ;; c <~ par_mul x0 x1 ;; pret (pa_shift c (len0 + 1))) ]) ;;
  match abc with
  | [a; b; c] =>
      if (length b =? 2 * len0)%nat then par_add (b ++ a) c
      else
        b_c <~ par_add b c ;;
        par_add (pa_shift a (2 * len0)) b_c
  | _ => pfail
  end.
Definition par_squ_impl (rec : ciphertext B -> P (ciphertext B)) (x : ciphertext B) : P (ciphertext B) :=
  let l := length x in
  if (l =? 0)%nat then pret pa_zero
  else if (l =? 1)%nat then lift (squ_1word x)
  else if (l <=? 3)%nat then par_squ_2_3 x
  else if (l <=? 32)%nat then par_squ_dnq rec x
  else pfail.
Fixpoint par_squ_fuel (fuel : nat) (x : ciphertext B) : P (ciphertext B) :=
  match fuel with
  | O => pfail
  | S f => par_squ_impl (par_squ_fuel f) x
  end.
Definition par_squ (x : ciphertext B) : P (ciphertext B) := par_squ_fuel (S (length x)) x.

(* ------------------------------------------------------------------ *)
(** ** rounding.rs *)

Definition par_round (pc : cloud) (x : ciphertext B) (pos : nat) : P (ciphertext B) :=
  match pos with
  | O => pret x
  | S pos1 =>
      if (length x + 1 <=? pos)%nat then pret pa_zero
      else
        s <~ par_sgn pc (firstn pos1 x) ;;
        let yy_s := w_mul_const (nth pos1 x triv0) 2 in
        let yy_s := match s with [] => yy_s | s0 :: _ => w_add yy_s s0 end in
        rw <~ lift (round_2y_s_pi_5 yy_s) ;;
        par_add (pa_shift (skipn pos x) pos) (ct_triv pos ++ [rw])
  end.

(* ------------------------------------------------------------------ *)
(** ** scalar_multiplication/mod.rs *)

(** asc.rs:37-67, sequential *)
Definition par_asc_eval (c : asc) (x : ciphertext B) : P (ciphertext B) :=
  vals <~ pfold (fun vals a =>
            l <~ lift (index vals (l_idx a)) ;;
            r <~ lift (index vals (r_idx a)) ;;
            let r_sh := pa_shift r (r_shift a) in
            s <~ par_add (if l_pos a then l else pa_opp l) (if r_pos a then r_sh else pa_opp r_sh) ;;
            pret (vals ++ [s])) c [x] ;;
  pret (last vals x).

(** loop 69-78: a task for every window value *)
Definition par_scalar_mul (pc : cloud) (k : Z) (x : ciphertext B) : P (ciphertext B) :=
  let x_pos := if 0 <=? k then x else map w_opp x in
  k_abs_i <~ lift (chk_i32 (ovf pc) (Z.abs k)) ;;
  let k_abs := u32 k_abs_i in
  if k_abs =? 0 then pret ct_empty
  else if k_abs =? 1 then pret x_pos
  else
    ws <~ lift (wind_shifts (ovf pc) k_abs ASC_BITLEN) ;;
    wx <~ pshare kct [x_pos] (fun rx =>
            ppar kct (map (fun wiabs =>
              c <~ lift (asc_get (asc_12 pc) wiabs) ;;
              xp <~ rx 0%nat ;;
              par_asc_eval c xp) (window_keys ws))) ;;
    mulary <~ lift (mapM (mulary_row (combine (window_keys ws) wx)) ws) ;;
    if (length mulary =? 1)%nat then lift (index mulary 0)
    else par_reduce mulary.

(* ------------------------------------------------------------------ *)
(** ** Programs and networks on these operations *)

Fixpoint par_run (pc : cloud) (env : list (ciphertext B)) (e : expr) : P (ciphertext B) :=
  match e with
  | Var i => pret (nth i env pa_zero)
  | Zero => pret pa_zero
  | Let e1 e2 => x <~ par_run pc env e1 ;; par_run pc (x :: env) e2
  | Opp e => x <~ par_run pc env e ;; pret (pa_opp x)
  | Shift e k => x <~ par_run pc env e ;; pret (pa_shift x k)
  | Expr.Add e1 e2 => x <~ par_run pc env e1 ;; y <~ par_run pc env e2 ;; par_add x y
  | Sub e1 e2 => x <~ par_run pc env e1 ;; y <~ par_run pc env e2 ;; par_sub x y
  | AddC e k => x <~ par_run pc env e ;; par_add_const pc x k
  | ScMul k e => x <~ par_run pc env e ;; par_scalar_mul pc k x
  | Sgn e => x <~ par_run pc env e ;; par_sgn pc x
  | Max e1 e2 => x <~ par_run pc env e1 ;; y <~ par_run pc env e2 ;; par_max pc x y
  | Relu e => x <~ par_run pc env e ;; par_relu pc x
  | Mul e1 e2 => x <~ par_run pc env e1 ;; y <~ par_run pc env e2 ;; par_mul x y
  | Squ e => x <~ par_run pc env e ;; par_squ x
  | Round e p => x <~ par_run pc env e ;; par_round pc x p
  end.

(** neural_network.rs: no parallelism of its own *)
Definition par_affine (pc : cloud) (w : list Z) (a : list (ciphertext B)) (b : Z) : P (ciphertext B) :=
  res <~ pfold (fun res (wa : Z * ciphertext B) =>
           scm <~ par_scalar_mul pc (fst wa) (snd wa) ;; par_add res scm) (combine w a) pa_zero ;;
  par_add_const pc res b.
Fixpoint par_max_pairs (pc : cloud) (a : list (ciphertext B)) : P (list (ciphertext B)) :=
  match a with
  | x :: y :: t => m <~ par_max pc x y ;; r <~ par_max_pairs pc t ;; pret (m :: r)
  | [x] => pret [x]
  | [] => pret []
  end.
Fixpoint par_max_rec (fuel : nat) (pc : cloud) (a : list (ciphertext B)) : P (ciphertext B) :=
  match fuel with
  | O => pfail
  | S f => match a with
           | [] => pret pa_zero
           | [x] => pret x
           | _ => h <~ par_max_pairs pc a ;; par_max_rec f pc h
           end
  end.
Definition par_max_pool (pc : cloud) (w : list Z) (a : list (ciphertext B)) (b : Z) : P (ciphertext B) :=
  wa <~ pmap (fun wa : Z * ciphertext B => par_scalar_mul pc (fst wa) (snd wa)) (combine w a) ;;
  res <~ par_max_rec (S (length wa)) pc wa ;;
  par_add_const pc res b.
Definition par_perceptron (pc : cloud) (input : list (ciphertext B)) (p : perceptron) : P (ciphertext B) :=
  match p_t p with
  | MAX => par_max_pool pc (p_w p) input (p_b p)
  | LIN => par_affine pc (p_w p) input (p_b p)
  | ACT => aff <~ par_affine pc (p_w p) input (p_b p) ;; par_relu pc aff
  end.
Definition par_nn (pc : cloud) (nn : neural_network) (inputs : list (ciphertext B)) : P (list (ciphertext B)) :=
  st <~ pfold (fun (st : list (ciphertext B) * list (ciphertext B)) l =>
          ol <~ pmap (par_perceptron pc (fst st)) l ;; pret (ol, ol)) (nn_layers nn) (inputs, []) ;;
  pret (snd st).

End Ops.
Arguments val B : clear implicits.
