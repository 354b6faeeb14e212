(** Model of src/cloudovo/scalar_multiplication/naf.rs *)
From Verif Require Import Base Encryption.

(* ------------------------------------------------------------------ *)
(** ** Koyama-Tsuruoka recoding *)

(** [while j < e { k_vec[j] = f(j); j += 1; }], [n] = e - j rounds *)
Fixpoint kt_fill (n j : nat) (f : nat -> M Z) (kv : list Z) : M (list Z) :=
  match n with
  | O => ret kv
  | S n' => d <- f j ;; kv' <- upd kv j d ;; kt_fill n' (S j) f kv'
  end.

(** naf.rs:123, 161: [((k >> j) & 1) as i32] *)
Definition kt_bit (k : Z) (j : nat) : M Z := ret (bit k j).

(** naf.rs:134, 154: [(((k >> j) & 1) - 1) as i32]; the subtraction is on u32 *)
Definition kt_bit_m1 (ovf : bool) (k : Z) (j : nat) : M Z :=
  d <- chk_u32 ovf (bit k j - 1) ;; ret (i32 d).

(** The variables of the loop, naf.rs:106-115. y, z, v are i32 and stay within
    [-32, 32], so their arithmetic is plain. *)
Record kt_state : Type := mkKt {
  kt_j : nat; kt_m : bool;                (* m is 0 or 1 *)
  kt_x : nat; kt_y : Z; kt_z : Z;
  kt_u : nat; kt_v : Z; kt_w : nat;
  kt_vec : list Z
}.

(** naf.rs:118-142, the body of the loop *)
Definition kt_step (ovf : bool) (k : Z) (s : kt_state) : M kt_state :=
  let (j, m, x, y, z, u, v, w, kv) := s in
  let y := if bit k x =? 1 then y + 1 else y - 1 in
  let x := S x in
  if negb m then
    if z + 3 <=? y then
      kv <- kt_fill (w - j) j (kt_bit k) kv ;;
      let j := Nat.max j w in
      kv <- upd kv j (-1) ;;
      ret (mkKt (S j) true x y z x y w kv)
    else
      ret (if y <? z then mkKt j m x y y u v x kv else mkKt j m x y z u v w kv)
  else
    if y + 3 <=? v then
      kv <- kt_fill (u - j) j (kt_bit_m1 ovf k) kv ;;
      let j := Nat.max j u in
      kv <- upd kv j 1 ;;
      ret (mkKt (S j) false x y y u v x kv)
    else
      ret (if v <? y then mkKt j m x y z x y w kv else mkKt j m x y z u v w kv).

(** naf.rs:117-143; x starts at 0, so the loop runs k_len - 1 times *)
Fixpoint kt_loop (n : nat) (ovf : bool) (k : Z) (s : kt_state) : M kt_state :=
  match n with
  | O => ret s
  | S n' => s' <- kt_step ovf k s ;; kt_loop n' ovf k s'
  end.

(** naf.rs:145-166 *)
Definition kt_end (ovf : bool) (k : Z) (s : kt_state) : M (list Z) :=
  let (j, m, x, y, z, u, v, w, kv) := s in
  if negb m || (v <=? y) then
    (* [((k >> j) & 1) as i32 - m] *)
    kv <- kt_fill (x - j) j (fun j => ret (bit k j - Z.b2z m)) kv ;;
    let j := Nat.max j x in
    kv <- upd kv j (1 - Z.b2z m) ;;
    upd kv (S j) (Z.b2z m)
  else
    kv <- kt_fill (u - j) j (kt_bit_m1 ovf k) kv ;;
    let j := Nat.max j u in
    kv <- upd kv j 1 ;;
    let j := S j in
    kv <- kt_fill (x - j) j (kt_bit k) kv ;;
    let j := Nat.max j x in
    kv <- upd kv j 1 ;;
    upd kv (S j) 0.

(** naf.rs:172 *)
Definition pop_zero (kv : list Z) : list Z :=
  match rev kv with
  | d :: _ => if d =? 0 then removelast kv else kv
  | [] => kv
  end.

(** naf.rs:95-175 *)
Definition koyama_tsuruoka_vec (ovf : bool) (k : Z) : M (list Z) :=
  if k =? 0 then ret [0]
  else if k =? 1 then ret [1]
  else
    let k_len := bit_len_32 k in
    s <- kt_loop (k_len - 1) ovf k
           (mkKt 0 false 0 0 0 0 0 0 (repeat 0 (k_len + 1))) ;;
    kv <- kt_end ovf k s ;;
    ret (pop_zero kv).

(* ------------------------------------------------------------------ *)
(** ** Sliding windows *)

(** naf.rs:17: index of the next non-zero digit from [sh] on, or the length *)
Fixpoint next_nonzero (n : nat) (kv : list Z) (sh : nat) : nat :=
  match n with
  | O => sh
  | S n' => if (sh <? length kv)%nat && (nth sh kv 0 =? 0)
            then next_nonzero n' kv (S sh) else sh
  end.

(** naf.rs:15-29. Simplification: bitlen >= 1 (the only caller passes
    ASC_BITLEN = 12), so [sh + bitlen - 1] does not underflow. The slice
    [sh..=min(sh+bitlen-1, len-1)] is in range because sh <= len. *)
Fixpoint wind_loop (fuel : nat) (ovf : bool) (kv : list Z) (bitlen sh : nat)
  : M (list (Z * nat)) :=
  match fuel with
  | O => panic P_fuel
  | S f =>
      let sh := next_nonzero (length kv) kv sh in
      let w := firstn bitlen (skipn sh kv) in
      wi <- expect (convert_from_vec ovf w) ;;
      let next := (sh + bitlen)%nat in
      if (length kv <=? next)%nat then ret [(i32 wi, sh)]
      else r <- wind_loop f ovf kv bitlen next ;; ret ((i32 wi, sh) :: r)
  end.

(** naf.rs:3-32 *)
Definition wind_shifts (ovf : bool) (k : Z) (bitlen : nat) : M (list (Z * nat)) :=
  kv <- koyama_tsuruoka_vec ovf k ;;
  wind_loop (S (length kv)) ovf kv bitlen 0.

(* ------------------------------------------------------------------ *)
(** ** Standard NAF *)

(** naf.rs:60-87, one round; state is (k_vec, low_1) *)
Definition naf_step (ovf : bool) (k : Z) (s : list Z * nat) (i : nat)
  : M (list Z * nat) :=
  let (kv, low) := s in
  a <- shift_amount ovf 32 i ;;
  let b := Z.b2z (Z.testbit k a) in
  let kv := kv ++ [b] in
  if b =? 0 then
    if (1 <? i - low)%nat then
      kv <- (if (0 <? low)%nat && (nth (low - 1) kv 0 =? 1)
             then kv <- upd kv (low - 1) (-1) ;; upd kv low 0
             else upd kv low (-1)) ;;
      kv <- kt_fill (i - S low) (S low) (fun _ => ret 0) kv ;;
      kv <- upd kv i 1 ;;
      ret (kv, S i)
    else ret (kv, S i)
  else ret (kv, low).

(** naf.rs:35-90 *)
Definition naf_vec (ovf : bool) (k : Z) : M (list Z) :=
  if k =? 0 then ret [0]
  else if k =? 1 then ret [1]
  else
    let k_len := bit_len_32 k in
    s <- foldM (naf_step ovf k) (seq 0 (S k_len)) ([], 0%nat) ;;
    ret (fst s).
