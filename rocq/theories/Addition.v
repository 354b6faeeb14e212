(** Model of src/cloudovo/addition.rs, with the wrappers of
    src/arithmetics.rs (impl ParmArithmetics for ParmCiphertext) *)
From Verif Require Import Base Backend Words Params Pbs.

Section Addition.
Context {B : backend}.

(** addition.rs:35-42: number of trivial zeros before the first other word *)
Fixpoint count_triv_zeros (x : ciphertext B) : nat :=
  match x with
  | [] => 0
  | xi :: t => if is_triv_zero xi then S (count_triv_zeros t) else 0
  end.

(** addition.rs:162-170 *)
Definition opposite_impl (x : ciphertext B) : ciphertext B := map w_opp x.

(** arithmetics.rs:219-221 *)
Definition pa_opp (x : ciphertext B) : ciphertext B := opposite_impl x.

(** arithmetics.rs:215-217 *)
Definition pa_zero : ciphertext B := ct_empty.

(** arithmetics.rs:223-232 *)
Definition pa_shift (x : ciphertext B) (k : nat) : ciphertext B :=
  match k with
  | O => x
  | _ => ct_triv k ++ x
  end.

(** addition.rs:83-91: [w.iter_mut().zip(y.iter())], in place on w *)
Fixpoint zip_inplace (f : word B -> word B -> word B) (w y : ciphertext B)
  : ciphertext B :=
  match w, y with
  | wi :: wt, yi :: yt => f wi yi :: zip_inplace f wt yt
  | _, _ => w
  end.

(** addition.rs:20-160. [nth .. triv0] below is only used at indices in range. *)
Definition add_sub_impl (is_add : bool) (x y : ciphertext B) (refresh : bool)
  : M (ciphertext B) :=
  let x_rzero := count_triv_zeros x in
  let y_rzero := count_triv_zeros y in
  (* 44-45 *)
  if (x_rzero =? length x)%nat then ret (if is_add then y else pa_opp y)
  else if (y_rzero =? length y)%nat then ret x
  else
    let r_triv := Nat.max x_rzero y_rzero in                       (* 47 *)
    let x_lzero := count_triv_zeros (rev x) in                     (* 54-61 *)
    let y_lzero := count_triv_zeros (rev y) in
    let wlen := Nat.max (length x - x_lzero) (length y - y_lzero) in  (* 62 *)
    measure (
      (* 70-79 *)
      let w0 := firstn wlen x ++ ct_triv (wlen - length x) in
      (* 82-91 *)
      let w := zip_inplace (if is_add then w_add else w_sub) w0 y in
      (* 96-105 *)
      if (wlen <=? r_triv)%nat then err_ E_add_fatal
      else
        (* 93, 107-120 *)
        q_hi <- mapM (fun i0 =>
                  let i := (i0 + r_triv)%nat in
                  let wi_3 := w_mul_const (nth i w triv0) 3 in
                  let wi_3 := if (0 <? i0)%nat
                              then w_add wi_3 (nth (i - 1) w triv0) else wi_3 in
                  f_4_pi_5 wi_3)
                (seq 0 (wlen - r_triv)) ;;
        let q := ct_triv r_triv ++ q_hi in
        (* 122-129 *)
        let w' := map (fun i =>
                    let wi := w_sub (nth i w triv0)
                                    (w_mul_const (nth i q triv0) 2) in
                    if (0 <? i)%nat then w_add wi (nth (i - 1) q triv0) else wi)
                  (seq 0 wlen) in
        (* 131-149 *)
        z_hi <- (if refresh then mapM id_pi_5 (skipn r_triv w')
                 else ret (skipn r_triv w')) ;;
        (* 150-155 *)
        ret (firstn r_triv w' ++ z_hi ++ [last q triv0])).

(** arithmetics.rs:234-320 *)
Definition pa_add (x y : ciphertext B) := analysed (add_sub_impl true x y true).
Definition pa_sub (x y : ciphertext B) := analysed (add_sub_impl false x y true).
Definition pa_add_noisy (x y : ciphertext B) := analysed (add_sub_impl true x y false).
Definition pa_sub_noisy (x y : ciphertext B) := analysed (add_sub_impl false x y false).

(** addition.rs:172-206 *)
Definition add_const_impl (pc : cloud) (x : ciphertext B) (k : Z) : M (ciphertext B) :=
  if k =? 0 then ret x
  else
    k_abs <- chk_i64 (ovf pc) (Z.abs k) ;;                         (* 182 *)
    let k_pos := 0 <=? k in
    let k_len := fold_left                                         (* 185-186 *)
      (fun len i => if Z.testbit k_abs (Z.of_nat i) then S i else len)
      (seq 0 63) 0%nat in
    ck <- mapM (fun i =>                                           (* 191-203 *)
            ki <- (if Z.testbit k_abs (Z.of_nat i)
                   then (if k_pos then ret 1
                         else plaintext_mask (ovf pc) (cparams pc))
                   else ret 0) ;;
            (* ki as i32 *)
            ret (encrypt_word_triv (i32 ki)))
          (seq 0 k_len) ;;
    pa_add x ck.

(** arithmetics.rs:322-340 *)
Definition pa_add_const (pc : cloud) (x : ciphertext B) (k : Z) :=
  analysed (add_const_impl pc x k).

End Addition.
