(** Model of src/cloudovo/pbs.rs
    Tables are [f64; 16] in the code. All values that occur are integers or
    halves, so a table is a list of 16 integers counting halves; on such values
    the f64 operations used here are exact. *)
From Verif Require Import Base Backend Words.

(** [f as u64] for an f64 with integer value: saturating *)
Definition sat_u64 (z : Z) : Z := Z.max 0 (Z.min z (2^64 - 1)).
(** [f as i32] for an f64 with integer value: saturating *)
Definition sat_i32 (z : Z) : Z := Z.max I32_MIN (Z.min z I32_MAX).

(** pbs.rs:94-152 gen_no_padding_acc, body of the accumulator (the mask is 0,
    pbs.rs:108). [N] is the polynomial size; msg_mod * carry_mod / 2 = 16.
    [h] are the table entries in halves, so f * delta = h * (delta / 2). *)
Definition acc_init (N : nat) (h : list Z) : list Z :=
  let modulus_sup := 16%nat in                          (* pbs.rs:112 *)
  let box_size := (N / modulus_sup)%nat in              (* pbs.rs:115 *)
  let filled := flat_map                                (* pbs.rs:128-137 *)
    (fun i => repeat (sat_u64 (nth i h 0 * (delta MSG_MOD / 2))) box_size)
    (seq 0 modulus_sup) in
  filled ++ repeat 0 (N - modulus_sup * box_size).

Definition gen_no_padding_acc (N : nat) (h : list Z) : list Z :=
  let box_size := (N / 16)%nat in
  let half_box_size := (box_size / 2)%nat in            (* pbs.rs:139 *)
  let a := acc_init N h in
  let negated := map (fun z => u64 (- z)) (firstn half_box_size a)
                 ++ skipn half_box_size a in            (* pbs.rs:142-144 *)
  skipn half_box_size negated ++ firstn half_box_size negated.  (* rotate_left, 147 *)

Section Pbs.
Context {B : backend}.

(** pbs.rs:55-91 *)
Definition eval_LUT_5_half (c : word B) (h : list Z) : M (word B) :=
  match c with
  | Ct c =>
      tell EPbs ;;;
      ret (Ct (ct_lut B (gen_no_padding_acc (poly_size B) h) c))
  | Triv pt =>
      let m := pt_to_mu MSG_MOD pt in
      fm <- (if m <? 16 then ret (nth (Z.to_nat m) h 0)
             else if m <? 32 then ret (- nth (Z.to_nat (m - 16)) h 0)
             else panic P_lut_range) ;;
      (* (2.0 * fm) as i32 & 1 == 1 *)
      let fm_half := Z.land (sat_i32 fm) 1 =? 1 in
      (* (if fm_half {fm - 0.5} else {fm}) as i32 & 31; the cast truncates *)
      let fm_u := Z.land (sat_i32 (Z.quot (if fm_half then fm - 1 else fm) 2)) 31 in
      let res := encrypt_word_triv fm_u in
      ret (if fm_half then w_add_half res else res)
  end.

(** pbs.rs:37-52; entries are u64, exact as f64 up to 2^53 *)
Definition eval_LUT_5_uint (c : word B) (lut : list Z) : M (word B) :=
  eval_LUT_5_half c (map (fun v => 2 * v) lut).

(** pbs.rs:164-173 *)
Definition lut_id : list Z := [0;1;2;3;4;5;6;7;8;7;6;5;4;3;2;1].
Definition id_pi_5 (c : word B) := eval_LUT_5_uint c lut_id.

(** pbs.rs:179-188 *)
Definition lut_f_3 : list Z := [0;0;0;1;1;1;1;1;1;1;1;1;1;1;0;0].
Definition f_3_pi_5 (c : word B) := eval_LUT_5_uint c lut_f_3.

(** pbs.rs:194-203 *)
Definition lut_f_4 : list Z := [0;0;0;0;1;1;1;1;1;1;1;1;1;0;0;0].
Definition f_4_pi_5 (c : word B) := eval_LUT_5_uint c lut_f_4.

(** pbs.rs:209-218 *)
Definition lut_f_5 : list Z := [0;0;0;0;0;1;1;1;1;1;1;1;0;0;0;0].
Definition f_5_pi_5 (c : word B) := eval_LUT_5_uint c lut_f_5.

(** pbs.rs:224-234 *)
Definition lut_g_2 (v : Z) : list Z := [0;0;v;0;0;0;0;0;0;0;0;0;0;0;v;0].
Definition g_2_pi_5 (c : word B) (v : Z) := eval_LUT_5_uint c (lut_g_2 v).

(** pbs.rs:240-250 *)
Definition lut_f_1 (v : Z) : list Z := [0;v;v;v;v;v;v;v;v;v;v;v;v;v;v;v].
Definition f_1_pi_5 (c : word B) (v : Z) := eval_LUT_5_uint c (lut_f_1 v).

(** pbs.rs:256-266 *)
Definition lut_f_0 (v : Z) : list Z := [v;v;v;v;v;v;v;v;v;v;v;v;v;v;v;v].
Definition f_0_pi_5 (c : word B) (v : Z) := eval_LUT_5_uint c (lut_f_0 v).

(** pbs.rs:272-281 *)
Definition lut_a_2 : list Z := [0;0;1;1;1;1;1;1;31;31;31;31;31;31;31;0].
Definition a_2_pi_5 (c : word B) := eval_LUT_5_uint c lut_a_2.

(** pbs.rs:287-296 *)
Definition lut_a_1 : list Z := [0;1;1;1;1;1;1;1;31;31;31;31;31;31;31;31].
Definition a_1_pi_5 (c : word B) := eval_LUT_5_uint c lut_a_1.

(** pbs.rs:302-336 *)
Definition lut_squ_0 : list Z := [0;1;0;1;0;1;0;1;0;31;0;31;0;31;0;31].
Definition lut_squ_2 : list Z := [0;0;1;0;0;0;1;0;0;0;31;0;0;0;31;0].
Definition lut_squ_3 : list Z := [0;0;0;1;0;1;0;0;0;0;0;31;0;31;0;0].
Definition lut_squ_4 : list Z := [0;0;0;0;1;1;0;1;0;31;0;31;31;0;0;0].
Definition lut_squ_5 : list Z := [0;0;0;0;0;0;1;1;0;31;31;0;0;0;0;0].
Definition squ_3_bit_pi_5 (c : word B) (pos : nat) : M (word B) :=
  match pos with
  | 0%nat => eval_LUT_5_uint c lut_squ_0
  | 1%nat => ret (encrypt_word_triv 0)
  | 2%nat => eval_LUT_5_uint c lut_squ_2
  | 3%nat => eval_LUT_5_uint c lut_squ_3
  | 4%nat => eval_LUT_5_uint c lut_squ_4
  | 5%nat => eval_LUT_5_uint c lut_squ_5
  | _ => panic P_squ_pos
  end.

(** pbs.rs:349-358 *)
Definition lut_mul_bit : list Z := [0;0;31;0;1;0;0;0;0;0;0;0;31;0;1;0].
Definition mul_bit_pi_5 (c : word B) := eval_LUT_5_uint c lut_mul_bit.

(** pbs.rs:367-376 *)
Definition lut_relu_plus : list Z := [0;31;0;1;0;0;0;0;0;0;0;0;0;0;0;0].
Definition relu_plus_pi_5 (c : word B) := eval_LUT_5_uint c lut_relu_plus.

(** pbs.rs:386-395 *)
Definition lut_round : list Z := [0;0;1;1;1;1;1;1;1;1;1;1;1;1;0;0].
Definition round_2y_s_pi_5 (c : word B) := eval_LUT_5_uint c lut_round.

(** pbs.rs:404-415: the table holds 0.5 everywhere *)
Definition lut_nonneg : list Z := [1;1;1;1;1;1;1;1;1;1;1;1;1;1;1;1].
Definition nonneg_pi_5 (c : word B) : M (word B) :=
  h <- eval_LUT_5_half c lut_nonneg ;; ret (w_add_half h).

(** pbs.rs:421-431 *)
Definition lut_max : list Z := [0;0;0;1;1;31;1;0;1;1;1;0;1;31;0;1].
Definition max_s_2x_6y_pi_5 (c : word B) := eval_LUT_5_uint c lut_max.

End Pbs.
