(** Model of src/cloudovo/scalar_multiplication/mod.rs *)
From Verif Require Import Base Backend Words Encryption Params Addition Naf Asc.

Section ScalarMul.
Context {B : backend}.

(** asc.rs:37-67 at T = ParmCiphertext *)
Definition asc_eval_ct (c : asc) (x : ciphertext B) : M (ciphertext B) :=
  asc_eval (fun x => ret (pa_opp x)) (fun x k => ret (pa_shift x k)) pa_add c x.

(** mod.rs:57-64: keys of the BTreeMap, increasing, without repetition *)
Fixpoint insert_key (k : Z) (l : list Z) : list Z :=
  match l with
  | [] => [k]
  | h :: t => if k <? h then k :: l else if k =? h then l else h :: insert_key k t
  end.

(** mod.rs:59-64. [wi.abs()] does not overflow: |wi| < 2^12. *)
Definition window_keys (ws : list (Z * nat)) : list Z :=
  fold_left (fun l wsh => insert_key (Z.abs (fst wsh)) l) ws [].

(** mod.rs:85, 88 [wiabs_wix_map[..]] *)
Fixpoint map_get (m : list (Z * ciphertext B)) (k : Z) : M (ciphertext B) :=
  match m with
  | [] => panic P_key
  | (k', c) :: t => if k =? k' then ret c else map_get t k
  end.

(** mod.rs:83-90, one row *)
Definition mulary_row (wm : list (Z * ciphertext B)) (wsh : Z * nat) : M (ciphertext B) :=
  let (wi, shi) := wsh in
  wix <- map_get wm (Z.abs wi) ;;
  ret (if wi <? 0 then pa_shift (pa_opp wix) shi else pa_shift wix shi).

(** mod.rs:24-135 *)
Definition scalar_mul_impl (pc : cloud) (k : Z) (x : ciphertext B) : M (ciphertext B) :=
  let x_pos := if 0 <=? k then x else map w_opp x in               (* 31-41 *)
  k_abs_i <- chk_i32 (ovf pc) (Z.abs k) ;;                         (* 43 *)
  let k_abs := u32 k_abs_i in
  if k_abs =? 0 then ret ct_empty                                  (* 46 *)
  else if k_abs =? 1 then ret x_pos                                (* 47 *)
  else
    ws <- wind_shifts (ovf pc) k_abs ASC_BITLEN ;;                 (* 53 *)
    wm <- mapM (fun wiabs =>                                       (* 57-78 *)
            c <- asc_get (asc_12 pc) wiabs ;;
            wix <- expect (asc_eval_ct c x_pos) ;;
            ret (wiabs, wix))
          (window_keys ws) ;;
    mulary <- mapM (mulary_row wm) ws ;;                           (* 81-90 *)
    if (length mulary =? 1)%nat then index mulary 0                (* 110-112 *)
    else
      measure (                                                    (* 119-132 *)
        m0 <- index mulary 0 ;;
        m1 <- index mulary 1 ;;
        acc <- pa_add m0 m1 ;;
        foldM (fun acc row => pa_add acc row) (skipn 2 mulary) acc).

(** arithmetics.rs:342-360 *)
Definition pa_scalar_mul (pc : cloud) (k : Z) (x : ciphertext B) :=
  analysed (scalar_mul_impl pc k x).

End ScalarMul.
