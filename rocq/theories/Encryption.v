(** Model of src/userovo/encryption.rs *)
From Verif Require Import Base Backend Words.

(** encryption.rs:10 *)
Definition PARM_CT_MAXLEN : nat := 63.

(* ------------------------------------------------------------------ *)
(** ** Conversions *)

(** encryption.rs:87-106. [m.abs()] overflows for i64::MIN; [m_abs >> i]
    overflows for i >= 64. [>>] on i64 is arithmetic, as [Z.testbit]. *)
Definition convert_to_vec (ovf : bool) (m : Z) (words : nat) : M (list Z) :=
  m_abs <- chk_i64 ovf (Z.abs m) ;;
  let m_pos := 0 <=? m in
  mapM (fun i =>
          s <- shift_amount ovf 64 i ;;
          ret (if Z.testbit m_abs s
               then (if m_pos then 1 else -1)
               else 0))
       (seq 0 words).

(** encryption.rs:113-118, one round of the loop *)
Definition from_vec_step (ovf : bool) (m : Z) (imi : nat * Z) : M Z :=
  let (i, mi) := imi in
  if mi =? 1 then chk_i64 ovf (m + 2 ^ Z.of_nat i)
  else if mi =? 0 then chk_i64 ovf (m + 0)
  else if mi =? -1 then chk_i64 ovf (m + - 2 ^ Z.of_nat i)
  else err_ E_dec_alphabet.

(** encryption.rs:109-121 *)
Definition convert_from_vec (ovf : bool) (mv : list Z) : M Z :=
  if (PARM_CT_MAXLEN <? length mv)%nat then err_ E_too_long
  else foldM (from_vec_step ovf) (combine (seq 0 (length mv)) mv) 0.

(** encryption.rs:124-131. [vi.abs()] overflows for i32::MIN; [as usize]
    sign-extends. *)
Definition bin_hw (ovf : bool) (v : list Z) : M Z :=
  foldM (fun hw vi =>
           a <- chk_i32 ovf (Z.abs vi) ;;
           if 1 <? a then err_ E_hw else ret (u64 (hw + u64 a)))
        v 0.

(** encryption.rs:135-141 *)
Definition bit_len_32 (k : Z) : nat :=
  if k =? 0 then 0%nat
  else fold_left (fun len i => if Z.testbit k (Z.of_nat i) then S i else len)
                 (seq 1 31) 1%nat.

(** encryption.rs:145-151 *)
Definition bit_len_64 (k : Z) : nat :=
  if k =? 0 then 0%nat
  else fold_left (fun len i => if Z.testbit k (Z.of_nat i) then S i else len)
                 (seq 1 63) 1%nat.

(* ------------------------------------------------------------------ *)
(** ** Encryption and decryption *)

Section Encryption.
Context {B : backend} (cl : client B).

(** encryption.rs:32-47. [seeds i] is the randomness of the i-th word. *)
Definition parm_encrypt_from_vec (seeds : nat -> seed cl) (mv : list Z)
  : M (ciphertext B) :=
  mapM (fun imi : nat * Z =>
          let (i, mi) := imi in
          if (mi <? -1) || (1 <? mi) then err_ E_enc_alphabet
          else ret (encrypt_word cl (seeds i) mi))
       (combine (seq 0 (length mv)) mv).

(** encryption.rs:22-29 *)
Definition parm_encrypt (ovf : bool) (seeds : nat -> seed cl) (m : Z) (words : nat)
  : M (ciphertext B) :=
  mv <- convert_to_vec ovf m words ;; parm_encrypt_from_vec seeds mv.

(** encryption.rs:68-77 *)
Definition parm_decrypt_to_vec (c : ciphertext B) : M (list Z) :=
  mapM (decrypt_mi (Some cl)) c.

(** encryption.rs:59-65 *)
Definition parm_decrypt (ovf : bool) (c : ciphertext B) : M Z :=
  mv <- parm_decrypt_to_vec c ;; convert_from_vec ovf mv.

End Encryption.
