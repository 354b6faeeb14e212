(** Model of src/ciphertexts.rs *)
From Verif Require Import Base Backend.

(* ------------------------------------------------------------------ *)
(** ** Word codec, for any message modulus p *)

(** ciphertexts.rs:76 *)
Definition delta (p : Z) : Z := (2^63 / p) * 2.

(** ciphertexts.rs:78-83 (rem_euclid) *)
Definition mi_to_mu (p mi : Z) : Z := mi mod p.

(** ciphertexts.rs:85-95 *)
Definition mu_to_mi (p mu : Z) : Z :=
  let mu := mu mod p in
  if p / 2 <=? mu then mu - p else mu.

(** ciphertexts.rs:97-102. The u64 product never overflows: mu < p. *)
Definition mi_to_pt (p mi : Z) : Z := mi_to_mu p mi * delta p.

(** ciphertexts.rs:104-108 *)
Definition half_to_pt (p : Z) : Z := (1 * delta p) / 2.

(** ciphertexts.rs:110-120 *)
Definition pt_to_mu (p pt : Z) : Z :=
  let d := delta p in
  let rounding_bit := d / 2 in                      (* delta >> 1 *)
  let rounding := u64 (Z.land pt rounding_bit * 2) in
  u64 (pt + rounding) / d.

(** ciphertexts.rs:122-128 *)
Definition pt_to_mi (p pt : Z) : Z := mu_to_mi p (pt_to_mu p pt).

(** The message modulus of the shipped parameters, params.rs:105.
    Simplification: the code stores it in every word ([msg_mod]) and copies it
    from the server key; here it is a constant. *)
Definition MSG_MOD : Z := 32.

(* ------------------------------------------------------------------ *)
(** ** Encrypted words *)

(** ciphertexts.rs:20-30 ParmCtWord, ParmEncrWord; a trivial word holds a u64 *)
Inductive word (B : backend) : Type :=
| Ct (c : ct B)
| Triv (p : Z).
Arguments Ct {B} c.
Arguments Triv {B} p.

(** ciphertexts.rs:258 *)
Definition ciphertext (B : backend) : Type := list (word B).

Section Words.
Context {B : backend}.

(** ciphertexts.rs:33-41 *)
Definition encrypt_word (cl : client B) (s : seed cl) (mi : Z) : word B :=
  Ct (ct_enc cl s (mi_to_mu MSG_MOD mi)).

(** ciphertexts.rs:43-51 *)
Definition encrypt_word_triv (mi : Z) : word B := Triv (mi_to_pt MSG_MOD mi).

(** ciphertexts.rs:53-67; [None] is a missing private key *)
Definition decrypt_mu (cl : option (client B)) (w : word B) : M Z :=
  match w with
  | Ct c => match cl with
            | Some k => ret (ct_dec k c)
            | None => err_ E_no_key
            end
  | Triv pt => ret (pt_to_mu MSG_MOD pt)
  end.

(** ciphertexts.rs:69-74 *)
Definition decrypt_mi (cl : option (client B)) (w : word B) : M Z :=
  mu <- decrypt_mu cl w ;; ret (mu_to_mi MSG_MOD mu).

(** ciphertexts.rs:134-163, and [add] 165-172 (which clones first) *)
Definition w_add (s o : word B) : word B :=
  match s with
  | Ct cs => match o with
             | Ct co => Ct (ct_add B cs co)
             | Triv po => Ct (ct_add_pt B cs po)
             end
  | Triv ps => match o with
               | Ct co => Ct (ct_add_pt B co ps)
               | Triv po => Triv (u64 (ps + po))
               end
  end.

(** ciphertexts.rs:174-186 *)
Definition w_add_half (s : word B) : word B :=
  match s with
  | Ct cs => Ct (ct_add_pt B cs (half_to_pt MSG_MOD))
  | Triv ps => Triv (u64 (ps + half_to_pt MSG_MOD))
  end.

(** ciphertexts.rs:205-218 *)
Definition w_opp (s : word B) : word B :=
  match s with
  | Ct cs => Ct (ct_opp B cs)
  | Triv ps => Triv (u64 (- ps))
  end.

(** ciphertexts.rs:188-203 *)
Definition w_sub (s o : word B) : word B := w_add s (w_opp o).

(** ciphertexts.rs:220-235. [k.abs() as u64] for a wrapped i32::MIN would be
    sign-extended; that case is in [w_mul_const_api] below. Every call in the
    library passes a small constant or a decoded word. *)
Definition w_mul_const (s : word B) (k : Z) : word B :=
  let k_abs := u64 (Z.abs k) in
  let r := match s with
           | Ct cs => Ct (ct_mul B cs k_abs)
           | Triv ps => Triv (u64 (ps * k_abs))
           end in
  if k <? 0 then w_opp r else r.

(** ciphertexts.rs:220-229 as a public function of an arbitrary i32:
    [k.abs()] panics for i32::MIN in a checked build, and wraps to i32::MIN,
    then sign-extends to u64, in an unchecked one. *)
Definition w_mul_const_api (ovf : bool) (s : word B) (k : Z) : M (word B) :=
  ka <- chk_i32 ovf (Z.abs k) ;;
  let k_abs := u64 ka in
  let r := match s with
           | Ct cs => Ct (ct_mul B cs k_abs)
           | Triv ps => Triv (u64 (ps * k_abs))
           end in
  ret (if k <? 0 then w_opp r else r).

(** ciphertexts.rs:241-243 *)
Definition is_triv (w : word B) : bool :=
  match w with Ct _ => false | Triv _ => true end.

(** ciphertexts.rs:245-247 *)
Definition is_triv_zero (w : word B) : bool :=
  match w with Ct _ => false | Triv p => p =? 0 end.

(** The trivial zero word that the cloud code pushes everywhere. *)
Definition triv0 : word B := encrypt_word_triv 0.

(** ciphertexts.rs:283-288 *)
Definition ct_triv (len : nat) : ciphertext B := repeat triv0 len.

(** ciphertexts.rs:290-296 *)
Definition ct_empty : ciphertext B := [].
Definition ct_single (w : word B) : ciphertext B := [w].

End Words.
