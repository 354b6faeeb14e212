(** Model of the example program of README.md (lines 55-124) *)
From Verif Require Import Base Backend Words Encryption Params Addition.

(** README.md:83-84 *)
Definition readme_a : list Z :=
  [1;0;1;-1;-1;0;-1;1;1;-1;1;1;1;-1;-1;0;0;1;1;0;0;0;0;-1;0;0;0;0;0;-1;0;0].
Definition readme_b : list Z :=
  [-1;0;0;-1;1;1;-1;1;-1;0;0;1;0;1;1;0;0;0;-1;0;0;1;0;0;-1;0;-1;-1;-1;1;1;0].

(** What the program prints: both inputs, the decrypted sum, whether it says
    PASS, and the expected sum. Left out: the creation of the keys (C35, C36),
    and the layout of the text. [?] ends the program with the error. [seeds j] is
    the randomness of the j-th encryption; [o] is whether the build checks overflows. *)
Record readme_output := mkReadme { out_a : Z; out_b : Z; out_sum : Z; out_pass : bool; out_exp : Z }.
Definition readme {B : backend} (cl : client B) (o : bool) (seeds : nat -> nat -> seed cl) : M readme_output :=
  ca <- parm_encrypt_from_vec cl (seeds 0%nat) readme_a ;;         (* 85 *)
  cb <- parm_encrypt_from_vec cl (seeds 1%nat) readme_b ;;         (* 86 *)
  a_val <- convert_from_vec o readme_a ;;                          (* 88-89 *)
  b_val <- convert_from_vec o readme_b ;;
  c_add_a_b <- pa_add ca cb ;;                                     (* 97 *)
  add_a_b <- parm_decrypt cl o c_add_a_b ;;                        (* 101 *)
  e <- chk_i64 o (a_val + b_val) ;;                                (* 107-108 *)
  ret (mkReadme a_val b_val add_a_b (add_a_b =? e) e).
