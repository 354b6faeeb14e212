(** The tfhe-rs calls that Parmesan makes, as a record of operations.
    tfhe-rs is an external crate; no law is stated here (see Contract.v). *)
From Verif Require Import Base.

Record backend : Type := mkBackend {
  (** tfhe::shortint::Ciphertext *)
  ct : Type;
  (** lwe_ciphertext_add_assign, used at ciphertexts.rs:145 *)
  ct_add : ct -> ct -> ct;
  (** lwe_ciphertext_plaintext_add_assign, ciphertexts.rs:148, 156, 180 *)
  ct_add_pt : ct -> Z -> ct;
  (** lwe_ciphertext_opposite_assign, ciphertexts.rs:208 *)
  ct_opp : ct -> ct;
  (** lwe_ciphertext_cleartext_mul_assign, ciphertexts.rs:224 *)
  ct_mul : ct -> Z -> ct;
  (** ServerKey::apply_lookup_table, pbs.rs:68; the lookup table is given by
      the body of its (mask-free) accumulator, which Parmesan fills itself *)
  ct_lut : list Z -> ct -> ct;
  (** bootstrapping_key.polynomial_size(), pbs.rs:102, 115 *)
  poly_size : nat
}.

(** The user's side: ClientKey. Encryption is randomised: [seed] is the
    randomness that one call draws. *)
Record client (B : backend) : Type := mkClient {
  seed : Type;
  (** ClientKey::encrypt_without_padding, ciphertexts.rs:38 *)
  ct_enc : seed -> Z -> ct B;
  (** ClientKey::decrypt_without_padding, ciphertexts.rs:60 *)
  ct_dec : ct B -> Z
}.
Arguments seed {B} c.
Arguments ct_enc {B} c _ _.
Arguments ct_dec {B} c _.
