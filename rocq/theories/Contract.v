(** What Parmesan assumes of tfhe-rs, as a record that theorems take as a
    hypothesis. It is inhabited, see Instances.v. *)
From Verif Require Import Base Backend Words Spec.

Record contract (B : backend) (qw : Z) : Type := mkContract {
  (** body minus mask times key, as an integer modulo 2^64 *)
  phase : ct B -> Z;
  (** bound on the noise of fresh and bootstrapped samples *)
  nB : Z;
  (** bound on the error of switching to the modulus 2N, times 2^64 *)
  nMS : Z;
  nB_nonneg : 0 <= nB;
  nMS_nonneg : 0 <= nMS;
  (** the ring degree is a positive multiple of 32 *)
  N_pos : (0 < poly_size B)%nat;
  N_32 : (poly_size B mod 32 = 0)%nat;
  (** linear operations are exact *)
  ph_add : forall a b, teq (phase (ct_add B a b)) (phase a + phase b);
  ph_add_pt : forall a p, teq (phase (ct_add_pt B a p)) (phase a + p);
  ph_opp : forall a, teq (phase (ct_opp B a)) (- phase a);
  ph_mul : forall a k, 0 <= k < 2^64 -> teq (phase (ct_mul B a k)) (phase a * k);
  (** programmable bootstrap: the accumulator is rotated by the rounded phase,
      and its constant coefficient is returned with fresh noise *)
  ph_lut : forall acc c, length acc = poly_size B ->
    let N2 := 2 * Z.of_nat (poly_size B) in
    exists r d q e,
      phase c * N2 + d = (r + q * N2) * 2^64 /\ Z.abs d <= nMS /\
      teq (phase (ct_lut B acc c)) (ncoef acc r + e) /\ Z.abs e <= nB;
  (** noise budget: a combination with weights summing to [l1_need qw] still
      rotates by less than half a box *)
  budget :
    let N2 := 2 * Z.of_nat (poly_size B) in
    l1_need qw * nB * N2 + nMS < 2^58 * N2
}.
Arguments phase {B qw} _ _.
Arguments nB {B qw} _.
Arguments nMS {B qw} _.

(** The user's key matches: fresh encryptions have small noise, decryption
    rounds the phase to the nearest step. *)
Record client_ok {B qw} (C : contract B qw) (cl : client B) : Prop := mkClientOk {
  enc_phase : forall s mu, 0 <= mu < 32 ->
    exists e, teq (phase C (ct_enc cl s mu)) (mu * step + e) /\ Z.abs e <= nB C;
  dec_phase : forall c m e,
    teq (phase C c) (m * step + e) -> - (step / 2) <= e < step / 2 ->
    ct_dec cl c = m mod 32
}.

Section Rep.
Context {B : backend} {qw : Z} (C : contract B qw).

(** The word [w] stands for the torus element [t], with noise at most [k]
    times fresh noise. *)
Definition wrep (w : word B) (t k : Z) : Prop :=
  match w with
  | Ct c => exists e, teq (phase C c) (t + e) /\ Z.abs e <= k * nB C
  | Triv p => 0 <= p < 2^64 /\ teq p t
  end.

(** The word stands for message [m] (an integer modulo 32). *)
Definition wmsg (w : word B) (m k : Z) : Prop := wrep w (m * step) k.

(** The ciphertext encrypts the digit vector [ds], each word with fresh noise. *)
Definition encrypts (x : ciphertext B) (ds : list Z) : Prop :=
  digits ds /\ Forall2 (fun w d => wmsg w d 1) x ds.

(** ... the integer [v] *)
Definition enc_val (x : ciphertext B) (v : Z) : Prop :=
  exists ds, encrypts x ds /\ value ds = v.

End Rep.
