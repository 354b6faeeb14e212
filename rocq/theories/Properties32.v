(** Property C68: what may be done with the result of add_noisy and sub_noisy
    besides decrypting it *)
From Verif Require Import Base Backend Words Encryption Params Pbs Addition Signum Spec Contract Symbolic Weights
  BaseProofs ValueProofs WordsProofs PbsProofs EncProofs AddProofs NoisyProofs Properties8 Instances.
From Coq Require Import ZifyBool ZifyNat.

(** one of the four public sums: plus or minus, with or without the final refresh *)
Definition sum4 {B} (is_add refresh : bool) (x y : ciphertext B) : M (ciphertext B) :=
  match is_add, refresh with
  | true, true => pa_add x y
  | false, true => pa_sub x y
  | true, false => pa_add_noisy x y
  | false, false => pa_sub_noisy x y
  end.
Definition plus_minus (is_add : bool) (a b : Z) : Z := if is_add then a + b else a - b.
(** decryption returns [v], or refuses a word that is no digit; it returns no other integer *)
Definition right_or_refused {B} (cl : client B) (o : bool) (z : ciphertext B) (v : Z) : Prop :=
  fst (parm_decrypt cl o z) = Ok v \/ fst (parm_decrypt cl o z) = Err E_dec_alphabet.

Section C68.
Context {B : backend} {qw : Z} (C : contract B qw).

Lemma sum4_fst : forall a r (x y z : ciphertext B), fst (add_sub_impl a x y r) = Ok z -> fst (sum4 a r x y) = Ok z.
Proof.
  intros [|] [|] x y z H; cbn [sum4]; unfold pa_add, pa_sub, pa_add_noisy, pa_sub_noisy; rewrite fst_analysed, H; reflexivity.
Qed.
Lemma enc_loose : forall x v, enc_val C x v -> exists ds, loose C 1 1 x ds /\ value ds = v.
Proof. intros x v [ds [H1 H2]]. exists ds. split; [apply encrypts_loose, H1|exact H2]. Qed.

Lemma noisy_loose : forall a x y vx vy, enc_val C x vx -> enc_val C y vy ->
  exists p ds, fst (sum4 a false x y) = Ok p /\ loose C 5 1 p ds /\ value ds = plus_minus a vx vy /\
    (length p <= Nat.max (length x) (length y) + 1)%nat.
Proof.
  intros a x y vx vy [dx [Hx Vx]] [dy [Hy Vy]].
  destruct (add_sub_ok C a x y false dx dy Hx Hy) as [p [H1 [[ds [D1 [D2 D3]]] [H3 _]]]].
  exists p, ds. split; [apply sum4_fst, H1|]. split; [split; auto|]. split; auto.
  rewrite D3, <- Vx, <- Vy. unfold plus_minus. destruct a; simpl sgn_of; lia.
Qed.

Lemma loose_decrypt : forall cl, client_ok C cl -> forall o k m z ds, 0 <= k <= l1_need qw -> 0 <= m <= 15 ->
  loose C k m z ds -> (length z <= 63)%nat -> right_or_refused cl o z (value ds).
Proof.
  intros cl Hcl o k m z ds Hk Hm [H1 H2] Hl. unfold right_or_refused, parm_decrypt.
  rewrite (decrypt_vec_msg C cl Hcl z ds k Hk H2), ret_bind.
  replace (map (mu_to_mi 32) ds) with ds.
  - pose proof (Forall2_len _ _ _ _ _ H2) as Hn.
    destruct (Forall_dec digit (fun d => ltac:(unfold digit; destruct (Z_le_dec (-1) d); [destruct (Z_le_dec d 1)|]; [left|right|right]; lia)) ds) as [D|D].
    + left. rewrite convert_from_vec_ok by (auto; lia). reflexivity.
    + right. apply convert_from_vec_bad; auto. lia.
  - rewrite <- (map_id ds) at 1. apply map_ext_in. intros d Hd. symmetry. apply mu_to_mi_32_small.
    rewrite Forall_forall in H1. specialize (H1 _ Hd). cbv beta in H1. lia.
Qed.

Lemma after : forall cl, client_ok C cl -> forall o a r kx x dx ky y dy, 0 <= kx -> 0 <= ky ->
  kx + ky + 3 <= l1_need qw -> loose C kx 1 x dx -> loose C ky 1 y dy ->
  (length x <= 62)%nat -> (length y <= 62)%nat ->
  exists z, fst (sum4 a r x y) = Ok z /\ right_or_refused cl o z (plus_minus a (value dx) (value dy)).
Proof.
  intros cl Hcl o a r kx x dx ky y dy Hkx Hky Hl Hx Hy Lx Ly.
  destruct (add_loose C a x y r dx dy kx ky 1 1) as [z [H1 [dz [H2 [H3 H4]]]]]; auto; try lia.
  exists z. split; [apply sum4_fst, H1|].
  replace (plus_minus a (value dx) (value dy)) with (value dz) by (rewrite H3; destruct a; cbn; lia).
  eapply loose_decrypt; [exact Hcl| | |exact H2|lia]; [|lia].
  destruct r; lia.
Qed.

(** With the shipped quadratic weight: two noisy results may be added or subtracted
    once more, noisily or not. Decryption then returns the right integer, or
    reports that a word is no digit. *)
Theorem C68_two_noisy : 85 <= qw -> forall cl, client_ok C cl -> forall o a1 a2 a3 r x y u v vx vy vu vv,
  enc_val C x vx -> enc_val C y vy -> enc_val C u vu -> enc_val C v vv ->
  (length x <= 61)%nat -> (length y <= 61)%nat -> (length u <= 61)%nat -> (length v <= 61)%nat ->
  exists p q z, fst (sum4 a1 false x y) = Ok p /\ fst (sum4 a2 false u v) = Ok q /\ fst (sum4 a3 r p q) = Ok z /\
    right_or_refused cl o z (plus_minus a3 (plus_minus a1 vx vy) (plus_minus a2 vu vv)).
Proof.
  intros Hq cl Hcl o a1 a2 a3 r x y u v vx vy vu vv Hx Hy Hu Hv Lx Ly Lu Lv.
  destruct (noisy_loose a1 x y vx vy Hx Hy) as [p [dp [P1 [P2 [P3 P4]]]]].
  destruct (noisy_loose a2 u v vu vv Hu Hv) as [q [dq [Q1 [Q2 [Q3 Q4]]]]].
  destruct (after cl Hcl o a3 r 5 p dp 5 q dq) as [z [Z1 Z2]]; auto; try lia.
  { unfold l1_need. replace (85 <=? qw) with true by lia. lia. }
  exists p, q, z. rewrite P3, Q3 in Z2. auto.
Qed.

(** A noisy result and an encryption: a quadratic weight of 41 is enough, in either order. *)
Theorem C68_one_noisy : 41 <= qw -> forall cl, client_ok C cl -> forall o a1 a2 r x y u vx vy vu,
  enc_val C x vx -> enc_val C y vy -> enc_val C u vu ->
  (length x <= 61)%nat -> (length y <= 61)%nat -> (length u <= 62)%nat ->
  exists p z z', fst (sum4 a1 false x y) = Ok p /\ fst (sum4 a2 r p u) = Ok z /\ fst (sum4 a2 r u p) = Ok z' /\
    right_or_refused cl o z (plus_minus a2 (plus_minus a1 vx vy) vu) /\
    right_or_refused cl o z' (plus_minus a2 vu (plus_minus a1 vx vy)).
Proof.
  intros Hq cl Hcl o a1 a2 r x y u vx vy vu Hx Hy Hu Lx Ly Lu.
  destruct (noisy_loose a1 x y vx vy Hx Hy) as [p [dp [P1 [P2 [P3 P4]]]]].
  destruct (enc_loose u vu Hu) as [du [U1 U2]].
  assert (H9 : 9 <= l1_need qw).
  { unfold l1_need. destruct (85 <=? qw); [lia|]. replace (41 <=? qw) with true by lia. lia. }
  destruct (after cl Hcl o a2 r 5 p dp 1 u du) as [z [Z1 Z2]]; auto; try lia.
  destruct (after cl Hcl o a2 r 1 u du 5 p dp) as [z' [Z3 Z4]]; auto; try lia.
  exists p, z, z'. rewrite P3, U2 in Z2, Z4. auto.
Qed.
End C68.

(* ------------------------------------------------------------------ *)
(** ** What is not guaranteed, at the shipped setting *)

(** Noise up to 2^54, as much as the contract admits: every bootstrap errs by +2^54. *)
Definition loud : backend := lwe [] 512 (2^54) (fun _ => []) (fun _ => 2^54).
Definition loud_client : client loud := lwe_client [] 512 (2^54) (fun _ => []) (fun _ => 2^54).
Lemma loud_budget : l1_need 100 * 2^54 * (2 * Z.of_nat 512) + (Z.of_nat (length (@nil Z)) + 1) * 2^63 < 2^58 * (2 * Z.of_nat 512).
Proof. reflexivity. Qed.
Definition loud_contract : contract loud 100.
Proof. apply lwe_contract; [constructor|lia|lia|reflexivity|apply loud_budget]. Defined.
Lemma loud_client_ok : client_ok loud_contract loud_client.
Proof. apply lwe_client_ok. Qed.
(** fresh encryptions that err by -2^54, by +2^54 *)
Definition low : nat -> seed loud_client := fun _ => ([], - 2^54).
Definition high : nat -> seed loud_client := fun _ => ([], 2^54).

(** "The sum of two noisy sums decrypts": false. (3 + 3) + (5 + 5) is refused: 16
    comes out as the words 0, 0, 0, 2. *)
Theorem C68_refused_refuted : ~ (forall B (C : contract B 100) cl, client_ok C cl -> forall x y u v vx vy vu vv p q z,
  enc_val C x vx -> enc_val C y vy -> enc_val C u vu -> enc_val C v vv ->
  (length x <= 4)%nat -> (length y <= 4)%nat -> (length u <= 4)%nat -> (length v <= 4)%nat ->
  fst (pa_add_noisy x y) = Ok p -> fst (pa_add_noisy u v) = Ok q -> fst (pa_add p q) = Ok z ->
  fst (parm_decrypt cl true z) = Ok ((vx + vy) + (vu + vv))).
Proof.
  intros H.
  set (cl := loud_client) in *.
  set (x := map (fun d => encrypt_word cl (low 0%nat) d) [1; 1; 0; 0]).
  set (u := map (fun d => encrypt_word cl (low 0%nat) d) [1; 0; 1; 0]).
  set (p := match fst (pa_add_noisy x x) with Ok p => p | _ => [] end).
  set (q := match fst (pa_add_noisy u u) with Ok q => q | _ => [] end).
  set (z := match fst (pa_add p q) with Ok z => z | _ => [] end).
  assert (E : forall ds, digits ds -> enc_val loud_contract (map (fun d => encrypt_word cl (low 0%nat) d) ds) (value ds)).
  { intros ds D. exists ds. split; auto. split; auto. clear H x u p q z. induction D as [|d ds D1 D2 IH]; cbn [map]; constructor; auto.
    apply (encrypt_word_ok loud_contract cl loud_client_ok). }
  assert (K : fst (parm_decrypt cl true z) = Ok ((value [1;1;0;0] + value [1;1;0;0]) + (value [1;0;1;0] + value [1;0;1;0]))).
  { apply (H loud loud_contract cl loud_client_ok x x u u _ _ _ _ p q z);
      [apply E|apply E|apply E|apply E| | | | | | |]; try (unfold digits; repeat constructor; unfold digit; lia);
      try (vm_compute; reflexivity); cbn; lia. }
  vm_compute in K. discriminate.
Qed.

(** "The sign of a noisy difference is the sign of the difference": false. For
    5 - 5 the noisy difference decrypts to 0, and the sign taken of it to -1. *)
Theorem C68_sign_refuted : exists x y p s,
  enc_val loud_contract x 5 /\ enc_val loud_contract y 5 /\
  fst (pa_sub_noisy x y) = Ok p /\ fst (parm_decrypt loud_client true p) = Ok 0 /\
  fst (pa_sgn (cloud_100 true) p) = Ok s /\ fst (parm_decrypt loud_client true s) = Ok (-1).
Proof.
  set (x := map (fun d => encrypt_word loud_client (low 0%nat) d) [1; 0; 1; 0]).
  set (y := map (fun d => encrypt_word loud_client (high 0%nat) d) [1; 0; 1; 0]).
  exists x, y, (match fst (pa_sub_noisy x y) with Ok p => p | _ => [] end).
  exists (match fst (p <- pa_sub_noisy x y ;; pa_sgn (cloud_100 true) p) with Ok s => s | _ => [] end).
  split; [|split; [|repeat split; vm_compute; reflexivity]];
    (exists [1; 0; 1; 0]; split; [split|reflexivity]; [unfold digits; repeat constructor; unfold digit; lia|]);
    cbn [map]; repeat constructor; apply (encrypt_word_ok loud_contract loud_client loud_client_ok).
Qed.

(** A third noisy level returns a wrong integer without any error. The sign of a
    bootstrap's error depends on its input, so that neighbouring words err apart. *)
Definition sly_err (c : list Z * Z) : Z :=
  let b := snd c in if (b / Z.land b (- b)) mod 4 =? 3 then 2^54 else - 2^54.
Definition sly : backend := lwe [] 512 (2^54) (fun _ => []) sly_err.
Definition sly_client : client sly := lwe_client [] 512 (2^54) (fun _ => []) sly_err.
Definition sly_contract : contract sly 100.
Proof. apply lwe_contract; [constructor|lia|lia|reflexivity|apply loud_budget]. Defined.
Lemma sly_client_ok : client_ok sly_contract sly_client.
Proof. apply lwe_client_ok. Qed.

Theorem C68_third_refuted : exists x y p q z,
  enc_val sly_contract x 0 /\ enc_val sly_contract y 0 /\
  fst (pa_add_noisy x y) = Ok p /\ fst (pa_add_noisy p p) = Ok q /\ fst (pa_add_noisy q q) = Ok z /\
  fst (parm_decrypt sly_client true p) = Ok 0 /\ fst (parm_decrypt sly_client true q) = Ok 0 /\
  fst (parm_decrypt sly_client true z) = Ok (-2).
Proof.
  set (x := [encrypt_word sly_client ([], - 2^54) 0; encrypt_word sly_client ([], - 2^54 + 1) 0]).
  set (y := [encrypt_word sly_client ([], - 2^54) 0; encrypt_word sly_client ([], - 2^54) 0]).
  exists x, y, (match fst (pa_add_noisy x y) with Ok p => p | _ => [] end).
  exists (match fst (p <- pa_add_noisy x y ;; pa_add_noisy p p) with Ok s => s | _ => [] end).
  exists (match fst (p <- pa_add_noisy x y ;; q <- pa_add_noisy p p ;; pa_add_noisy q q) with Ok s => s | _ => [] end).
  split; [|split; [|repeat split; vm_compute; reflexivity]];
    (exists [0; 0]; split; [split|reflexivity]; [unfold digits; repeat constructor; unfold digit; lia|]);
    repeat constructor; apply (encrypt_word_ok sly_contract sly_client sly_client_ok).
Qed.

(* ------------------------------------------------------------------ *)
(** ** In terms of the quadratic weight that the parameters are chosen for *)

Definition four (k : nat) : ciphertext (sym 32) := sinput 32 k (repeat None 4).
(** Four independent fresh words each. The noisy sum itself stays at 20, below every
    accepted setting; a noisy sum plus an encryption at 68, beyond the minimum but not the
    shipped 100; the sum of two noisy sums reaches 116, the sign of a noisy difference 426. *)
Theorem C68_weights :
  heaviest (pa_add_noisy (four 0) (four 4)) = Some 20 /\
  heaviest (p <- pa_add_noisy (four 0) (four 4) ;; pa_add p (four 8)) = Some 68 /\
  heaviest (p <- pa_add_noisy (four 0) (four 4) ;; q <- pa_add_noisy (four 8) (four 12) ;; pa_add p q) = Some 116 /\
  heaviest (p <- pa_sub_noisy (four 0) (four 4) ;; pa_sgn (cloud_100 true) p) = Some 426.
Proof. repeat split; vm_compute; reflexivity. Qed.
Theorem C68_budget_refuted :
  (exists z, fst (p <- pa_add_noisy (four 0) (four 4) ;; q <- pa_add_noisy (four 8) (four 12) ;; pa_add p q) = Ok z /\
    beyond (quad_weight (cparams (cloud_100 true))) z) /\
  (exists z, fst (p <- pa_sub_noisy (four 0) (four 4) ;; pa_sgn (cloud_100 true) p) = Ok z /\
    beyond (quad_weight (cparams (cloud_100 true))) z).
Proof.
  destruct C68_weights as [_ [_ [H1 H2]]].
  split; eapply heaviest_beyond; [|exact H1| |exact H2]; cbn; lia.
Qed.

(* ------------------------------------------------------------------ *)
(** ** Example: both outcomes of the theorems occur on the loud backend *)

Definition loud_enc (v : Z) : M (ciphertext loud) := parm_encrypt loud_client true low v 4.
Definition two_levels (a b c d : Z) : M Z :=
  x <- loud_enc a ;; y <- loud_enc b ;; u <- loud_enc c ;; v <- loud_enc d ;;
  p <- pa_add_noisy x y ;; q <- pa_add_noisy u v ;; z <- pa_add p q ;; parm_decrypt loud_client true z.
Example C68_example_two : fst (two_levels 3 4 (-6) 7) = Ok 8 /\ fst (two_levels 3 3 5 5) = Err E_dec_alphabet.
Proof. split; vm_compute; reflexivity. Qed.
Example C68_example_one :
  fst (x <- loud_enc 3 ;; y <- loud_enc 6 ;; p <- pa_sub_noisy x y ;; z <- pa_sub_noisy x p ;; parm_decrypt loud_client true z) = Ok 6.
Proof. vm_compute. reflexivity. Qed.

Print Assumptions C68_two_noisy.
Print Assumptions C68_one_noisy.
Print Assumptions C68_refused_refuted.
Print Assumptions C68_sign_refuted.
Print Assumptions C68_third_refuted.
Print Assumptions C68_weights.
Print Assumptions C68_budget_refuted.
