(** Backends that satisfy the contract: LWE samples with a mask, a secret key,
    modulus switching and bounded noise. They show that the hypotheses of the
    property theorems can be met, and they make concrete examples computable. *)
From Verif Require Import Base Backend Words Encryption Params Spec Contract BaseProofs ValueProofs
  WordsProofs EncProofs AscTable.
From Coq Require Import ZifyBool ZifyNat.

(** vector addition, padding the shorter one with zeros *)
Fixpoint vadd (a b : list Z) : list Z :=
  match a, b with
  | [], _ => b
  | _, [] => a
  | x :: a, y :: b => u64 (x + y) :: vadd a b
  end.
Fixpoint dot (a s : list Z) : Z :=
  match a, s with
  | x :: a, k :: s => x * k + dot a s
  | _, _ => 0
  end.
(** rounding a 64-bit torus element to the modulus n2 *)
Definition modswitch (n2 x : Z) : Z := (x * n2 + 2^63) / 2^64.
Definition clamp (b e : Z) : Z := Z.max (- b) (Z.min b e).

Section Lwe.
(** secret key, ring degree, noise bound; the mask and the noise that a
    bootstrap returns are arbitrary functions of its input *)
Variables (key : list Z) (N : nat) (nb : Z).
Variable out_mask : list Z * Z -> list Z.
Variable out_noise : list Z * Z -> Z.

Definition lwe_phase (c : list Z * Z) : Z := snd c - dot (fst c) key.
Definition lwe_lut (acc : list Z) (c : list Z * Z) : list Z * Z :=
  let n2 := 2 * Z.of_nat N in
  let r := modswitch n2 (snd c) - dot (map (modswitch n2) (fst c)) key in
  let a := out_mask c in
  (a, u64 (dot a key + ncoef acc r + clamp nb (out_noise c))).

Definition lwe : backend :=
  {| ct := list Z * Z;
     ct_add := fun c d => (vadd (fst c) (fst d), u64 (snd c + snd d));
     ct_add_pt := fun c p => (fst c, u64 (snd c + p));
     ct_opp := fun c => (map (fun x => u64 (- x)) (fst c), u64 (- snd c));
     ct_mul := fun c k => (map (fun x => u64 (x * k)) (fst c), u64 (snd c * k));
     ct_lut := lwe_lut;
     poly_size := N |}.

Definition lwe_client : client lwe :=
  @mkClient lwe (list Z * Z)
    (fun s mu => (fst s, u64 (dot (fst s) key + mu * 2^59 + clamp nb (snd s))))
    (fun c => ((lwe_phase c + 2^58) / 2^59) mod 32).

Lemma dot_vadd : forall a b s, teq (dot (vadd a b) s) (dot a s + dot b s).
Proof.
  induction a as [|x a IH]; intros b s; simpl.
  - replace (0 + dot b s) with (dot b s) by lia. apply teq_refl.
  - destruct b as [|y b]; [simpl; rewrite Z.add_0_r; apply teq_refl|].
    destruct s as [|k s]; simpl; [apply teq_refl|].
    replace (x * k + dot a s + (y * k + dot b s)) with ((x + y) * k + (dot a s + dot b s)) by ring.
    apply teq_add; auto. apply teq_mul, teq_u64.
Qed.
Lemma dot_map : forall (f g : Z -> Z) a s, (forall x k, teq (f x * k) (g (x * k))) ->
  (forall x y, teq (g x + g y) (g (x + y))) -> teq 0 (g 0) ->
  teq (dot (map f a) s) (g (dot a s)).
Proof.
  intros f g a s Hf Hg H0. revert s. induction a as [|x a IH]; intros [|k s]; simpl; auto.
  eapply teq_trans; [apply teq_add; [apply Hf|apply IH]|]. apply Hg.
Qed.

Definition bits (s : list Z) : Prop := Forall (fun k => k = 0 \/ k = 1) s.

Lemma modswitch_err : forall n2 x, Z.abs (modswitch n2 x * 2^64 - x * n2) <= 2^63.
Proof.
  intros n2 x. unfold modswitch. pose proof (Z.div_mod (x * n2 + 2^63) (2^64) ltac:(lia)).
  pose proof (Z.mod_pos_bound (x * n2 + 2^63) (2^64) ltac:(lia)). lia.
Qed.

Lemma dot_modswitch : forall n2 a s, bits s ->
  Z.abs (dot (map (modswitch n2) a) s * 2^64 - dot a s * n2) <= Z.of_nat (length s) * 2^63.
Proof.
  intros n2. induction a as [|x a IH]; intros s Hs; simpl.
  - rewrite !Z.mul_0_l. rewrite Z.sub_diag. simpl. lia.
  - destruct s as [|k s]; simpl; [lia|].
    inversion Hs as [|? ? Hk Hs']; subst. specialize (IH s Hs').
    pose proof (modswitch_err n2 x) as Hx. rewrite Nat2Z.inj_succ.
    destruct Hk as [ -> | -> ]; nia.
Qed.

Hypothesis Hkey : bits key.
Hypothesis Hnb : 0 <= nb.
Hypothesis HN : (0 < N)%nat.
Hypothesis HN32 : (N mod 32 = 0)%nat.
Variable qw : Z.
Hypothesis Hbudget :
  l1_need qw * nb * (2 * Z.of_nat N) + (Z.of_nat (length key) + 1) * 2^63 < 2^58 * (2 * Z.of_nat N).

Lemma clamp_abs : forall e, Z.abs (clamp nb e) <= nb.
Proof. intros e. unfold clamp. lia. Qed.

Lemma lwe_lut_ok : forall acc (c : list Z * Z), length acc = N ->
  let N2 := 2 * Z.of_nat N in
  exists r d q e,
    lwe_phase c * N2 + d = (r + q * N2) * 2^64 /\
    Z.abs d <= (Z.of_nat (length key) + 1) * 2^63 /\
    teq (lwe_phase (lwe_lut acc c)) (ncoef acc r + e) /\ Z.abs e <= nb.
Proof.
  intros acc [a b] Hacc N2. unfold lwe_phase, lwe_lut. cbn [fst snd]. fold N2.
  set (r := modswitch N2 b - dot (map (modswitch N2) a) key).
  exists r, (r * 2^64 - (b - dot a key) * N2), 0, (clamp nb (out_noise (a, b))).
  pose proof (modswitch_err N2 b). pose proof (dot_modswitch N2 a key Hkey).
  split; [ring|]. split; [unfold r; lia|]. split; [|apply clamp_abs].
  eapply teq_trans; [apply teq_add; [apply teq_u64|apply teq_refl]|].
  match goal with |- teq ?x ?y => replace x with y by ring end. apply teq_refl.
Qed.

Definition lwe_contract : contract lwe qw.
Proof.
  refine (mkContract lwe qw lwe_phase nb ((Z.of_nat (length key) + 1) * 2^63) Hnb _ HN HN32
            _ _ _ _ lwe_lut_ok Hbudget).
  - lia.
  - intros [a b] [a' b']. unfold lwe_phase. simpl.
    replace (b - dot a key + (b' - dot a' key)) with (b + b' + - (dot a key + dot a' key)) by ring.
    apply teq_add; [apply teq_u64|]. apply teq_opp, dot_vadd.
  - intros [a b] p. unfold lwe_phase. simpl.
    replace (b - dot a key + p) with (b + p - dot a key) by ring.
    apply teq_add; [apply teq_u64|apply teq_refl].
  - intros [a b]. unfold lwe_phase. simpl.
    replace (- (b - dot a key)) with (- b + - - dot a key) by ring.
    apply teq_add; [apply teq_u64|]. apply teq_opp.
    apply (dot_map _ Z.opp).
    + intros x k. replace (- (x * k)) with (- x * k) by ring. apply teq_mul, teq_u64.
    + intros x y. replace (- (x + y)) with (- x + - y) by ring. apply teq_refl.
    + apply teq_refl.
  - intros [a b] k Hk. unfold lwe_phase. simpl.
    replace ((b - dot a key) * k) with (b * k + - (dot a key * k)) by ring.
    apply teq_add; [apply teq_u64|]. apply teq_opp.
    apply (dot_map _ (fun z => z * k)).
    + intros x j. replace (x * j * k) with (x * k * j) by ring. apply teq_mul, teq_u64.
    + intros x y. replace ((x + y) * k) with (x * k + y * k) by ring. apply teq_refl.
    + apply teq_refl.
Defined.

Lemma lwe_client_ok : client_ok lwe_contract lwe_client.
Proof.
  split.
  - intros [a e] mu _. exists (clamp nb e). split; [|apply clamp_abs].
    unfold lwe_contract. cbn [phase]. unfold lwe_phase. simpl.
    eapply teq_trans; [apply teq_add; [apply teq_u64|apply teq_refl]|].
    unfold step. match goal with |- teq ?x ?y => replace x with y by ring end. apply teq_refl.
  - intros c m e [q Hq] He. unfold lwe_contract in Hq. cbn [phase] in Hq. simpl ct_dec. rewrite Hq.
    unfold step in *. replace (m * 2^59 + e + q * 2^64 + 2^58) with ((e + 2^58) + (m + q * 32) * 2^59) by lia.
    rewrite Z.div_add by lia. rewrite (Z.div_small (e + 2^58)) by lia.
    rewrite Z.add_0_l. apply Z.mod_add. lia.
Qed.

End Lwe.

(** ** Two instances *)
(** no mask, no noise *)
Definition exact : backend := lwe [] 32 0 (fun _ => []) (fun _ => 0).
Definition exact_client : client exact := lwe_client [] 32 0 (fun _ => []) (fun _ => 0).
Definition exact_contract (qw : Z) : contract exact qw.
Proof.
  apply lwe_contract.
  - constructor.
  - lia.
  - lia.
  - reflexivity.
  - rewrite Z.mul_0_r. reflexivity.
Defined.
Lemma exact_client_ok : forall qw, client_ok (exact_contract qw) exact_client.
Proof. intros qw. apply lwe_client_ok. Qed.

(** a 16-bit key, N = 2048, masks and noise up to 2^50 that depend on the input *)
Definition noisy_key : list Z := [1; 0; 1; 1; 0; 0; 1; 0; 1; 1; 1; 0; 1; 0; 0; 1].
Definition noisy_mask (c : list Z * Z) : list Z :=
  map (fun i => u64 (snd c * (2 * i + 3) + 2^61 * i + 12345678901)) [0;1;2;3;4;5;6;7;8;9;10;11;12;13;14;15].
Definition noisy_err (c : list Z * Z) : Z := snd c * 977 mod 2^51 - 2^50.
Definition noisy : backend := lwe noisy_key 2048 (2^50) noisy_mask noisy_err.
Definition noisy_client : client noisy := lwe_client noisy_key 2048 (2^50) noisy_mask noisy_err.
Lemma noisy_budget : forall qw,
  l1_need qw * 2^50 * (2 * Z.of_nat 2048) + (Z.of_nat (length noisy_key) + 1) * 2^63
    < 2^58 * (2 * Z.of_nat 2048).
Proof.
  intros qw. assert (H : l1_need qw <= 15) by (unfold l1_need; repeat destruct (_ <=? _); lia).
  change (Z.of_nat 2048) with 2048. change (Z.of_nat (length noisy_key)) with 16. nia.
Qed.
Definition noisy_contract (qw : Z) : contract noisy qw.
Proof.
  apply lwe_contract.
  - repeat (constructor; [auto|]). constructor.
  - lia.
  - apply Nat.ltb_lt. reflexivity.
  - reflexivity.
  - apply noisy_budget.
Defined.
Lemma noisy_client_ok : forall qw, client_ok (noisy_contract qw) noisy_client.
Proof. intros qw. apply lwe_client_ok. Qed.

(** the shipped parameters (the fields taken from tfhe-rs are placeholders) *)
Definition base_params : tfhe_params := mkTfheParams 742 1 2048 1 1 23 1 3 5 16 1.
Definition cloud_100 (o : bool) : cloud := mkCloud (PAR_M4_C0 base_params) shipped_asc o.
(** the smallest accepted quadratic weight *)
Definition cloud_22 (o : bool) : cloud :=
  mkCloud (mkParams (concrete_pars (PAR_M4_C0 base_params)) 5 22) shipped_asc o.

(** ** Running the model on concrete values *)
Section Run.
Context {B : backend} (cl : client B) (seeds : nat -> seed cl).
Definition enc_run (m : Z) (w : nat) : ciphertext B :=
  match fst (parm_encrypt cl true seeds m w) with Ok c => c | _ => [] end.
Definition encv_run (v : list Z) : ciphertext B :=
  match fst (parm_encrypt_from_vec cl seeds v) with Ok c => c | _ => [] end.
Definition dec_run (r : M (ciphertext B)) : outcome Z :=
  match fst r with
  | Ok c => fst (parm_decrypt cl true c)
  | Err e => Err e
  | Panic e => Panic e
  end.
Definition decv_run (r : M (ciphertext B)) : outcome (list Z) :=
  match fst r with
  | Ok c => fst (parm_decrypt_to_vec cl c)
  | Err e => Err e
  | Panic e => Panic e
  end.
End Run.
Definition xenc := enc_run exact_client (fun _ => ([], 0)).
Definition xencv := encv_run exact_client (fun _ => ([], 0)).
Definition xdec := dec_run exact_client.
Definition xdecv := decv_run exact_client.
Definition xlen (r : M (ciphertext exact)) : nat := match fst r with Ok c => length c | _ => 0%nat end.
(** trivial words in the given digits *)
Definition xtriv (v : list Z) : ciphertext exact := map encrypt_word_triv v.

(** encryptions with noise, of any value that fits *)
Definition ex_seeds (i : nat) : list Z * Z :=
  ([Z.of_nat i * 2^57 + 17; 2^63 + 5], 2^40 * (Z.of_nat i) - 2^43).
Definition nenc := enc_run noisy_client ex_seeds.
Definition ndec := dec_run noisy_client.
Lemma nenc_ok : forall qw m w, - 2^63 < m < 2^63 -> (w <= 63)%nat -> Z.abs m < 2 ^ Z.of_nat w ->
  enc_val (noisy_contract qw) (nenc m w) m /\ length (nenc m w) = w /\
  Forall (fun x => is_triv x = false) (nenc m w).
Proof.
  intros qw m w Hm Hw Hs. unfold nenc, enc_run.
  destruct (encrypt_ok (noisy_contract qw) noisy_client (noisy_client_ok qw) true ex_seeds m w)
    as [c [H1 [H2 [H3 H4]]]]; auto.
  { unfold I64_MIN, I64_MAX. lia. }
  rewrite H1. cbn [fst ret]. rewrite Z.mod_small in H3 by lia.
  replace (Z.sgn m * Z.abs m) with m in H3 by lia. auto.
Qed.
