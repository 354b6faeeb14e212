(** Model of src/params.rs and of the cloud structure of src/lib.rs *)
From Verif Require Import Base.

(** params.rs:11 ClassicPBSParameters (tfhe-rs). The standard deviations are
    f64 in the code; here they are uninterpreted integers, only compared. *)
Record tfhe_params : Type := mkTfheParams {
  lwe_dimension : nat;
  glwe_dimension : nat;
  polynomial_size : nat;
  lwe_std_dev : Z;
  glwe_std_dev : Z;
  pbs_base_log : nat;
  pbs_level : nat;
  ks_base_log : nat;
  ks_level : nat;
  message_modulus : Z;
  carry_modulus : Z
}.

(** params.rs:10-16 *)
Record params : Type := mkParams {
  concrete_pars : tfhe_params;
  bit_precision : nat;
  quad_weight : Z
}.

(** asc.rs:17-23 *)
Record add_shift : Type := mkAddShift {
  l_pos : bool;
  l_idx : nat;
  r_pos : bool;
  r_idx : nat;
  r_shift : nat
}.

(** asc.rs:26 *)
Definition asc : Type := list add_shift.

(** lib.rs:81 BTreeMap<usize, Vec<AddShift>>, as an association list with
    increasing keys *)
Definition asc_map : Type := list (Z * asc).

(** lib.rs:157-160 ParmesanCloudovo, without the keys (they are in the
    backend), together with the global ASC_12 (lib.rs:79-82) and the build
    profile ([ovf] = overflow checks on). *)
Record cloud : Type := mkCloud {
  cparams : params;
  asc_12 : asc_map;
  ovf : bool
}.

(** params.rs:22-24: [(1u32 << bit_precision) - 1] *)
Definition plaintext_mask (o : bool) (p : params) : M Z :=
  s <- shift_amount o 32 (bit_precision p) ;;
  chk_u32 o (u32 (2 ^ s) - 1).

(** params.rs:28-30: [1u32 << (bit_precision - 1)]; the usize subtraction
    underflows for 0 (then the unchecked shift amount is 2^64-1 masked to 31) *)
Definition plaintext_pos_max (o : bool) (p : params) : M Z :=
  match bit_precision p with
  | O => if o then panic P_overflow else ret (2 ^ 31)
  | S b => s <- shift_amount o 32 b ;; ret (u32 (2 ^ s))
  end.

(** params.rs:33-35: [1i32 << bit_precision] *)
Definition plaintext_space_size (o : bool) (p : params) : M Z :=
  s <- shift_amount o 32 (bit_precision p) ;; ret (i32 (2 ^ s)).

(** params.rs:103-116 PAR_TFHE_V0_5__M4_C0. The fields that come from
    PARAM_MESSAGE_4_CARRY_0_KS_PBS (tfhe-rs, not in the repository) other than
    the carry modulus are a parameter [base]; the carry modulus is expected to be 1
    (params.rs:109). *)
Definition PAR_M4_C0 (base : tfhe_params) : params :=
  {| concrete_pars :=
       {| lwe_dimension := lwe_dimension base;
          glwe_dimension := glwe_dimension base;
          polynomial_size := polynomial_size base;
          lwe_std_dev := lwe_std_dev base;
          glwe_std_dev := glwe_std_dev base;
          pbs_base_log := pbs_base_log base;
          pbs_level := pbs_level base;
          ks_base_log := ks_base_log base;
          ks_level := ks_level base;
          message_modulus := 32;
          carry_modulus := carry_modulus base |};
     bit_precision := 5;
     quad_weight := 100 |}.

(** lib.rs:72, 75 *)
Definition MIN_QUAD_WEIGHT : Z := 22.
Definition ASC_BITLEN : nat := 12.
