(** Model of src/userovo/keys.rs and of ParmesanUserovo::new (src/lib.rs) *)
From Coq Require Import String Decimal DecimalString.
From Verif Require Import Base Params.
Local Open Scope string_scope.

(** Decimal rendering of a usize by format!("{}") *)
Definition dec (n : nat) : string := NilEmpty.string_of_uint (Nat.to_uint n).

(** keys.rs:16 *)
Definition KEYS_PATH : string := "./keys/".

(** keys.rs:75-87 *)
Definition filename_from_params (p : params) : string :=
  let c := concrete_pars p in
  let suffix :=
    "n-" ++ dec (lwe_dimension c) ++
    "_N-" ++ dec (polynomial_size c) ++
    "_gamma-" ++ dec (pbs_base_log c) ++
    "_l-" ++ dec (pbs_level c) ++
    "_kappa-" ++ dec (ks_base_log c) ++
    "_t-" ++ dec (ks_level c) ++
    ".key" in
  KEYS_PATH ++ "/parm__tfhe_rs_v0_2-keys__" ++ suffix.

(** The part of the file system that is used: does the directory exist, and
    the files with their contents (bytes). *)
Record fs : Type := mkFs {
  fs_dir : bool;
  fs_files : list (string * list Z)
}.

Fixpoint file_get (l : list (string * list Z)) (n : string) : option (list Z) :=
  match l with
  | [] => None
  | (n', c) :: t => if String.eqb n n' then Some c else file_get t n
  end.

(** File::create truncates; writing then replaces the content *)
Fixpoint file_put (l : list (string * list Z)) (n : string) (c : list Z)
  : list (string * list Z) :=
  match l with
  | [] => [(n, c)]
  | (n', c') :: t => if String.eqb n n' then (n, c) :: t else (n', c') :: file_put t n c
  end.

(** What the operating system answers during one call. *)
Record io : Type := mkIo {
  io_mkdir : bool;          (* create_dir_all succeeds *)
  io_create : bool;         (* File::create succeeds *)
  io_write : option nat;    (* None: all writes during serialize_into succeed;
                               Some n: they fail after n bytes *)
  io_flush : option nat;    (* the last flush, when the BufWriter is dropped:
                               Some n: fails after n bytes in total; the error is lost *)
  io_open : bool            (* File::open and reading succeed *)
}.
Definition io_good : io := mkIo true true None None true.

Section Keys.
(** tfhe-rs key generation, and bincode of the pair of keys *)
Context {K R : Type}.
Variable gen_keys : tfhe_params -> R -> K.        (* R: randomness *)
Variable encode : K -> list Z.
Variable decode : list Z -> option K.

(** keys.rs:34-72 *)
Definition priv_keys_new (p : params) (rnd : R) (o : io) (s : fs)
  : outcome K * fs :=
  let name := filename_from_params p in
  match file_get (fs_files s) name with
  | None =>
      if negb (io_mkdir o) then (Err E_io, s)
      else
        let s1 := mkFs true (fs_files s) in
        let k := gen_keys (concrete_pars p) rnd in
        if negb (io_create o) then (Err E_io, s1)
        else
          let put c := mkFs true (file_put (fs_files s1) name c) in
          match io_write o with
          | Some n => (Err E_io, put (firstn n (encode k)))
          | None =>
              match io_flush o with
              | Some n => (Ok k, put (firstn n (encode k)))
              | None => (Ok k, put (encode k))
              end
          end
  | Some c =>
      if negb (io_open o) then (Err E_io, s)
      else match decode c with
           | Some k => (Ok k, s)
           | None => (Err E_decode, s)
           end
  end.

(** Events of the same call: keys.rs:46-51, 53-59, 61-67 are measured blocks,
    left early by [?] on an error. *)
Definition priv_keys_events (p : params) (o : io) (s : fs) : list event :=
  match file_get (fs_files s) (filename_from_params p) with
  | None =>
      if negb (io_mkdir o) then []
      else [EEnter; EExit] ++
           (if negb (io_create o) then [EEnter]
            else match io_write o with
                 | Some _ => [EEnter]
                 | None => [EEnter; EExit]
                 end)
  | Some c =>
      if negb (io_open o) then [EEnter]
      else match decode c with
           | Some _ => [EEnter; EExit]
           | None => [EEnter]
           end
  end.

(** lib.rs:112-121 *)
Definition userovo_new (p : params) (rnd : R) (o : io) (s : fs) : outcome K * fs :=
  if (quad_weight p <? MIN_QUAD_WEIGHT)%Z then (Err E_quad_weight, s)
  else priv_keys_new p rnd o s.

(** File-system states that a crash in the middle of [priv_keys_new] can leave
    behind, in order: before anything, directory made, then every prefix of
    the file. *)
Definition crash_states (p : params) (rnd : R) (s : fs) : list fs :=
  let name := filename_from_params p in
  match file_get (fs_files s) name with
  | Some _ => [s]
  | None =>
      let k := gen_keys (concrete_pars p) rnd in
      s :: mkFs true (fs_files s)
      :: map (fun n => mkFs true (file_put (fs_files s) name (firstn n (encode k))))
             (seq 0 (S (List.length (encode k))))
  end.

End Keys.
