(** Model of src/demos.rs and src/experiments.rs. The printing is left out;
    what the demos print is what the functions below return. *)
From Verif Require Import Base Backend Words Encryption Params Addition Signum Maximum
  Multiplication Squaring Naf Asc ScalarMul Arith NeuralNetwork DemoNets.

Section Demos.
Context {B : backend} (cl : client B) (pc : cloud).
(** [seeds j] is the randomness of the j-th encryption *)
Variable seeds : nat -> nat -> seed cl.

(** lib.rs:127-133 and 144-146; the binary has one build profile *)
Definition user_encrypt (j : nat) (m : Z) (words : nat) : M (ciphertext B) :=
  parm_encrypt cl (ovf pc) (seeds j) m words.
Definition user_decrypt (c : ciphertext B) : M Z := parm_decrypt cl (ovf pc) c.

(* ------------------------------------------------------------------ *)
(** ** arith_demo, demos.rs:10-301 *)

(** 30, 32 *)
Definition DEMO_BITLEN : nat := 28.
Definition DEMO_ADC : Z := -20.

(** 45-66: message and number of words of every encryption, in order *)
Definition demo_messages : list (Z * nat) :=
  [(2127116731, DEMO_BITLEN); (842952480, DEMO_BITLEN); (-1143568405, DEMO_BITLEN);
   (1, 1%nat); (-1, 1%nat); (14, 4%nat); (9, 4%nat); (151, 8%nat); (186, 8%nat); (57707, 16%nat); (50849, 16%nat);
   (128585, 17%nat); (102899, 17%nat); (1716237926, 32%nat); (1268599892, 32%nat)].

(** 69-88 *)
Definition demo_encrypt : M (list (ciphertext B)) :=
  mapM (fun jm : nat * (Z * nat) => user_encrypt (fst jm) (fst (snd jm)) (snd (snd jm)))
       (combine (seq 0 (length demo_messages)) demo_messages).

(** 76 [mi.signum() * (mi.abs() % (1 << DEMO_BITLEN))] *)
Definition demo_taken (m : Z) : M Z :=
  a <- chk_i64 (ovf pc) (Z.abs m) ;;
  chk_i64 (ovf pc) (Z.sgn m * (a mod 2 ^ Z.of_nat DEMO_BITLEN)).

(** 143-167. [c] holds the ciphertexts in the order of [demo_messages]. *)
Definition demo_eval (c : list (ciphertext B)) : M (list (ciphertext B)) :=
  let g i := nth i c ct_empty in
  c_add <- pa_add (g 0%nat) (g 1%nat) ;;
  c_sub <- pa_sub (g 1%nat) (g 0%nat) ;;
  c_adc <- pa_add_const pc (g 0%nat) DEMO_ADC ;;
  c_sgn <- pa_sgn pc (g 2%nat) ;;
  c_max <- pa_max pc (g 1%nat) (g 0%nat) ;;
  c_xy1 <- pa_mul (g 3%nat) (g 4%nat) ;;
  c_xy4 <- pa_mul (g 5%nat) (g 6%nat) ;;
  c_xy8 <- pa_mul (g 7%nat) (g 8%nat) ;;
  c_xy16 <- pa_mul (g 9%nat) (g 10%nat) ;;
  c_xy17 <- pa_mul (g 11%nat) (g 12%nat) ;;
  c_xy32 <- pa_mul (g 13%nat) (g 14%nat) ;;
  c_xx4 <- pa_squ (g 5%nat) ;;
  c_xx8 <- pa_squ (g 7%nat) ;;
  c_xx16 <- pa_squ (g 9%nat) ;;
  c_xx17 <- pa_squ (g 11%nat) ;;
  c_xx32 <- pa_squ (g 13%nat) ;;
  c_n121x16 <- pa_scalar_mul pc (-121) (g 9%nat) ;;
  c_n128x16 <- pa_scalar_mul pc (-128) (g 9%nat) ;;
  c_p3x16 <- pa_scalar_mul pc 3 (g 9%nat) ;;
  ret [c_add; c_sub; c_adc; c_sgn; c_max; c_xy1; c_xy4; c_xy8; c_xy16; c_xy17; c_xy32;
       c_xx4; c_xx8; c_xx16; c_xx17; c_xx32; c_n121x16; c_n128x16; c_p3x16].

(** 199-294, the "exp." column; [m_as] are the three shortened messages *)
Definition demo_expected (m_as : list Z) : M (list Z) :=
  let o := ovf pc in
  let g i := nth i m_as 0 in
  e_add <- chk_i64 o (g 0%nat + g 1%nat) ;;
  e_sub <- chk_i64 o (g 1%nat - g 0%nat) ;;
  e_adc <- chk_i64 o (g 0%nat + DEMO_ADC) ;;
  prods <- mapM (fun ab : Z * Z => chk_i64 o (fst ab * snd ab))
    [(1, -1); (14, 9); (151, 186); (57707, 50849); (128585, 102899); (1716237926, 1268599892);
     (14, 14); (151, 151); (57707, 57707); (128585, 128585); (1716237926, 1716237926);
     (-121, 57707); (-128, 57707); (3, 57707)] ;;
  ret ([e_add; e_sub; e_adc; Z.sgn (g 2%nat); Z.max (g 1%nat) (g 0%nat)] ++ prods).

(** 10-301: the printed results and expectations *)
Definition arith_demo : M (list (Z * Z)) :=
  c <- demo_encrypt ;;
  m_as <- mapM demo_taken (map fst (firstn 3 demo_messages)) ;;
  r <- demo_eval c ;;
  m <- mapM user_decrypt r ;;                                      (* 173-195 *)
  e <- demo_expected m_as ;;
  ret (combine m e).

(* ------------------------------------------------------------------ *)
(** ** nn_demo, demos.rs:304-439 *)

(** 323 *)
Definition INPUT_BITLEN : nat := 11.
(** 339-356 *)
Definition demo_inputs : list Z :=
  [-560; 257; 1086; -468; -574; -814; 57; -323; 9; -317; 134; -106; -25; 36; -24; -142].

Definition nn_demo_on (nn : neural_network) : M (list (Z * Z)) :=
  c_in <- mapM (fun jm : nat * Z => user_encrypt (fst jm) (snd jm) INPUT_BITLEN)
               (combine (seq 0 (length demo_inputs)) demo_inputs) ;;  (* 377-379 *)
  c_out <- nn_eval (arith_ct pc) nn c_in ;;                           (* 395 *)
  m_out_plain <- nn_eval (arith_i64 (ovf pc)) nn demo_inputs ;;       (* 403 *)
  m_out_homo <- mapM user_decrypt c_out ;;                            (* 411-414 *)
  ret (combine m_out_homo m_out_plain).
Definition nn_demo : M (list (Z * Z)) := nn_demo_on arrhythmia_nn.

End Demos.

(* ------------------------------------------------------------------ *)
(** ** experiments.rs:10-59 *)

(** 32 [val_ads.contains_key] *)
Fixpoint ads_mem (k : Z) (m : list (Z * (Z * nat))) : bool :=
  match m with
  | [] => false
  | (k', _) :: t => if k =? k' then true else ads_mem k t
  end.

(** 22-41, one odd k. The state is the map (latest entry first), nai_tot and
    opt_tot. [hw - 1] underflows only for hw = 0. *)
Definition adds_step (o : bool) (table : asc_map) (st : list (Z * (Z * nat)) * Z * nat) (k : Z)
  : M (list (Z * (Z * nat)) * Z * nat) :=
  let '(m, nai, opt) := st in
  ktv <- koyama_tsuruoka_vec o k ;;
  let w := firstn ASC_BITLEN ktv in
  v <- expect (convert_from_vec o w) ;;
  let w_val := Z.abs v in
  if ads_mem w_val m then ret st
  else
    hw <- expect (bin_hw o w) ;;
    if (hw =? 0) && o then panic P_overflow
    else
      c <- asc_get table w_val ;;
      ret ((w_val, (u64 (hw - 1), length c)) :: m, u64 (nai + u64 (hw - 1)), (opt + length c)%nat).

(** 22-25: k runs over the odd numbers below 2^ASC_BITLEN *)
Definition avg_adds (o : bool) (table : asc_map) : M (list (Z * (Z * nat)) * Z * nat) :=
  foldM (adds_step o table) (map (fun i => 1 + 2 * Z.of_nat i) (seq 0 (2 ^ (ASC_BITLEN - 1)))) ([], 0, 0%nat).
