(** Lemmas about the test suite *)
From Verif Require Import Base Backend Words Encryption Params Pbs Addition Signum Maximum Multiplication
  Squaring Rounding Naf Asc AscTable ScalarMul Arith NeuralNetwork TestSuite
  Spec Contract BaseProofs WordsProofs EncProofs ValueProofs PbsProofs AddProofs SgnProofs MulProofs
  RoundProofs NafProofs AscProofs ScalarProofs Expr ArithProofs.
From Coq Require Import ZifyBool ZifyNat.

Lemma repeats_ok : forall D (body : D -> M unit) (P : D -> Prop) ds,
  (forall d, P d -> fst (body d) = Ok tt) -> Forall P ds -> fst (repeats body ds) = Ok tt.
Proof.
  intros D body P ds H HF. unfold repeats. induction HF as [|d ds Hd HF IH]; cbn [foldM]; auto.
  rewrite fst_bind, (H d Hd). exact IH.
Qed.
Lemma repeats_fail : forall D (body : D -> M unit) ds e, (exists d, In d ds /\ fst (body d) = Panic e) ->
  (forall d, In d ds -> fst (body d) = Ok tt \/ fst (body d) = Panic e) -> fst (repeats body ds) = Panic e.
Proof.
  intros D body ds e [d [Hin Hd]] H. unfold repeats. induction ds as [|a ds IH]; [destruct Hin|].
  cbn [foldM]. rewrite fst_bind. destruct (H a (or_introl eq_refl)) as [E|E]; rewrite E; auto.
  apply IH; [|intros; apply H; right; auto]. destruct Hin as [ -> |Hin]; auto. congruence.
Qed.
Lemma assert_eq_refl : forall a, assert_eq a a = ret tt.
Proof. intros a. unfold assert_eq. rewrite Z.eqb_refl. reflexivity. Qed.

Lemma value_bound : forall v, digits v -> Z.abs (value v) < 2 ^ Z.of_nat (length v).
Proof.
  induction v as [|d v IH]; intros H; cbn [value length]; [reflexivity|].
  inversion H as [|? ? Hd Hv]; subst. specialize (IH Hv). unfold digit in Hd.
  rewrite Nat2Z.inj_succ, Z.pow_succ_r by lia. lia.
Qed.
Lemma pow2_le : forall n m, (n <= m)%nat -> 2 ^ Z.of_nat n <= 2 ^ Z.of_nat m.
Proof. intros. apply Z.pow_le_mono_r; lia. Qed.
Lemma value_app : forall a b, value (a ++ b) = value a + 2 ^ Z.of_nat (length a) * value b.
Proof.
  induction a as [|x a IH]; intros b; cbn [value length app].
  - change (2 ^ Z.of_nat 0) with 1. lia.
  - rewrite IH, Nat2Z.inj_succ, Z.pow_succ_r by lia. ring.
Qed.
Lemma value_zeros : forall n, value (repeat 0 n) = 0.
Proof. induction n as [|n IH]; cbn [repeat value]; lia. Qed.

Section Tests.
Context {B : backend} {qw : Z} (C : contract B qw).
Variables (cl cu : client B) (pc : cloud).
Hypothesis K : client_ok C cl.
Hypothesis KU : client_ok C cu.

Lemma mode_enc : forall mode (d : draw cl), digits (d_vec d) ->
  encrypts C (encrypt_with_mode cl mode d) (d_vec d) /\
  length (encrypt_with_mode cl mode d) = length (d_vec d).
Proof.
  intros mode d H. unfold encrypt_with_mode, encrypt_with_flags.
  set (fl := mode_flags mode (length (d_vec d)) (d_coin d)).
  assert (Hfl : length fl = length (d_vec d)).
  { unfold fl, mode_flags. rewrite map_length, seq_length. auto. }
  split.
  2:{ rewrite map_length, combine_length, seq_length. apply Nat.min_id. }
  split; auto. clearbody fl. unfold ciphertext.
  assert (G : forall v s, (s + length v = length fl)%nat ->
    Forall2 (fun w dg => wmsg C w dg 1)
      (map (fun imi : nat * Z => let (i, mi) := imi in
              match nth_error fl i with
              | Some true => encrypt_word cl (d_seed d i) mi
              | Some false => encrypt_word_triv mi
              | None => triv0
              end) (combine (seq s (length v)) v)) v).
  2:{ apply G. lia. }
  induction v as [|x v IH]; intros s Hs; cbn [length seq combine map] in *; constructor; [|apply IH; lia].
  destruct (nth_error fl s) as [[|]|] eqn:E.
  - apply (encrypt_word_ok C cl K).
  - apply wmsg_triv.
  - apply nth_error_None in E. lia.
Qed.
Lemma mode_val : forall mode (d : draw cl), digits (d_vec d) ->
  enc_val C (encrypt_with_mode cl mode d) (value (d_vec d)).
Proof. intros mode d H. exists (d_vec d). split; auto. apply mode_enc; auto. Qed.
Lemma mode_len : forall mode (d : draw cl), length (encrypt_with_mode cl mode d) = length (d_vec d).
Proof.
  intros mode d. unfold encrypt_with_mode, encrypt_with_flags.
  rewrite map_length, combine_length, seq_length. apply Nat.min_id.
Qed.

Lemma t_convert_ok : forall v, digits v -> (length v <= 63)%nat -> t_convert pc v = ret (value v).
Proof. intros v H L. unfold t_convert. rewrite (convert_from_vec_ok _ _ H L). reflexivity. Qed.
Lemma t_decrypt_ok : forall c v, enc_val C c v -> (length c <= 63)%nat -> t_decrypt cu pc c = ret v.
Proof. intros c v H L. unfold t_decrypt. rewrite (decrypt_ok C cu KU _ c v H L). reflexivity. Qed.

(** one round of a unary test: the operation is right on both sides *)
Lemma t_unary_ok : forall (op : forall T, arith T -> T -> M T) mode (d : draw cl) r,
  digits (d_vec d) -> (length (d_vec d) <= 63)%nat ->
  okP (op _ (arith_ct pc) (encrypt_with_mode cl mode d)) (fun z => enc_val C z r /\ (length z <= 63)%nat) ->
  fst (op _ (arith_i64 (ovf pc)) (value (d_vec d))) = Ok r ->
  fst (t_unary cl cu pc op mode d) = Ok tt.
Proof.
  intros op mode d r Hd L [z [E [Hz Lz]]] Hr. unfold t_unary. rewrite (t_convert_ok _ Hd L), ret_bind. cbv zeta.
  rewrite fst_bind, E, (t_decrypt_ok z r Hz Lz), ret_bind, fst_bind, Hr, assert_eq_refl. reflexivity.
Qed.
Lemma t_binary_ok : forall (op : forall T, arith T -> T -> T -> M T) mode1 mode2 (d1 d2 : draw cl) r,
  digits (d_vec d1) -> digits (d_vec d2) -> (length (d_vec d1) <= 63)%nat -> (length (d_vec d2) <= 63)%nat ->
  okP (op _ (arith_ct pc) (encrypt_with_mode cl mode1 d1) (encrypt_with_mode cl mode2 d2))
    (fun z => enc_val C z r /\ (length z <= 63)%nat) ->
  fst (op _ (arith_i64 (ovf pc)) (value (d_vec d1)) (value (d_vec d2))) = Ok r ->
  fst (t_binary cl cu pc op mode1 mode2 (d1, d2)) = Ok tt.
Proof.
  intros op mode1 mode2 d1 d2 r H1 H2 L1 L2 [z [E [Hz Lz]]] Hr. unfold t_binary.
  rewrite (t_convert_ok _ H1 L1), ret_bind, (t_convert_ok _ H2 L2), ret_bind. cbv zeta.
  rewrite fst_bind, E, (t_decrypt_ok z r Hz Lz), ret_bind, fst_bind, Hr, assert_eq_refl. reflexivity.
Qed.

End Tests.

(* ------------------------------------------------------------------ *)
(** ** Small networks: a simulation that keeps track of a size *)
Section Graded.
Context {T : Type} (A : arith T) (R : nat -> T -> Z -> Prop).

Record graded : Prop := mkGraded {
  g_mono : forall n m x v, (n <= m)%nat -> R n x v -> R m x v;
  g_zero : R 0%nat (a_zero A) 0;
  g_add : forall n m x y vx vy, (n <= 60)%nat -> (m <= 60)%nat -> R n x vx -> R m y vy ->
    okP (a_add A x y) (fun z => R (S (Nat.max n m)) z (vx + vy));
  g_addc : forall n x v k, (n <= 60)%nat -> R n x v -> Z.abs k <= 15 ->
    okP (a_add_const A x k) (fun z => R (S (Nat.max n 4)) z (v + k));
  g_scm : forall n x v k, (n <= 57)%nat -> R n x v -> Z.abs k <= 7 ->
    okP (a_scalar_mul A k x) (fun z => R (n + 4)%nat z (k * v));
  g_max : forall n x y vx vy, R n x vx -> R n y vy ->
    okP (a_max A x y) (fun z => R n z (Z.max vx vy));
  g_relu : forall n x v, R n x v -> okP (a_relu A x) (fun z => R n z (Z.max 0 v))
}.
Hypothesis G : graded.

Lemma graded_affine : forall n w xs vs b, (n + 4 + length w <= 59)%nat ->
  Forall (fun k => Z.abs k <= 7) w -> Z.abs b <= 15 -> Forall2 (R n) xs vs ->
  okP (affine_pool A w xs b) (fun z => R (n + length w + 5)%nat z (dot w vs + b)).
Proof.
  intros n w xs vs b Hn Hw Hb Hx. unfold affine_pool.
  assert (F : forall w xs vs acc a m, Forall (fun k => Z.abs k <= 7) w -> Forall2 (R n) xs vs ->
    (n + 4 <= m)%nat -> (m + length w <= 60)%nat -> R m acc a ->
    okP (foldM (fun res (wa : Z * T) => scm <- a_scalar_mul A (fst wa) (snd wa) ;; a_add A res scm) (combine w xs) acc)
      (fun z => R (m + length w)%nat z (a + dot w vs))).
  { clear - G. induction w as [|k w IH]; intros xs vs acc a m Hw Hx Hm Hl Ha.
    - cbn [combine foldM dot length]. apply okP_ret. rewrite Z.add_0_r, Nat.add_0_r. auto.
    - inversion Hw as [|? ? Hk Hw']; subst. inversion Hx as [|x v xs' vs' Hxv Hx']; subst; cbn [combine foldM dot length] in *.
      + apply okP_ret. rewrite Z.add_0_r. eapply (g_mono G); [|exact Ha]. lia.
      + cbn [fst snd]. eapply okP_bind.
        * eapply okP_bind; [apply (g_scm G n x v k); auto; lia|]. intros s Hs. cbv beta in Hs.
          apply (g_add G m (n + 4)%nat); eauto; lia.
        * intros s Hs. cbv beta in Hs. replace (a + (k * v + dot w vs')) with ((a + k * v) + dot w vs') by ring.
          replace (m + S (length w))%nat with (S m + length w)%nat by lia.
          apply (IH xs' vs' s (a + k * v) (S m)); auto; try lia.
          eapply (g_mono G); [|exact Hs]. lia. }
  eapply okP_bind; [apply (F w xs vs (a_zero A) 0 (n + 4)%nat); auto; try lia|].
  - eapply (g_mono G); [|apply (g_zero G)]. lia.
  - intros s Hs. cbv beta in Hs. eapply okP_conseq; [apply (g_addc G (n + 4 + length w)%nat s (0 + dot w vs) b); auto; lia|].
    intros z Hz. rewrite Z.add_0_l in Hz. eapply (g_mono G); [|exact Hz]. lia.
Qed.

Lemma graded_pairs : forall n k xs vs, (length xs <= k)%nat -> Forall2 (R n) xs vs ->
  okP (max_pairs A xs) (fun zs => Forall2 (R n) zs (pairs_max vs)).
Proof.
  intros n. induction k as [|k IH]; intros xs vs Hk Hx.
  - inversion Hx; subst; [apply okP_ret; constructor|cbn [length] in Hk; lia].
  - inversion Hx as [|x v xs' vs' H1 Hx']; subst; [apply okP_ret; constructor|].
    inversion Hx' as [|y u xs2 vs2 H2 Hx2]; subst; [apply okP_ret; constructor; auto; constructor|].
    cbn [max_pairs pairs_max]. eapply okP_bind; [apply (g_max G n); eauto|]. intros m Hm. cbv beta in Hm.
    eapply okP_bind; [apply (IH xs2 vs2); auto; cbn [length] in Hk; lia|]. intros r Hr. apply okP_ret. constructor; auto.
Qed.
Lemma graded_pool : forall n f xs vs, (length xs < f)%nat -> Forall2 (R n) xs vs ->
  okP (max_pool_recursion A f xs) (fun z => R n z (list_max vs)).
Proof.
  intros n. induction f as [|f IH]; intros xs vs Hf H; [lia|]. cbn [max_pool_recursion].
  destruct H as [|x v xs vs Hx H]; [apply okP_ret; eapply (g_mono G); [|apply (g_zero G)]; lia|].
  destruct H as [|y u xs vs Hy H]; [apply okP_ret; auto|].
  assert (HH : Forall2 (R n) (x :: y :: xs) (v :: u :: vs)) by (repeat constructor; auto).
  eapply okP_bind; [apply (graded_pairs n (length (x :: y :: xs)) _ _ (le_n _) HH)|].
  intros h Hh. destruct (pairs_max_ok (length (v :: u :: vs)) (v :: u :: vs) (le_n _)) as [E1 E2].
  rewrite <- E1. apply IH; auto.
  rewrite (Forall2_len _ _ _ _ _ Hh), E2. rewrite <- (Forall2_len _ _ _ _ _ HH).
  apply Nat.div_lt_upper_bound; cbn [length] in *; lia.
Qed.
Lemma graded_max : forall n w xs vs b, (n <= 55)%nat ->
  Forall (fun k => Z.abs k <= 7) w -> Z.abs b <= 15 -> Forall2 (R n) xs vs ->
  okP (max_pool A w xs b) (fun z => R (n + 5)%nat z (list_max (products w vs) + b)).
Proof.
  intros n w xs vs b Hn Hw Hb Hx. unfold max_pool.
  assert (H : okP (mapM (fun wa : Z * T => a_scalar_mul A (fst wa) (snd wa)) (combine w xs))
                (fun zs => Forall2 (R (n + 4)%nat) zs (products w vs))).
  { revert xs vs Hx. induction Hw as [|wi w Hwi Hw IH]; intros xs vs Hx; cbn [combine mapM products].
    - apply okP_ret. constructor.
    - destruct Hx as [|xi vi xs vs Hxi Hx]; cbn [combine mapM products]; [apply okP_ret; constructor|].
      eapply okP_bind; [apply (g_scm G n xi vi wi); auto; lia|]. intros z Hz.
      eapply okP_bind; [apply (IH xs vs Hx)|]. intros r Hr. apply okP_ret. constructor; auto. }
  eapply okP_bind; [exact H|]. intros zs Hzs.
  eapply okP_bind; [apply (graded_pool _ _ zs _ (Nat.lt_succ_diag_r _) Hzs)|]. intros z Hz.
  eapply okP_conseq; [apply (g_addc G (n + 4)%nat z (list_max (products w vs)) b); auto; lia|].
  intros y Hy. eapply (g_mono G); [|exact Hy]. lia.
Qed.

(** a perceptron with at most five small weights and a small bias *)
Definition p_small (p : perceptron) : Prop :=
  (length (p_w p) <= 5)%nat /\ Forall (fun k => Z.abs k <= 7) (p_w p) /\ Z.abs (p_b p) <= 15.
Lemma graded_perceptron : forall n xs vs p, (n <= 50)%nat -> p_small p -> Forall2 (R n) xs vs ->
  okP (eval_perceptron A xs p) (fun z => R (n + 10)%nat z (perceptron_spec vs p)).
Proof.
  intros n xs vs p Hn [Hl [Hw Hb]] Hx. unfold eval_perceptron, perceptron_spec. apply okP_measure.
  destruct (p_t p).
  - eapply okP_conseq; [apply (graded_max n); eauto; lia|]. intros z Hz. eapply (g_mono G); [|exact Hz]. lia.
  - eapply okP_conseq; [apply (graded_affine n); eauto; lia|]. intros z Hz. eapply (g_mono G); [|exact Hz]. lia.
  - eapply okP_bind; [apply (graded_affine n); eauto; lia|]. intros z Hz. cbv beta in Hz.
    apply (g_relu G). eapply (g_mono G); [|exact Hz]. lia.
Qed.
Lemma graded_layer : forall n l xs vs, (n <= 50)%nat -> Forall p_small l -> Forall2 (R n) xs vs ->
  okP (eval_layer A l xs) (fun zs => Forall2 (R (n + 10)%nat) zs (map (perceptron_spec vs) l)).
Proof.
  intros n l xs vs Hn Hl Hx. unfold eval_layer. induction Hl as [|p l Hp Hl IH]; cbn [mapM map].
  - apply okP_ret. constructor.
  - eapply okP_bind; [apply (graded_perceptron n); eauto|]. intros z Hz.
    eapply okP_bind; [exact IH|]. intros zs Hzs. apply okP_ret. constructor; auto.
Qed.
Theorem graded_nn : forall nn n xs vs, (nn_layers nn <> []) ->
  (n + 10 * length (nn_layers nn) <= 60)%nat -> Forall (Forall p_small) (nn_layers nn) -> Forall2 (R n) xs vs ->
  okP (nn_eval A nn xs)
    (fun zs => Forall2 (R (n + 10 * length (nn_layers nn))%nat) zs (layers_spec (nn_layers nn) vs)).
Proof.
  intros [ls k] n xs vs Hne Hn Hs Hx. unfold nn_eval, eval_layers. cbn [nn_layers] in *.
  assert (H : forall ls l n xs vs ol, (n + 10 * length (l :: ls) <= 60)%nat -> Forall p_small l ->
    Forall (Forall p_small) ls -> Forall2 (R n) xs vs ->
    okP (foldM (fun st l => measure (ol <- eval_layer A l (fst st) ;; ret (ol, ol))) (l :: ls) (xs, ol))
      (fun st => Forall2 (R (n + 10 * length (l :: ls))%nat) (snd st) (layers_spec (l :: ls) vs))).
  { clear - G. induction ls as [|l2 ls IH]; intros l n xs vs ol Hn Hl Hls Hx.
    - cbn [foldM layers_spec length] in *. eapply okP_bind; [apply okP_measure|].
      + eapply okP_bind; [apply (graded_layer n l xs vs); auto; lia|]. intros zs Hzs. apply okP_ret.
        refine ((fun H => H) Hzs : (fun st => Forall2 (R (n + 10)%nat) (snd st) _) (zs, zs)).
      + intros st Hst. apply okP_ret. cbv beta in Hst. replace (n + 10 * 1)%nat with (n + 10)%nat by lia. exact Hst.
    - inversion Hls; subst. change (layers_spec (l :: l2 :: ls) vs) with (layers_spec (l2 :: ls) (map (perceptron_spec vs) l)).
      change (foldM ?f (l :: l2 :: ls) ?a) with (bind (f a l) (fun s => foldM f (l2 :: ls) s)).
      eapply okP_bind; [apply okP_measure|].
      + eapply okP_bind; [apply (graded_layer n l xs vs); auto; cbn [length] in Hn; lia|]. intros zs Hzs. apply okP_ret.
        refine ((fun H => H) _ : (fun st => exists zs, st = (zs, zs) /\ Forall2 (R (n + 10)%nat) zs _) (zs, zs)).
        exists zs. split; [reflexivity|exact Hzs].
      + intros st [zs [-> Hzs]].
        replace (n + 10 * length (l :: l2 :: ls))%nat with ((n + 10) + 10 * length (l2 :: ls))%nat by (cbn [length]; lia).
        apply (IH l2 (n + 10)%nat zs); auto. cbn [length] in *. lia. }
  destruct ls as [|l ls]; [congruence|]. inversion Hs; subst.
  eapply okP_bind; [apply okP_measure, H; eauto|]. intros st Hst. apply okP_ret. exact Hst.
Qed.
End Graded.

(* ------------------------------------------------------------------ *)
(** ** Scalars with one window *)
Section OneWindow.
Context {B : backend} {qw : Z} (C : contract B qw).

Lemma scalar_mul_one : forall pc k w s c (x : ciphertext B) v,
  1 < Z.abs k < 2^31 -> 0 < w -> w * 2 ^ Z.of_nat s = Z.abs k ->
  fst (wind_shifts (ovf pc) (Z.abs k) 12) = Ok [(w, s)] ->
  fst (asc_get (asc_12 pc) w) = Ok c -> chain_wf 1 c -> chain_value c = w -> enc_val C x v ->
  okP (pa_scalar_mul pc k x)
    (fun z => enc_val C z (k * v) /\ (length z <= length x + (chain_growth c + s))%nat).
Proof.
  intros pc k w s c x v Hk Hw Ew Hws Hc Wf Vc Hx. unfold pa_scalar_mul. apply okP_analysed. unfold scalar_mul_impl.
  set (xp := if 0 <=? k then x else map w_opp x).
  assert (Hxp : enc_val C xp (sg (0 <=? k) * v)).
  { subst xp. rewrite map_opp_pa. apply sg_ok; auto. }
  assert (Lxp : length xp = length x) by (subst xp; rewrite map_opp_pa; apply sg_length).
  clearbody xp.
  rewrite chk_i32_in by (unfold I32_MIN, I32_MAX; lia). rewrite ret_bind. cbv zeta.
  replace (u32 (Z.abs k)) with (Z.abs k) by (unfold u32; rewrite Z.mod_small; lia).
  destruct (Z.abs k =? 0) eqn:E0; [lia|]. destruct (Z.abs k =? 1) eqn:E1; [lia|].
  unfold ASC_BITLEN. apply okP_bind with (P := fun ws => ws = [(w, s)]); [exists [(w, s)]; auto|]. intros ws ->.
  cbn [window_keys fold_left insert_key fst mapM]. replace (Z.abs w) with w by lia.
  assert (Hsg : sg (0 <=? k) * Z.abs k = k) by (destruct (0 <=? k) eqn:E; cbn [sg]; lia).
  eapply okP_bind with (P := fun wm => exists z, wm = [(w, z)] /\ enc_val C z (w * (sg (0 <=? k) * v)) /\
     (length z <= length x + chain_growth c)%nat).
  { eapply okP_bind with (P := fun e => exists z, e = (w, z) /\ enc_val C z (w * (sg (0 <=? k) * v)) /\
       (length z <= length x + chain_growth c)%nat).
    - apply okP_bind with (P := fun c' => c' = c); [exists c; auto|]. intros c' ->.
      eapply okP_bind; [apply okP_expect, (asc_eval_ct_ok C c xp); eauto|]. intros z [Hz Lz].
      apply okP_ret. exists z. rewrite Vc in Hz. repeat split; auto. lia.
    - intros e He. apply okP_ret. destruct He as [z [-> He]]. eauto. }
  intros wm [z [-> [Hz Lz]]]. unfold mulary_row. cbn [map_get]. replace (Z.abs w) with w by lia.
  rewrite Z.eqb_refl, !ret_bind. destruct (w <? 0) eqn:En; [lia|].
  cbn [length Nat.eqb index nth_error]. apply okP_ret. split.
  - replace (k * v) with (w * (sg (0 <=? k) * v) * 2 ^ Z.of_nat s); [apply pa_shift_ok; auto|].
    rewrite <- Hsg at 2. rewrite <- Ew. ring.
  - rewrite pa_shift_length. lia.
Qed.

(** the chain that the shipped table has for a number, and whether one window
    of that chain is enough for [k] in a build of either kind *)
Definition one_window (n : nat) (k : Z) : bool :=
  forallb (fun o =>
    match fst (wind_shifts o k 12) with
    | Ok [(w, s)] =>
        (0 <? w) && (w * 2 ^ Z.of_nat s =? k) &&
        match fst (asc_get shipped_asc w) with
        | Ok c => wfb 1 c && (chain_value c =? w) && (chain_growth c + s <=? n)%nat
        | _ => false
        end
    | _ => false
    end) [true; false].
Lemma one_window_ok : forall pc n k (x : ciphertext B) v, asc_12 pc = shipped_asc ->
  1 < Z.abs k < 2^31 -> one_window n (Z.abs k) = true -> enc_val C x v ->
  okP (pa_scalar_mul pc k x) (fun z => enc_val C z (k * v) /\ (length z <= length x + n)%nat).
Proof.
  intros pc n k x v HT Hk H Hx. unfold one_window in H. rewrite forallb_forall in H.
  assert (H' := H (ovf pc) ltac:(destruct (ovf pc); cbn; auto)). clear H. cbv beta in H'.
  destruct (fst (wind_shifts (ovf pc) (Z.abs k) 12)) as [[|[w s] [|]]| |] eqn:E; try discriminate.
  destruct (fst (asc_get shipped_asc w)) as [c| |] eqn:Ec; rewrite ?andb_false_r in H'; try discriminate.
  repeat rewrite andb_true_iff in H'. destruct H' as [[Hw Hs] [[Hwf Hv] Hg]].
  eapply okP_conseq; [apply (scalar_mul_one pc k w s c x v); auto; try lia|].
  - rewrite HT; auto.
  - apply wfb_ok; auto.
  - intros z [Hz Lz]. split; auto. lia.
Qed.
Lemma small_scalar_ok : forall pc k (x : ciphertext B) v, asc_12 pc = shipped_asc -> Z.abs k <= 7 ->
  enc_val C x v ->
  okP (pa_scalar_mul pc k x) (fun z => enc_val C z (k * v) /\ (length z <= length x + 4)%nat).
Proof.
  intros pc k x v HT Hk Hx.
  destruct (Z_le_gt_dec (Z.abs k) 1) as [H1|H1].
  - unfold pa_scalar_mul. apply okP_analysed. unfold scalar_mul_impl.
    rewrite chk_i32_in by (unfold I32_MIN, I32_MAX; lia). rewrite ret_bind. cbv zeta.
    replace (u32 (Z.abs k)) with (Z.abs k) by (unfold u32; rewrite Z.mod_small; lia).
    destruct (Z.abs k =? 0) eqn:E0.
    + apply okP_ret. split; [|cbn; lia]. replace (k * v) with 0 by lia. apply enc_val_nil.
    + replace (Z.abs k =? 1) with true by lia. apply okP_ret. rewrite !map_opp_pa. split; [|destruct (0 <=? k); unfold pa_opp, opposite_impl; rewrite ?map_length; lia].
      replace (k * v) with (sg (0 <=? k) * v) by (destruct (0 <=? k) eqn:E; cbn [sg]; f_equal; lia). apply sg_ok; auto.
  - apply one_window_ok; auto; [lia|].
    assert (Hc : Z.abs k = 2 \/ Z.abs k = 3 \/ Z.abs k = 4 \/ Z.abs k = 5 \/ Z.abs k = 6 \/ Z.abs k = 7) by lia.
    destruct Hc as [ -> |[ -> |[ -> |[ -> |[ -> | -> ]]]]]; vm_compute; reflexivity.
Qed.
End OneWindow.

(* ------------------------------------------------------------------ *)
(** ** The two graded instances *)
Lemma graded_ct : forall {B : backend} {qw : Z} (C : contract B qw) pc,
  quad_weight (cparams pc) = qw -> bit_precision (cparams pc) = 5%nat -> asc_12 pc = shipped_asc ->
  graded (arith_ct pc) (fun n x v => enc_val C x v /\ (length x <= n)%nat).
Proof.
  intros B qw C pc Hq Hbp HT. constructor; cbn [arith_ct a_zero a_add a_add_const a_scalar_mul a_max a_relu].
  - intros n m x v Hnm [H L]. split; auto. lia.
  - split; [apply enc_val_nil|]. cbn. lia.
  - intros n m x y vx vy _ _ [Hx Lx] [Hy Ly]. eapply okP_conseq; [apply (pa_add_ok C); eauto|].
    intros z [Hz [Lz _]]. split; auto. lia.
  - intros n x v k _ [Hx Lx] Hk. eapply okP_conseq; [apply (pa_add_const_ok C); eauto; unfold I64_MIN, I64_MAX; lia|].
    intros z [Hz Lz]. split; auto. specialize (Lz 4%nat ltac:(change (2 ^ Z.of_nat 4) with 16; lia)). lia.
  - intros n x v k _ [Hx Lx] Hk. eapply okP_conseq; [apply (small_scalar_ok C); eauto|].
    intros z [Hz Lz]. split; auto. lia.
  - intros n x y vx vy [Hx Lx] [Hy Ly]. eapply okP_conseq; [apply (pa_max_ok C pc Hq); eauto|].
    intros z [Hz Lz]. split; auto. lia.
  - intros n x v [Hx Lx]. eapply okP_conseq; [apply (pa_relu_ok C pc Hq); eauto|].
    intros z [Hz Lz]. split; auto. lia.
Qed.

Lemma pow2_62 : 2 ^ Z.of_nat 62 = 4611686018427387904. Proof. reflexivity. Qed.
Lemma graded_i64 : forall o, graded (arith_i64 o) (fun n x v => x = v /\ Z.abs v < 2 ^ Z.of_nat n).
Proof.
  intros o. constructor; cbn [arith_i64 a_zero a_add a_add_const a_scalar_mul a_max a_relu].
  - intros n m x v Hnm [-> H]. split; auto. pose proof (pow2_le n m Hnm). lia.
  - split; auto. reflexivity.
  - intros n m x y vx vy Hn Hm [-> H1] [-> H2].
    pose proof (pow2_le n (Nat.max n m) ltac:(lia)). pose proof (pow2_le m (Nat.max n m) ltac:(lia)).
    pose proof (pow2_le (S (Nat.max n m)) 62 ltac:(lia)). rewrite pow2_62 in *.
    assert (E : 2 ^ Z.of_nat (S (Nat.max n m)) = 2 * 2 ^ Z.of_nat (Nat.max n m))
      by (rewrite Nat2Z.inj_succ, Z.pow_succ_r; lia).
    rewrite chk_i64_in by (unfold I64_MIN, I64_MAX; lia). apply okP_ret. split; auto. lia.
  - intros n x v k Hn [-> H1] Hk.
    pose proof (pow2_le n (Nat.max n 4) ltac:(lia)). pose proof (pow2_le 4 (Nat.max n 4) ltac:(lia)).
    pose proof (pow2_le (S (Nat.max n 4)) 62 ltac:(lia)). rewrite pow2_62 in *.
    assert (E : 2 ^ Z.of_nat (S (Nat.max n 4)) = 2 * 2 ^ Z.of_nat (Nat.max n 4))
      by (rewrite Nat2Z.inj_succ, Z.pow_succ_r; lia).
    change (2 ^ Z.of_nat 4) with 16 in *.
    rewrite chk_i64_in by (unfold I64_MIN, I64_MAX; lia). apply okP_ret. split; auto. lia.
  - intros n x v k Hn [-> H1] Hk.
    assert (E : 2 ^ Z.of_nat (n + 4) = 16 * 2 ^ Z.of_nat n) by (rewrite Nat2Z.inj_add, Z.pow_add_r; lia).
    pose proof (pow2_le (n + 4) 62 ltac:(lia)). rewrite pow2_62 in *.
    assert (Z.abs (k * v) <= 7 * Z.abs v) by (rewrite Z.abs_mul; apply Z.mul_le_mono_nonneg_r; lia).
    rewrite chk_i64_in by (unfold I64_MIN, I64_MAX; lia). apply okP_ret. split; auto. lia.
  - intros n x y vx vy [-> H1] [-> H2]. apply okP_ret. split; auto. lia.
  - intros n x v [-> H1]. apply okP_ret. split; auto. lia.
Qed.
