(** Properties C32 and C35-C39: counting, keys, logging *)
From Coq Require Import String.
From Verif Require Import Base Backend Words Params Pbs Addition Signum Maximum
  Multiplication Squaring Rounding ScalarMul Arith NeuralNetwork Misc Keys
  Spec Symbolic BaseProofs RelProofs DepthProofs TraceProofs KeysProofs Instances Expr.
From Coq Require Import ZifyBool ZifyNat.

(* ------------------------------------------------------------------ *)
(** ** C32: reported bootstrap counts *)

(** Any call tree, from any state of the counter: every operation reports its
    own bootstraps, nested ones included ([op_counts]), the stack gets back to
    its height, and the enclosing operation is charged ([bump]). *)
Theorem C32_call_trees : forall f st rep,
  counter_run (mkCounter st rep) (flat f) = mkCounter (bump (boots f) st) (rep ++ op_counts f) /\
  boots f = length (filter (fun e => match e with EPbs => true | _ => false end) (flat f)).
Proof. intros. split; [apply counter_forest|apply boots_count]. Qed.

Lemma run_tree : forall B pc (env : list (ciphertext B)) e z, fst (run (arith_ct pc) env e) = Ok z ->
  exists f, snd (run (arith_ct pc) env e) = flat f.
Proof.
  intros B pc env e z E.
  assert (HE : Forall2 (Forall2 (wrel (fun (_ _ : ct B) => True))) env env).
  { induction env as [|x env IH]; constructor; [apply shape_rel; auto|]. clear.
    induction env; constructor; auto. apply shape_rel; auto. }
  destruct (run_rel (arel_ct (sim_shape B B) tp_tree pc (fun _ => I)) e _ _ HE) as [_ [_ H]].
  rewrite E in H. exact H.
Qed.
Lemma nn_tree : forall B pc nn (xs : list (ciphertext B)) zs, fst (nn_eval (arith_ct pc) nn xs) = Ok zs ->
  exists f, snd (nn_eval (arith_ct pc) nn xs) = flat f.
Proof.
  intros B pc nn xs z E.
  assert (HE : Forall2 (Forall2 (wrel (fun (_ _ : ct B) => True))) xs xs).
  { clear. induction xs; constructor; auto. apply shape_rel; auto. }
  destruct (nn_rel (arel_ct (sim_shape B B) tp_tree pc (fun _ => I)) nn _ _ HE) as [_ [_ H]].
  rewrite E in H. exact H.
Qed.

Definition pbs_count (t : list event) : nat :=
  length (filter (fun e => match e with EPbs => true | _ => false end) t).

(** every program and every network that finishes leaves the stack as it was *)
Theorem C32_programs : forall B pc (env : list (ciphertext B)) e z,
  fst (run (arith_ct pc) env e) = Ok z ->
  exists f, snd (run (arith_ct pc) env e) = flat f /\
    forall st rep, counter_run (mkCounter st rep) (snd (run (arith_ct pc) env e)) =
      mkCounter (bump (pbs_count (snd (run (arith_ct pc) env e))) st) (rep ++ op_counts f).
Proof.
  intros B pc env e z E. destruct (run_tree B pc env e z E) as [f Hf]. exists f. split; auto.
  intros st rep. rewrite Hf, counter_forest, boots_count. reflexivity.
Qed.
Theorem C32_networks : forall B pc nn (xs : list (ciphertext B)) zs,
  fst (nn_eval (arith_ct pc) nn xs) = Ok zs ->
  exists f, snd (nn_eval (arith_ct pc) nn xs) = flat f /\
    forall st rep, counter_run (mkCounter st rep) (snd (nn_eval (arith_ct pc) nn xs)) =
      mkCounter (bump (pbs_count (snd (nn_eval (arith_ct pc) nn xs))) st) (rep ++ op_counts f).
Proof.
  intros B pc nn xs z E. destruct (nn_tree B pc nn xs z E) as [f Hf]. exists f. split; auto.
  intros st rep. rewrite Hf, counter_forest, boots_count. reflexivity.
Qed.

(** the operations of the API, on any arguments *)
Inductive operation {B : backend} (pc : cloud) : M (ciphertext B) -> Prop :=
| op_add : forall x y, operation pc (pa_add x y)
| op_sub : forall x y, operation pc (pa_sub x y)
| op_add_noisy : forall x y, operation pc (pa_add_noisy x y)
| op_sub_noisy : forall x y, operation pc (pa_sub_noisy x y)
| op_add_const : forall x k, operation pc (pa_add_const pc x k)
| op_scalar_mul : forall k x, operation pc (pa_scalar_mul pc k x)
| op_sgn : forall x, operation pc (pa_sgn pc x)
| op_max : forall x y, operation pc (pa_max pc x y)
| op_relu : forall x, operation pc (pa_relu pc x)
| op_mul : forall x y, operation pc (pa_mul x y)
| op_squ : forall x, operation pc (pa_squ x)
| op_round : forall x p, operation pc (pa_round_at pc x p).

Lemma crefl : forall {B : backend} (x : ciphertext B), Forall2 (wrel (fun _ _ => True)) x x.
Proof. intros. apply shape_rel. reflexivity. Qed.
Lemma op_tree : forall {B : backend} pc (m : M (ciphertext B)), operation pc m ->
  exists m', m = analysed m' /\ (forall a, fst m' = Ok a -> exists f, snd m' = flat f).
Proof.
  intros B pc m H.
  assert (G : forall m' : M (ciphertext B), mrel tp_tree (Forall2 (wrel (fun _ _ => True))) m' m' ->
    forall a, fst m' = Ok a -> exists f, snd m' = flat f).
  { intros [o t] [_ [_ G]] a E. cbn [fst snd] in *. subst o. exact G. }
  pose (S := sim_shape B B). pose (HX := fun _ : (exists a a' : ct B, True) => I).
  destruct H; (eexists; split; [reflexivity|]); apply G;
    [apply (mr_add_sub S (X := tp_tree) HX)|apply (mr_add_sub S (X := tp_tree) HX)
    |apply (mr_add_sub S (X := tp_tree) HX)|apply (mr_add_sub S (X := tp_tree) HX)
    |apply (mr_add_const_impl S (X := tp_tree) HX)
    |apply (mr_scalar_mul_impl S (X := tp_tree) HX); [apply silent_wind|apply silent_asc_get|]
    |apply (mr_sgn_impl S (X := tp_tree) HX)|apply (mr_max_impl S (X := tp_tree) HX)|apply (mr_max_impl S (X := tp_tree) HX)
    |apply (mr_mul_impl S (X := tp_tree) HX); [apply (mr_mul_fuel S (X := tp_tree) HX)| |]
    |apply (mr_squ_impl S (X := tp_tree) HX); [apply (mr_squ_fuel S (X := tp_tree) HX)|]
    |apply (mr_round_impl S (X := tp_tree) HX)]; apply crefl.
Qed.

(** An operation that ends normally prints, last, the number of bootstraps it
    executed, and adds it to the enclosing operation's count. *)
Theorem C32_operations : forall B pc (m : M (ciphertext B)) z st rep,
  operation pc m -> fst m = Ok z ->
  exists nested, counter_run (mkCounter st rep) (snd m) =
    mkCounter (bump (pbs_count (snd m)) st) (rep ++ nested ++ [pbs_count (snd m)]).
Proof.
  intros B pc m z st rep H E. destruct (op_tree pc m H) as [[o t] [-> Hm]].
  destruct o as [a|e|e]; cbn in E; try discriminate.
  destruct (Hm a eq_refl) as [f Hf]. cbn [snd] in Hf. subst t.
  change (snd (analysed (Ok a, flat f))) with (flat (FOp f FNil)).
  unfold pbs_count. rewrite <- boots_count, counter_forest. exists (op_counts f).
  cbn [op_counts boots]. rewrite Nat.add_0_r. reflexivity.
Qed.

(** An operation that does not end normally leaves its entry on the stack:
    products of operands of more than 32 words *)
Theorem C32_failure_refuted : forall (B : backend) (x y : ciphertext B) st rep,
  (32 < Nat.max (length x) (length y))%nat ->
  (exists e, fst (pa_mul x y) = Panic e) /\
  counter_run (mkCounter st rep) (snd (pa_mul x y)) = mkCounter (0%nat :: st) rep.
Proof.
  intros B x y st rep Hx.
  assert (E : exists e, mul_impl (mul_fuel (Nat.max (length x) (length y))) x y = err_ e).
  { unfold mul_impl. set (x1 := x ++ _). set (y1 := y ++ _).
    assert (L : (32 < length x1)%nat) by (subst x1; rewrite app_length; unfold ct_triv; rewrite repeat_length; lia). clearbody x1 y1.
    replace (length x1 =? 0)%nat with false by lia. replace (length x1 =? 1)%nat with false by lia.
    match goal with |- context [if ?b then mul_schoolbook _ _ else _] => replace b with false by lia end.
    replace (length x1 <=? 32)%nat with false by lia. eexists. reflexivity. }
  destruct E as [e E]. unfold pa_mul. cbn [mul_fuel]. unfold ciphertext in *. rewrite E. split; [exists e|]; reflexivity.
Qed.

Example C32_example :
  (* two levels: an outer operation with 2 own bootstraps around an inner one with 3 *)
  let f := FOp (FBoot (FOp (FBoot (FBoot (FBoot FNil))) (FBoot FNil))) FNil in
  counter_run (mkCounter [7%nat] []) (flat f) = mkCounter [12%nat] [3%nat; 5%nat].
Proof. reflexivity. Qed.
(** a real one: the subtraction inside the maximum of two 2-word numbers, then the maximum *)
Example C32_max_example :
  let m := pa_max (cloud_100 true) (xencv [1; 0]) (xencv [0; 1]) in
  (reports (counter_run (mkCounter [] []) (snd m)), n_pbs (counter_run (mkCounter [5%nat] []) (snd m)), pbs_count (snd m)) = ([4%nat; 7%nat], [12%nat], 7%nat).
Proof. vm_compute. reflexivity. Qed.

(* ------------------------------------------------------------------ *)
(** ** C38: log level *)

(** Programs and networks that finish have properly nested blocks; as long as
    the nesting stays within 255, the level is restored and every block is
    logged at its own depth. *)
Theorem C38_restored : forall f lvl, 0 <= lvl -> lvl + nesting f <= 255 ->
  level_run lvl (flat f) = (lvl, block_levels lvl f).
Proof. intros f lvl H0 H. unfold level_run. rewrite level_forest; auto. Qed.
Theorem C38_programs : forall B pc (env : list (ciphertext B)) e z,
  fst (run (arith_ct pc) env e) = Ok z ->
  exists f, snd (run (arith_ct pc) env e) = flat f.
Proof. apply run_tree. Qed.
Theorem C38_networks : forall B pc nn (xs : list (ciphertext B)) zs,
  fst (nn_eval (arith_ct pc) nn xs) = Ok zs ->
  exists f, snd (nn_eval (arith_ct pc) nn xs) = flat f.
Proof. apply nn_tree. Qed.

(** n blocks inside one another *)
Fixpoint nested_blocks (n : nat) : forest :=
  match n with O => FNil | S n => FMeas (nested_blocks n) FNil end.
Lemma nested_flat : forall n, flat (nested_blocks n) = repeat EEnter n ++ repeat EExit n.
Proof.
  induction n; cbn; auto. rewrite IHn, <- app_assoc. f_equal. f_equal. symmetry. apply repeat_cons.
Qed.
Lemma enter_many : forall n lvl out, 0 <= lvl <= 255 ->
  fold_left level_step (repeat EEnter n) (lvl, out) = (Z.min 255 (lvl + Z.of_nat n), out).
Proof.
  induction n; intros lvl out H; [cbn; f_equal; lia|].
  change (repeat EEnter (S n)) with ([EEnter] ++ repeat EEnter n). rewrite fold_left_app.
  cbn [fold_left level_step]. destruct (lvl <? 255) eqn:E; rewrite IHn by lia; f_equal; lia.
Qed.
Lemma exit_many : forall n lvl out, 0 <= lvl <= 255 ->
  fst (fold_left level_step (repeat EExit n) (lvl, out)) = Z.max 0 (lvl - Z.of_nat n).
Proof.
  induction n; intros lvl out H; [cbn; lia|].
  change (repeat EExit (S n)) with ([EExit] ++ repeat EExit n). rewrite fold_left_app.
  cbn [fold_left level_step]. destruct (0 <? lvl) eqn:E; rewrite IHn by lia; lia.
Qed.
(** one block too many and the level is lost: exactly by how much *)
Theorem C38_saturation : forall n lvl, 0 <= lvl <= 255 ->
  fst (level_run lvl (flat (nested_blocks n))) = Z.max 0 (Z.min 255 (lvl + Z.of_nat n) - Z.of_nat n).
Proof.
  intros n lvl H. rewrite nested_flat. unfold level_run. rewrite fold_left_app, enter_many by lia.
  apply exit_many. lia.
Qed.
Theorem C38_saturation_refuted : forall n lvl, 0 < lvl <= 255 -> 255 < lvl + Z.of_nat n ->
  fst (level_run lvl (flat (nested_blocks n))) < lvl.
Proof. intros. rewrite C38_saturation; lia. Qed.
(** an early exit: a key file that cannot be read leaves the level one higher *)
Theorem C38_early_exit_refuted : forall K (decode : list Z -> option K) p o s c lvl, 0 <= lvl < 255 ->
  file_get (fs_files s) (filename_from_params p) = Some c -> decode c = None ->
  level_run lvl (priv_keys_events decode p o s) = (lvl + 1, []).
Proof.
  intros K decode p o s c lvl H E D. unfold priv_keys_events. rewrite E, D.
  destruct (negb (io_open o)); unfold level_run; cbn [fold_left level_step]; replace (lvl <? 255) with true by lia; reflexivity.
Qed.
(** a creation that succeeds restores it *)
Theorem C38_key_creation : forall K R gen encode (decode : list Z -> option K) p (rnd : R) o s k lvl, 0 <= lvl < 255 ->
  fst (priv_keys_new gen encode decode p rnd o s) = Ok k ->
  fst (level_run lvl (priv_keys_events decode p o s)) = lvl.
Proof.
  intros K R gen encode decode p rnd o s k lvl H E.
  unfold priv_keys_new, priv_keys_events in *. unfold level_run.
  destruct (file_get _ _) as [c|].
  - destruct (negb (io_open o)); [discriminate|]. destruct (decode c); [|discriminate].
    change [EEnter; EExit] with (flat (FMeas FNil FNil)). rewrite level_forest; cbn; lia.
  - destruct (negb (io_mkdir o)); [discriminate|]. destruct (negb (io_create o)); [discriminate|].
    destruct (io_write o); [discriminate|].
    change ([EEnter; EExit] ++ [EEnter; EExit]) with (flat (FMeas FNil (FMeas FNil FNil))). rewrite level_forest; cbn; lia.
Qed.

Example C38_example : level_run 3 (flat (FMeas (FBoot (FMeas FNil FNil)) (FMeas FNil FNil))) = (3, [4; 3; 3]) /\
  level_run 255 (flat (FMeas FNil FNil)) = (254, [254]).
Proof. split; reflexivity. Qed.

(* ------------------------------------------------------------------ *)
(** ** C39: log file *)

Lemma log_calls_inited : forall {msg} (ms : list (msg * bool)) l,
  log_calls (mkLog true (Some l)) ms = Ok (mkLog true (Some (l ++ map fst (filter snd ms)))).
Proof.
  intros msg ms. induction ms as [|[m ok] ms IH]; intros l; cbn; [rewrite app_nil_r; auto|].
  destruct ok; cbn; rewrite IH; [rewrite <- app_assoc|]; reflexivity.
Qed.
(** In a fresh process, whatever file an earlier one has left: after one or
    more calls the file holds the messages whose write succeeded, in order. *)
Theorem C39_contents : forall msg (previous : option (list msg)) m ms,
  log_calls (mkLog false previous) (m :: ms) = Ok (mkLog true (Some (map fst (filter snd (m :: ms))))).
Proof. intros msg previous [m ok] ms. cbn. destruct ok; rewrite log_calls_inited; reflexivity. Qed.
(** all writes succeed: exactly the messages *)
Theorem C39_all : forall msg (previous : option (list msg)) ms, ms <> [] ->
  log_calls (mkLog false previous) (map (fun m => (m, true)) ms) = Ok (mkLog true (Some ms)).
Proof.
  intros msg previous [|m ms] H; [tauto|]. cbn [map]. rewrite C39_contents. do 3 f_equal.
  change ((m, true) :: _) with (map (fun m => (m, true)) (m :: ms)).
  clear H. generalize (m :: ms). induction l; cbn; auto. f_equal; auto.
Qed.
(** no call: the earlier file is still there *)
Theorem C39_none : forall msg (previous : option (list msg)), log_calls (mkLog false previous) [] = Ok (mkLog false previous).
Proof. reflexivity. Qed.
(** the file is deleted from outside between two calls: the next one panics *)
Theorem C39_deleted_refuted : forall msg (m : msg) ok ms, log_calls (mkLog true None) ((m, ok) :: ms) = Panic E_io.
Proof. reflexivity. Qed.
Example C39_example :
  log_calls (mkLog false (Some [9; 9])) [(1, true); (2, false); (3, true)] = Ok (mkLog true (Some [1; 3])).
Proof. reflexivity. Qed.

(* ------------------------------------------------------------------ *)
(** ** C35-C37: keys *)

Section Keys.
Context {K R : Type} (gen_keys : tfhe_params -> R -> K) (encode : K -> list Z) (decode : list Z -> option K).
Notation create := (userovo_new gen_keys encode decode).
Notation stored s p := (file_get (fs_files s) (filename_from_params p)).

Theorem C35_gate : forall p rnd o s, quad_weight p < 22 -> create p rnd o s = (Err E_quad_weight, s).
Proof. intros p rnd o s H. unfold userovo_new, MIN_QUAD_WEIGHT. replace (quad_weight p <? 22) with true by lia. reflexivity. Qed.
(** success, exactly *)
Theorem C35_success : forall p rnd o s k, 22 <= quad_weight p ->
  (fst (create p rnd o s) = Ok k <->
   (stored s p = None /\ io_mkdir o = true /\ io_create o = true /\ io_write o = None /\
      k = gen_keys (concrete_pars p) rnd) \/
   (exists c, stored s p = Some c /\ io_open o = true /\ decode c = Some k)).
Proof.
  intros p rnd o s k H. unfold userovo_new, MIN_QUAD_WEIGHT. replace (quad_weight p <? 22) with false by lia.
  unfold priv_keys_new. destruct (stored s p) as [c|].
  - destruct (io_open o); cbn [negb].
    + destruct (decode c) as [k'|] eqn:D; cbn; split.
      * intros E. injection E as ->. eauto.
      * intros [[? _]|[c' [E [_ D']]]]; [discriminate|]. congruence.
      * discriminate.
      * intros [[? _]|[c' [E [_ D']]]]; [discriminate|]. congruence.
    + cbn. split; [discriminate|]. intros [[? _]|[c' [_ [? _]]]]; discriminate.
  - destruct (io_mkdir o); cbn [negb]; [destruct (io_create o); cbn [negb]; [destruct (io_write o) as [n|]|]|]; cbn;
      split; try discriminate; try (intros [[_ [? [? [? _]]]]|[c' [? _]]]; discriminate).
    + intros E. left. destruct (io_flush o); cbn in E; injection E as <-; auto.
    + intros [[_ [_ [_ [_ ->]]]]|[c' [? _]]]; [|discriminate]. destruct (io_flush o); reflexivity.
Qed.
(** it never panics, and a failure after the gate is an io or decoding error *)
Theorem C35_failure : forall p rnd o s, 22 <= quad_weight p ->
  (exists k, fst (create p rnd o s) = Ok k) \/ fst (create p rnd o s) = Err E_io \/ fst (create p rnd o s) = Err E_decode.
Proof.
  intros p rnd o s H. unfold userovo_new, MIN_QUAD_WEIGHT. replace (quad_weight p <? 22) with false by lia.
  unfold priv_keys_new. destruct (stored s p) as [c|].
  - destruct (negb (io_open o)); auto. destruct (decode c); cbn; eauto.
  - destruct (negb _); auto. destruct (negb _); auto. destruct (io_write o); auto. destruct (io_flush o); cbn; eauto.
Qed.

(** C36. A later creation: other randomness, other operating-system answers,
    and in between, other files may be written. *)
Inductive later (p : params) : fs -> fs -> Prop :=
| later_refl : forall s, later p s s
| later_create : forall s s' q rnd o, later p s s' -> later p s (snd (create q rnd o s'))
| later_other : forall s s' n c, later p s s' -> n <> filename_from_params p ->
    later p s (mkFs (fs_dir s') (file_put (fs_files s') n c)).

Lemma create_keeps : forall p q rnd o s c, stored s p = Some c -> stored (snd (create q rnd o s)) p = Some c.
Proof.
  intros p q rnd o s c H. unfold userovo_new. destruct (_ <? _); [exact H|]. unfold priv_keys_new.
  destruct (stored s q) as [c'|] eqn:E.
  - destruct (negb _); [exact H|]. destruct (decode c'); exact H.
  - assert (N : filename_from_params p <> filename_from_params q) by congruence.
    destruct (negb _); [exact H|]. destruct (negb _); [exact H|].
    destruct (io_write o); [|destruct (io_flush o)]; cbn [snd fs_files]; rewrite get_put_other; auto.
Qed.
Lemma later_keeps : forall p s s' c, later p s s' -> stored s p = Some c -> stored s' p = Some c.
Proof.
  intros p s s' c H. induction H; intros E; auto.
  - apply create_keeps; auto.
  - cbn [fs_files]. rewrite get_put_other; auto.
Qed.

Theorem C36_persist : (forall k, decode (encode k) = Some k) -> 
  forall p rnd o s k, fst (create p rnd o s) = Ok k -> io_flush o = None ->
  forall s', later p (snd (create p rnd o s)) s' ->
  forall rnd' o', io_open o' = true -> create p rnd' o' s' = (Ok k, s').
Proof.
  intros HC p rnd o s k E HF s' HL rnd' o' HO.
  assert (G : exists c, stored (snd (create p rnd o s)) p = Some c /\ decode c = Some k).
  { revert E. clear HL. unfold userovo_new. destruct (_ <? _); [discriminate|]. unfold priv_keys_new.
    destruct (stored s p) as [c|] eqn:S0.
    - destruct (negb _); [discriminate|]. destruct (decode c) eqn:D; [|discriminate].
      cbn. intros E. injection E as ->. eauto.
    - destruct (negb _); [discriminate|]. destruct (negb _); [discriminate|]. destruct (io_write o); [discriminate|].
      rewrite HF. cbn. intros E. injection E as <-. rewrite get_put_same. eauto. }
  destruct G as [c [G D]]. pose proof (later_keeps _ _ _ _ HL G) as G'.
  revert E. unfold userovo_new. destruct (_ <? _); [discriminate|]. intros _. unfold priv_keys_new.
  rewrite G', HO, D. reflexivity.
Qed.
(** The error of the last flush is lost (the BufWriter is dropped): creation
    succeeds, and no later creation ever gives those keys, or any. *)
Theorem C36_lost_flush_refuted : forall p rnd o s n, 22 <= quad_weight p ->
  stored s p = None -> io_mkdir o = true -> io_create o = true -> io_write o = None -> io_flush o = Some n ->
  decode (firstn n (encode (gen_keys (concrete_pars p) rnd))) = None ->
  fst (create p rnd o s) = Ok (gen_keys (concrete_pars p) rnd) /\
  forall s', later p (snd (create p rnd o s)) s' -> forall rnd' o' k, fst (create p rnd' o' s') <> Ok k.
Proof.
  intros p rnd o s n HQ HS Hm Hc Hw Hf D.
  assert (E : create p rnd o s = (Ok (gen_keys (concrete_pars p) rnd),
    mkFs true (file_put (fs_files s) (filename_from_params p) (firstn n (encode (gen_keys (concrete_pars p) rnd)))))).
  { unfold userovo_new, MIN_QUAD_WEIGHT. replace (quad_weight p <? 22) with false by lia.
    unfold priv_keys_new. rewrite HS, Hm, Hc, Hw, Hf. reflexivity. }
  rewrite E. split; [reflexivity|]. cbn [snd]. intros s' HL rnd' o' k Ek.
  pose proof (later_keeps _ _ _ _ HL (get_put_same _ _ _)) as G.
  apply C35_success in Ek; auto. destruct Ek as [[Ek _]|[c [Ek [_ Dk]]]]; congruence.
Qed.

(** C37. Which parameters share a key file, exactly. *)
Theorem C37_same_file : forall p q, filename_from_params p = filename_from_params q <->
  let c := concrete_pars p in let d := concrete_pars q in
  lwe_dimension c = lwe_dimension d /\ polynomial_size c = polynomial_size d /\
  pbs_base_log c = pbs_base_log d /\ pbs_level c = pbs_level d /\
  ks_base_log c = ks_base_log d /\ ks_level c = ks_level d.
Proof. intros p q. split; [apply filename_fields|]. cbn. intros (H1 & H2 & H3 & H4 & H5 & H6). apply filename_only; auto. Qed.
(** Then the second creation returns the keys generated for the first. *)
Theorem C37_collision_refuted : (forall k, decode (encode k) = Some k) ->
  forall p q, 22 <= quad_weight p -> 22 <= quad_weight q ->
  filename_from_params p = filename_from_params q -> forall rnd rnd' s, stored s p = None ->
  fst (create q rnd' io_good (snd (create p rnd io_good s))) = Ok (gen_keys (concrete_pars p) rnd).
Proof.
  intros HC p q Hp Hq HN rnd rnd' s HS. apply C35_success; auto. right.
  exists (encode (gen_keys (concrete_pars p) rnd)). split; [|auto].
  unfold userovo_new, MIN_QUAD_WEIGHT. replace (quad_weight p <? 22) with false by lia. unfold priv_keys_new.
  rewrite HS. cbn [io_mkdir io_create io_write io_flush io_good negb snd fs_files]. rewrite HN. apply get_put_same.
Qed.
(** otherwise creations do not disturb each other *)
Theorem C37_separate : forall p q rnd o s, filename_from_params p <> filename_from_params q ->
  stored (snd (create q rnd o s)) p = stored s p.
Proof.
  intros p q rnd o s H. unfold userovo_new. destruct (_ <? _); [reflexivity|]. unfold priv_keys_new.
  destruct (stored s q) as [c'|].
  - destruct (negb _); [reflexivity|]. destruct (decode c'); reflexivity.
  - destruct (negb _); [reflexivity|]. destruct (negb _); [reflexivity|].
    destruct (io_write o); [|destruct (io_flush o)]; cbn [snd fs_files]; rewrite get_put_other; auto.
Qed.

(** Crash points. With no file yet, every state left behind is one of: before
    the file was created (a later creation then generates new keys), or the
    file with a prefix of the encoding. *)
Theorem C37_crash_states : forall p rnd s s', stored s p = None -> In s' (crash_states gen_keys encode p rnd s) ->
  (stored s' p = None /\ fs_files s' = fs_files s) \/
  exists n, stored s' p = Some (firstn n (encode (gen_keys (concrete_pars p) rnd))).
Proof.
  intros p rnd s s' H. unfold crash_states. rewrite H. intros [<-|[<-|HI]]; auto.
  apply in_map_iff in HI. destruct HI as [n [<- _]]. right. exists n. cbn. apply get_put_same.
Qed.
(** No state is missing: what a call leaves behind, whatever the file system answers, is among them; and the first
    is the state before the call, the last the state after one in which nothing fails. *)
Theorem C37_crash_complete : forall p rnd s,
  (forall o, In (snd (create p rnd o s)) (crash_states gen_keys encode p rnd s)) /\
  hd_error (crash_states gen_keys encode p rnd s) = Some s /\
  (22 <= quad_weight p -> last (crash_states gen_keys encode p rnd s) s = snd (create p rnd io_good s)).
Proof.
  intros p rnd s. unfold crash_states, userovo_new, priv_keys_new, MIN_QUAD_WEIGHT.
  destruct (stored s p) as [c|].
  - split; [|split]; [|reflexivity|].
    + intros o. left. destruct (_ <? _); [reflexivity|]. destruct (negb _); [reflexivity|]. destruct (decode c); reflexivity.
    + intros Hq. replace (quad_weight p <? 22) with false by lia. cbn [io_open io_good negb last]. destruct (decode c); reflexivity.
  - set (k := gen_keys (concrete_pars p) rnd). set (put := fun c => mkFs true (file_put (fs_files s) (filename_from_params p) c)).
    assert (I : forall n, In (put (firstn n (encode k))) (map (fun n => put (firstn n (encode k))) (seq 0 (S (length (encode k)))))).
    { intros n. apply in_map_iff. exists (Nat.min n (length (encode k))). split; [|apply in_seq; lia].
      destruct (Nat.le_ge_cases n (length (encode k))) as [L|L]; [rewrite Nat.min_l by exact L; reflexivity|].
      rewrite Nat.min_r by exact L. rewrite firstn_all, firstn_all2 by exact L. reflexivity. }
    assert (F : put (encode k) = put (firstn (length (encode k)) (encode k))) by (rewrite firstn_all; reflexivity).
    split; [|split]; [|reflexivity|].
    + intros o. destruct (_ <? _); [left; reflexivity|]. destruct (negb (io_mkdir o)); [left; reflexivity|].
      destruct (negb (io_create o)); [right; left; reflexivity|]. right. right.
      destruct (io_write o) as [n|]; [exact (I n)|]. destruct (io_flush o) as [n|]; [exact (I n)|].
      cbn [snd fs_files]. change (In (put (encode k)) (map (fun n => put (firstn n (encode k))) (seq 0 (S (length (encode k)))))).
      rewrite F. apply I.
    + intros Hq. replace (quad_weight p <? 22) with false by lia. cbn [io_mkdir io_create io_write io_flush io_good negb snd fs_files].
      rewrite seq_S, map_app. cbn [map Nat.add]. rewrite !app_comm_cons, last_last. exact (eq_sym F).
Qed.
Theorem C37_early_crash : forall p rnd rnd' s s', 22 <= quad_weight p -> stored s' p = None ->
  In s' (crash_states gen_keys encode p rnd s) ->
  fst (create p rnd' io_good s') = Ok (gen_keys (concrete_pars p) rnd').
Proof. intros. apply C35_success; auto. left. auto 6. Qed.
(** After a crash in the middle of the export (no proper prefix of an encoding
    decodes, as with bincode), no creation with these parameters ever
    succeeds again, and the broken file is never replaced. *)
Theorem C37_poisoned_refuted :
  (forall k n, (n < length (encode k))%nat -> decode (firstn n (encode k)) = None) ->
  forall p rnd s n, 22 <= quad_weight p -> stored s p = None ->
  (n < length (encode (gen_keys (concrete_pars p) rnd)))%nat ->
  exists s', In s' (crash_states gen_keys encode p rnd s) /\
    forall s'', later p s' s'' ->
      stored s'' p = Some (firstn n (encode (gen_keys (concrete_pars p) rnd))) /\
      forall rnd' o k, fst (create p rnd' o s'') <> Ok k.
Proof.
  intros HP p rnd s n HQ HS HN. set (k0 := gen_keys (concrete_pars p) rnd) in *.
  exists (mkFs true (file_put (fs_files s) (filename_from_params p) (firstn n (encode k0)))). split.
  - unfold crash_states. rewrite HS. right. right. apply in_map_iff. exists n. split; auto.
    apply in_seq. subst k0. lia.
  - intros s'' HL. pose proof (later_keeps _ _ _ _ HL (get_put_same _ _ _)) as G. split; [exact G|].
    intros rnd' o k E. apply C35_success in E; auto. destruct E as [[E _]|[c [E [_ D]]]]; [congruence|].
    rewrite G in E. injection E as <-. rewrite HP in D; auto. discriminate.
Qed.
(** the same without a crash, if writing fails part-way *)
Theorem C37_failed_write_refuted :
  (forall k n, (n < length (encode k))%nat -> decode (firstn n (encode k)) = None) ->
  forall p rnd s n o, 22 <= quad_weight p -> stored s p = None ->
  io_mkdir o = true -> io_create o = true -> io_write o = Some n ->
  (n < length (encode (gen_keys (concrete_pars p) rnd)))%nat ->
  fst (create p rnd o s) = Err E_io /\
  forall s'', later p (snd (create p rnd o s)) s'' -> forall rnd' o' k, fst (create p rnd' o' s'') <> Ok k.
Proof.
  intros HP p rnd s n o HQ HS Hm Hc Hw HN.
  assert (E : create p rnd o s = (Err E_io,
    mkFs true (file_put (fs_files s) (filename_from_params p) (firstn n (encode (gen_keys (concrete_pars p) rnd)))))).
  { unfold userovo_new, MIN_QUAD_WEIGHT. replace (quad_weight p <? 22) with false by lia.
    unfold priv_keys_new. rewrite HS, Hm, Hc, Hw. reflexivity. }
  rewrite E. split; [reflexivity|]. cbn [snd]. intros s'' HL rnd' o' k Ek.
  pose proof (later_keeps _ _ _ _ HL (get_put_same _ _ _)) as G.
  apply C35_success in Ek; auto. destruct Ek as [[Ek _]|[c [Ek [_ D]]]]; [congruence|].
  rewrite G in Ek. injection Ek as <-. rewrite HP in D; auto. discriminate.
Qed.
End Keys.

(** A codec as in bincode: length first. Keys are lists, generated from the
    GLWE dimension and the randomness. *)
Definition enc_ex (k : list Z) : list Z := Z.of_nat (length k) :: k.
Definition dec_ex (c : list Z) : option (list Z) :=
  match c with
  | [] => None
  | n :: k => if n =? Z.of_nat (length k) then Some k else None
  end.
Definition gen_ex (c : tfhe_params) (rnd : Z) : list Z := repeat rnd (glwe_dimension c).
Lemma codec_ex : forall k, dec_ex (enc_ex k) = Some k.
Proof. intros k. cbn. rewrite Z.eqb_refl. reflexivity. Qed.
Lemma prefix_ex : forall k n, (n < length (enc_ex k))%nat -> dec_ex (firstn n (enc_ex k)) = None.
Proof.
  intros k [|n] H; [reflexivity|]. unfold enc_ex in *. cbn [firstn dec_ex length] in *. rewrite firstn_length.
  replace (_ =? _) with false by lia. reflexivity.
Qed.
Definition par_ex (g : nat) (m qw : Z) : params := mkParams (mkTfheParams 742 g 2048 0 0 23 1 3 5 m 1) 5 qw.
Definition fs0 : fs := mkFs false [].
Example C35_example : forall rnd,
  userovo_new gen_ex enc_ex dec_ex (par_ex 3 32 21) rnd io_good fs0 = (Err E_quad_weight, fs0) /\
  fst (userovo_new gen_ex enc_ex dec_ex (par_ex 3 32 22) rnd io_good fs0) = Ok [rnd; rnd; rnd].
Proof. split; reflexivity. Qed.
Example C36_example :
  let c p := userovo_new gen_ex enc_ex dec_ex p in
  let s1 := snd (c (par_ex 3 32 100) 5 io_good fs0) in
  let s2 := mkFs (fs_dir s1) (file_put (fs_files s1) "other.key" [1; 2]) in
  later gen_ex enc_ex dec_ex (par_ex 3 32 100) s1 s2 /\ c (par_ex 3 32 100) 6 io_good s2 = (Ok [5; 5; 5], s2).
Proof.
  cbv zeta. split; [|reflexivity]. apply later_other; [apply later_refl|]. discriminate.
Qed.
Example C36_lost_flush_example : forall s',
  let o := mkIo true true None (Some 2%nat) true in
  let s1 := snd (userovo_new gen_ex enc_ex dec_ex (par_ex 3 32 100) 5 o fs0) in
  later gen_ex enc_ex dec_ex (par_ex 3 32 100) s1 s' ->
  forall rnd o' k, fst (userovo_new gen_ex enc_ex dec_ex (par_ex 3 32 100) rnd o' s') <> Ok k.
Proof. intros s' o s1 H. eapply C36_lost_flush_refuted with (n := 2%nat) (s := fs0) (rnd := 5) (o := o); try reflexivity; [|exact H]. cbn. lia. Qed.
(** other GLWE dimension, other message modulus, other noise: same file, and
    keys of the wrong size *)
Example C37_collision_example :
  fst (userovo_new gen_ex enc_ex dec_ex (par_ex 2 16 100) 6 io_good
        (snd (userovo_new gen_ex enc_ex dec_ex (par_ex 3 32 100) 5 io_good fs0))) = Ok [5; 5; 5].
Proof. reflexivity. Qed.
Example C37_poisoned_example :
  let s1 := mkFs true [(filename_from_params (par_ex 3 32 100), [3; 5])] in
  In s1 (crash_states gen_ex enc_ex (par_ex 3 32 100) 5 fs0) /\
  userovo_new gen_ex enc_ex dec_ex (par_ex 3 32 100) 6 io_good s1 = (Err E_decode, s1).
Proof. cbv zeta. split; [|reflexivity]. do 4 right. left. reflexivity. Qed.

(** before the call, directory made, then a file of 0 .. 4 numbers *)
Example C37_crash_example : map (fun s => map snd (fs_files s)) (crash_states gen_ex enc_ex (par_ex 3 32 100) 5 fs0) =
  [[]; []; [[]]; [[3]]; [[3; 5]]; [[3; 5; 5]]; [[3; 5; 5; 5]]].
Proof. reflexivity. Qed.

Print Assumptions C32_call_trees.
Print Assumptions C32_programs.
Print Assumptions C32_networks.
Print Assumptions C32_operations.
Print Assumptions C32_failure_refuted.
Print Assumptions C38_restored.
Print Assumptions C38_programs.
Print Assumptions C38_networks.
Print Assumptions C38_saturation.
Print Assumptions C38_saturation_refuted.
Print Assumptions C38_early_exit_refuted.
Print Assumptions C38_key_creation.
Print Assumptions C39_contents.
Print Assumptions C39_all.
Print Assumptions C39_none.
Print Assumptions C39_deleted_refuted.
Print Assumptions C35_gate.
Print Assumptions C35_success.
Print Assumptions C35_failure.
Print Assumptions C36_persist.
Print Assumptions C36_lost_flush_refuted.
Print Assumptions C37_same_file.
Print Assumptions C37_collision_refuted.
Print Assumptions C37_separate.
Print Assumptions C37_crash_states.
Print Assumptions C37_crash_complete.
Print Assumptions C37_early_crash.
Print Assumptions C37_poisoned_refuted.
Print Assumptions C37_failed_write_refuted.
