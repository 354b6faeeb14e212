(** More about C63: exactly which networks a build with overflow checks can evaluate *)
From Verif Require Import Base Backend Words Params Encryption Addition Naf Asc AscTable ScalarMul Signum Maximum Rounding
  Arith Expr NeuralNetwork DemoNets Demos Spec BaseProofs GrowthProofs CountProofs ArithProofs Contract Instances Properties1 Properties4 Properties9 Properties24.
From Verif Require Properties18.
From Coq Require Import ZifyBool ZifyNat.

(** ** Spec *)
(** The weights that a layer uses: a perceptron multiplies as many of its weights as the layer has
    inputs; the next layer has as many inputs as this one has perceptrons. *)
Fixpoint used (n : nat) (ls : list layer) : list Z :=
  match ls with
  | [] => []
  | l :: t => flat_map (fun p => firstn n (p_w p)) l ++ used (length l) t
  end.

(** ** a network without the weights that it does not use *)
Definition cut_layer (n : nat) (l : layer) : layer := map (fun p => mkPerceptron (p_t p) (firstn n (p_w p)) (p_b p)) l.
Fixpoint cut_layers (n : nat) (ls : list layer) : list layer :=
  match ls with
  | [] => []
  | l :: t => cut_layer n l :: cut_layers (length l) t
  end.
Lemma combine_cut : forall X Y (w : list X) (a : list Y), combine (firstn (length a) w) a = combine w a.
Proof. intros X Y w. induction w as [|x w IH]; intros [|y a]; cbn [combine length firstn]; auto. f_equal. apply IH. Qed.
Lemma mapM_map : forall X Y R (g : X -> Y) (f : Y -> M R) l, mapM f (map g l) = mapM (fun x => f (g x)) l.
Proof. intros X Y R g f l. induction l as [|x l IH]; [reflexivity|]. cbn [map mapM]. rewrite IH. reflexivity. Qed.
Lemma eval_cut : forall T (A : arith T) l (a : list T), eval_layer A (cut_layer (length a) l) a = eval_layer A l a.
Proof.
  intros T A l a. unfold eval_layer, cut_layer. rewrite mapM_map. apply Properties18.mapM_same. intros p _.
  unfold eval_perceptron, max_pool, affine_pool. cbn [p_t p_w p_b]. rewrite combine_cut. reflexivity.
Qed.
Lemma layers_cut : forall T (A : arith T) ls (st : list T * list T),
  foldM (fun st l => measure (ol <- eval_layer A l (fst st) ;; ret (ol, ol))) (cut_layers (length (fst st)) ls) st =
  foldM (fun st l => measure (ol <- eval_layer A l (fst st) ;; ret (ol, ol))) ls st.
Proof.
  intros T A ls. induction ls as [|l ls IH]; intros st; cbn [cut_layers foldM]; [reflexivity|]. rewrite eval_cut.
  apply Properties18.bind_same. intros st' E. rewrite <- IH. f_equal. f_equal.
  rewrite fst_measure, fst_bind in E. destruct (fst (eval_layer A l (fst st))) as [ol|e|e] eqn:Eo; try discriminate.
  cbn [fst ret] in E. injection E as <-. cbn [fst]. symmetry. unfold eval_layer in Eo. exact (mapM_len _ _ _ _ _ Eo).
Qed.
Lemma nn_cut : forall T (A : arith T) nn (xs : list T),
  nn_eval A (mkNN (cut_layers (length xs) (nn_layers nn)) (nn_inputs nn)) xs = nn_eval A nn xs.
Proof. intros. unfold nn_eval, eval_layers. cbn [nn_layers]. rewrite <- (layers_cut T A (nn_layers nn) (xs, [])). reflexivity. Qed.
Lemma used_cut : forall (P : Z -> Prop) ls n, (forall w, In w (used n ls) -> P w) ->
  Forall (Forall (fun p => Forall P (p_w p))) (cut_layers n ls).
Proof.
  intros P ls. induction ls as [|l ls IH]; intros n H; cbn [cut_layers used] in *; constructor.
  - apply Forall_forall. intros p Hp. unfold cut_layer in Hp. apply in_map_iff in Hp. destruct Hp as [q [<- Hq]]. cbn [p_w].
    apply Forall_forall. intros w Hw. apply H, in_or_app. left. apply in_flat_map. exists q. auto.
  - apply IH. intros w Hw. apply H, in_or_app. right. exact Hw.
Qed.
Lemma firstn_Forall : forall X (P : X -> Prop) n l, Forall P l -> Forall P (firstn n l).
Proof. intros X P n l H. rewrite Forall_forall in *. intros x Hx. apply H. rewrite <- (firstn_skipn n l). apply in_or_app. left. exact Hx. Qed.
Lemma consts_cut : forall nn n, nn_consts nn -> nn_consts (mkNN (cut_layers n (nn_layers nn)) (nn_inputs nn)).
Proof.
  intros nn n H. unfold nn_consts in *. cbn [nn_layers]. revert n. induction H as [|l ls Hl _ IH]; intros n; cbn [cut_layers]; constructor; auto.
  apply Forall_forall. intros p Hp. unfold cut_layer in Hp. apply in_map_iff in Hp. destruct Hp as [q [<- Hq]]. cbn [p_w p_b].
  rewrite Forall_forall in Hl. destruct (Hl q Hq). split; [apply firstn_Forall; assumption|assumption].
Qed.

Section Networks.
Context {B : backend}.

(** Only the weights in use matter. *)
Theorem C63_networks_used : forall pc nn (xs : list (ciphertext B)), (1 <= bit_precision (cparams pc) <= 31)%nat -> nn_consts nn ->
  (forall w, In w (used (length xs) (nn_layers nn)) -> ~ refused w) ->
  nn_eval (arith_ct pc) nn xs = nn_eval (arith_ct (release pc)) nn xs.
Proof.
  intros pc nn xs Hb Hc H. rewrite <- (nn_cut _ (arith_ct pc)), <- (nn_cut _ (arith_ct (release pc))).
  apply C63_networks; [exact Hb|apply consts_cut, Hc|]. cbn [nn_layers]. apply used_cut. exact H.
Qed.

(** ** refused weights *)
Lemma sc_refused : forall pc k (x : ciphertext B), ovf pc = true -> - 2^31 <= k < 2^31 ->
  safeP (pa_scalar_mul pc k x) (fun _ => ~ refused k).
Proof. intros pc k x Ho Hk z E R. rewrite (proj1 (C63_scalar_mul B pc k x Ho Hk) R) in E. discriminate. Qed.
Lemma perceptron_accepts : forall pc p (xs : list (ciphertext B)), ovf pc = true -> Forall (fun w => - 2^31 <= w < 2^31) (p_w p) ->
  safeP (eval_perceptron (arith_ct pc) xs p) (fun _ => forall w, In w (firstn (length xs) (p_w p)) -> ~ refused w).
Proof.
  intros pc p xs Ho Hw. rewrite Forall_forall in Hw.
  eapply safeP_conseq with (P := fun _ => Forall (fun wa => ~ refused (fst wa)) (combine (p_w p) xs));
    [|intros z H; rewrite <- combine_fst_firstn; apply Forall_forall, Forall_map; exact H].
  assert (Ha : safeP (affine_pool (arith_ct pc) (p_w p) xs (p_b p))
                (fun _ => Forall (fun wa => ~ refused (fst wa)) (combine (p_w p) xs))).
  { unfold affine_pool. eapply safeP_bind; [apply safe_foldM_all with (P := fun wa => ~ refused (fst wa))|].
    - intros s [w a] Hin. cbn [arith_ct a_scalar_mul a_add fst snd].
      eapply safeP_bind; [apply sc_refused; auto; apply Hw; eapply in_combine_l; eauto|].
      intros z Hz y _. exact Hz.
    - intros z Hz y _. exact Hz. }
  unfold eval_perceptron. apply safeP_measure. destruct (p_t p); auto.
  - unfold max_pool. eapply safeP_bind.
    + apply (safeP_mapM _ _ _ (fun (wa : Z * ciphertext B) _ => ~ refused (fst wa))).
      intros [w a] Hin. cbn [arith_ct a_scalar_mul fst snd].
      apply sc_refused; auto. apply Hw. eapply in_combine_l; eauto.
    + intros zs Hz y _. clear - Hz. induction Hz; constructor; auto.
  - eapply safeP_bind; [apply Ha|]. intros z Hz y _. exact Hz.
Qed.
Lemma layers_accept : forall pc ls (st : list (ciphertext B) * list (ciphertext B)), ovf pc = true ->
  Forall (Forall (fun p => Forall (fun w => - 2^31 <= w < 2^31) (p_w p) /\ - 2^63 < p_b p < 2^63)) ls ->
  safeP (foldM (fun st l => measure (ol <- eval_layer (arith_ct pc) l (fst st) ;; ret (ol, ol))) ls st)
    (fun _ => forall w, In w (used (length (fst st)) ls) -> ~ refused w).
Proof.
  intros pc ls st Ho H. revert st. induction H as [|l ls Hl _ IH]; intros st; cbn [foldM used].
  - apply safeP_ret. intros w [].
  - eapply safeP_bind with (P := fun st' => length (fst st') = length l /\
      forall w, In w (flat_map (fun p => firstn (length (fst st)) (p_w p)) l) -> ~ refused w).
    + apply safeP_measure. eapply safeP_bind with (P := fun ol => length ol = length l /\
        forall w, In w (flat_map (fun p => firstn (length (fst st)) (p_w p)) l) -> ~ refused w).
      * intros ol E. split; [unfold eval_layer in E; exact (mapM_len _ _ _ _ _ E)|].
        assert (S : safeP (eval_layer (arith_ct pc) l (fst st))
          (Forall2 (fun p _ => forall w, In w (firstn (length (fst st)) (p_w p)) -> ~ refused w) l)).
        { unfold eval_layer. apply safeP_mapM. intros p Hp. apply perceptron_accepts; auto.
          rewrite Forall_forall in Hl. apply Hl, Hp. }
        specialize (S ol E). intros w Hw. apply in_flat_map in Hw. destruct Hw as [p [Hp Hw]].
        clear - S Hp Hw. induction S; [contradiction|]. destruct Hp as [->|Hp]; auto.
      * intros ol [E1 E2]. apply safeP_ret. split; assumption.
    + intros st' [E1 E2]. eapply safeP_conseq; [apply IH|]. intros z Hz w Hw. apply in_app_or in Hw. destruct Hw as [Hw|Hw]; [auto|].
      apply Hz. rewrite E1. exact Hw.
Qed.
(** A network that uses a refused weight never gets to its end. *)
Theorem C63_networks_refused : forall pc nn w (xs : list (ciphertext B)) zs, ovf pc = true -> nn_consts nn ->
  In w (used (length xs) (nn_layers nn)) -> refused w -> fst (nn_eval (arith_ct pc) nn xs) <> Ok zs.
Proof.
  intros pc nn w xs zs Ho Hc Hw R E. revert zs E.
  assert (S : safeP (nn_eval (arith_ct pc) nn xs) (fun _ => forall w, In w (used (length xs) (nn_layers nn)) -> ~ refused w)).
  { unfold nn_eval. eapply safeP_bind with (P := fun _ => forall w, In w (used (length xs) (nn_layers nn)) -> ~ refused w).
    - apply safeP_measure. exact (layers_accept pc (nn_layers nn) (xs, []) Ho Hc).
    - intros z Hz y _. exact Hz. }
  intros zs E. exact (S zs E w Hw R).
Qed.
End Networks.

(** Together: with overflow checks a network panics if and only if it uses a refused weight. *)
Theorem C63_networks_exactly : forall B qw (C : contract B qw) pc nn (xs : list (ciphertext B)) vs,
  quad_weight (cparams pc) = qw -> bit_precision (cparams pc) = 5%nat -> asc_12 pc = shipped_asc -> ovf pc = true ->
  nn_consts nn -> Forall2 (enc_val C) xs vs ->
  (fst (nn_eval (arith_ct pc) nn xs) = Panic P_overflow <-> exists w, In w (used (length xs) (nn_layers nn)) /\ refused w) /\
  (fst (nn_eval (arith_ct pc) nn xs) <> Panic P_overflow ->
   nn_eval (arith_ct pc) nn xs = nn_eval (arith_ct (release pc)) nn xs /\
   exists zs, fst (nn_eval (arith_ct pc) nn xs) = Ok zs /\ Forall2 (enc_val C) zs (layers_spec (nn_layers nn) vs)).
Proof.
  intros B qw C pc nn xs vs Hq Hp HT Ho Hc V.
  pose proof (C28_network C pc nn xs vs Hq Hp HT Hc V) as R.
  assert (REF : (exists w, In w (used (length xs) (nn_layers nn)) /\ refused w) -> fst (nn_eval (arith_ct pc) nn xs) = Panic P_overflow).
  { intros [w [Hw Rw]]. destruct (fst (nn_eval (arith_ct pc) nn xs)) as [zs|e|e] eqn:E.
    - exfalso. exact (C63_networks_refused pc nn w xs zs Ho Hc Hw Rw E).
    - contradiction.
    - destruct R as [_ ->]. reflexivity. }
  (* whether some weight is refused is decided by running the recoding *)
  assert (RNG : forall w, In w (used (length xs) (nn_layers nn)) -> - 2^31 <= w < 2^31).
  { apply Forall_forall. clear - Hc. unfold nn_consts in Hc. generalize (length xs) as n. induction Hc as [|l ls Hl _ IH]; intros n; cbn [used]; [constructor|].
    apply Forall_app. split; [|apply IH]. apply Forall_forall. intros w Hw. apply in_flat_map in Hw. destruct Hw as [p [Hp Hw]].
    rewrite Forall_forall in Hl. destruct (Hl p Hp) as [Hl1 _]. apply (firstn_Forall _ _ (n) _) in Hl1. rewrite Forall_forall in Hl1. apply Hl1, Hw. }
  assert (D : (exists w, In w (used (length xs) (nn_layers nn)) /\ refused w) \/ (forall w, In w (used (length xs) (nn_layers nn)) -> ~ refused w)).
  { destruct (existsb refusedb (used (length xs) (nn_layers nn))) eqn:E.
    - left. apply existsb_exists in E. destruct E as [w [Hw E]]. exists w. split; [exact Hw|]. apply refusedb_ok; auto.
    - right. intros w Hw Rw. apply refusedb_ok in Rw; [|auto]. assert (existsb refusedb (used (length xs) (nn_layers nn)) = true); [|congruence].
      apply existsb_exists. eauto. }
  assert (ACC : (forall w, In w (used (length xs) (nn_layers nn)) -> ~ refused w) ->
    nn_eval (arith_ct pc) nn xs = nn_eval (arith_ct (release pc)) nn xs /\
    exists zs, fst (nn_eval (arith_ct pc) nn xs) = Ok zs /\ Forall2 (enc_val C) zs (layers_spec (nn_layers nn) vs)).
  { intros H. assert (E : nn_eval (arith_ct pc) nn xs = nn_eval (arith_ct (release pc)) nn xs)
      by (apply C63_networks_used; [lia|exact Hc|exact H]).
    split; [exact E|]. rewrite E. pose proof (C28_network C (release pc) nn xs vs Hq Hp HT Hc V) as R'.
    destruct (fst (nn_eval (arith_ct (release pc)) nn xs)) as [zs|e|e]; [eauto|contradiction|destruct R'; discriminate]. }
  split.
  - split; [|exact REF]. intros E. destruct D as [D|D]; [exact D|]. apply ACC in D. destruct D as [_ [zs [E' _]]]. congruence.
  - intros N. destruct D as [D|D]; [exfalso; apply N, REF, D|]. apply ACC, D.
Qed.
Print Assumptions C63_networks_used.
Print Assumptions C63_networks_refused.
Print Assumptions C63_networks_exactly.

(** both networks of the demo use all their weights *)
Example C63_example_used : length (used 16 (nn_layers arrhythmia_nn)) = 1216%nat /\
  length (filter refusedb (used 16 (nn_layers arrhythmia_nn))) = 122%nat /\
  filter refusedb (used 16 (nn_layers demo_nn)) = [].
Proof. repeat split; vm_compute; reflexivity. Qed.
(** a weight that is refused but not used does no harm: one input, two weights *)
Example C63_example_unused : forall c : ciphertext exact,
  nn_eval (arith_ct (cloud_100 true)) (mkNN [[mkPerceptron LIN [3; 91] 7]] 1) [c] =
  nn_eval (arith_ct (cloud_100 false)) (mkNN [[mkPerceptron LIN [3; 91] 7]] 1) [c].
Proof.
  intros c. apply (C63_networks_used (cloud_100 true)); [cbn; lia| |].
  - unfold nn_consts. cbn [nn_layers]. repeat constructor; cbn; lia.
  - cbn. intros w [<-|[]]. intros R. apply refusedb_ok in R; [|lia]. vm_compute in R. discriminate.
Qed.
