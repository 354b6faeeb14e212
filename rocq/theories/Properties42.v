(** C77: the bootstraps that are counted bound what can go wrong *)
From Verif Require Import Base Backend Words Encryption Params Arith Expr Spec Contract Symbolic Weights Random AscTable NeuralNetwork.
From Verif Require Import BaseProofs RelProofs DepthProofs WeightProofs WeightMul WeightAll ShapeProofs ReachProofs Properties14 Properties4 Properties22 Properties40 Instances.
From Coq Require Import ZifyBool ZifyNat.

(** the different bootstraps behind the encrypted words of a result *)
Definition behind {N} (z : ciphertext (sym N)) : list term := nodup term_eq_dec (flat_map boots (secrets z)).

(** two runs on inputs that look the same bootstrap equally often *)
Lemma sim_all : forall B1 B2, simulation B1 B2 (fun _ _ => True).
Proof. intros. constructor; auto. Qed.
Lemma looks : forall N B (x : ciphertext B) n, Forall2 (wrel (fun _ _ => True)) (sinput N n (shape x)) x.
Proof. intros N B x. unfold shape. induction x as [|[c|p] x IH]; intros n; cbn; constructor; cbn; auto. Qed.
Lemma looks_all : forall N B (xs : list (ciphertext B)) n, Forall2 (Forall2 (wrel (fun _ _ => True))) (sinputs N n (map shape xs)) xs.
Proof. intros N B xs. induction xs as [|x xs IH]; intros n; cbn [map sinputs]; constructor; auto using looks. Qed.
Lemma start_below : forall N s n, cb (N := N) [] (sinput N n s).
Proof. intros N s. unfold cb. induction s as [|[p|] s IH]; intros n; cbn [sinput]; constructor; auto; cbn; auto. intros u []. Qed.
Lemma start_all : forall N ss n, Forall (cb (N := N) []) (sinputs N n ss).
Proof. intros N ss. induction ss as [|s ss IH]; intros n; cbn [sinputs]; constructor; auto using start_below. Qed.
Lemma below_behind : forall N S (z : ciphertext (sym N)), cb S z -> incl (flat_map boots (secrets z)) S.
Proof.
  intros N S z H u Hu. apply in_flat_map in Hu as [t [Ht Hu]]. unfold secrets in Ht. apply in_flat_map in Ht as [w [Hw Ht]].
  unfold cb in H. rewrite Forall_forall in H. specialize (H w Hw). destruct w as [t'|p]; [|contradiction].
  destruct Ht as [<-|[]]. exact (H u Hu).
Qed.
Lemma nodup_le : forall (l S : list term), incl l S -> (length (nodup term_eq_dec l) <= length S)%nat.
Proof.
  intros l S H. apply NoDup_incl_length; [apply NoDup_nodup|]. intros u Hu. apply H. apply nodup_In in Hu. exact Hu.
Qed.

(** Every bootstrap behind the result of a program is among those that were counted, on any backend. *)
Theorem C77_counted : forall N B pc (xs : list (ciphertext B)) e z,
  fst (run (arith_ct pc) (sinputs N 0 (map shape xs)) e) = Ok z ->
  Z.of_nat (length (behind z)) <= pbs (run (arith_ct pc) xs e).
Proof.
  intros N B pc xs e z Ez. unfold pbs.
  destruct (run_rel (arel_ct (sim_all (sym N) B) (tp_only True) pc (fun _ => I)) e _ _ (looks_all N B xs 0)) as [_ [<- _]].
  pose proof (g_run pc e [] _ (start_all N (map shape xs) 0)) as G. unfold grows in G. rewrite Ez in G.
  destruct G as [n [L H]]. rewrite app_nil_r in H. pose proof (nodup_le _ _ (below_behind N n z H)) as K.
  unfold behind. lia.
Qed.
(** ... and of a network, all outputs together *)
Theorem C77_networks : forall N B pc (xs : list (ciphertext B)) nn zs,
  fst (nn_eval (arith_ct pc) nn (sinputs N 0 (map shape xs))) = Ok zs ->
  Z.of_nat (length (nodup term_eq_dec (flat_map (fun z : ciphertext (sym N) => flat_map boots (secrets z)) zs))) <= pbs (nn_eval (arith_ct pc) nn xs).
Proof.
  intros N B pc xs nn zs Ez. unfold pbs.
  destruct (nn_rel (arel_ct (sim_all (sym N) B) (tp_only True) pc (fun _ => I)) nn _ _ (looks_all N B xs 0)) as [_ [<- _]].
  pose proof (g_nn pc nn [] _ (start_all N (map shape xs) 0)) as G. unfold grows in G. rewrite Ez in G.
  destruct G as [n [L H]]. rewrite app_nil_r in H.
  assert (I : incl (flat_map (fun z : ciphertext (sym N) => flat_map boots (secrets z)) zs) n).
  { intros u Hu. apply in_flat_map in Hu as [z [Hz Hu]]. rewrite Forall_forall in H. exact (below_behind N n z (H z Hz) u Hu). }
  pose proof (nodup_le _ _ I) as K. lia.
Qed.

(** what is bootstrapped *)
Definition fed (t : term) : term := match t with TLut _ u => u | _ => t end.
Lemma boot_inputs_fed : forall t, boot_inputs t = map fed (boots t).
Proof. induction t; cbn [boot_inputs boots map fed]; rewrite ?map_app; congruence. Qed.
Lemma nodup_app_le : forall (a b : list term),
  (length (nodup term_eq_dec (a ++ b)) <= length (nodup term_eq_dec a) + length b)%nat.
Proof.
  intros a b. rewrite <- app_length. apply NoDup_incl_length; [apply NoDup_nodup|]. intros u Hu. apply nodup_In in Hu.
  apply in_app_iff in Hu as [Hu|Hu]; apply in_app_iff; [left; apply nodup_In, Hu|right; exact Hu].
Qed.
Lemma exposed_le : forall N (z : ciphertext (sym N)), (length (exposed z) <= length (behind z) + length (secrets z))%nat.
Proof.
  intros N z. unfold exposed. pose proof (nodup_app_le (flat_map boot_inputs (secrets z)) (secrets z)) as K.
  eapply Nat.le_trans; [exact K|]. apply Nat.add_le_mono; [|reflexivity].
  rewrite <- (map_length fed (behind z)). apply nodup_le. intros u Hu.
  apply in_flat_map in Hu as [t [Ht Hu]]. rewrite boot_inputs_fed in Hu. apply in_map_iff in Hu as [b [<- Hb]]. apply in_map.
  unfold behind. apply nodup_In, in_flat_map. eauto.
Qed.
Lemma shape_env : forall N (w : world N) xs, map shape (w_env w xs) = map in_shape xs.
Proof.
  intros N w xs. unfold w_env. generalize 0%nat. induction xs as [|x xs IH]; intros n; [reflexivity|]. cbn [map sinputs]. f_equal; [|apply IH].
  unfold shape. generalize (in_shape x). intros s. clear. revert n. induction s as [|[p|] s IH]; intros n; cbn; f_equal; auto.
Qed.

(** So the number of bootstraps that the library prints, together with the encrypted words of the result, bounds the
    probability of a wrong result: it is at most (bootstraps + encrypted words) * quad_weight * v / tau^2. *)
Theorem C77_failure : forall N pc xs e o z M tau v (outs : list (Z * world N)) (w0 : world N),
  bit_precision (cparams pc) = 5%nat -> asc_12 pc = shipped_asc -> 65 <= quad_weight (cparams pc) <= 84 \/ 225 <= quad_weight (cparams pc) ->
  consts e -> Forall (fun x => digits (map snd x)) xs ->
  (0 < N)%nat -> (N mod 32 = 0)%nat -> 0 <= tau -> tau * (2 * Z.of_nat N) + Z.max M (2 ^ 63) < 2 ^ 58 * (2 * Z.of_nat N) ->
  Forall (fun p => w_ok M xs (snd p)) outs ->
  fst (run (arith_ct pc) (sinputs N 0 (map in_shape xs)) e) = Ok z -> (length z <= 63)%nat ->
  uncorrelated outs (fun a w => w_err w a) (all_samples z) v ->
  tau * tau * mass outs (fun w => negb (decrypts_to w pc xs e o (zeval (map in_value xs) e)))
    <= (pbs (run (arith_ct pc) (w_env w0 xs) e) + Z.of_nat (length (secrets z))) * quad_weight (cparams pc) * v * total outs (fun _ => 1).
Proof.
  intros N pc xs e o z M tau v outs w0 Hb HT HS Hc Hd HN H32 Ht Hbud Hok Ez L U.
  pose proof (C75_programs N pc xs e o z M tau v outs Hb HT HS Hc Hd HN H32 Ht Hbud Hok Ez L U) as K.
  rewrite <- (shape_env N w0 xs) in Ez. pose proof (C77_counted N _ pc (w_env w0 xs) e z Ez) as Kc.
  pose proof (exposed_le N z) as Ke. destruct U as [Hw [Hv _]].
  assert (W : 0 <= total outs (fun _ => 1)) by (apply E_nonneg; [exact Hw|intros; lia]).
  eapply Z.le_trans; [exact K|]. repeat apply Z.mul_le_mono_nonneg_r; auto; lia.
Qed.

(** The same for networks: some output decrypts to a wrong value *)
Definition net_decrypts {N} (w : world N) pc xs nn o (vs : list Z) : bool :=
  match fst (zs <- nn_eval (arith_ct pc) nn (w_env w xs) ;; mapM (parm_decrypt (w_client w) o) zs) with
  | Ok us => if list_eq_dec Z.eq_dec us vs then true else false
  | _ => false
  end.
Lemma sim_nn : forall (B : backend) N inp pc nn ss, poly_size B = N ->
  fst (nn_eval (arith_ct pc) nn (map (map (wmap (B := B) inp)) (sinputs N 0 ss))) =
  omap (map (map (wmap inp))) (fst (nn_eval (arith_ct pc) nn (sinputs N 0 ss))).
Proof.
  intros B N inp pc nn ss <-. set (env := map (map (wmap inp)) (sinputs (poly_size B) 0 ss)).
  assert (HE : Forall2 (Forall2 (wrel (fun (t : ct (sym (poly_size B))) c => c = teval B inp t))) (sinputs (poly_size B) 0 ss) env).
  { subst env. induction (sinputs (poly_size B) 0 ss) as [|x l IH]; cbn [map]; constructor; auto. apply circuit_rel. reflexivity. }
  destruct (nn_rel (arel_ct (sim_circuit B inp) (tp_only True) pc (fun _ => I)) nn _ _ HE) as [H1 _].
  destruct (fst (nn_eval (arith_ct pc) nn env)) as [z'|er'|er'], (fst (nn_eval (arith_ct pc) nn (sinputs (poly_size B) 0 ss))) as [z|er|er];
    try tauto; cbn [omap]; try (rewrite H1; reflexivity). f_equal. clear - H1.
  induction H1 as [|a b l l' E _ IH]; cbn [map]; [reflexivity|]. apply circuit_rel in E. rewrite E, IH. reflexivity.
Qed.
Lemma secrets_concat : forall B (zs : list (ciphertext B)) z t, In z zs -> In t (secrets z) -> In t (secrets (concat zs)).
Proof.
  intros B zs z t Hz Ht. unfold secrets in *. apply in_flat_map in Ht as [w [Hw Ht]]. apply in_flat_map. exists w. split; [|exact Ht].
  apply in_concat. eauto.
Qed.
Lemma secrets_concat_inv : forall B (zs : list (ciphertext B)) t, In t (secrets (concat zs)) -> exists z, In z zs /\ In t (secrets z).
Proof.
  intros B zs t Ht. unfold secrets in Ht. apply in_flat_map in Ht as [w [Hw Ht]]. apply in_concat in Hw as [z [Hz Hw]].
  exists z. split; [exact Hz|]. apply in_flat_map. eauto.
Qed.
Lemma net_outcome : forall N pc xs nn o zs M tau (w : world N),
  bit_precision (cparams pc) = 5%nat -> asc_12 pc = shipped_asc -> nn_consts nn -> Forall (fun x => digits (map snd x)) xs ->
  (0 < N)%nat -> (N mod 32 = 0)%nat -> 0 <= tau -> tau * (2 * Z.of_nat N) + Z.max M (2 ^ 63) < 2 ^ 58 * (2 * Z.of_nat N) ->
  w_ok M xs w -> fst (nn_eval (arith_ct pc) nn (sinputs N 0 (map in_shape xs))) = Ok zs -> Forall (fun z => (length z <= 63)%nat) zs ->
  some_large (w_err w) tau (exposed (concat zs)) = false -> net_decrypts w pc xs nn o (layers_spec (nn_layers nn) (map in_value xs)) = true.
Proof.
  intros N pc xs nn o zs M tau w Hb HT Hc Hd HN H32 Ht Hbud [R [HM HI]] Ez L HS.
  destruct w as [B HB T cl inp ierr]. cbn [wb_ w_torus w_client w_inp w_ierr] in *. subst N.
  unfold net_decrypts, w_env. cbn [wb_ w_torus w_client w_inp w_ierr].
  pose proof (sim_nn B _ inp pc nn (map in_shape xs) eq_refl) as SR. rewrite Ez in SR. cbn [omap] in SR.
  set (C := quiet T inp ierr tau (quad_weight (cparams pc)) M HM Ht HN H32 Hbud).
  assert (EV : Forall2 (enc_val C) zs (layers_spec (nn_layers nn) (map in_value xs))).
  { pose proof (C28_network C pc nn (sinputs (poly_size B) 0 (map in_shape xs)) (map in_value xs) eq_refl Hb HT Hc) as K.
    rewrite Ez in K. apply K. apply inputs_enc; [|exact Hd]. intros i d I. cbn [C quiet phase ps Nat.add].
    destruct (HI i d I) as [q Q]. exists q. clear - Q. lia. }
  assert (G : forall t, In t (secrets (concat zs)) -> good T inp ierr tau t = true).
  { intros t I. unfold good. apply forallb_forall. intros u Hu. unfold small.
    destruct (Z.abs (noise (err T inp ierr) u) <? tau) eqn:Lt; [reflexivity|]. exfalso.
    assert (X : some_large (err T inp ierr) tau (exposed (concat zs)) = true).
    { unfold some_large. apply existsb_exists. exists u. split; [|clear - Lt; lia]. unfold exposed. apply nodup_In, in_app_iff.
      destruct Hu as [<-|Hu]; [right; exact I|left; apply in_flat_map; eauto]. }
    change (some_large (err T inp ierr) tau (exposed (concat zs)) = false) in HS. rewrite X in HS. discriminate. }
  assert (D : mapM (parm_decrypt cl o) (map (map (wmap inp)) zs) = ret (layers_spec (nn_layers nn) (map in_value xs))).
  { assert (G' : forall z t, In z zs -> In t (secrets z) -> good T inp ierr tau t = true)
      by (intros z t Hz I; apply G, (secrets_concat _ zs z t Hz I)).
    clear G HS SR Ez. induction EV as [|z v zs vs E1 E2 IH]; cbn [map mapM]; [reflexivity|]. inversion_clear L as [|? ? L1 L2].
    rewrite (quiet_decrypts T inp ierr tau _ M HM Ht HN H32 Hbud cl o z v R E1 (fun t I => G' z t (or_introl eq_refl) I) L1), ret_bind.
    rewrite IH; [reflexivity|exact L2|]. intros z' t Hz I. apply (G' z' t (or_intror Hz) I). }
  rewrite fst_bind, SR, D. cbn [ret fst]. destruct (list_eq_dec Z.eq_dec _ _) as [_|X]; [reflexivity|]. exfalso. apply X. reflexivity.
Qed.
Theorem C77_network_failure : forall N pc xs nn o zs M tau v (outs : list (Z * world N)) (w0 : world N),
  bit_precision (cparams pc) = 5%nat -> asc_12 pc = shipped_asc -> 65 <= quad_weight (cparams pc) <= 84 \/ 225 <= quad_weight (cparams pc) ->
  nn_consts nn -> Forall (fun x => digits (map snd x)) xs ->
  (0 < N)%nat -> (N mod 32 = 0)%nat -> 0 <= tau -> tau * (2 * Z.of_nat N) + Z.max M (2 ^ 63) < 2 ^ 58 * (2 * Z.of_nat N) ->
  Forall (fun p => w_ok M xs (snd p)) outs ->
  fst (nn_eval (arith_ct pc) nn (sinputs N 0 (map in_shape xs))) = Ok zs -> Forall (fun z => (length z <= 63)%nat) zs ->
  uncorrelated outs (fun a w => w_err w a) (all_samples (concat zs)) v ->
  tau * tau * mass outs (fun w => negb (net_decrypts w pc xs nn o (layers_spec (nn_layers nn) (map in_value xs))))
    <= (pbs (nn_eval (arith_ct pc) nn (w_env w0 xs)) + Z.of_nat (length (secrets (concat zs)))) * quad_weight (cparams pc) * v * total outs (fun _ => 1).
Proof.
  intros N pc xs nn o zs M tau v outs w0 Hb HT HS Hc Hd HN H32 Ht Hbud Hok Ez L U.
  assert (Qw : 0 <= quad_weight (cparams pc)) by lia.
  pose proof (nn_kept (fine_kept N pc HS Hb) nn _ (sinputs_fine N (budget pc) _ 0 (inputs_shape xs Hd)) zs Ez) as F.
  rewrite Forall_forall in F. pose proof U as [Hw [Hv _]].
  assert (W : 0 <= total outs (fun _ => 1)) by (apply E_nonneg; [exact Hw|intros; lia]).
  eapply Z.le_trans with (m := Z.of_nat (length (exposed (concat zs))) * quad_weight (cparams pc) * v * total outs (fun _ => 1)).
  { eapply Z.le_trans; [|apply (C75_union _ outs w_err (exposed (concat zs)) v (quad_weight (cparams pc)) tau); auto].
    - apply Z.mul_le_mono_nonneg_l; [nia|]. unfold mass. apply E_le_in; [exact Hw|]. intros [p w] I. cbn [snd].
      rewrite Forall_forall in Hok. specialize (Hok _ I). cbn [snd] in Hok.
      destruct (some_large (w_err w) tau (exposed (concat zs))) eqn:S; [destruct (net_decrypts w pc xs nn o _); cbn [negb]; lia|].
      rewrite (net_outcome N pc xs nn o zs M tau w) by assumption. cbn [negb]. lia.
    - intros t I. unfold exposed in I. apply nodup_In, in_app_iff in I. split.
      + destruct U as [_ [_ [U1 U2]]].
        assert (S : forall a, In a (samples_of t) -> In a (all_samples (concat zs))).
        { intros a Ia. unfold all_samples. apply in_flat_map. destruct I as [I|I]; [|eauto].
          apply in_flat_map in I as [t' [I1 I2]]. exists t'. split; [exact I1|]. eapply samples_boot; eauto. }
        split; [exact Hw|]. split; [exact Hv|]. split; [intros a b Ia Ib; apply U1; auto|intros a Ia; apply U2; auto].
      + destruct I as [I|I].
        * apply in_flat_map in I as [t' [I1 I2]]. apply (secrets_concat_inv (sym N) zs t') in I1 as [z [Hz I1]].
          exact (fines_within _ _ _ (F z Hz) t' t I1 I2).
        * apply (secrets_concat_inv (sym N) zs t) in I as [z [Hz I]]. unfold secrets in I. apply in_flat_map in I as [w [I1 I2]].
          specialize (F z Hz). rewrite Forall_forall in F. destruct (F w I1) as [_ [S _]].
          destruct w as [t'|p]; [|contradiction]. destruct I2 as [<-|[]]. eapply qle_mono; [|exact S]. lia. }
  repeat apply Z.mul_le_mono_nonneg_r; auto.
  rewrite <- (shape_env N w0 xs) in Ez. pose proof (C77_networks N _ pc (w_env w0 xs) nn zs Ez) as Kc.
  assert (Eq : flat_map boots (secrets (concat zs)) = flat_map (fun z : ciphertext (sym N) => flat_map boots (secrets z)) zs).
  { clear. induction zs as [|z zs IH]; [reflexivity|]. cbn [concat flat_map]. rewrite <- IH, <- flat_map_app. f_equal.
    unfold secrets. apply flat_map_app. }
  pose proof (exposed_le N (concat zs)) as Ke. unfold behind in Ke. rewrite Eq in Ke. clear - Ke Kc. unfold ciphertext in *. lia.
Qed.
Print Assumptions C77_network_failure.
Print Assumptions C77_counted.
Print Assumptions C77_networks.
Print Assumptions C77_failure.

(** the example of C75: one bootstrap, and a result with one encrypted word *)
Example C77_example : length (behind circ_z) = 1%nat /\
  pbs (run (arith_ct (cloud_84 true)) (w_env (one_noisy (fun _ => false) 0) bits_in) (Mul (Var 0) (Var 1))) = 1 /\
  mass rare (fun w => negb (decrypts_to w (cloud_84 true) bits_in (Mul (Var 0) (Var 1)) true (-1))) <= 5376.
Proof.
  assert (E1 : length (behind circ_z) = 1%nat) by (vm_compute; reflexivity).
  assert (E2 : pbs (run (arith_ct (cloud_84 true)) (w_env (one_noisy (fun _ => false) 0) bits_in) (Mul (Var 0) (Var 1))) = 1)
    by (vm_compute; reflexivity).
  split; [exact E1|]. split; [exact E2|].
  destruct C75_example as (U & O & Z0 & _ & _ & T).
  pose proof (C77_failure 32 (cloud_84 true) bits_in (Mul (Var 0) (Var 1)) true circ_z (2 ^ 63) (2 ^ 57 - 1) (2 ^ 99) rare (one_noisy (fun _ => false) 0)
    eq_refl eq_refl ltac:(left; cbn; lia) ltac:(cbn; auto) ltac:(repeat constructor; unfold digit; cbn; lia) ltac:(lia) eq_refl ltac:(lia) ltac:(lia) O Z0
    ltac:(vm_compute; lia) U) as K.
  assert (L : length (secrets circ_z) = 1%nat) by (vm_compute; reflexivity).
  rewrite E2, T, L in K. change (zeval (map in_value bits_in) (Mul (Var 0) (Var 1))) with (-1) in K.
  change (quad_weight (cparams (cloud_84 true))) with 84 in K. revert K.
  generalize (mass rare (fun w => negb (decrypts_to w (cloud_84 true) bits_in (Mul (Var 0) (Var 1)) true (-1)))). intros k K. lia.
Qed.
(** More may be counted than is behind the result: here the product is computed twice (the first is not used). *)
Definition twice : expr := Let (Mul (Var 0) (Var 1)) (Mul (Var 1) (Var 2)).
Example C77_example_strict : exists z, fst (run (arith_ct (cloud_84 true)) (sinputs 32 0 (map in_shape bits_in)) twice) = Ok z /\
  length (behind z) = 1%nat /\ pbs (run (arith_ct (cloud_84 true)) (w_env (one_noisy (fun _ => false) 0) bits_in) twice) = 2.
Proof. eexists. split; [vm_compute; reflexivity|]. split; vm_compute; reflexivity. Qed.
(** A network that subtracts: the noise of the inputs is at times far too large, that of bootstraps is always 0 *)
Definition subtracts : neural_network := mkNN [[mkPerceptron LIN [1; -1] 0]] 2.
Definition rare_inputs : list (Z * world 32) :=
  (2 ^ 20, one_noisy (fun _ => false) 0) ::
  flat_map (fun p => [(1, one_noisy p (2 ^ 59)); (1, one_noisy p (- 2 ^ 59))]) [is_var 0; is_var 1].
Definition net_circ : outcome (list (ciphertext (sym 32))) := fst (nn_eval (arith_ct (cloud_84 true)) subtracts (sinputs 32 0 (map in_shape bits_in))).
Definition net_zs : list (ciphertext (sym 32)) := match net_circ with Ok zs => zs | _ => [] end.
Definition uncorrelated_b (outs : list (Z * world 32)) (l : list term) (v : Z) : bool :=
  forallb (fun p => 0 <=? fst p) outs && (0 <=? v) &&
  forallb (fun a => forallb (fun b => (if term_eq_dec a b then true else false) || (total outs (fun w => w_err w a * w_err w b) =? 0)) l) l &&
  forallb (fun a => total outs (fun w => w_err w a * w_err w a) <=? v * total outs (fun _ => 1)) l.
Lemma uncorrelated_dec : forall outs l v, uncorrelated_b outs l v = true -> uncorrelated outs (fun a w => w_err w a) l v.
Proof.
  intros outs l v H. unfold uncorrelated_b in H. apply andb_prop in H as [H H4]. apply andb_prop in H as [H H3]. apply andb_prop in H as [H1 H2].
  rewrite forallb_forall in H1, H3, H4. split; [|split; [lia|split]].
  - apply Forall_forall. intros p I. specialize (H1 p I). lia.
  - intros a b Ia Ib D. specialize (H3 a Ia). rewrite forallb_forall in H3. specialize (H3 b Ib).
    destruct (term_eq_dec a b) as [E|_]; [contradiction|]. cbn [orb] in H3. apply Z.eqb_eq, H3.
  - intros a Ia. specialize (H4 a Ia). apply Z.leb_le, H4.
Qed.
Example C77_example_network : net_circ = Ok net_zs /\
  uncorrelated rare_inputs (fun a w => w_err w a) (all_samples (concat net_zs)) (2 ^ 99) /\
  Forall (fun p => w_ok (2 ^ 63) bits_in (snd p)) rare_inputs /\
  (pbs (nn_eval (arith_ct (cloud_84 true)) subtracts (w_env (one_noisy (fun _ => false) 0) bits_in)), length (secrets (concat net_zs)),
   layers_spec (nn_layers subtracts) (map in_value bits_in),
   mass rare_inputs (fun w => negb (net_decrypts w (cloud_84 true) bits_in subtracts true [2]))) = (2, 2%nat, [2], 4).
Proof.
  split; [vm_compute; reflexivity|]. split; [apply uncorrelated_dec; vm_compute; reflexivity|]. split.
  - unfold rare_inputs, one_noisy. cbn [flat_map app]. repeat (constructor; [apply term_ok; intros [|[|[|i]]] d I; cbn in I; try discriminate; injection I as <-; reflexivity|]). constructor.
  - vm_compute. reflexivity.
Qed.
Example C77_example_network_bound :
  mass rare_inputs (fun w => negb (net_decrypts w (cloud_84 true) bits_in subtracts true [2])) <= 10752.
Proof.
  destruct C77_example_network as (Z0 & U & O & _).
  assert (E1 : pbs (nn_eval (arith_ct (cloud_84 true)) subtracts (w_env (one_noisy (fun _ => false) 0) bits_in)) = 2) by (vm_compute; reflexivity).
  assert (E2 : length (secrets (concat net_zs)) = 2%nat) by (vm_compute; reflexivity).
  assert (L : Forall (fun z => (length z <= 63)%nat) net_zs) by (vm_compute; repeat constructor).
  assert (Nc : nn_consts subtracts) by (repeat constructor; cbn; lia).
  pose proof (C77_network_failure 32 (cloud_84 true) bits_in subtracts true net_zs (2 ^ 63) (2 ^ 57 - 1) (2 ^ 99) rare_inputs (one_noisy (fun _ => false) 0)
    eq_refl eq_refl ltac:(left; cbn; lia) Nc ltac:(repeat constructor; unfold digit; cbn; lia) ltac:(lia) eq_refl ltac:(lia) ltac:(lia) O Z0
    L U) as K.
  assert (T : total rare_inputs (fun _ => 1) = 2 ^ 20 + 4) by (vm_compute; reflexivity).
  rewrite E1, E2, T in K. change (layers_spec (nn_layers subtracts) (map in_value bits_in)) with [2] in K.
  change (quad_weight (cparams (cloud_84 true))) with 84 in K. revert K.
  generalize (mass rare_inputs (fun w => negb (net_decrypts w (cloud_84 true) bits_in subtracts true [2]))). intros k K. lia.
Qed.
