(** C73: what the notes about multiplication at the end of src/lib.rs would give *)
From Verif Require Import Base Backend Words Encryption Params Pbs Addition Multiplication Proposals
  Spec Contract Symbolic BaseProofs WordsProofs ValueProofs AddProofs MulProofs RelProofs ShapeProofs DepthProofs CountProofs
  CostProofs Instances Properties5 Properties9 Properties14.
From Coq Require Import ZifyBool ZifyNat.

(* ------------------------------------------------------------------ *)
(** ** Adding rows in pairs: the value *)

Section Value.
Context {B : backend} {qw : Z} (C : contract B qw).

Definition total (vs : list Z) : Z := fold_right Z.add 0 vs.
Lemma pair_up_ok : forall n rows vs, (length rows <= n)%nat -> Forall2 (enc_val C) rows vs ->
  okP (pair_up rows) (fun r => (length r = (length rows + 1) / 2)%nat /\ exists ws, Forall2 (enc_val C) r ws /\ total ws = total vs).
Proof.
  induction n as [|n IH]; intros rows vs L H.
  - destruct rows; [|cbn in L; lia]. apply okP_ret. inversion H; subst. split; [reflexivity|]. exists []. auto.
  - destruct rows as [|a [|b t]].
    + apply okP_ret. split; [reflexivity|]. exists vs. auto.
    + apply okP_ret. split; [reflexivity|]. exists vs. auto.
    + inversion H as [|? va ? vs1 Ha H1]; subst. inversion H1 as [|? vb ? vs2 Hb H2]; subst. cbn [pair_up].
      eapply okP_bind; [apply (pa_add_ok C _ _ _ _ Ha Hb)|]. cbv beta. intros s [Es _].
      eapply okP_bind; [apply (IH t vs2); [cbn in L; lia|exact H2]|]. cbv beta. intros r [Lr [ws [Hw Ew]]].
      apply okP_ret. split.
      * cbn [length]. replace (S (S (length t)) + 1)%nat with (1 * 2 + (length t + 1))%nat by lia.
        rewrite Nat.div_add_l by lia. lia.
      * exists (va + vb :: ws). split; [constructor; assumption|]. cbn [total fold_right]. fold (total ws) (total vs2). lia.
Qed.
Lemma reduce_pairs_ok : forall f rows vs, (1 <= length rows <= 2 ^ f)%nat -> Forall2 (enc_val C) rows vs ->
  okP (reduce_pairs f rows) (fun z => enc_val C z (total vs)).
Proof.
  induction f as [|f IH]; intros rows vs L H.
  - destruct rows as [|a [|b t]]; cbn in L; try lia. inversion H as [|? va ? ? Ha H1]; subst. inversion H1; subst.
    apply okP_ret. cbn. rewrite Z.add_0_r. exact Ha.
  - destruct rows as [|a [|b t]]; [cbn in L; lia| |].
    + inversion H as [|? va ? ? Ha H1]; subst. inversion H1; subst. apply okP_ret. cbn. rewrite Z.add_0_r. exact Ha.
    + cbn [reduce_pairs]. eapply okP_bind; [apply (pair_up_ok (length (a :: b :: t)) _ vs); [lia|exact H]|]. cbv beta.
      intros r [Lr [ws [Hw <-]]]. apply (IH r ws); [|exact Hw]. rewrite Lr. cbn [Nat.pow] in L.
      pose proof (Nat.div_mod (length (a :: b :: t) + 1) 2 ltac:(lia)). pose proof (Nat.mod_upper_bound (length (a :: b :: t) + 1) 2 ltac:(lia)).
      cbn [length] in *. lia.
Qed.

Lemma total_rows : forall vx dy, total (map (fun j => vx * nth j dy 0 * 2 ^ Z.of_nat j) (seq 0 (length dy))) = vx * value dy.
Proof.
  intros vx dy. induction dy as [|d dy IH] using rev_ind; [cbn; lia|].
  rewrite app_length, seq_app, map_app. cbn [length seq map plus].
  assert (T : forall u w, total (u ++ w) = total u + total w).
  { clear. induction u as [|a u IH]; intros w; [reflexivity|]. cbn [app total fold_right]. fold (total (u ++ w)) (total u). rewrite IH. lia. }
  rewrite T. cbn [total fold_right]. rewrite (map_ext_in _ (fun j => vx * nth j dy 0 * 2 ^ Z.of_nat j)).
  - rewrite IH, value_app, app_nth2, Nat.sub_diag by lia. cbn [nth value]. ring.
  - intros j Hj. apply in_seq in Hj. rewrite app_nth1 by lia. reflexivity.
Qed.

Lemma total_app : forall u w, total (u ++ w) = total u + total w.
Proof. induction u as [|a u IH]; intros w; [reflexivity|]. cbn [app total fold_right]. fold (total (u ++ w)) (total u). rewrite IH. lia. Qed.
Lemma fold_rows_ok : forall rows vs acc v, Forall2 (enc_val C) rows vs -> enc_val C acc v ->
  okP (foldM (fun acc row => pa_add acc row) rows acc) (fun z => enc_val C z (v + total vs)).
Proof.
  induction rows as [|r rows IH]; intros vs acc v H Ha; inversion H as [|? vr ? vs' Hr H']; subst.
  - apply okP_ret. cbn. rewrite Z.add_0_r. exact Ha.
  - cbn [foldM]. eapply okP_bind; [apply (pa_add_ok C _ _ _ _ Ha Hr)|]. cbv beta. intros s [Es _].
    eapply okP_conseq; [apply (IH vs' s (v + vr) H' Es)|]. cbv beta. intros z Hz. cbn [total fold_right]. fold (total vs').
    rewrite Z.add_assoc. exact Hz.
Qed.
Lemma F2_cut : forall A D (R : A -> D -> Prop) n u w, Forall2 R u w -> Forall2 R (firstn n u) (firstn n w) /\ Forall2 R (skipn n u) (skipn n w).
Proof.
  intros A D R n u w H. revert n. induction H as [|a b u w Hab H IH]; intros [|n]; cbn [firstn skipn]; auto.
  destruct (IH n) as [I1 I2]. auto.
Qed.

(** the product, for words of any equal number *)
Theorem C73_pairs_value : forall keep x y vx vy, (keep < length x)%nat -> length x = length y -> enc_val C x vx -> enc_val C y vy ->
  exists z, fst (mul_pairs keep x y) = Ok z /\ enc_val C z (vx * vy).
Proof.
  intros keep x y vx vy L1 L [dx [Hx <-]] [dy [Hy <-]].
  change (okP (mul_pairs keep x y) (fun z => enc_val C z (value dx * value dy))). apply okP_measure.
  eapply okP_bind; [apply (fill_mulary_ok C x y dx dy Hx Hy L)|]. cbv beta. intros m [Lm Hm].
  rewrite <- total_rows. pose proof (encrypts_len C y dy Hy) as Ld.
  assert (F : Forall2 (enc_val C) m (map (fun j => value dx * nth j dy 0 * 2 ^ Z.of_nat j) (seq 0 (length dy)))).
  { apply (Forall2_of_nth _ _ _ _ _ [] 0).
    + rewrite map_length, seq_length. unfold ciphertext in *. lia.
    + intros j Hj. assert (Hjx : (j < length x)%nat) by (unfold ciphertext in *; lia). assert (Hjd : (j < length dy)%nat) by (unfold ciphertext in *; lia).
      rewrite (nth_indep _ 0 (value dx * nth 0 dy 0 * 2 ^ Z.of_nat 0)) by (rewrite map_length, seq_length; exact Hjd).
      rewrite (map_nth (fun j => value dx * nth j dy 0 * 2 ^ Z.of_nat j)), seq_nth by exact Hjd. apply (Hm j Hjx). }
  set (vs := map _ (seq 0 (length dy))) in *. clearbody vs. set (n := (length m - keep)%nat).
  destruct (F2_cut _ _ _ n _ _ F) as [F1 F2]. rewrite <- (firstn_skipn n vs), total_app.
  assert (Ln : (1 <= length (firstn n m) <= 2 ^ length m)%nat).
  { rewrite firstn_length. replace (Nat.min n (length m)) with n by (unfold n; lia). split; [unfold n, ciphertext in *; lia|].
    apply (Nat.le_trans _ (length m)); [unfold n; lia|]. apply Nat.lt_le_incl, Nat.pow_gt_lin_r. lia. }
  eapply okP_bind; [apply (reduce_pairs_ok _ _ _ Ln F1)|]. cbv beta. intros acc Ha. apply fold_rows_ok; assumption.
Qed.

(* ------------------------------------------------------------------ *)
(** ** Another split: the value *)

Theorem C73_split_value : forall len0 low x y vx vy, (len0 <= length x)%nat -> length x = length y ->
  (Nat.max len0 (length x - len0) + 1 <= 32)%nat ->
  (low = pa_mul \/ (low = mul_schoolbook /\ (2 <= len0)%nat)) -> enc_val C x vx -> enc_val C y vy ->
  exists z, fst (karatsuba_at len0 low x y) = Ok z /\ enc_val C z (vx * vy).
Proof.
  intros len0 low x y vx vy H0 L H32 Hlow [dx [Hx <-]] [dy [Hy <-]].
  change (okP (karatsuba_at len0 low x y) (fun z => enc_val C z (value dx * value dy))). unfold karatsuba_at.
  replace (length x =? length y)%nat with true by lia. cbn [negb]. apply okP_measure.
  pose proof (encrypts_value_split C x dx len0 Hx H0) as Vx.
  pose proof (encrypts_value_split C y dy len0 Hy ltac:(lia)) as Vy.
  set (vx0 := value (firstn len0 dx)) in *. set (vx1 := value (skipn len0 dx)) in *.
  set (vy0 := value (firstn len0 dy)) in *. set (vy1 := value (skipn len0 dy)) in *.
  assert (Ex0 : enc_val C (firstn len0 x) vx0) by (eexists; split; [apply encrypts_firstn; eauto|auto]).
  assert (Ex1 : enc_val C (skipn len0 x) vx1) by (eexists; split; [apply encrypts_skipn; eauto|auto]).
  assert (Ey0 : enc_val C (firstn len0 y) vy0) by (eexists; split; [apply encrypts_firstn; eauto|auto]).
  assert (Ey1 : enc_val C (skipn len0 y) vy1) by (eexists; split; [apply encrypts_skipn; eauto|auto]).
  assert (Lx0 : length (firstn len0 x) = len0) by (rewrite firstn_length; lia).
  assert (Ly0 : length (firstn len0 y) = len0) by (rewrite firstn_length; lia).
  assert (Lx1 : length (skipn len0 x) = (length x - len0)%nat) by (rewrite skipn_length; lia).
  assert (Ly1 : length (skipn len0 y) = (length x - len0)%nat) by (rewrite skipn_length; lia).
  eapply okP_bind; [apply (pa_mul_ok C (skipn len0 x) (skipn len0 y) vx1 vy1 ltac:(lia) Ex1 Ey1)|].
  cbv beta. intros a [Ea _].
  eapply okP_bind with (P := fun b => enc_val C b (vx0 * vy0)).
  { destruct Hlow as [->|[-> H2]].
    - eapply okP_conseq; [apply (pa_mul_ok C (firstn len0 x) (firstn len0 y) vx0 vy0 ltac:(lia) Ex0 Ey0)|]. cbv beta. tauto.
    - destruct Ex0 as [ex [Fx Gx]], Ey0 as [ey [Fy Gy]]. apply okP_measure.
      eapply okP_bind; [apply (fill_mulary_ok C _ _ ex ey Fx Fy ltac:(lia))|]. cbv beta. intros m [Lm Hm].
      eapply okP_conseq.
      + apply (reduce_ok C m (value ex) ey len0 H2); [unfold ciphertext in *; lia| |].
        * rewrite (encrypts_len C _ _ Fy). exact Ly0.
        * rewrite Lx0 in Hm. exact Hm.
      + cbv beta. rewrite Gx, Gy. tauto. }
  intros b Eb.
  eapply okP_bind; [apply (pa_add_ok C _ _ _ _ Ea Eb)|]. cbv beta. intros pab [Epab _].
  eapply okP_bind; [apply (pa_add_ok C _ _ _ _ Ex0 Ex1)|]. cbv beta. intros x01 [Ex01 [Lx01 _]].
  eapply okP_bind; [apply (pa_add_ok C _ _ _ _ Ey0 Ey1)|]. cbv beta. intros y01 [Ey01 [Ly01 _]].
  eapply okP_bind; [apply (pa_mul_ok C x01 y01 _ _ ltac:(lia) Ex01 Ey01)|]. cbv beta. intros c [Ec _].
  assert (Esh : forall z v, enc_val C z v -> enc_val C (ct_triv len0 ++ z) (v * 2 ^ Z.of_nat len0)).
  { intros z v Hz. pose proof (pa_shift_ok C z len0 v Hz) as H. destruct len0; auto. }
  rewrite map_opp_pa. pose proof (pa_opp_ok C _ _ Epab) as Eopp.
  eapply okP_bind; [apply (pa_add_ok C _ _ _ _ (Esh _ _ Ec) (Esh _ _ Eopp))|]. cbv beta. intros cn [Ecn _].
  set (p := 2 ^ Z.of_nat len0) in *.
  assert (Hpp : 2 ^ Z.of_nat (2 * len0) = p * p) by (unfold p; rewrite <- pow2_add; f_equal; lia).
  destruct (length b =? 2 * len0)%nat eqn:Eb2.
  - apply Nat.eqb_eq in Eb2.
    assert (Eba : enc_val C (b ++ a) (vx0 * vy0 + p * p * (vx1 * vy1))).
    { destruct Ea as [da [Ha <-]], Eb as [db [Hb <-]]. exists (db ++ da).
      split; [apply encrypts_app; auto|]. rewrite value_app, (encrypts_len C _ _ Hb), Eb2, Hpp. auto. }
    eapply okP_conseq; [apply (pa_add_ok C _ _ _ _ Eba Ecn)|]. cbv beta. intros z [Ez _].
    replace (value dx * value dy) with (vx0 * vy0 + p * p * (vx1 * vy1) +
      ((vx0 + vx1) * (vy0 + vy1) * p + - (vx1 * vy1 + vx0 * vy0) * p)); [exact Ez|]. rewrite Vx, Vy. ring.
  - eapply okP_bind; [apply (pa_add_ok C _ _ _ _ Eb Ecn)|]. cbv beta. intros bc [Ebc _].
    pose proof (pa_shift_ok C a (2 * len0) _ Ea) as Eas.
    eapply okP_conseq; [apply (pa_add_ok C _ _ _ _ Eas Ebc)|]. cbv beta. intros z [Ez _]. rewrite Hpp in Ez.
    replace (value dx * value dy) with (vx1 * vy1 * (p * p) + (vx0 * vy0 +
      ((vx0 + vx1) * (vy0 + vy1) * p + - (vx1 * vy1 + vx0 * vy0) * p))); [exact Ez|]. rewrite Vx, Vy. ring.
Qed.
End Value.
Print Assumptions C73_pairs_value.
Print Assumptions C73_split_value.

(* ------------------------------------------------------------------ *)
(** ** Depth: twice the logarithm *)

Lemma gr_pair_up : forall N n k (rows : list (ciphertext (sym N))), (length rows <= n)%nat -> Forall (depth_le k) rows ->
  allP (pair_up rows) (fun r => Forall (depth_le (S (S k))) r /\ (length r = (length rows + 1) / 2)%nat).
Proof.
  intros N. induction n as [|n IH]; intros k rows L H.
  - destruct rows; [|cbn in L; lia]. apply allP_ret. auto.
  - assert (Up : forall r, depth_le k r -> depth_le (S (S k)) r) by (intros r; apply (cP_mono (depth_grading N)); lia).
    destruct rows as [|a [|b t]]; [apply allP_ret; auto|inversion H; subst; apply allP_ret; auto|].
    inversion H as [|? ? Ha H1]; subst. inversion H1 as [|? ? Hb H2]; subst. cbn [pair_up].
    eapply allP_bind; [apply (gr_add (depth_grading N)); [exact Ha|exact Hb]|]. intros s Hs.
    eapply allP_bind; [apply (IH k t); [cbn in L; lia|exact H2]|]. cbv beta. intros r [Hr Lr]. apply allP_ret. split; [constructor; assumption|].
    cbn [length]. replace (S (S (length t)) + 1)%nat with (1 * 2 + (length t + 1))%nat by lia. rewrite Nat.div_add_l by lia. lia.
Qed.
Lemma gr_reduce_pairs : forall N L f k (rows : list (ciphertext (sym N))), (length rows <= 2 ^ L)%nat -> Forall (depth_le k) rows ->
  allP (reduce_pairs f rows) (depth_le (k + 2 * L)).
Proof.
  intros N. assert (Up : forall k k' r, (k <= k')%nat -> @depth_le N k r -> depth_le k' r) by (intros k k' r; apply (cP_mono (depth_grading N))).
  induction L as [|L IH]; intros f k rows HL H.
  - destruct rows as [|a [|b t]]; [..|cbn in HL; lia].
    + destruct f; apply allP_ret; constructor.
    + inversion H as [|? ? Ha _]; subst. destruct f; apply allP_ret; (apply (Up k); [lia|exact Ha]).
  - destruct rows as [|a [|b t]].
    + destruct f; apply allP_ret; constructor.
    + inversion H as [|? ? Ha _]; subst. destruct f; apply allP_ret; (apply (Up k); [lia|exact Ha]).
    + destruct f as [|f]; [apply allP_panic|]. cbn [reduce_pairs].
      eapply allP_bind; [apply (gr_pair_up N (length (a :: b :: t)) k); [lia|exact H]|]. cbv beta. intros r [Hr Lr].
      eapply allP_conseq; [apply (IH f (S (S k)) r); [|exact Hr]|intros z; apply Up; lia]. rewrite Lr. cbn [Nat.pow] in HL.
      pose proof (Nat.div_mod (length (a :: b :: t) + 1) 2 ltac:(lia)). pose proof (Nat.mod_upper_bound (length (a :: b :: t) + 1) 2 ltac:(lia)).
      cbn [length] in *. lia.
Qed.
Theorem C73_pairs_depth : forall N d L (x y z : ciphertext (sym N)), depth_le d x -> depth_le d y -> (length x <= 2 ^ L)%nat ->
  fst (mul_pairs 0 x y) = Ok z -> depth_le (d + 2 * L + 1) z.
Proof.
  intros N d L x y z Hx Hy HL E. revert z E. change (allP (mul_pairs 0 x y) (depth_le (d + 2 * L + 1))). apply allP_measure.
  eapply allP_bind; [apply (gr_fill (depth_grading N)); [exact Hx|exact Hy]|]. cbv beta. intros m [Hm Lm].
  rewrite Nat.sub_0_r, firstn_all, skipn_all.
  eapply allP_bind; [apply (gr_reduce_pairs N L _ (S d)); [unfold ciphertext in *; lia|exact Hm]|]. cbv beta. intros acc Ha.
  apply allP_ret. revert Ha. apply (cP_mono (depth_grading N)). lia.
Qed.
Print Assumptions C73_pairs_depth.

(* ------------------------------------------------------------------ *)
(** ** Bootstraps *)

(** in the calculus of [CostProofs] *)
Fixpoint pair_upc (rows : list (list dw)) : cost (list (list dw)) :=
  match rows with
  | a :: b :: t => cbind (addc a b) (fun s => cbind (pair_upc t) (fun r => cret (s :: r)))
  | _ => cret rows
  end.
Fixpoint reduce_pairsc (fuel : nat) (rows : list (list dw)) : cost (list dw) :=
  match rows with
  | [] => cret []
  | [a] => cret a
  | _ => match fuel with O => cret [] | S f => cbind (pair_upc rows) (reduce_pairsc f) end
  end.
Fixpoint add_rowsc (rows : list (list dw)) (acc : list dw) : cost (list dw) :=
  match rows with [] => cret acc | r :: t => cbind (addc acc r) (add_rowsc t) end.
Definition mul_pairsc (keep : nat) (x y : list dw) : cost (list dw) :=
  cbind (mulary x y) (fun m => cbind (reduce_pairsc (length m) (firstn (length m - keep) m))
    (add_rowsc (skipn (length m - keep) m))).
Definition karatsuba_atc (len0 : nat) (low : list dw -> list dw -> cost (list dw)) (x y : list dw) : cost (list dw) :=
  let x0 := firstn len0 x in let x1 := skipn len0 x in
  let y0 := firstn len0 y in let y1 := skipn len0 y in
  cbind (mulp x1 y1) (fun a => cbind (low x0 y0) (fun b =>
  cbind (addc a b) (fun s => cbind (addc x0 x1) (fun x01 => cbind (addc y0 y1) (fun y01 =>
  cbind (mulp x01 y01) (fun c =>
  cbind (addc (repeat None len0 ++ c) (repeat None len0 ++ s)) (fun d =>
  if (length b =? 2 * len0)%nat then addc (b ++ a) d
  else cbind (addc b d) (fun e => addc (repeat None (2 * len0) ++ a) e)))))))).

Lemma fo_pair_up : forall n rows, (length rows <= n)%nat -> follows (map td) (pair_up (map td rows)) (pair_upc rows).
Proof.
  induction n as [|n IH]; intros rows L.
  - destruct rows; [|cbn in L; lia]. apply fo_ret. reflexivity.
  - destruct rows as [|a [|b t]]; [apply fo_ret; reflexivity|apply fo_ret; reflexivity|].
    cbn [map pair_up pair_upc]. apply (fo_bind _ _ _ _ td); [apply fo_add|].
    apply (fo_bind _ _ _ _ (map td)); [apply (IH t); cbn in L; lia|]. apply fo_ret. reflexivity.
Qed.
Lemma pair_upc_length : forall n rows, (length rows <= n)%nat -> (length (snd (pair_upc rows)) = (length rows + 1) / 2)%nat.
Proof.
  induction n as [|n IH]; intros rows L.
  - destruct rows; [reflexivity|cbn in L; lia].
  - destruct rows as [|a [|b t]]; [reflexivity|reflexivity|]. cbn [pair_upc]. rewrite !cbind_eq. cbn [snd cret length].
    rewrite (IH t) by (cbn in L; lia). replace (S (S (length t)) + 1)%nat with (1 * 2 + (length t + 1))%nat by lia.
    rewrite Nat.div_add_l by lia. lia.
Qed.
Lemma fo_reduce_pairs : forall f rows, (length rows <= 2 ^ f)%nat ->
  follows td (reduce_pairs f (map td rows)) (reduce_pairsc f rows).
Proof.
  induction f as [|f IH]; intros rows L.
  - destruct rows as [|a [|b t]]; [apply fo_ret; reflexivity|apply fo_ret; reflexivity|cbn in L; lia].
  - destruct rows as [|a [|b t]]; [apply fo_ret; reflexivity|apply fo_ret; reflexivity|].
    cbn [map reduce_pairs reduce_pairsc]. apply (fo_bind _ _ _ _ (map td)); [apply (fo_pair_up _ (a :: b :: t) (le_n _))|].
    apply IH. rewrite (pair_upc_length _ (a :: b :: t) (le_n _)). cbn [Nat.pow] in L.
    pose proof (Nat.div_mod (length (a :: b :: t) + 1) 2 ltac:(lia)). pose proof (Nat.mod_upper_bound (length (a :: b :: t) + 1) 2 ltac:(lia)).
    cbn [length] in *. lia.
Qed.
Lemma fo_add_rows : forall rows acc, follows td (foldM (fun acc row => pa_add acc row) (map td rows) (td acc)) (add_rowsc rows acc).
Proof.
  induction rows as [|r rows IH]; intros acc; [apply fo_ret; reflexivity|]. cbn [map foldM add_rowsc].
  apply (fo_bind _ _ _ _ td); [apply fo_add|]. apply IH.
Qed.
Lemma fo_mul_pairs : forall keep x y, length x = length y -> follows td (mul_pairs keep (td x) (td y)) (mul_pairsc keep x y).
Proof.
  intros keep x y E. apply runs_measure. apply (fo_bind _ _ _ _ (map td)); [apply runs_fill; exact E|].
  rewrite map_length, firstn_map, skipn_map. apply (fo_bind _ _ _ _ td); [apply fo_reduce_pairs|apply fo_add_rows].
  rewrite firstn_length. apply (Nat.le_trans _ (length (snd (mulary x y)))); [lia|]. apply Nat.lt_le_incl, Nat.pow_gt_lin_r. lia.
Qed.
Lemma fo_karatsuba_at : forall len0 low lowc x y, length x = length y -> (len0 <= length x)%nat ->
  (Nat.max len0 (length x - len0) + 1 <= 32)%nat ->
  follows td (low (td (firstn len0 x)) (td (firstn len0 y))) (lowc (firstn len0 x) (firstn len0 y)) ->
  follows td (karatsuba_at len0 low (td x) (td y)) (karatsuba_atc len0 lowc x y).
Proof.
  intros len0 low lowc x y El H0 H32 Hlow. unfold karatsuba_at, karatsuba_atc. rewrite !map_length, El, Nat.eqb_refl. cbn [negb].
  apply runs_measure. rewrite !td_firstn, !td_skipn.
  assert (L1 := addc_len (firstn len0 x) (skipn len0 x)).
  assert (L2 := addc_len (firstn len0 y) (skipn len0 y)).
  rewrite !firstn_length, !skipn_length in L1, L2.
  apply (fo_bind _ _ _ _ td); [apply fo_mulp; rewrite !skipn_length; lia|].
  apply (fo_bind _ _ _ _ td); [exact Hlow|].
  apply (fo_bind _ _ _ _ td); [apply fo_add|].
  rewrite td_opp, !td_triv.
  apply (fo_bind _ _ _ _ td); [apply fo_add|].
  apply (fo_bind _ _ _ _ td); [apply fo_add|].
  apply (fo_bind _ _ _ _ td); [apply fo_mulp; lia|].
  rewrite <- !map_app.
  apply (fo_bind _ _ _ _ td); [apply fo_add|].
  cbv beta. rewrite map_length.
  destruct (length _ =? 2 * len0)%nat.
  - apply fo_add.
  - apply (fo_bind _ _ _ _ td); [apply fo_add|]. rewrite td_shift. apply fo_add.
Qed.

(** the same on any backend *)
Section Related.
Context {B B' : backend} (R : ct B -> ct B' -> Prop) (S0 : simulation B B' R).
Notation cr := (Forall2 (wrel R)).
Notation mr := (mrel (tp_only True)).
Lemma rel_add : forall x x' y y', cr x x' -> cr y y' -> mr cr (pa_add x y) (pa_add x' y').
Proof. intros x x' y y' Hx Hy. apply (mr_add S0 (X := tp_only True) (fun _ => I)); assumption. Qed.
Lemma rel_pair_up : forall n rows rows', (length rows <= n)%nat -> Forall2 cr rows rows' -> mr (Forall2 cr) (pair_up rows) (pair_up rows').
Proof.
  induction n as [|n IH]; intros rows rows' L H.
  - destruct rows; [|cbn in L; lia]. inversion H; subst. apply mrel_ret. constructor.
  - inversion H as [|a a' t t' Ha Ht]; subst; [apply mrel_ret; constructor|].
    inversion Ht as [|b b' u u' Hb Hu]; subst; [apply mrel_ret; auto|]. cbn [pair_up].
    eapply mrel_bind; [apply rel_add; eassumption|]. intros s s' Hs.
    eapply mrel_bind; [apply (IH u u'); [cbn in L; lia|exact Hu]|]. intros r r' Hr. apply mrel_ret. constructor; assumption.
Qed.
Lemma rel_reduce_pairs : forall f rows rows', Forall2 cr rows rows' -> mr cr (reduce_pairs f rows) (reduce_pairs f rows').
Proof.
  induction f as [|f IH]; intros rows rows' H; (inversion H as [|a a' t t' Ha Ht]; subst; [apply mrel_ret; constructor|]);
    (inversion Ht as [|b b' u u' Hb Hu]; subst; [apply mrel_ret; exact Ha|]).
  - apply mrel_panic.
  - cbn [reduce_pairs]. eapply mrel_bind; [apply (rel_pair_up _ _ _ (le_n _) H)|]. intros r r' Hr. apply IH, Hr.
Qed.
Lemma rel_add_rows : forall rows rows' acc acc', Forall2 cr rows rows' -> cr acc acc' ->
  mr cr (foldM (fun acc row => pa_add acc row) rows acc) (foldM (fun acc row => pa_add acc row) rows' acc').
Proof.
  intros rows rows' acc acc' H. revert acc acc'. induction H as [|r r' rows rows' Hr H IH]; intros acc acc' Ha; [apply mrel_ret, Ha|].
  cbn [foldM]. eapply mrel_bind; [apply rel_add; eassumption|]. intros s s' Hs. apply IH, Hs.
Qed.
Lemma rel_mul_pairs : forall keep x x' y y', cr x x' -> cr y y' -> mr cr (mul_pairs keep x y) (mul_pairs keep x' y').
Proof.
  intros keep x x' y y' Hx Hy. apply mrel_measure.
  eapply mrel_bind; [apply (mr_fill S0 (X := tp_only True) (fun _ => I)); eassumption|]. intros m m' Hm.
  pose proof (F2_length _ _ _ Hm) as Lm. unfold ciphertext in *. rewrite <- Lm. eapply mrel_bind; [apply rel_reduce_pairs, F2_firstn, Hm|]. intros s s' Hs.
  apply rel_add_rows; [apply F2_skipn, Hm|exact Hs].
Qed.
Lemma rel_karatsuba_at : forall len0 low low' x x' y y', cr x x' -> cr y y' ->
  (forall u u' v v', cr u u' -> cr v v' -> mr cr (low u v) (low' u' v')) ->
  mr cr (karatsuba_at len0 low x y) (karatsuba_at len0 low' x' y').
Proof.
  intros n low low' x x' y y' Hx Hy Hlow. unfold karatsuba_at. rewrite <- (F2_length _ _ _ Hx), <- (F2_length _ _ _ Hy).
  destruct (negb _); [apply mrel_panic|].
  set (A := rel_add). set (U := fun a a' b b' Ha Hb => mr_mul S0 (X := tp_only True) (fun _ => I) a a' b b' Ha Hb).
  apply mrel_measure.
  eapply mrel_bind; [apply U; apply F2_skipn; eauto|]. intros a a' Ha.
  eapply mrel_bind; [apply Hlow; apply F2_firstn; eauto|]. intros b b' Hbb.
  eapply mrel_bind; [apply A; eauto|]. intros s s' Hs.
  eapply mrel_bind; [apply A; eauto using F2_firstn, F2_skipn|]. intros u u' Hu.
  eapply mrel_bind; [apply A; eauto using F2_firstn, F2_skipn|]. intros v v' Hv.
  eapply mrel_bind; [apply U; eauto|]. intros c c' Hc.
  eapply mrel_bind.
  { apply A; apply Forall2_app; eauto using cr_triv. apply (cr_opp S0 s s'); auto. }
  intros d d' Hd. rewrite <- (F2_length _ _ _ Hbb). destruct (_ =? 2 * n)%nat.
  - apply A; auto. apply Forall2_app; auto.
  - eapply mrel_bind; [apply A; eauto|]. intros e e' He. apply A; auto. apply cr_shift; auto.
Qed.
End Related.

Lemma mul_pairs_pbs : forall keep B (x y : ciphertext B), Properties9.fresh x -> Properties9.fresh y -> length x = length y ->
  pbs (mul_pairs keep x y) = fst (mul_pairsc keep (fresh_dw (length x)) (fresh_dw (length x))).
Proof.
  intros keep B x y Hx Hy El. apply fresh_rel in Hx. apply fresh_rel in Hy. rewrite <- El in Hy.
  apply (rel_pbs _ _ _ _ _ _ _ (rel_mul_pairs _ (sim_shape B depths) keep _ _ _ _ Hx Hy)).
  exact (proj2 (fo_mul_pairs keep (fresh_dw (length x)) (fresh_dw (length x)) eq_refl)).
Qed.
Lemma at_pbs : forall len0 B (x y : ciphertext B), Properties9.fresh x -> Properties9.fresh y -> length x = length y ->
  (2 <= len0 <= length x)%nat -> (Nat.max len0 (length x - len0) + 1 <= 32)%nat ->
  pbs (karatsuba_at len0 pa_mul x y) = fst (karatsuba_atc len0 mulp (fresh_dw (length x)) (fresh_dw (length x))) /\
  pbs (karatsuba_at len0 mul_schoolbook x y) = fst (karatsuba_atc len0 schoolc (fresh_dw (length x)) (fresh_dw (length x))).
Proof.
  intros len0 B x y Hx Hy El H0 H32. apply fresh_rel in Hx. apply fresh_rel in Hy. rewrite <- El in Hy. set (f := fresh_dw (length x)) in *.
  assert (Lf : length f = length x) by apply fresh_len. split.
  - apply (rel_pbs _ _ _ _ _ _ _ (rel_karatsuba_at _ (sim_shape B depths) len0 pa_mul pa_mul _ _ _ _ Hx Hy
      (fun u u' v v' Hu Hv => mr_mul (sim_shape B depths) (X := tp_only True) (fun _ => I) u u' v v' Hu Hv))).
    apply (fo_karatsuba_at len0 pa_mul mulp f f); [reflexivity|lia|lia|]. apply fo_mulp. rewrite firstn_length. lia.
  - apply (rel_pbs _ _ _ _ _ _ _ (rel_karatsuba_at _ (sim_shape B depths) len0 mul_schoolbook mul_schoolbook _ _ _ _ Hx Hy
      (fun u u' v v' Hu Hv => ltac:(apply mrel_measure; eapply mrel_bind;
        [apply (mr_fill (sim_shape B depths) (X := tp_only True) (fun _ => I)); eassumption|
         apply (mr_reduce (sim_shape B depths) (X := tp_only True) (fun _ => I))])))).
    apply (fo_karatsuba_at len0 mul_schoolbook schoolc f f); [reflexivity|lia|lia|]. apply fo_school; rewrite ?firstn_length; lia.
Qed.

(** *** adding rows in pairs *)

(** by the number of words: bootstraps and length of the result, up to 17 words *)
Definition pairs_table : list (Z * nat) :=
  [(0, 0%nat); (1, 2%nat); (8, 4%nat); (21, 6%nat); (44, 9%nat); (71, 11%nat); (104, 13%nat); (143, 15%nat); (194, 18%nat);
   (247, 20%nat); (302, 21%nat); (365, 23%nat); (440, 26%nat); (517, 28%nat); (600, 30%nat); (689, 32%nat); (792, 35%nat); (895, 37%nat)].
(** the same with the last row left for the end *)
Definition but_last_table : list (Z * nat) :=
  [(0, 0%nat); (1, 2%nat); (8, 4%nat); (21, 6%nat); (40, 8%nat); (71, 11%nat); (104, 13%nat); (143, 15%nat); (188, 17%nat);
   (247, 20%nat); (306, 22%nat); (365, 23%nat); (434, 25%nat); (517, 28%nat); (600, 30%nat); (689, 32%nat); (784, 34%nat); (895, 37%nat)].
Definition entry (n : nat) (t : list (Z * nat)) : Z * nat := nth n t (0, 0%nat).
Lemma pairs_search : forallb (fun n =>
  let a := mul_pairsc 0 (fresh_dw n) (fresh_dw n) in let b := mul_pairsc 1 (fresh_dw n) (fresh_dw n) in
  (fst a =? fst (entry n pairs_table)) && (length (snd a) =? snd (entry n pairs_table))%nat &&
  (fst b =? fst (entry n but_last_table)) && (length (snd b) =? snd (entry n but_last_table))%nat &&
  (length (snd (schoolc (fresh_dw n) (fresh_dw n))) =? 2 * n)%nat) (seq 2 16) = true.
Proof. vm_compute. reflexivity. Qed.
Lemma shape_result : forall B (x y : ciphertext B) (op : forall B, ciphertext B -> ciphertext B -> M (ciphertext B)) c,
  mrel (tp_only True) (Forall2 (wrel (fun (_ : ct B) (_ : ct depths) => True))) (op B x y) (op depths (td (fresh_dw (length x))) (td (fresh_dw (length x)))) ->
  follows td (op depths (td (fresh_dw (length x))) (td (fresh_dw (length x)))) c ->
  exists z, fst (op B x y) = Ok z /\ length z = length (snd c).
Proof.
  intros B x y op c H [F _]. destruct (mrel_right _ _ _ _ _ _ _ H F) as [z [E K]]. exists z. split; [exact E|].
  rewrite (F2_length _ _ _ K). apply map_length.
Qed.

(** The rows can be added in pairs. The results cost (pairs_table, but_last_table) and have lengths: *)
Theorem C73_pairs_count : forall B (x y : ciphertext B) n, Properties9.fresh x -> Properties9.fresh y -> length x = n -> length y = n ->
  (2 <= n <= 17)%nat ->
  (pbs (mul_pairs 0 x y) = fst (entry n pairs_table) /\
   exists z, fst (mul_pairs 0 x y) = Ok z /\ length z = snd (entry n pairs_table)) /\
  (pbs (mul_pairs 1 x y) = fst (entry n but_last_table) /\
   exists z, fst (mul_pairs 1 x y) = Ok z /\ length z = snd (entry n but_last_table)) /\
  (exists z, fst (mul_schoolbook x y) = Ok z /\ length z = (2 * n)%nat).
Proof.
  intros B x y n Hx Hy Lx Ly Hn. pose proof pairs_search as T. rewrite forallb_forall in T.
  specialize (T n ltac:(apply in_seq; lia)). cbv beta zeta in T.
  repeat (apply andb_prop in T; destruct T as [T ?K]). apply Nat.eqb_eq in K, K0, K2. apply Z.eqb_eq in K1, T.
  assert (P : forall keep, pbs (mul_pairs keep x y) = fst (mul_pairsc keep (fresh_dw n) (fresh_dw n)) /\
    exists z, fst (mul_pairs keep x y) = Ok z /\ length z = length (snd (mul_pairsc keep (fresh_dw n) (fresh_dw n)))).
  { intros keep. split; [rewrite mul_pairs_pbs by (auto; lia); rewrite Lx; reflexivity|].
    apply fresh_rel in Hx. apply fresh_rel in Hy. rewrite Lx in Hx. rewrite Ly in Hy.
    apply (shape_result B x y (fun B => mul_pairs keep)); rewrite Lx.
    - apply (rel_mul_pairs _ (sim_shape B depths)); assumption.
    - apply fo_mul_pairs. reflexivity. }
  destruct (P 0%nat) as [P1 P2]. destruct (P 1%nat) as [P3 P4]. rewrite K2 in P2. rewrite K0 in P4.
  split; [split; [congruence|exact P2]|]. split; [split; [congruence|exact P4]|]. rewrite <- K.
  apply fresh_rel in Hx. apply fresh_rel in Hy. rewrite Lx in Hx. rewrite Ly in Hy.
  apply (shape_result B x y (fun B => mul_schoolbook)); rewrite Lx.
  - apply mrel_measure. eapply mrel_bind; [apply (mr_fill (sim_shape B depths) (X := tp_only True) (fun _ => I)); eassumption|].
    apply (mr_reduce (sim_shape B depths) (X := tp_only True) (fun _ => I)).
  - apply fo_school; rewrite ?fresh_len; lia.
Qed.
Print Assumptions C73_pairs_count.

(** From 4 words on pairs are shallower than what the library does, for at most an eighth more bootstraps than adding row by row takes *)
Theorem C73_pairs_worth :
  (forall B (x y : ciphertext B), Properties9.fresh x -> Properties9.fresh y -> length x = length y -> (4 <= length x <= 17)%nat ->
     pbs (mul_schoolbook x y) < pbs (mul_pairs 0 x y) /\ 8 * pbs (mul_pairs 0 x y) <= 9 * pbs (mul_schoolbook x y)) /\
  (forall N d (x y z : ciphertext (sym N)), all_at d x -> all_at d y -> length x = length y -> (4 <= length x <= 32)%nat ->
     fst (mul_pairs 0 x y) = Ok z -> exists k, max_depth (pa_mul x y) = Some (d + k)%nat /\ depth_le (d + k - 2) z).
Proof.
  split.
  - intros B x y Hx Hy El Hn. rewrite (school_pbs B x y Hx Hy El ltac:(lia)), (mul_pairs_pbs 0 B x y Hx Hy El).
    assert (T : forallb (fun n => let s := fst (schoolc (fresh_dw n) (fresh_dw n)) in let p := fst (mul_pairsc 0 (fresh_dw n) (fresh_dw n)) in
      (s <? p) && (8 * p <=? 9 * s)) (seq 4 14) = true) by (vm_compute; reflexivity).
    rewrite forallb_forall in T. specialize (T (length x) ltac:(apply in_seq; lia)). cbv beta zeta in T. lia.
  - intros N d x y z Hx Hy El Hn E. exists (nth (length x) mul_depths 0%nat).
    split; [apply C51_mul_exact; auto; lia|].
    assert (A : forall u : ciphertext (sym N), all_at d u -> depth_le d u).
    { intros u H. eapply Forall_impl; [|exact H]. intros [t|p]; cbn; [lia|tauto]. }
    assert (T : forallb (fun n => let k := nth n mul_depths 0%nat in let L := Nat.log2_up n in
      (n <=? 2 ^ L)%nat && (2 * L + 1 <=? k - 2)%nat && (2 <=? k)%nat) (seq 4 29) = true) by (vm_compute; reflexivity).
    rewrite forallb_forall in T. specialize (T (length x) ltac:(apply in_seq; lia)). cbv beta zeta in T.
    assert (Hp : (length x <= 2 ^ Nat.log2_up (length x))%nat) by lia.
    eapply (cP_mono (depth_grading N)); [|exact (C73_pairs_depth N d _ x y z (A _ Hx) (A _ Hy) Hp E)]. lia.
Qed.
Print Assumptions C73_pairs_worth.

(** Leaving the longest row for the end does not keep the result as short as adding row by row does *)
Theorem C73_but_last_refuted : forall B (x y : ciphertext B), Properties9.fresh x -> Properties9.fresh y -> length x = length y ->
  (5 <= length x <= 17)%nat -> exists z z', fst (mul_schoolbook x y) = Ok z /\ fst (mul_pairs 1 x y) = Ok z' /\ (length z < length z')%nat.
Proof.
  intros B x y Hx Hy El Hn. destruct (C73_pairs_count B x y (length x) Hx Hy eq_refl (eq_sym El) ltac:(lia)) as [_ [[_ [z' [E' L']]] [z [E L]]]].
  exists z, z'. split; [exact E|]. split; [exact E'|]. rewrite L, L'.
  assert (T : forallb (fun n => (2 * n <? snd (entry n but_last_table))%nat) (seq 5 13) = true) by (vm_compute; reflexivity).
  rewrite forallb_forall in T. specialize (T (length x) ltac:(apply in_seq; lia)). lia.
Qed.
Print Assumptions C73_but_last_refuted.

(** *** splitting differently *)

Theorem C73_as_library : forall B (x y : ciphertext B), mul_karatsuba pa_mul x y = karatsuba_at ((length x + 1) / 2) pa_mul x y.
Proof. reflexivity. Qed.
Print Assumptions C73_as_library.

Definition rival (n len0 : nat) : list Z :=
  let f := fresh_dw n in [fst (karatsuba_atc len0 mulp f f); fst (karatsuba_atc len0 schoolc f f)].
Lemma split_search : forallb (fun n => forallb (fun len0 =>
  forallb (fun c => nth n mul_counts 0 <=? c) (rival n len0)) (seq ((n + 1) / 2 - 2) 5)) (seq 16 15) = true.
Proof. vm_compute. reflexivity. Qed.
Lemma split_31_32 : map (rival 31) (seq 14 5) = [[2595; 2595]; [2497; 2497]; [2531; 2502]; [2589; 2589]; [2759; 2753]] /\
  map (rival 32) (seq 14 5) = [[2808; 2808]; [2682; 2682]; [2617; 2590]; [2678; 2678]; [2842; 2836]].
Proof. vm_compute. split; reflexivity. Qed.
(** 33 to 36 words, which the library refuses: multiplication.rs:101 wants 33 = 16|17, 34 = 17|17, 35 = 18|17, 36 = 19|17? (high part first) *)
Lemma split_33_36 :
  map (rival 33) (seq 15 5) = [[2895; 2895]; [2808; 2775]; [2764; 2764]; [2931; 2925]; [3047; 3018]] /\
  map (rival 34) (seq 15 5) = [[3100; 3100]; [3025; 2988]; [2874; 2874]; [3017; 3011]; [3136; 3107]] /\
  map (rival 35) (seq 15 5) = [[3317; 3317]; [3234; 3193]; [3087; 3087]; [3127; 3121]; [3222; 3193]] /\
  map (rival 36) (seq 15 5) = [[3540; 3540]; [3455; 3410]; [3292; 3292]; [3196; 3192]; [3332; 3303]].
Proof. vm_compute. repeat split; reflexivity. Qed.

(** [splits n l]: what a product of two fresh ciphertexts of [n] words costs for each split of [l], with the
    library's choice for the low product, and with schoolbook for it *)
Definition splits (n : nat) (l : list (nat * Z * Z)) : Prop :=
  forall B (x y : ciphertext B), Properties9.fresh x -> Properties9.fresh y -> length x = n -> length y = n ->
  forall len0 c c', In (len0, c, c') l ->
  pbs (karatsuba_at len0 pa_mul x y) = c /\ pbs (karatsuba_at len0 mul_schoolbook x y) = c'.

Lemma rival_pbs : forall B (x y : ciphertext B) n len0, Properties9.fresh x -> Properties9.fresh y -> length x = n -> length y = n ->
  (2 <= len0 <= n)%nat -> (Nat.max len0 (n - len0) + 1 <= 32)%nat ->
  rival n len0 = [pbs (karatsuba_at len0 pa_mul x y); pbs (karatsuba_at len0 mul_schoolbook x y)].
Proof.
  intros B x y n len0 Hx Hy Lx Ly H1 H2. subst n. destruct (at_pbs len0 B x y Hx Hy (eq_sym Ly) H1 H2) as [P1 P2].
  rewrite P1, P2. reflexivity.
Qed.

(** Up to 30 words no split at most two words from the middle, with either low product, beats the library *)
Theorem C73_split_middle : forall B (x y : ciphertext B) n len0, Properties9.fresh x -> Properties9.fresh y ->
  length x = n -> length y = n -> (16 <= n <= 30)%nat -> ((n + 1) / 2 - 2 <= len0 <= (n + 1) / 2 + 2)%nat ->
  pbs (pa_mul x y) <= pbs (karatsuba_at len0 pa_mul x y) /\ pbs (pa_mul x y) <= pbs (karatsuba_at len0 mul_schoolbook x y).
Proof.
  intros B x y n len0 Hx Hy Lx Ly Hn H0. pose proof split_search as T. rewrite forallb_forall in T.
  specialize (T n ltac:(apply in_seq; lia)). cbv beta in T. rewrite forallb_forall in T.
  specialize (T len0 ltac:(apply in_seq; lia)). cbv beta in T.
  assert (A : (8 <= (n + 1) / 2 <= 15)%nat) by (split; [apply (Nat.div_le_mono 16 (n + 1) 2)|apply (Nat.div_le_mono (n + 1) 31 2)]; lia).
  rewrite (rival_pbs B x y n len0 Hx Hy Lx Ly) in T by lia. cbn [forallb] in T.
  rewrite (C52_mul B x y Hx Hy) by lia. rewrite Lx. lia.
Qed.
Print Assumptions C73_split_middle.

Lemma splits_of : forall n lo row, (2 <= lo)%nat -> (lo + length row <= n + 1)%nat -> (lo + length row <= 32)%nat -> (n <= lo + 31)%nat ->
  map (rival n) (seq lo (length row)) = map (fun p => [fst p; snd p]) row ->
  splits n (map (fun p => (fst p, fst (snd p), snd (snd p))) (combine (seq lo (length row)) row)).
Proof.
  intros n lo row. revert lo. induction row as [|[c c'] row IH]; intros lo H1 H2 H3 H4 E B x y Hx Hy Lx Ly len0 d d' I; [contradiction|].
  cbn [length] in *. cbn [seq map combine fst snd] in *.
  assert (E0 : rival n lo = [c; c']) by exact (f_equal (hd []) E).
  assert (E' : map (rival n) (seq (S lo) (length row)) = map (fun p => [fst p; snd p]) row) by exact (f_equal (@tl _) E). destruct I as [I|I].
  - injection I as <- <- <-. rewrite (rival_pbs B x y n lo Hx Hy Lx Ly) in E0 by lia. injection E0 as A1 A2. auto.
  - exact (IH (S lo) ltac:(lia) ltac:(lia) ltac:(lia) ltac:(lia) E' B x y Hx Hy Lx Ly len0 d d' I).
Qed.

(** 31 words: worth splitting as 16|15, and worth calling schoolbook for the low product if not (the library takes 2531);
    32 words: worth calling schoolbook for the low product, not worth splitting as 17|15 (the library takes 2617) *)
Theorem C73_split_31_32 :
  splits 31 [(14%nat, 2595, 2595); (15%nat, 2497, 2497); (16%nat, 2531, 2502); (17%nat, 2589, 2589); (18%nat, 2759, 2753)] /\
  splits 32 [(14%nat, 2808, 2808); (15%nat, 2682, 2682); (16%nat, 2617, 2590); (17%nat, 2678, 2678); (18%nat, 2842, 2836)].
Proof.
  destruct split_31_32 as [E1 E2]. split.
  - exact (splits_of 31 14 [(2595, 2595); (2497, 2497); (2531, 2502); (2589, 2589); (2759, 2753)]
      ltac:(cbn; lia) ltac:(cbn; lia) ltac:(cbn; lia) ltac:(cbn; lia) E1).
  - exact (splits_of 32 14 [(2808, 2808); (2682, 2682); (2617, 2590); (2678, 2678); (2842, 2836)]
      ltac:(cbn; lia) ltac:(cbn; lia) ltac:(cbn; lia) ltac:(cbn; lia) E2).
Qed.
Print Assumptions C73_split_31_32.
(** beyond the library's limit: 35 words are worth splitting as 18|17, 36 are not worth splitting as 19|17 *)
Theorem C73_split_33_36 :
  splits 33 [(15%nat, 2895, 2895); (16%nat, 2808, 2775); (17%nat, 2764, 2764); (18%nat, 2931, 2925); (19%nat, 3047, 3018)] /\
  splits 34 [(15%nat, 3100, 3100); (16%nat, 3025, 2988); (17%nat, 2874, 2874); (18%nat, 3017, 3011); (19%nat, 3136, 3107)] /\
  splits 35 [(15%nat, 3317, 3317); (16%nat, 3234, 3193); (17%nat, 3087, 3087); (18%nat, 3127, 3121); (19%nat, 3222, 3193)] /\
  splits 36 [(15%nat, 3540, 3540); (16%nat, 3455, 3410); (17%nat, 3292, 3292); (18%nat, 3196, 3192); (19%nat, 3332, 3303)].
Proof.
  destruct split_33_36 as [E1 [E2 [E3 E4]]]. split; [|split; [|split]].
  - exact (splits_of 33 15 [(2895, 2895); (2808, 2775); (2764, 2764); (2931, 2925); (3047, 3018)]
      ltac:(cbn; lia) ltac:(cbn; lia) ltac:(cbn; lia) ltac:(cbn; lia) E1).
  - exact (splits_of 34 15 [(3100, 3100); (3025, 2988); (2874, 2874); (3017, 3011); (3136, 3107)]
      ltac:(cbn; lia) ltac:(cbn; lia) ltac:(cbn; lia) ltac:(cbn; lia) E2).
  - exact (splits_of 35 15 [(3317, 3317); (3234, 3193); (3087, 3087); (3127, 3121); (3222, 3193)]
      ltac:(cbn; lia) ltac:(cbn; lia) ltac:(cbn; lia) ltac:(cbn; lia) E3).
  - exact (splits_of 36 15 [(3540, 3540); (3455, 3410); (3292, 3292); (3196, 3192); (3332, 3303)]
      ltac:(cbn; lia) ltac:(cbn; lia) ltac:(cbn; lia) ltac:(cbn; lia) E4).
Qed.
Print Assumptions C73_split_33_36.

(** "31 and 33 worth splitting differently": 33 are not *)
Theorem C73_33_refuted : forall B (x y : ciphertext B) len0, Properties9.fresh x -> Properties9.fresh y -> length x = 33%nat -> length y = 33%nat ->
  (15 <= len0 <= 19)%nat -> len0 <> 17%nat ->
  pbs (mul_karatsuba pa_mul x y) < pbs (karatsuba_at len0 pa_mul x y) /\
  pbs (mul_karatsuba pa_mul x y) < pbs (karatsuba_at len0 mul_schoolbook x y).
Proof.
  intros B x y len0 Hx Hy Lx Ly H0 N. rewrite C73_as_library, Lx. change ((33 + 1) / 2)%nat with 17%nat.
  destruct C73_split_33_36 as [T _].
  destruct (T B x y Hx Hy Lx Ly 17%nat 2764 2764 ltac:(cbn; auto)) as [E _]. rewrite E.
  assert (A : len0 = 15%nat \/ len0 = 16%nat \/ len0 = 18%nat \/ len0 = 19%nat) by lia.
  destruct A as [->|[->|[->| ->]]].
  - destruct (T B x y Hx Hy Lx Ly 15%nat 2895 2895 ltac:(cbn; auto)) as [-> ->]. lia.
  - destruct (T B x y Hx Hy Lx Ly 16%nat 2808 2775 ltac:(cbn; auto)) as [-> ->]. lia.
  - destruct (T B x y Hx Hy Lx Ly 18%nat 2931 2925 ltac:(cbn; auto)) as [-> ->]. lia.
  - destruct (T B x y Hx Hy Lx Ly 19%nat 3047 3018 ltac:(cbn; auto 6)) as [-> ->]. lia.
Qed.
Print Assumptions C73_33_refuted.

(** ** Examples *)

(** 29 * -21 in six words, rows in pairs, in pairs but for the last, and split in two and four *)
Example C73_value_ex : xdec (mul_pairs 0 (xenc 29 6) (xenc (-21) 6)) = Ok (-609) /\ xdec (mul_pairs 1 (xenc 29 6) (xenc (-21) 6)) = Ok (-609) /\
  xdec (karatsuba_at 2 pa_mul (xenc 29 6) (xenc (-21) 6)) = Ok (-609) /\ xdec (karatsuba_at 2 mul_schoolbook (xenc 29 6) (xenc (-21) 6)) = Ok (-609).
Proof. vm_compute. auto. Qed.
(** 15 words: 44 bootstraps more, two words longer, 9 deep instead of 29; the longest row last does not make it shorter *)
Example C73_pairs_ex : entry 15 pairs_table = (689, 32%nat) /\ entry 15 but_last_table = (689, 32%nat) /\ nth 15 mul_counts 0 = 645 /\
  nth 15 mul_depths 0%nat = 29%nat /\ (15 <= 2 ^ 4)%nat /\ (2 * 4 + 1 = 9)%nat.
Proof. vm_compute. repeat split; lia. Qed.
(** the counts on a real run *)
Example C73_run_ex : Properties9.fresh (xenc 5 4) /\ pbs (mul_pairs 0 (xenc 5 4) (xenc 7 4)) = 44 /\ pbs (mul_schoolbook (xenc 5 4) (xenc 7 4)) = 40 /\
  pbs (karatsuba_at 2 mul_schoolbook (xenc 29 6) (xenc (-21) 6)) = fst (karatsuba_atc 2 schoolc (fresh_dw 6) (fresh_dw 6)).
Proof. split; [repeat constructor|]. vm_compute. auto. Qed.
Example C73_depth_ex : all_at 0 (sx 5) /\ depth_le 0 (sx 5) /\ max_depth (mul_pairs 0 (sx 5) (sy 5)) = Some 7%nat /\ max_depth (pa_mul (sx 5) (sy 5)) = Some 9%nat.
Proof. unfold sx. split; [repeat constructor|]. split; [repeat constructor|]. vm_compute. auto. Qed.
(** the savings on 31 and 32 words *)
Example C73_split_ex : nth 31 mul_counts 0 = 2531 /\ nth 32 mul_counts 0 = 2617 /\ Properties9.fresh (xenc 5 31) /\ length (xenc 5 31) = 31%nat.
Proof. split; [reflexivity|]. split; [reflexivity|]. split; [repeat constructor|reflexivity]. Qed.
