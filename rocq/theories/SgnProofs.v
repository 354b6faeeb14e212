(** Proofs about signum, maximum, ReLU (C14, C15) *)
From Verif Require Import Base Backend Words Params Pbs Addition Signum Maximum Spec Contract
  BaseProofs WordsProofs PbsProofs ValueProofs AddProofs.
From Coq Require Import ZifyBool ZifyNat.

(** ** Sign of a positional sum *)
Fixpoint valb (b : Z) (l : list Z) : Z :=
  match l with [] => 0 | a :: t => a + b * valb b t end.

(** sign of the highest non-zero entry *)
Fixpoint lsgn (l : list Z) : Z :=
  match l with [] => 0 | a :: t => if lsgn t =? 0 then Z.sgn a else lsgn t end.

Lemma valb_sgn : forall b l, 1 < b -> Forall (fun a => Z.abs a < b) l ->
  Z.sgn (valb b l) = lsgn l.
Proof.
  intros b l Hb. induction l as [|a t IH]; intros H; simpl; auto.
  inversion H as [|a' t' H1 H2]; subst. specialize (IH H2). rewrite <- IH.
  destruct (Z.sgn (valb b t) =? 0) eqn:E.
  - replace (valb b t) with 0 by lia. f_equal. lia.
  - destruct (Z.lt_ge_cases 0 (valb b t)).
    + rewrite (Z.sgn_pos (valb b t)) by lia. apply Z.sgn_pos. nia.
    + rewrite (Z.sgn_neg (valb b t)) by lia. apply Z.sgn_neg. nia.
Qed.

Lemma value_valb : forall l, value l = valb 2 l.
Proof. induction l; simpl; congruence. Qed.

Lemma lsgn_map_sgn : forall l, lsgn (map Z.sgn l) = lsgn l.
Proof. induction l as [|a l IH]; simpl; auto. rewrite IH. destruct (lsgn l =? 0); lia. Qed.

Definition group4 (f : nat -> Z) (j : nat) : Z :=
  f (4 * j)%nat + 2 * f (4 * j + 1)%nat + 4 * f (4 * j + 2)%nat + 8 * f (4 * j + 3)%nat.

Lemma valb_group4 : forall n f,
  valb 16 (map (group4 f) (seq 0 n)) = vsum f (4 * n).
Proof.
  induction n as [|n IH]; intros f.
  - reflexivity.
  - cbn [seq map valb]. rewrite <- seq_shift, map_map.
    rewrite (map_ext _ (group4 (fun i => f (4 + i)%nat))).
    + rewrite IH. replace (4 * S n)%nat with (S (S (S (S (4 * n))))) by lia.
      rewrite !vsum_shift. unfold group4. cbn [Nat.mul Nat.add].
      rewrite (vsum_ext (fun i => f (S (S (S (S i))))) (fun i => f (4 + i)%nat)); auto.
      cbn [Nat.add]. ring.
    + intros j. unfold group4. replace (4 * S j)%nat with (4 + 4 * j)%nat by lia. reflexivity.
Qed.

Lemma group4_bound : forall f j, (forall i, digit (f i)) -> Z.abs (group4 f j) <= 15.
Proof.
  intros f j H. unfold group4, digit in *.
  pose proof (H (4 * j)%nat). pose proof (H (4 * j + 1)%nat). pose proof (H (4 * j + 2)%nat).
  pose proof (H (4 * j + 3)%nat). lia.
Qed.

Lemma nth_map_sgn : forall ms i, nth i (map Z.sgn ms) 0 = Z.sgn (nth i ms 0).
Proof. intros ms i. change 0 with (Z.sgn 0) at 1. apply map_nth. Qed.

Lemma sgn_digit : forall m, digit (Z.sgn m).
Proof. intros m. unfold digit. lia. Qed.

(** the grouping step preserves the sign *)
Lemma lsgn_group4 : forall ms n, (length ms <= 4 * n)%nat ->
  lsgn (map (group4 (fun i => Z.sgn (nth i ms 0))) (seq 0 n)) = lsgn ms.
Proof.
  intros ms n Hn. rewrite <- (lsgn_map_sgn ms).
  rewrite <- (valb_sgn 16), <- (valb_sgn 2 (map Z.sgn ms)); try lia.
  - rewrite valb_group4, <- value_valb, (value_vsum (map Z.sgn ms) (4 * n)).
    + f_equal. apply vsum_ext. intros i _. rewrite nth_map_sgn. auto.
    + rewrite map_length. auto.
  - apply Forall_forall. intros a Ha. apply in_map_iff in Ha. destruct Ha as [m [<- _]]. lia.
  - apply Forall_forall. intros a Ha. apply in_map_iff in Ha. destruct Ha as [m [<- _]].
    assert (Z.abs (group4 (fun i => Z.sgn (nth i ms 0)) m) <= 15).
    { apply group4_bound. intros; apply sgn_digit. }
    lia.
Qed.

Lemma Forall2_swap_map : forall A B D (R : D -> B -> Prop) (g : A -> D) l m,
  Forall2 (fun a b => R (g a) b) l m -> Forall2 (fun b d => R d b) m (map g l).
Proof. intros A B D R g l m H. induction H; simpl; constructor; auto. Qed.

Section Sgn.
Context {B : backend} {qw : Z} (C : contract B qw) (pc : cloud).
Hypothesis Hqw : quad_weight (cparams pc) = qw.

Lemma lut_fun_okP : forall F lo hi f (c : word B) m k, lut_fun C F lo hi f ->
  0 <= k <= l1_need qw -> lo <= m <= hi -> wmsg C c m k ->
  okP (F c) (fun w => wmsg C w (f m) 1).
Proof.
  intros F lo hi f c m k HF Hk Hm Hc. destruct (HF c m k Hk Hm Hc) as [w [H1 [H2 _]]].
  exists w. rewrite H1. auto.
Qed.

Lemma f_1_ok : forall v, In v [1; 2; 4; 6; 8] ->
  lut_fun C (fun c => f_1_pi_5 c v) (-15) 15 (fun m => v * Z.sgn m).
Proof.
  intros v Hv. simpl in Hv.
  destruct Hv as [<-|[<-|[<-|[<-|[<-|[]]]]]]; apply lut_fun_of; reflexivity.
Qed.

(** a word list with messages [ms] bounded by 15, noise weight at most k *)
Definition mlist (k : Z) (x : ciphertext B) (ms : list Z) : Prop :=
  Forall2 (fun w m => wmsg C w m k) x ms /\ Forall (fun m => Z.abs m <= 15) ms.

Lemma mlist_nth : forall k x ms i, mlist k x ms -> 
  wmsg C (nth i x triv0) (nth i ms 0) k /\ Z.abs (nth i ms 0) <= 15.
Proof.
  intros k x ms i [H1 H2]. destruct (Nat.lt_ge_cases i (length x)) as [Hi|Hi].
  - split.
    + apply (Forall2_nth _ _ (fun w m => wmsg C w m k)); auto.
    + rewrite Forall_forall in H2. apply H2. apply nth_In.
      rewrite <- (Forall2_len _ _ _ _ _ H1). auto.
  - rewrite !nth_overflow; auto.
    + split; [apply wmsg_triv0|lia].
    + rewrite <- (Forall2_len _ _ _ _ _ H1). auto.
Qed.

Lemma mlist_len : forall k x ms, mlist k x ms -> length ms = length x.
Proof. intros k x ms [H _]. symmetry. eapply Forall2_len; eauto. Qed.

Lemma next_group_ok : forall x ms k j, 0 <= k <= l1_need qw -> mlist k x ms ->
  okP (sgn_next_group x j) (fun w => wmsg C w (group4 (fun i => Z.sgn (nth i ms 0)) j) 4).
Proof.
  intros x ms k j Hk Hx. unfold sgn_next_group.
  eapply okP_bind.
  { apply (okP_mapM _ _ _ (fun i w => wmsg C w (2 ^ Z.of_nat i * Z.sgn (nth (4 * j + i) ms 0)) 1)).
    intros i Hi. apply in_seq in Hi. unfold GAMMA in *.
    destruct (4 * j + i <? length x)%nat eqn:E.
    - destruct (mlist_nth k x ms (4 * j + i) Hx) as [M1 M2].
      apply (lut_fun_okP (fun c => f_1_pi_5 c (2 ^ Z.of_nat i)) (-15) 15
               (fun m => 2 ^ Z.of_nat i * Z.sgn m) _ (nth (4 * j + i) ms 0) k); auto; [|lia].
      apply f_1_ok. assert (i = 0 \/ i = 1 \/ i = 2 \/ i = 3)%nat as Hi4 by lia.
      destruct Hi4 as [H|[H|[H|H]]]; rewrite H; vm_compute; auto 8.
    - apply okP_ret. rewrite nth_overflow by (rewrite (mlist_len k x ms Hx); lia).
      rewrite Z.mul_0_r. apply wmsg_triv0. }
  intros sj H. unfold GAMMA in H. simpl seq in H.
  inversion H as [|? w0 ? t0 H0 T0]; subst. inversion T0 as [|? w1 ? t1 H1 T1]; subst.
  inversion T1 as [|? w2 ? t2 H2 T2]; subst. inversion T2 as [|? w3 ? t3 H3 T3]; subst.
  inversion T3; subst. apply okP_ret. unfold fold_left.
  assert (HH : wmsg C (w_add (w_add (w_add (w_add triv0 w0) w1) w2) w3)
    (0 + 2 ^ Z.of_nat 0 * Z.sgn (nth (4 * j + 0) ms 0)
       + 2 ^ Z.of_nat 1 * Z.sgn (nth (4 * j + 1) ms 0)
       + 2 ^ Z.of_nat 2 * Z.sgn (nth (4 * j + 2) ms 0)
       + 2 ^ Z.of_nat 3 * Z.sgn (nth (4 * j + 3) ms 0)) (0 + 1 + 1 + 1 + 1)).
  { repeat (apply wmsg_add; [lia|lia| |auto]). apply wmsg_triv0. }
  replace (group4 _ _) with
    (0 + 2 ^ Z.of_nat 0 * Z.sgn (nth (4 * j + 0) ms 0)
       + 2 ^ Z.of_nat 1 * Z.sgn (nth (4 * j + 1) ms 0)
       + 2 ^ Z.of_nat 2 * Z.sgn (nth (4 * j + 2) ms 0)
       + 2 ^ Z.of_nat 3 * Z.sgn (nth (4 * j + 3) ms 0)); auto.
  unfold group4. rewrite Nat.add_0_r. change (2 ^ Z.of_nat 0) with 1. change (2 ^ Z.of_nat 1) with 2.
  change (2 ^ Z.of_nat 2) with 4. change (2 ^ Z.of_nat 3) with 8. ring.
Qed.

Lemma first_group_ok : forall x ds j, encrypts C x ds ->
  okP (sgn_first_group pc x j)
      (fun w => wmsg C w (group4 (fun i => Z.sgn (nth i ds 0)) j) (l1_need qw)).
Proof.
  intros x ds j Hx. unfold sgn_first_group, GAMMA.
  pose proof (encrypts_len C x ds Hx) as Lx.
  assert (Hd : forall i, Z.sgn (nth i ds 0) = nth i ds 0).
  { intros i. pose proof (digits_nth ds i (proj1 Hx)) as H. unfold digit in H. lia. }
  set (k3 := if 85 <=? qw then 8 else 1).
  assert (Hk3 : k3 + 7 <= l1_need qw).
  { unfold k3, l1_need. destruct (85 <=? qw); [lia|]. destruct (41 <=? qw); lia. }
  eapply okP_bind with (P := fun w => wmsg C w (8 * nth (4 * j + 3) ds 0) k3).
  { destruct (4 * j + 3 <? length x)%nat eqn:E.
    - eapply okP_bind with (P := fun w => wmsg C w (8 * nth (4 * j + 3) ds 0) k3).
      + rewrite Hqw. unfold k3. destruct (85 <=? qw).
        * apply okP_ret. rewrite Z.mul_comm. apply (wmsg_mul C _ _ 1 8); [lia|].
          apply encrypts_nth; auto.
        * rewrite <- (Hd (4 * j + 3)%nat).
          apply (lut_fun_okP (fun c => f_1_pi_5 c 8) (-15) 15 (fun m => 8 * Z.sgn m) _ _ 1).
          -- apply f_1_ok. simpl; auto 8.
          -- pose proof (@l1_need_8 qw). lia.
          -- pose proof (digits_nth ds (4 * j + 3) (proj1 Hx)) as H. unfold digit in H. lia.
          -- apply encrypts_nth; auto.
      + intros w Hw. apply okP_ret.
        replace (8 * nth (4 * j + 3) ds 0) with (0 + 8 * nth (4 * j + 3) ds 0) by lia.
        replace k3 with (0 + k3) by lia.
        apply wmsg_add; auto; try lia; [unfold k3; destruct (85 <=? qw); lia|apply wmsg_triv0].
    - apply okP_ret. rewrite nth_overflow by lia. apply wmsg_triv0. }
  intros b3 H3. apply okP_ret. unfold fold_left.
  assert (Hstep : forall i b m k, (i < 3)%nat -> 0 <= k -> wmsg C b m k ->
    wmsg C (if (4 * j + i <? length x)%nat
            then w_add b (if (i =? 0)%nat then nth (4 * j + i) x triv0
                          else w_mul_const (nth (4 * j + i) x triv0) (2 ^ Z.of_nat i))
            else b) (m + 2 ^ Z.of_nat i * nth (4 * j + i) ds 0) (k + 2 ^ Z.of_nat i)).
  { intros i b m k Hi Hk Hb. pose proof (pow2_pos i) as Hp.
    destruct (4 * j + i <? length x)%nat eqn:E.
    - destruct (i =? 0)%nat eqn:E0.
      + assert (i = 0%nat) as -> by lia. change (2 ^ Z.of_nat 0) with 1. rewrite Z.mul_1_l.
        apply wmsg_add; auto; [lia|]. apply encrypts_nth; auto.
      + apply wmsg_add; auto; [lia|]. rewrite Z.mul_comm.
        assert (i = 1 \/ i = 2)%nat as Hi2 by lia.
        replace (2 ^ Z.of_nat i) with (1 * Z.abs (2 ^ Z.of_nat i)) at 3 by lia.
        apply wmsg_mul; [|apply encrypts_nth; auto].
        destruct Hi2 as [-> | ->]; [change (2 ^ Z.of_nat 1) with 2|change (2 ^ Z.of_nat 2) with 4]; lia.
    - rewrite nth_overflow by lia. rewrite Z.mul_0_r, Z.add_0_r.
      eapply wmsg_weaken; [|apply Hb]. lia. }
  assert (Hk30 : 0 <= k3) by (unfold k3; destruct (85 <=? qw); lia).
  pose proof (Hstep 0%nat _ _ _ ltac:(lia) Hk30 H3) as S0.
  apply (Hstep 1%nat) in S0; [|lia|change (2 ^ Z.of_nat 0) with 1; lia].
  apply (Hstep 2%nat) in S0; [|lia|change (2 ^ Z.of_nat 0) with 1; change (2 ^ Z.of_nat 1) with 2; lia].
  change (2 ^ Z.of_nat 0) with 1 in *. change (2 ^ Z.of_nat 1) with 2 in *.
  change (2 ^ Z.of_nat 2) with 4 in *.
  eapply wmsg_weaken; [|].
  2:{ match type of S0 with wmsg _ _ ?m _ => replace (group4 _ _) with m end; [exact S0|].
      unfold group4. rewrite !Hd. rewrite Nat.add_0_r. ring. }
  lia.
Qed.

Lemma recursion_ok : forall fuel x ms first k,
  (length x < fuel)%nat -> 0 <= k <= l1_need qw -> mlist k x ms ->
  (first = true -> encrypts C x ms) ->
  okP (sgn_recursion_fuel fuel pc x first)
      (fun s => exists w m, s = [w] /\ wmsg C w m (l1_need qw) /\ Z.abs m <= 15 /\
                            Z.sgn m = lsgn ms).
Proof.
  induction fuel as [|fuel IH]; intros x ms first k Hf Hk Hx H1; [lia|].
  simpl. pose proof (mlist_len k x ms Hx) as Lx.
  destruct (length x =? 0)%nat eqn:E0.
  { apply okP_ret. exists triv0, 0. split; auto. split; [apply wmsg_triv0|]. split; [lia|].
    destruct ms; [auto|]. simpl in Lx. lia. }
  destruct (length x =? 1)%nat eqn:E1.
  { apply okP_ret. destruct x as [|w [|? ?]]; simpl in *; try lia.
    destruct ms as [|m [|? ?]]; simpl in *; try lia.
    destruct (mlist_nth k [w] [m] 0 Hx) as [M1 M2]. simpl in *.
    exists w, m. split; auto. split; auto. eapply wmsg_weaken; eauto; lia. }
  apply okP_measure.
  set (n := ((length x - 1) / GAMMA + 1)%nat).
  assert (Hn : (n < length x)%nat /\ (length x <= 4 * n)%nat).
  { unfold n, GAMMA. pose proof (Nat.div_mod (length x - 1) 4 ltac:(lia)).
    pose proof (Nat.mod_upper_bound (length x - 1) 4 ltac:(lia)). lia. }
  set (g := group4 (fun i => Z.sgn (nth i ms 0))).
  eapply okP_bind.
  { apply (okP_mapM _ _ _ (fun j w => wmsg C w (g j) (l1_need qw))).
    intros j Hj. destruct first.
    - apply first_group_ok; auto.
    - eapply okP_conseq; [apply (next_group_ok x ms k); auto|].
      intros w Hw. eapply wmsg_weaken; [|apply Hw]. pose proof (@l1_need_8 qw). lia. }
  intros b Hb. cbv beta in Hb.
  assert (Lb : length b = n).
  { rewrite <- (Forall2_len _ _ _ _ _ Hb), seq_length. auto. }
  eapply okP_conseq.
  { apply (IH b (map g (seq 0 n)) false (l1_need qw)).
    - lia.
    - pose proof (@l1_need_8 qw). lia.
    - split.
      + apply (Forall2_swap_map _ _ _ (fun m w => wmsg C w m (l1_need qw)) g); auto.
      + apply Forall_forall. intros m Hm. apply in_map_iff in Hm. destruct Hm as [j [<- _]].
        apply group4_bound. intros; apply sgn_digit.
    - discriminate. }
  cbv beta. intros s [w [m [S1 [S2 [S3 S4]]]]]. exists w, m. split; auto. split; auto. split; auto.
  rewrite S4. apply lsgn_group4. lia.
Qed.

Lemma encrypts_mlist : forall x ds, encrypts C x ds -> mlist 1 x ds.
Proof.
  intros x ds [H1 H2]. split; auto. eapply Forall_impl; [|apply H1].
  intros a Ha. unfold digit in Ha. lia.
Qed.

Lemma lsgn_value : forall ds, digits ds -> lsgn ds = Z.sgn (value ds).
Proof.
  intros ds H. rewrite value_valb, valb_sgn; auto; [lia|].
  eapply Forall_impl; [|apply H]. intros a Ha. unfold digit in Ha. lia.
Qed.

Lemma sgn_raw_ok : forall x ds, encrypts C x ds ->
  okP (sgn_recursion_raw pc x true)
      (fun s => exists w m, s = [w] /\ wmsg C w m (l1_need qw) /\ Z.abs m <= 15 /\
                            Z.sgn m = Z.sgn (value ds)).
Proof.
  intros x ds H. unfold sgn_recursion_raw.
  rewrite <- (lsgn_value ds) by apply H.
  apply recursion_ok with (k := 1); auto.
  - pose proof (@l1_need_8 qw). lia.
  - apply encrypts_mlist; auto.
Qed.

Lemma enc_val_single : forall w d, digit d -> wmsg C w d 1 -> enc_val C [w] d.
Proof.
  intros w d Hd Hw. exists [d]. split; [split; constructor; auto|]. simpl. lia.
Qed.

Lemma pa_sgn_ok : forall x v, enc_val C x v ->
  okP (pa_sgn pc x) (fun z => enc_val C z (Z.sgn v) /\ (length z <= 1)%nat).
Proof.
  intros x v [ds [Hx <-]]. unfold pa_sgn. apply okP_analysed. unfold sgn_impl.
  pose proof (encrypts_len C x ds Hx) as Lx.
  destruct (length x =? 0)%nat eqn:E0.
  { apply okP_ret. destruct ds; [|simpl in Lx; lia]. split; [apply enc_val_nil|simpl; lia]. }
  destruct (length x =? 1)%nat eqn:E1.
  { apply okP_ret. split; [|lia]. destruct ds as [|d [|? ?]]; simpl in Lx; try lia.
    exists [d]. split; auto. simpl. destruct Hx as [Hd _]. inversion Hd; subst.
    unfold digit in *. lia. }
  eapply okP_bind with (P := fun w => wmsg C w (Z.sgn (value ds)) 1).
  - apply okP_measure. eapply okP_bind; [apply sgn_raw_ok; eauto|].
    cbv beta. intros s [w [m [-> [S2 [S3 S4]]]]]. change (index [w] 0) with (ret w). rewrite ret_bind.
    rewrite <- S4. replace (Z.sgn m) with (1 * Z.sgn m) by lia.
    apply (lut_fun_okP (fun c => f_1_pi_5 c 1) (-15) 15 (fun m => 1 * Z.sgn m) w m (l1_need qw)); auto.
    + apply f_1_ok; simpl; auto.
    + pose proof (@l1_need_8 qw); lia.
    + lia.
  - intros w Hw. apply okP_ret. split; [|simpl; lia]. apply enc_val_single; auto. apply sgn_digit.
Qed.

(** ** Maximum *)
Lemma nonneg_ok : forall (c : word B) m k, 0 <= k <= l1_need qw -> -16 <= m <= 15 ->
  wmsg C c m k -> exists w, nonneg_pi_5 c = (Ok w, lut_trace c) /\
    wmsg C w (if 0 <=? m then 1 else 0) 1 /\ is_triv w = is_triv c.
Proof.
  intros c m k Hk Hm Hc. unfold nonneg_pi_5.
  destruct (lut_half_ok C c m k lut_nonneg) as [h [H1 [H2 H3]]]; auto.
  { intros i. unfold lut_nonneg.
    do 16 (destruct i as [|i]; [simpl; lia|]). simpl. destruct i; lia. }
  rewrite H1. exists (w_add_half h). unfold bind, ret. rewrite app_nil_r. split; auto.
  split; [|rewrite is_triv_w_half; auto].
  unfold wmsg. apply wrep_half in H2.
  replace ((if 0 <=? m then 1 else 0) * step) with (negacyclic lut_nonneg m * 2 ^ 58 + 2 ^ 58); auto.
  assert (E : negacyclic lut_nonneg m = if 0 <=? m then 1 else -1).
  { assert (H : forallb (fun m => negacyclic lut_nonneg m =? if 0 <=? m then 1 else -1)
                        (zrange (-16) 15) = true) by reflexivity.
    rewrite forallb_forall in H. specialize (H m (in_zrange _ _ _ Hm)). lia. }
  rewrite E. destruct (0 <=? m); unfold step; lia.
Qed.

Definition max_sel (m : Z) : Z := mu_to_mi 32 (negacyclic lut_max m).
Lemma max_table_ok : lut_fun C max_s_2x_6y_pi_5 (-8) 9 max_sel.
Proof. apply lut_fun_of; reflexivity. Qed.

Lemma max_sel_ok : forall s x y, 0 <= s <= 1 -> digit x -> digit y ->
  max_sel (s + 2 * x + 6 * y) = if s =? 1 then x else y.
Proof.
  intros s x y Hs Hx Hy. unfold digit in *.
  assert (s = 0 \/ s = 1) as [ -> | -> ] by lia;
  assert (x = -1 \/ x = 0 \/ x = 1) as [ -> | [ -> | -> ]] by lia;
  assert (y = -1 \/ y = 0 \/ y = 1) as [ -> | [ -> | -> ]] by lia; reflexivity.
Qed.

Lemma max_word_ok : forall sw s xi yi x y, 0 <= s <= 1 -> digit x -> digit y ->
  wmsg C sw s 1 -> wmsg C xi x 1 -> wmsg C yi y 1 ->
  okP (max_word pc sw (xi, yi)) (fun w => wmsg C w (if s =? 1 then x else y) 1).
Proof.
  intros sw s xi yi x y Hs Hx Hy Hsw Hxi Hyi. unfold max_word. rewrite Hqw.
  pose proof (@l1_need_8 qw).
  set (ky := if 41 <=? qw then 6 else 1).
  eapply okP_bind with (P := fun w => wmsg C w (6 * y) ky).
  { unfold ky. destruct (41 <=? qw).
    - apply okP_ret. rewrite Z.mul_comm. apply (wmsg_mul C _ _ 1 6); auto; lia.
    - replace y with (Z.sgn y) by (unfold digit in *; lia).
      apply (lut_fun_okP (fun c => f_1_pi_5 c 6) (-15) 15 (fun m => 6 * Z.sgn m) _ _ 1); auto.
      + apply f_1_ok. simpl; auto 8.
      + lia.
      + unfold digit in *; lia. }
  intros t Ht. rewrite <- max_sel_ok by auto.
  apply (lut_fun_okP max_s_2x_6y_pi_5 (-8) 9 max_sel _ _ (ky + 2 + 1)).
  - apply max_table_ok.
  - unfold ky, l1_need in *. destruct (85 <=? qw) eqn:E; destruct (41 <=? qw) eqn:E2; lia.
  - unfold digit in *; lia.
  - replace (s + 2 * x + 6 * y) with (6 * y + x * 2 + s) by ring.
    assert (0 <= ky) by (unfold ky; destruct (41 <=? qw); lia).
    apply wmsg_add; auto; try lia. apply wmsg_add; auto; try lia.
    apply (wmsg_mul C _ _ 1 2); auto; lia.
Qed.

(** the digits of the larger operand, padded *)
Definition pick (a b : list Z) : list Z :=
  if value b <=? value a then a ++ repeat 0 (length b - length a)
  else b ++ repeat 0 (length a - length b).

Lemma max_impl_ok : forall x y dx dy, encrypts C x dx -> encrypts C y dy ->
  okP (max_impl pc x y) (fun z => encrypts C z (pick dx dy)).
Proof.
  intros x y dx dy Hx Hy. unfold max_impl. apply okP_measure.
  pose proof (encrypts_len C x dx Hx) as Lx. pose proof (encrypts_len C y dy Hy) as Ly.
  eapply okP_bind; [apply (pa_sub_ok C x y (value dx) (value dy)); [exists dx|exists dy]; auto|].
  cbv beta. intros r [[dr [Hr Vr]] _].
  eapply okP_bind; [apply (sgn_raw_ok r dr Hr)|].
  cbv beta. intros s [w [m [-> [S2 [S3 S4]]]]]. change (index [w] 0) with (ret w). rewrite ret_bind.
  eapply okP_bind with (P := fun w => wmsg C w (if value dy <=? value dx then 1 else 0) 1).
  { destruct (nonneg_ok w m (l1_need qw)) as [w' [N1 [N2 _]]]; auto.
    - pose proof (@l1_need_8 qw); lia.
    - lia.
    - exists w'. rewrite N1. split; auto.
      replace (value dy <=? value dx) with (0 <=? m) by lia. auto. }
  intros sw Hsw. set (sv := if value dy <=? value dx then 1 else 0) in *.
  set (xa := x ++ ct_triv (length y - length x)). set (ya := y ++ ct_triv (length x - length y)).
  set (dxa := dx ++ repeat 0 (length y - length x)). set (dya := dy ++ repeat 0 (length x - length y)).
  assert (Hxa : encrypts C xa dxa) by (apply encrypts_app; auto; apply encrypts_triv_zeros).
  assert (Hya : encrypts C ya dya) by (apply encrypts_app; auto; apply encrypts_triv_zeros).
  assert (Lxa : length xa = Nat.max (length x) (length y)).
  { unfold xa. rewrite app_length, ct_triv_length. lia. }
  assert (Lya : length ya = Nat.max (length x) (length y)).
  { unfold ya. rewrite app_length, ct_triv_length. lia. }
  eapply okP_conseq.
  { apply (okP_mapM_nth _ _ (max_word pc sw)
      (fun i z => wmsg C z (if sv =? 1 then nth i dxa 0 else nth i dya 0) 1)
      (combine xa ya) (triv0, triv0) triv0).
    intros i Hi. rewrite combine_nth by lia.
    apply max_word_ok; auto.
    - unfold sv; destruct (value dy <=? value dx); lia.
    - apply digits_nth, Hxa.
    - apply digits_nth, Hya.
    - apply encrypts_nth; auto.
    - apply encrypts_nth; auto. }
  cbv beta. rewrite combine_length, Lxa, Lya, Nat.min_id. intros z [Lz Hz].
  assert (Hp : pick dx dy = if sv =? 1 then dxa else dya).
  { unfold pick, sv, dxa, dya. rewrite Lx, Ly. destruct (value dy <=? value dx); auto. }
  rewrite Hp. split; [destruct (sv =? 1); [apply Hxa|apply Hya]|].
  apply (Forall2_of_nth _ _ _ _ _ triv0 0).
  - pose proof (encrypts_len C _ _ Hxa). pose proof (encrypts_len C _ _ Hya).
    destruct (sv =? 1); lia.
  - intros i Hi. rewrite Lz in Hi. specialize (Hz i Hi). destruct (sv =? 1); auto.
Qed.

Lemma pick_value : forall a b, value (pick a b) = Z.max (value a) (value b).
Proof.
  intros a b. unfold pick. destruct (value b <=? value a) eqn:E;
    rewrite value_app, value_repeat0; lia.
Qed.

Lemma pa_max_ok : forall x y vx vy, enc_val C x vx -> enc_val C y vy ->
  okP (pa_max pc x y) (fun z => enc_val C z (Z.max vx vy) /\
      length z = Nat.max (length x) (length y)).
Proof.
  intros x y vx vy [dx [Hx <-]] [dy [Hy <-]]. unfold pa_max. apply okP_analysed.
  eapply okP_conseq; [apply (max_impl_ok x y dx dy); auto|].
  cbv beta. intros z Hz. split; [exists (pick dx dy); split; auto; apply pick_value|].
  rewrite <- (encrypts_len C _ _ Hz), <- (encrypts_len C _ _ Hx), <- (encrypts_len C _ _ Hy).
  unfold pick. destruct (value dy <=? value dx); rewrite app_length, repeat_length; lia.
Qed.

Lemma pa_relu_ok : forall x v, enc_val C x v ->
  okP (pa_relu pc x) (fun z => enc_val C z (Z.max 0 v) /\ length z = length x).
Proof.
  intros x v [dx [Hx <-]]. unfold pa_relu. apply okP_analysed.
  eapply okP_conseq; [apply (max_impl_ok pa_zero x [] dx); auto|].
  - split; constructor.
  - cbv beta. intros z Hz. split; [exists (pick [] dx); split; auto; apply pick_value|].
    rewrite <- (encrypts_len C _ _ Hz), <- (encrypts_len C _ _ Hx).
    unfold pick. destruct (value dx <=? value []); rewrite app_length, repeat_length; simpl; lia.
Qed.

End Sgn.
