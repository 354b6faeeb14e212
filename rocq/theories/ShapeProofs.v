(** Shapes of results and numbers of bootstraps. These hold for every backend,
    whatever the ciphertexts contain (C10, C12, C17, C18, C31). *)
From Verif Require Import Base Backend Words Params Pbs Addition Signum Maximum Multiplication
  Squaring Rounding Spec BaseProofs ValueProofs WordsProofs PbsProofs AddProofs SgnProofs MulProofs.
From Coq Require Import ZifyBool ZifyNat.

(** number of bootstraps in a trace *)
Fixpoint npbs (t : list event) : nat :=
  match t with
  | [] => 0
  | EPbs :: t => S (npbs t)
  | _ :: t => npbs t
  end.

Lemma npbs_app : forall a b, npbs (a ++ b) = (npbs a + npbs b)%nat.
Proof. induction a as [|[] a IH]; intros b; simpl; rewrite ?IH; auto. Qed.

(** every normal result satisfies P together with the number of bootstraps *)
Definition cntP {A} (m : M A) (P : A -> nat -> Prop) : Prop :=
  forall a, fst m = Ok a -> P a (npbs (snd m)).

Lemma cntP_ret : forall A (a : A) (P : A -> nat -> Prop), P a 0%nat -> cntP (ret a) P.
Proof. intros A a P H b E. inversion E; subst. auto. Qed.
Lemma cntP_err : forall A e (P : A -> nat -> Prop), cntP (err_ e) P.
Proof. intros A e P a H. discriminate. Qed.
Lemma cntP_panic : forall A e (P : A -> nat -> Prop), cntP (panic e) P.
Proof. intros A e P a H. discriminate. Qed.
Lemma cntP_bind : forall A B (m : M A) (f : A -> M B) P Q,
  cntP m P -> (forall a n, P a n -> cntP (f a) (fun b k => Q b (n + k)%nat)) -> cntP (bind m f) Q.
Proof.
  intros A B m f P Q Hm Hf b E. rewrite fst_bind in E. rewrite snd_bind.
  destruct (fst m) as [a|e|e] eqn:Ea; try discriminate.
  rewrite npbs_app. apply (Hf a); auto.
Qed.
Lemma cntP_conseq : forall A (m : M A) (P Q : A -> nat -> Prop),
  cntP m P -> (forall a n, P a n -> Q a n) -> cntP m Q.
Proof. intros A m P Q H HPQ a E. auto. Qed.
Lemma cntP_measure : forall A (m : M A) P, cntP m P -> cntP (measure m) P.
Proof.
  intros A m P H a E. rewrite fst_measure in E. rewrite snd_measure, E. simpl.
  rewrite npbs_app. simpl. rewrite Nat.add_0_r. auto.
Qed.
Lemma cntP_expect : forall A (m : M A) P, cntP m P -> cntP (expect m) P.
Proof.
  intros A m P H a E. rewrite fst_expect in E. rewrite snd_expect.
  destruct (fst m) eqn:Em; try discriminate. inversion E; subst. auto.
Qed.
Lemma cntP_analysed : forall A (m : M A) P, cntP m P -> cntP (analysed m) P.
Proof.
  intros A m P H a E. rewrite fst_analysed in E. rewrite snd_analysed.
  destruct (fst m) eqn:Em; try discriminate. inversion E; subst. simpl.
  rewrite npbs_app. simpl. rewrite Nat.add_0_r. auto.
Qed.
Lemma cntP_index : forall A (l : list A) i d, 
  cntP (index l i) (fun a k => (i < length l)%nat /\ a = nth i l d /\ k = 0%nat).
Proof.
  intros A l i d a E. unfold index in *. destruct (nth_error l i) eqn:En; [|discriminate].
  inversion E; subst. split; [|split; auto].
  - apply nth_error_Some. congruence.
  - symmetry. apply nth_error_nth. auto.
Qed.

(** results by position, and the total number of bootstraps *)
Lemma cntP_mapM : forall A B (f : A -> M B) (P : nat -> B -> nat -> Prop) (lo hi : nat) l d d',
  (forall i, (i < length l)%nat ->
     cntP (f (nth i l d)) (fun b k => P i b k /\ (lo <= k <= hi)%nat)) ->
  cntP (mapM f l) (fun r k => length r = length l /\
    (forall i, (i < length l)%nat -> exists k, P i (nth i r d') k) /\
    (lo * length l <= k <= hi * length l)%nat).
Proof.
  intros A B f P lo hi l d d'. revert P. induction l as [|a t IH]; intros P H; simpl mapM.
  - apply cntP_ret. split; auto. split; [intros i Hi; simpl in Hi; lia|simpl; lia].
  - eapply cntP_bind; [apply (H 0%nat); simpl; lia|]. intros b k [Hb Hk]. cbv beta in Hb.
    eapply cntP_bind; [apply (IH (fun i => P (S i)))|].
    + intros i Hi. apply (H (S i)). simpl; lia.
    + intros r n [Hl [Hr Hn]]. apply cntP_ret. split; [simpl; lia|]. split.
      * intros [|i] Hi; simpl in *; [eauto|]. apply Hr; lia.
      * simpl length. rewrite !Nat.mul_succ_r. lia.
Qed.

Section Shape.
Context {B : backend}.

Lemma lut_shape : forall (c : word B) h,
  cntP (eval_LUT_5_half c h)
    (fun w k => is_triv w = is_triv c /\ k = if is_triv c then 0%nat else 1%nat).
Proof.
  intros [c|p] h w E; unfold eval_LUT_5_half in *.
  - simpl in *. inversion E; subst. auto.
  - cbv zeta in *. rewrite fst_bind in E. rewrite snd_bind.
    set (m := pt_to_mu MSG_MOD p) in *.
    destruct (m <? 16); [|destruct (m <? 32); [|discriminate]]; cbn [fst snd ret app] in *;
      inversion E; subst; destruct (Z.land _ 1 =? 1); auto.
Qed.

Lemma lutu_shape : forall (c : word B) l,
  cntP (eval_LUT_5_uint c l)
    (fun w k => is_triv w = is_triv c /\ k = if is_triv c then 0%nat else 1%nat).
Proof. intros. apply lut_shape. Qed.

Lemma lutu_shape' : forall (c : word B) l,
  cntP (eval_LUT_5_uint c l) (fun w k => is_triv w = is_triv c /\ (0 <= k <= 1)%nat).
Proof.
  intros c l. eapply cntP_conseq; [apply lutu_shape|]. cbv beta. intros w k [H1 H2].
  split; auto. destruct (is_triv c); lia.
Qed.

Lemma lut_shape' : forall (c : word B) l,
  cntP (eval_LUT_5_half c l) (fun w k => is_triv w = is_triv c /\ (0 <= k <= 1)%nat).
Proof.
  intros c l. eapply cntP_conseq; [apply lut_shape|]. cbv beta. intros w k [H1 H2].
  split; auto. destruct (is_triv c); lia.
Qed.

(** all words are encrypted *)
Definition allct (x : ciphertext B) : Prop :=
  forall i, (i < length x)%nat -> is_triv (nth i x triv0) = false.
(** some word is encrypted *)
Definition nz (x : ciphertext B) : Prop := exists i, is_triv (nth i x triv0) = false.
(** word n-1 is encrypted and only trivial zeros follow *)
Definition ctop (n : nat) (x : ciphertext B) : Prop :=
  (0 < n)%nat /\ is_triv (nth (n - 1) x triv0) = false /\ (elen x <= n)%nat.

Lemma nontriv_lt : forall (x : ciphertext B) i, is_triv (nth i x triv0) = false -> (i < length x)%nat.
Proof.
  intros x i H. destruct (Nat.lt_ge_cases i (length x)); auto.
  rewrite nth_overflow in H; auto. discriminate.
Qed.

Lemma nontriv_elen : forall (x : ciphertext B) i, is_triv (nth i x triv0) = false -> (i < elen x)%nat.
Proof.
  intros x i H. pose proof (nontriv_lt x i H) as Hl.
  destruct (Nat.lt_ge_cases i (elen x)) as [|Hg]; auto. exfalso.
  assert (Ht : is_triv_zero (nth i x triv0) = true) by (apply ctz_high; unfold elen in Hg; lia).
  apply triv_zero_triv in Ht. congruence.
Qed.

Lemma nontriv_ctz : forall (x : ciphertext B) i, is_triv (nth i x triv0) = false ->
  (count_triv_zeros x <= i)%nat.
Proof.
  intros x i H. destruct (Nat.le_gt_cases (count_triv_zeros x) i); auto. exfalso.
  destruct (ctz_spec x) as [_ [H2 _]]. specialize (H2 i ltac:(lia)).
  apply triv_zero_triv in H2. congruence.
Qed.

Lemma nz_ctz : forall x : ciphertext B, nz x -> (count_triv_zeros x < length x)%nat.
Proof.
  intros x [i Hi]. pose proof (nontriv_lt x i Hi). pose proof (nontriv_ctz x i Hi). lia.
Qed.

Lemma ctop_nz : forall n x, ctop n x -> nz x.
Proof. intros n x [_ [H _]]. eexists; eauto. Qed.

Lemma ctop_elen : forall n x, ctop n x -> elen x = n.
Proof. intros n x [H1 [H2 H3]]. pose proof (nontriv_elen x _ H2). lia. Qed.

Lemma allct_ctop : forall x, allct x -> (0 < length x)%nat -> ctop (length x) x.
Proof.
  intros x H Hl. split; auto. split; [apply H; lia|apply elen_length].
Qed.

Lemma allct_ctz : forall x, allct x -> count_triv_zeros x = 0%nat.
Proof.
  intros [|w x] H; auto. simpl. specialize (H 0%nat). simpl in H. specialize (H ltac:(lia)).
  destruct w; simpl in *; [auto|discriminate].
Qed.

Lemma allct_elen : forall x, allct x -> elen x = length x.
Proof.
  intros x H. destruct (length x) eqn:E.
  - unfold elen. lia.
  - rewrite <- E. apply ctop_elen. apply allct_ctop; auto. lia.
Qed.

Lemma allct_firstn : forall n x, allct x -> allct (firstn n x).
Proof.
  intros n x H i Hi. rewrite firstn_length in Hi. rewrite nth_firstn.
  replace (i <? n)%nat with true by lia. apply H. lia.
Qed.
Lemma allct_skipn : forall n x, allct x -> allct (skipn n x).
Proof.
  intros n x H i Hi. rewrite skipn_length in Hi. rewrite nth_skipn. apply H. lia.
Qed.

Lemma ctop_shift : forall n k x, ctop n x -> ctop (k + n) (ct_triv k ++ x).
Proof.
  intros n k x [H1 [H2 H3]]. split; [lia|]. split.
  - rewrite nth_app_any, ct_triv_length. replace (k + n - 1 <? k)%nat with false by lia.
    replace (k + n - 1 - k)%nat with (n - 1)%nat by lia. auto.
  - apply elen_le. rewrite app_length, ct_triv_length. intros i Hi.
    rewrite nth_app_any, ct_triv_length. replace (i <? k)%nat with false by lia.
    apply ctz_high. unfold elen in H3. lia.
Qed.

Lemma nz_shift : forall k x, nz x -> nz (ct_triv k ++ x).
Proof.
  intros k x [i Hi]. exists (k + i)%nat. rewrite nth_app_any, ct_triv_length.
  replace (k + i <? k)%nat with false by lia. replace (k + i - k)%nat with i by lia. auto.
Qed.

Lemma pa_shift_triv : forall (x : ciphertext B) k, pa_shift x k = ct_triv k ++ x.
Proof. intros x [|k]; auto. Qed.

Lemma nz_opp : forall x : ciphertext B, nz x -> nz (pa_opp x).
Proof.
  intros x [i Hi]. exists i. unfold pa_opp, opposite_impl.
  change triv0 with (w_opp (@triv0 B)). rewrite map_nth, is_triv_w_opp. auto.
Qed.

Lemma ctop_app : forall x y n, ctop n y -> ctop (length x + n) (x ++ y).
Proof.
  intros x y n [H1 [H2 H3]]. split; [lia|]. split.
  - rewrite nth_app_any. replace (length x + n - 1 <? length x)%nat with false by lia.
    replace (length x + n - 1 - length x)%nat with (n - 1)%nat by lia. auto.
  - apply elen_le. rewrite app_length. intros i Hi.
    rewrite nth_app_any. replace (i <? length x)%nat with false by lia.
    apply ctz_high. unfold elen in H3. lia.
Qed.

(** ** Addition *)
(** word i of the operand-wise sum is encrypted *)
Definition actv (x y : ciphertext B) (i : nat) : Prop :=
  is_triv (nth i x triv0) = false \/ is_triv (nth i y triv0) = false.

Definition active (x y : ciphertext B) : nat := (add_wlen x y - add_rtriv x y)%nat.

Record add_shape (refresh : bool) (x y z : ciphertext B) (k : nat) : Prop := {
  as_len : (length z <= Nat.max (length x) (length y) + 1)%nat;
  as_elen : (elen z <= Nat.max (elen x) (elen y) + 1)%nat;
  as_len2 : (length z <= Nat.max (Nat.max (elen x) (elen y) + 1) (Nat.max (length x) (length y)))%nat;
  as_nth : forall i, actv x y i -> is_triv (nth i z triv0) = false;
  as_top : (count_triv_zeros x < length x)%nat -> (count_triv_zeros y < length y)%nat ->
           actv x y (Nat.max (elen x) (elen y) - 1) ->
           length z = (Nat.max (elen x) (elen y) + 1)%nat /\
           ctop (Nat.max (elen x) (elen y) + 1) z;
  as_all : allct x -> allct y -> allct z;
  as_cnt : (k <= (if refresh then 2 else 1) * active x y)%nat;
  as_cnt_eq : (count_triv_zeros x < length x)%nat -> (count_triv_zeros y < length y)%nat ->
     (forall i, (add_rtriv x y <= i < add_wlen x y)%nat -> actv x y i) ->
     k = ((if refresh then 2 else 1) * active x y)%nat
}.

Lemma add_sub_shape : forall is_add x y refresh,
  cntP (add_sub_impl is_add x y refresh) (fun z k => add_shape refresh x y z k).
Proof.
  intros is_add x y refresh. unfold add_sub_impl.
  destruct (ctz_spec x) as [X1 [X2 X3]]. destruct (ctz_spec y) as [Y1 [Y2 Y3]].
  destruct (count_triv_zeros x =? length x)%nat eqn:E1.
  { assert (NX : ~ nz x) by (intros H; apply nz_ctz in H; lia).
    assert (AX : allct x -> length x = 0%nat).
    { intros H. rewrite (allct_ctz x H) in E1. lia. }
    pose proof (elen_opp y) as EO.
    apply cntP_ret. destruct is_add; split; unfold elen in *; try lia; try tauto.
    - intros i [H|H]; auto. exfalso. apply NX. exists i. auto.
    - unfold pa_opp, opposite_impl. rewrite map_length. lia.
    - unfold pa_opp, opposite_impl in *. rewrite map_length in *. lia.
    - intros i [H|H]; [exfalso; apply NX; exists i; auto|].
      unfold pa_opp, opposite_impl. change triv0 with (w_opp (@triv0 B)).
      rewrite map_nth, is_triv_w_opp. auto.
    - intros _ H i Hi. unfold pa_opp, opposite_impl in *. rewrite map_length in Hi.
      change triv0 with (w_opp (@triv0 B)). rewrite map_nth, is_triv_w_opp. auto. }
  destruct (count_triv_zeros y =? length y)%nat eqn:E2.
  { assert (NY : ~ nz y) by (intros H; apply nz_ctz in H; lia).
    apply cntP_ret. split; unfold elen in *; try lia; try tauto.
    intros i [H|H]; auto. exfalso. apply NY. exists i. auto. }
  apply Nat.eqb_neq in E1. apply Nat.eqb_neq in E2.
  pose proof (ctz_rev x) as RX. pose proof (ctz_rev y) as RY.
  fold (elen x). fold (elen y). fold (add_rtriv x y). fold (add_wlen x y).
  assert (Hrw : (add_rtriv x y < add_wlen x y)%nat) by (unfold add_rtriv, add_wlen, elen; lia).
  assert (Hwl : (add_wlen x y <= Nat.max (length x) (length y))%nat)
    by (unfold add_wlen, elen; lia).
  set (r := add_rtriv x y) in *. set (wlen := add_wlen x y) in *.
  apply cntP_measure.
  set (w := zip_inplace (if is_add then w_add else w_sub)
                        (firstn wlen x ++ ct_triv (wlen - length x)) y).
  assert (Lw0 : length (firstn wlen x ++ ct_triv (wlen - length x)) = wlen).
  { rewrite app_length, firstn_length, ct_triv_length. lia. }
  assert (Lw : length w = wlen) by (unfold w; rewrite zip_length; auto).
  assert (Hw : forall i, (i < wlen)%nat -> actv x y i -> is_triv (nth i w triv0) = false).
  { intros i Hi Ha. unfold w. rewrite zip_nth by lia.
    assert (Nw0 : nth i (firstn wlen x ++ ct_triv (wlen - length x)) triv0 = nth i x triv0).
    { rewrite nth_app_any, firstn_length, nth_firstn, ct_triv_nth.
      destruct (i <? Nat.min wlen (length x))%nat eqn:E.
      - replace (i <? wlen)%nat with true by lia. auto.
      - rewrite nth_overflow; auto. lia. }
    rewrite Nw0. destruct (i <? length y)%nat eqn:E.
    - destruct is_add; rewrite ?is_triv_w_add, ?is_triv_w_sub; destruct Ha as [H|H]; rewrite H; auto.
      + apply andb_false_r.
      + apply andb_false_r.
    - destruct Ha as [H|H]; auto. apply nontriv_lt in H. lia. }
  clearbody w.
  replace (wlen <=? r)%nat with false by lia.
  set (arg := fun i0 => if (0 <? i0)%nat
       then w_add (w_mul_const (nth (i0 + r) w triv0) 3) (nth (i0 + r - 1) w triv0)
       else w_mul_const (nth (i0 + r) w triv0) 3).
  assert (Harg : forall i0, (i0 + r < wlen)%nat -> actv x y (i0 + r) -> is_triv (arg i0) = false).
  { intros i0 Hi Ha. unfold arg. destruct (0 <? i0)%nat;
      rewrite ?is_triv_w_add, is_triv_w_mul, Hw; auto. }
  (* number of bootstraps of a round: all or at most all *)
  set (ALL := forall i, (r <= i < wlen)%nat -> actv x y i).
  eapply cntP_bind with (P := fun q k => length q = (wlen - r)%nat /\
      (forall i0, (i0 < wlen - r)%nat -> is_triv (nth i0 q triv0) = is_triv (arg i0)) /\
      (k <= wlen - r)%nat /\ (ALL -> k = wlen - r)%nat).
  { intros q Eq.
    pose proof (cntP_mapM _ _ (fun i0 => f_4_pi_5 (arg i0)) (fun i q _ => is_triv q = is_triv (arg i)) 0 1
                  (seq 0 (wlen - r)) 0%nat triv0) as HM.
    rewrite seq_length in HM.
    destruct (HM) with (a := q) as [Q1 [Q2 Q3]].
    - intros i Hi. rewrite seq_nth, Nat.add_0_l by lia. apply lutu_shape'.
    - apply Eq.
    - split; [lia|]. split; [|split].
      + intros i0 Hi0. destruct (Q2 i0 Hi0). auto.
      + revert Q3. unfold arg, f_4_pi_5. lia.
      + intros HA.
        pose proof (cntP_mapM _ _ (fun i0 => f_4_pi_5 (arg i0)) (fun i q _ => True) 1 1
                  (seq 0 (wlen - r)) 0%nat triv0) as HM1.
        rewrite seq_length in HM1. destruct HM1 with (a := q) as [_ [_ P3]].
        * intros i Hi. rewrite seq_nth, Nat.add_0_l by lia.
          eapply cntP_conseq; [apply lutu_shape|]. cbv beta. intros w' k [_ ->].
          rewrite Harg by (auto; try lia; apply HA; lia). auto.
        * apply Eq.
        * revert P3. unfold arg, f_4_pi_5. lia. }
  intros q_hi kq [Lq [Hq [Kq KqA]]].
  set (q := ct_triv r ++ q_hi).
  assert (Lq' : length q = wlen) by (unfold q; rewrite app_length, ct_triv_length; lia).
  set (w' := map (fun i => let wi := w_sub (nth i w triv0) (w_mul_const (nth i q triv0) 2) in
                   if (0 <? i)%nat then w_add wi (nth (i - 1) q triv0) else wi) (seq 0 wlen)).
  assert (Lw' : length w' = wlen) by (unfold w'; rewrite map_length, seq_length; auto).
  assert (HW' : forall i, (i < wlen)%nat -> actv x y i -> is_triv (nth i w' triv0) = false).
  { intros i Hi Ha. unfold w'. rewrite nth_map_seq. replace (i <? wlen)%nat with true by lia.
    rewrite Nat.add_0_l. cbv zeta. destruct (0 <? i)%nat;
      rewrite ?is_triv_w_add, is_triv_w_sub, Hw; auto. }
  clearbody w'.
  eapply cntP_bind with (P := fun z k => length z = (wlen - r)%nat /\
      (forall i, (i < wlen - r)%nat -> is_triv (nth i z triv0) = is_triv (nth (r + i) w' triv0)) /\
      (k <= if refresh then wlen - r else 0)%nat /\
      (ALL -> k = if refresh then wlen - r else 0)%nat).
  { destruct refresh.
    - intros z Ez.
      pose proof (cntP_mapM _ _ id_pi_5 (fun i z _ => is_triv z = is_triv (nth (r + i) w' triv0)) 0 1
                  (skipn r w') triv0 triv0) as HM.
      rewrite skipn_length, Lw' in HM. destruct HM with (a := z) as [Q1 [Q2 Q3]].
      + intros i Hi. rewrite nth_skipn. apply lutu_shape'.
      + apply Ez.
      + split; [lia|]. split; [|split].
        * intros i0 Hi0. destruct (Q2 i0 Hi0). auto.
        * lia.
        * intros HA. pose proof (cntP_mapM _ _ id_pi_5 (fun i z _ => True) 1 1
                  (skipn r w') triv0 triv0) as HM1.
          rewrite skipn_length, Lw' in HM1. destruct HM1 with (a := z) as [_ [_ P3]].
          -- intros i Hi. rewrite nth_skipn. eapply cntP_conseq; [apply lutu_shape|].
             cbv beta. intros v k [_ ->]. rewrite HW' by (try lia; apply HA; lia). auto.
          -- apply Ez.
          -- lia.
    - apply cntP_ret. rewrite skipn_length, Lw'. split; auto. split; [|lia].
      intros i Hi. rewrite nth_skipn. auto. }
  intros z_hi kz [Lz [Hz [Kz KzA]]].
  apply cntP_ret.
  set (z := firstn r w' ++ z_hi ++ [last q triv0]).
  assert (Lzz : length z = (wlen + 1)%nat).
  { unfold z. rewrite !app_length, firstn_length, Lw', Lz. simpl. lia. }
  assert (Hzz : forall i, (i < wlen)%nat -> actv x y i -> is_triv (nth i z triv0) = false).
  { intros i Hi Ha. unfold z. rewrite nth_app_any, firstn_length, Lw', nth_firstn.
    replace (Nat.min r wlen) with r by lia. destruct (i <? r)%nat eqn:E.
    - apply HW'; auto.
    - rewrite nth_app_any, Lz. replace (i - r <? wlen - r)%nat with true by lia.
      rewrite Hz by lia. replace (r + (i - r))%nat with i by lia. apply HW'; auto. }
  assert (Htop : actv x y (wlen - 1) -> is_triv (nth wlen z triv0) = false).
  { intros Ha. unfold z. rewrite nth_app_any, firstn_length, Lw', nth_firstn.
    replace (Nat.min r wlen) with r by lia. replace (wlen <? r)%nat with false by lia.
    rewrite nth_app_any, Lz. rewrite Nat.ltb_irrefl, Nat.sub_diag. simpl nth.
    rewrite <- (nth_last _ q triv0), Lq'. unfold q. rewrite nth_app_any, ct_triv_length.
    replace (wlen - 1 <? r)%nat with false by lia. rewrite Hq by lia. apply Harg; [lia|].
    replace (wlen - 1 - r + r)%nat with (wlen - 1)%nat by lia. auto. }
  pose proof (elen_length z) as Ez.
  assert (Eact : active x y = (wlen - r)%nat) by reflexivity.
  fold (add_wlen x y). fold wlen.
  split; fold (add_wlen x y); fold wlen; fold r.
  - lia.
  - lia.
  - lia.
  - intros i Ha. apply Hzz; auto.
    destruct Ha as [Hi|Hi]; pose proof (nontriv_elen _ _ Hi); unfold wlen, add_wlen; lia.
  - intros _ _ Ha. split; auto. split; [lia|]. split; [|lia].
    replace (wlen + 1 - 1)%nat with wlen by lia. auto.
  - intros Hx Hy i Hi. rewrite Lzz in Hi.
    assert (Hact : forall j, (j < wlen)%nat -> actv x y j).
    { intros j Hj. unfold wlen, add_wlen in Hj. rewrite !allct_elen in Hj by auto.
      destruct (Nat.lt_ge_cases j (length x)); [left; apply Hx; auto|right; apply Hy; lia]. }
    destruct (Nat.eq_dec i wlen) as [->|]; [apply Htop; apply Hact; lia|].
    apply Hzz; [lia|apply Hact; lia].
  - rewrite Eact. destruct refresh; lia.
  - intros _ _ HA. rewrite Eact. specialize (KqA HA). specialize (KzA HA). destruct refresh; lia.
Qed.

Lemma pa_add_shape : forall x y, cntP (pa_add x y) (fun z k => add_shape true x y z k).
Proof. intros. apply cntP_analysed, add_sub_shape. Qed.
Lemma pa_sub_shape : forall x y, cntP (pa_sub x y) (fun z k => add_shape true x y z k).
Proof. intros. apply cntP_analysed, add_sub_shape. Qed.

(** ** Multiplication *)
Lemma ctz_ge : forall (x : ciphertext B) j, (j <= length x)%nat ->
  (forall i, (i < j)%nat -> is_triv_zero (nth i x triv0) = true) -> (j <= count_triv_zeros x)%nat.
Proof.
  intros x j Hj H. destruct (ctz_spec x) as [H1 [H2 H3]].
  destruct (Nat.le_gt_cases j (count_triv_zeros x)); auto. exfalso.
  specialize (H _ H0). rewrite H3 in H by lia. discriminate.
Qed.

Lemma mul_lwe_shape : forall x y : word B,
  cntP (mul_lwe x y) (fun z k => (is_triv x = false -> is_triv y = false -> is_triv z = false) /\
    (k <= 1)%nat /\ (is_triv x = false -> is_triv y = false -> k = 1%nat)).
Proof.
  intros x y. unfold mul_lwe. destruct (is_triv x) eqn:Ex; [|destruct (is_triv y) eqn:Ey].
  - destruct x as [c|p]; [discriminate|]. unfold decrypt_mi. simpl decrypt_mu. rewrite !ret_bind.
    apply cntP_ret. repeat split; try discriminate; lia.
  - destruct y as [c|p]; [discriminate|]. unfold decrypt_mi. simpl decrypt_mu. rewrite !ret_bind.
    apply cntP_ret. repeat split; try discriminate; lia.
  - eapply cntP_conseq; [apply lutu_shape|]. cbv beta.
    rewrite is_triv_w_add, is_triv_w_mul, Ex, Ey. simpl. intros z k [H1 ->]. auto.
Qed.

Definition row_shape (x y : ciphertext B) (j : nat) (row : ciphertext B) : Prop :=
  length row = (2 * length x)%nat /\ (elen row <= length x + j)%nat /\
  (j <= count_triv_zeros row)%nat /\
  (forall i, is_triv (nth i x triv0) = false -> is_triv (nth j y triv0) = false ->
             is_triv (nth (j + i) row triv0) = false).

Lemma fill_mulary_shape : forall x y, length x = length y ->
  cntP (fill_mulary x y) (fun m k => length m = length x /\
    (forall j, (j < length x)%nat -> row_shape x y j (nth j m [])) /\
    (k <= length x * length x)%nat /\
    (allct x -> allct y -> k = length x * length x)%nat).
Proof.
  intros x y Hxy. unfold fill_mulary. replace (length x =? length y)%nat with true by lia. cbn [negb].
  set (n := length x) in *.
  set (f := fun jyj : nat * word B => let (j, yj) := jyj in
            row <- mapM (fun xi => expect (mul_lwe xi yj)) x ;;
            ret (ct_triv j ++ row ++ ct_triv (2 * n - j - n))).
  assert (Lc : length (combine (seq 0 n) y) = n) by (rewrite combine_length, seq_length; lia).
  assert (Hf : forall (lo : nat), (lo = 0 \/ (lo = n /\ allct x /\ allct y))%nat ->
    forall i, (i < length (combine (seq 0 n) y))%nat ->
     cntP (f (nth i (combine (seq 0 n) y) (0%nat, triv0)))
       (fun row k => row_shape x y i row /\ (lo <= k <= n)%nat)).
  { intros lo Hlo i Hi. rewrite Lc in Hi. rewrite combine_nth by (rewrite seq_length; lia).
    rewrite seq_nth by lia. rewrite Nat.add_0_l. unfold f.
    set (lo1 := if (lo =? 0)%nat then 0%nat else 1%nat).
    eapply cntP_bind; [apply (cntP_mapM _ _ _ (fun a z _ => is_triv (nth a x triv0) = false ->
       is_triv (nth i y triv0) = false -> is_triv z = false) lo1 1 x triv0 triv0)|].
    - intros a Ha. apply cntP_expect. eapply cntP_conseq; [apply mul_lwe_shape|]. cbv beta.
      intros z k [H1 [H2 H3]]. split; auto. unfold lo1. destruct (lo =? 0)%nat eqn:E; [lia|].
      destruct Hlo as [Hlo|[Hlo [Ax Ay]]]; [lia|]. rewrite H3; [lia|apply Ax; auto|apply Ay; lia].
    - cbv beta. intros row k [R1 [R2 R3]]. apply cntP_ret. fold n in R1, R2, R3. rewrite Nat.add_0_r. split.
      + split; [|split; [|split]].
        * rewrite !app_length, !ct_triv_length. fold n. lia.
        * fold n. apply elen_le. intros a Ha. rewrite !app_length, !ct_triv_length in Ha.
          rewrite nth_app_any, ct_triv_length. replace (a <? i)%nat with false by lia.
          rewrite nth_app_any. replace (a - i <? length row)%nat with false by lia.
          rewrite ct_triv_nth. reflexivity.
        * apply ctz_ge; [rewrite app_length, ct_triv_length; lia|]. intros a Ha.
          rewrite nth_app_any, ct_triv_length. replace (a <? i)%nat with true by lia.
          rewrite ct_triv_nth. reflexivity.
        * intros a Hxa Hyi. pose proof (nontriv_lt _ _ Hxa) as La. fold n in La.
          rewrite nth_app_any, ct_triv_length. replace (i + a <? i)%nat with false by lia.
          rewrite nth_app_any. replace (i + a - i <? length row)%nat with true by lia.
          replace (i + a - i)%nat with a by lia. destruct (R2 a La) as [_ R]. auto.
      + unfold lo1 in R3. destruct (lo =? 0)%nat eqn:E; [lia|].
        destruct Hlo as [Hlo|[Hlo _]]; lia. }
  intros m Em.
  destruct (cntP_mapM _ _ f (fun i row _ => row_shape x y i row) 0 n _ (0%nat, triv0) []
     (Hf 0%nat (or_introl eq_refl)) m Em) as [M1 [M2 M3]].
  rewrite Lc in M1, M2, M3. split; auto. split; [|split].
  - intros j Hj. destruct (M2 j Hj); auto.
  - exact (proj2 M3).
  - intros Ax Ay.
    destruct (cntP_mapM _ _ f (fun i row _ => row_shape x y i row) n n _ (0%nat, triv0) []
     (Hf n (or_intror (conj eq_refl (conj Ax Ay)))) m Em) as [_ [_ M4]].
    rewrite Lc in M4. apply Nat.le_antisymm; [exact (proj2 M4)|exact (proj1 M4)].
Qed.

(** numbers of words for which the bound [mul_len] is attained by fully
    encrypted operands *)
Definition mul_tight (n : nat) : bool :=
  (2 <=? n)%nat && ((n <=? 17)%nat || (n =? 32)%nat).

Definition school_cnt (n : nat) : nat := (n * n + (n - 1) * (2 * n))%nat.

Record mul_shape (x y z : ciphertext B) : Prop := {
  ms_len : (length z <= mul_len (Nat.max (length x) (length y)))%nat;
  ms_nz : is_triv (nth 0 x triv0) = false -> is_triv (nth 0 y triv0) = false -> nz z;
  ms_top : length x = length y -> allct x -> allct y -> mul_tight (length x) = true ->
     length z = mul_len (length x) /\ ctop (mul_len (length x)) z
}.

Lemma reduce_shape : forall m x y n, (2 <= n)%nat -> length m = n -> length x = n -> length y = n ->
  (forall j, (j < n)%nat -> row_shape x y j (nth j m [])) ->
  cntP (reduce_mulsquary m) (fun z k => (length z <= 2 * n)%nat /\
    (is_triv (nth 0 x triv0) = false -> is_triv (nth 0 y triv0) = false -> nz z) /\
    (allct x -> allct y -> length z = (2 * n)%nat /\ ctop (2 * n) z) /\
    (k <= (n - 1) * (2 * n))%nat /\ (allct x -> allct y -> k = (n - 1) * (2 * n))%nat).
Proof.
  intros m x y n Hn Lm Lx Ly Hrow. unfold reduce_mulsquary.
  eapply cntP_bind; [apply (cntP_index _ m 0 [])|]. intros m0 k0 [_ [-> ->]].
  eapply cntP_bind; [apply (cntP_index _ m 1 [])|]. intros m1 k1 [_ [-> ->]].
  set (N00 := is_triv (nth 0 x triv0) = false /\ is_triv (nth 0 y triv0) = false).
  set (AA := allct x /\ allct y).
  assert (Hrnz : AA -> forall j, (j < n)%nat -> nz (nth j m [])).
  { intros [Ax Ay] j Hj. exists (j + 0)%nat. destruct (Hrow j Hj) as [_ [_ [_ R]]].
    apply R; [apply Ax|apply Ay]; lia. }
  assert (Htop : AA -> forall j, (j < n)%nat -> is_triv (nth (n + j - 1) (nth j m []) triv0) = false).
  { intros [Ax Ay] j Hj. destruct (Hrow j Hj) as [_ [_ [_ R]]].
    replace (n + j - 1)%nat with (j + (n - 1))%nat by lia. apply R; [apply Ax|apply Ay]; lia. }
  set (I := fun (i : nat) (acc : ciphertext B) (k : nat) =>
     (length acc <= 2 * n)%nat /\ (elen acc <= n + i)%nat /\
     (N00 -> is_triv (nth 0 acc triv0) = false) /\
     (AA -> length acc = (n + i)%nat /\ ctop (n + i) acc) /\
     (k <= (i - 1) * (2 * n))%nat /\ (AA -> k = (i - 1) * (2 * n))%nat).
  assert (HN : AA -> N00).
  { intros [Ax Ay]. split; [apply Ax|apply Ay]; lia. }
  (* addition of row i to an accumulator of elen <= n+i *)
  assert (Hstep : forall i acc z k kacc, (0 < i < n)%nat ->
     (length acc <= 2 * n)%nat -> (elen acc <= n + i)%nat ->
     (N00 -> is_triv (nth 0 acc triv0) = false) ->
     (kacc <= (i - 1) * (2 * n))%nat -> (AA -> kacc = (i - 1) * (2 * n))%nat ->
     add_shape true acc (nth i m []) z k -> I (S i) z (kacc + k)%nat).
  { intros i acc z k kacc Hi A1 A2 A3 A5 A6 HS. destruct (Hrow i ltac:(lia)) as [R1 [R2 [R3 R4]]].
    rewrite Lx in R1, R2.
    assert (Hact : (active acc (nth i m []) <= n)%nat).
    { unfold active, add_wlen, add_rtriv. lia. }
    destruct HS as [S1 S2 S3 S4 S5 S6 S7 S8].
    assert (Hc : (k <= 2 * n)%nat) by lia.
    assert (Hmul : ((S i - 1) * (2 * n) = (i - 1) * (2 * n) + 2 * n)%nat).
    { replace (S i - 1)%nat with (S (i - 1)) by lia. simpl. lia. }
    assert (HAA : AA -> elen (nth i m []) = (n + i)%nat /\ count_triv_zeros (nth i m []) = i /\
        count_triv_zeros acc = 0%nat /\ (0 < length acc)%nat).
    { intros a. pose proof (nontriv_elen _ _ (Htop a i ltac:(lia))).
      assert (Hfi : is_triv (nth (i + 0) (nth i m []) triv0) = false).
      { apply R4; [apply (proj1 a)|apply (proj2 a)]; lia. }
      apply nontriv_ctz in Hfi. pose proof (nontriv_ctz _ _ (A3 (HN a))).
      pose proof (nontriv_lt _ _ (A3 (HN a))). lia. }
    split; [lia|]. split; [lia|]. split; [|split; [|split]].
    - intros N. apply S4. left. auto.
    - intros a. destruct (HAA a) as [Er [Cr [Ca La]]].
      assert (Hmx : Nat.max (elen acc) (elen (nth i m [])) = (n + i)%nat) by lia.
      rewrite Hmx in S5. replace (n + S i)%nat with (n + i + 1)%nat by lia. apply S5; try lia.
      right. apply Htop; auto. lia.
    - rewrite Hmul. lia.
    - intros a. destruct (HAA a) as [Er [Cr [Ca La]]]. rewrite Hmul, (A6 a). f_equal.
      assert (Hr : add_rtriv acc (nth i m []) = i) by (unfold add_rtriv; lia).
      assert (Hw : add_wlen acc (nth i m []) = (n + i)%nat) by (unfold add_wlen; lia).
      rewrite S8; try lia.
      + unfold active. rewrite Hr, Hw. lia.
      + rewrite Hr, Hw. intros j Hj. right. replace j with (i + (j - i))%nat by lia.
        apply R4; [apply (proj1 a)|apply (proj2 a)]; lia. }
  destruct (Hrow 0%nat ltac:(lia)) as [R1 [R2 [R3 R4]]]. rewrite Lx in *.
  eapply cntP_bind with (P := I 2%nat).
  { eapply cntP_conseq; [apply pa_add_shape|]. cbv beta. intros z k HS.
    apply (Hstep 1%nat (nth 0 m []) z k 0%nat); auto; try lia.
    intros [N1 N2]. apply (R4 0%nat); auto. }
  intros acc ka HI.
  assert (Hfold : forall l i acc k, (i + length l = n)%nat ->
     (forall j, (j < length l)%nat -> nth j l [] = nth (i + j) m []) -> (2 <= i)%nat -> I i acc k ->
     cntP (foldM (fun acc row => pa_add acc row) l acc) (fun z k' => I n z (k + k')%nat)).
  { induction l as [|r l IH]; intros i a k Hl Hnth Hi Ha; simpl in *.
    - apply cntP_ret. rewrite Nat.add_0_r. replace n with i by lia. auto.
    - destruct Ha as [A1 [A2 [A3 [A4 [A5 A6]]]]].
      pose proof (Hnth 0%nat ltac:(lia)) as H0. simpl in H0. rewrite Nat.add_0_r in H0. subst r.
      eapply cntP_bind; [apply pa_add_shape|].
      cbv beta. intros z k' HS. eapply cntP_conseq; [apply (IH (S i) z (k + k')%nat); try lia|].
      + intros j Hj. specialize (Hnth (S j) ltac:(lia)). simpl in Hnth. rewrite Hnth. f_equal. lia.
      + apply (Hstep i a); auto. lia.
      + cbv beta. intros z' k'' H. rewrite Nat.add_assoc. auto. }
  eapply cntP_conseq; [apply (Hfold (skipn 2 m) 2%nat acc ka)|]; auto.
  - rewrite skipn_length. lia.
  - intros j Hj. rewrite nth_skipn. auto.
  - cbv beta. intros z k [Z1 [Z2 [Z3 [Z4 [Z5 Z6]]]]]. replace (n + n)%nat with (2 * n)%nat in Z4 by lia.
    split; auto. split; [|split; [|split]].
    + intros N1 N2. exists 0%nat. apply Z3. split; auto.
    + intros Ax Ay. apply Z4. split; auto.
    + lia.
    + intros Ax Ay. simpl. apply Z6. split; auto.
Qed.

Definition mul_shaped (rec : ciphertext B -> ciphertext B -> M (ciphertext B)) (n : nat) : Prop :=
  forall x y, (Nat.max (length x) (length y) <= n)%nat -> cntP (rec x y) (fun z _ => mul_shape x y z).

Lemma nth_firstn0 : forall (x : ciphertext B) n, (0 < n)%nat ->
  nth 0 (firstn n x) triv0 = nth 0 x triv0.
Proof. intros x n H. rewrite nth_firstn. replace (0 <? n)%nat with true by lia. auto. Qed.

Lemma kara_shape : forall rec n x y, (16 <= n <= 32)%nat -> (n <> 17)%nat ->
  length x = n -> length y = n -> mul_shaped rec ((n + 1) / 2 + 1) ->
  cntP (mul_karatsuba rec x y) (fun z _ => mul_shape x y z).
Proof.
  intros rec n x y Hn Hn17 Lx Ly Hrec. unfold mul_karatsuba.
  replace (length x =? length y)%nat with true by lia. cbn [negb]. rewrite Lx.
  pose proof (mul_len_kara n ltac:(lia) ltac:(lia) ltac:(lia)) as Hkl. cbv zeta in Hkl.
  assert (Htl : mul_tight n = true -> ((n + 1) / 2 = 8 /\ n = 16 \/ (n + 1) / 2 = 16 /\ n = 32)%nat).
  { unfold mul_tight. intros H. assert (n = 16 \/ n = 32)%nat as [ -> | -> ] by lia;
      [left|right]; split; reflexivity. }
  set (len0 := ((n + 1) / 2)%nat) in *.
  assert (Hl0 : (8 <= len0 <= n /\ n - len0 <= len0 /\ len0 + 1 <= 17)%nat).
  { unfold len0. pose proof (Nat.div_mod (n + 1) 2 ltac:(lia)).
    pose proof (Nat.mod_upper_bound (n + 1) 2 ltac:(lia)). lia. }
  apply cntP_measure.
  assert (Lx0 : length (firstn len0 x) = len0) by (rewrite firstn_length; lia).
  assert (Ly0 : length (firstn len0 y) = len0) by (rewrite firstn_length; lia).
  assert (Lx1 : length (skipn len0 x) = (n - len0)%nat) by (rewrite skipn_length; lia).
  assert (Ly1 : length (skipn len0 y) = (n - len0)%nat) by (rewrite skipn_length; lia).
  set (La := mul_len (n - len0)) in *. set (Lb := mul_len len0) in *.
  set (Lc := mul_len (len0 + 1)) in *.
  eapply cntP_bind; [apply (Hrec (skipn len0 x) (skipn len0 y) ltac:(lia))|].
  cbv beta. intros a _ [La' _ Ta]. rewrite Lx1, Ly1, ?Nat.max_id in *.
  eapply cntP_bind; [apply (Hrec (firstn len0 x) (firstn len0 y) ltac:(lia))|].
  cbv beta. intros b _ [Lb' Nb _]. rewrite Lx0, Ly0, ?Nat.max_id in *.
  rewrite !nth_firstn0 in Nb by lia.
  fold La in La', Ta. fold Lb in Lb'.
  eapply cntP_bind; [apply pa_add_shape|].
  cbv beta. intros pab _ [Lpab _ _ Npab _ _ _ _].
  eapply cntP_bind; [apply pa_add_shape|].
  cbv beta. intros x01 _ [Lx01 _ _ _ _ _ _ _].
  eapply cntP_bind; [apply pa_add_shape|].
  cbv beta. intros y01 _ [Ly01 _ _ _ _ _ _ _].
  eapply cntP_bind; [apply (Hrec x01 y01 ltac:(lia))|].
  cbv beta. intros c _ [Lc0 _ _].
  assert (Lc' : (length c <= Lc)%nat).
  { eapply Nat.le_trans; [apply Lc0|]. apply mul_len_mono; lia. }
  clear Lc0.
  rewrite map_opp_pa.
  assert (Lopp : length (pa_opp pab) = length pab) by (apply map_length).
  eapply cntP_bind; [apply pa_add_shape|].
  cbv beta. intros cn _ [Lcn _ _ Ncn _ _ _ _].
  rewrite !app_length, ct_triv_length, Lopp in Lcn.
  assert (Lcn' : (length cn <= len0 + Nat.max Lc (Nat.max La Lb + 1) + 1)%nat) by lia.
  clear Lcn. unfold kara_len in Hkl.
  set (CN := (len0 + Nat.max Lc (Nat.max La Lb + 1) + 1)%nat) in *.
  (* encrypted words survive *)
  assert (Hcn : nz b -> nz cn).
  { intros [i Hi].
    assert (Hp : nz pab) by (exists i; apply Npab; right; auto).
    destruct (nz_shift len0 _ (nz_opp _ Hp)) as [j Hj]. exists j. apply Ncn. right. auto. }
  assert (Hbz : allct x -> allct y -> nz b).
  { intros Ax Ay. clear -Nb Ax Ay Lx Ly Hn. apply Nb; [apply Ax|apply Ay]; lia. }
  assert (Hta : mul_tight n = true -> allct x -> allct y -> ctop La a).
  { intros Ht Ax Ay. apply Ta; auto; try (apply allct_skipn; auto).
    destruct (Htl Ht) as [[E1 E2]|[E1 E2]]; rewrite E1, E2; reflexivity. }
  assert (Htn : mul_tight n = true ->
    (Nat.max Lb CN + 1 <= 2 * len0 + La)%nat /\ mul_len n = (2 * len0 + La + 1)%nat).
  { intros Ht. unfold CN, La, Lb, Lc.
    destruct (Htl Ht) as [[E1 E2]|[E1 E2]]; rewrite E1, E2; split; try reflexivity.
    - apply Nat.leb_le. reflexivity.
    - apply Nat.leb_le. reflexivity. }
  destruct (length b =? 2 * len0)%nat eqn:Eb2.
  - apply Nat.eqb_eq in Eb2.
    eapply cntP_conseq; [apply pa_add_shape|].
    cbv beta. intros z _ [Lz _ _ Nz Tz _ _ _]. rewrite app_length in Lz.
    split; rewrite ?Lx, ?Ly, ?Nat.max_id.
    + rewrite Hkl. clear -Lz Lcn' La' Lb' Eb2; clearbody CN La Lb len0; lia.
    + intros N1 N2. destruct (Hcn (Nb N1 N2)) as [i Hi]. exists i. apply Nz. right. auto.
    + intros _ Ax Ay Ht. destruct (Htn Ht) as [T1 T2]. rewrite T2.
      pose proof (ctop_app b a _ (Hta Ht Ax Ay)) as Hba. rewrite Eb2 in Hba.
      pose proof (ctop_elen _ _ Hba) as Eba.
      assert (Hcnz : nz cn) by (apply Hcn, Hbz; auto).
      pose proof (elen_length cn) as Ecn.
      assert (Hm : Nat.max (elen (b ++ a)) (elen cn) = (2 * len0 + La)%nat).
      { clear -Eba Ecn Lcn' T1. clearbody CN La Lb len0. lia. }
      rewrite Hm in Tz. apply Tz.
      * apply nz_ctz. eapply ctop_nz; eauto.
      * apply nz_ctz; auto.
      * left. apply Hba.
  - eapply cntP_bind; [apply pa_add_shape|].
    cbv beta. intros bc _ [Lbc _ _ Nbc _ _ _ _].
    rewrite pa_shift_triv.
    eapply cntP_conseq; [apply pa_add_shape|].
    cbv beta. intros z _ [Lz _ _ Nz Tz _ _ _]. rewrite app_length, ct_triv_length in Lz.
    split; rewrite ?Lx, ?Ly, ?Nat.max_id.
    + rewrite Hkl. clear -Lz Lbc Lcn' La' Lb'; clearbody CN La Lb len0; lia.
    + intros N1 N2. destruct (Nb N1 N2) as [i Hi]. exists i. apply Nz. right. apply Nbc. left. auto.
    + intros _ Ax Ay Ht. destruct (Htn Ht) as [T1 T2]. rewrite T2.
      pose proof (ctop_shift _ (2 * len0) a (Hta Ht Ax Ay)) as Hba.
      pose proof (ctop_elen _ _ Hba) as Eba.
      assert (Hbcz : nz bc).
      { destruct (Hbz Ax Ay) as [i Hi]. exists i. apply Nbc. left. auto. }
      pose proof (elen_length bc) as Ebc.
      assert (Hm : Nat.max (elen (ct_triv (2 * len0) ++ a)) (elen bc) = (2 * len0 + La)%nat).
      { clear -Eba Ebc Lbc Lcn' Lb' T1. clearbody CN La Lb len0. lia. }
      rewrite Hm in Tz. apply Tz.
      * apply nz_ctz. eapply ctop_nz; eauto.
      * apply nz_ctz; auto.
      * left. apply Hba.
Qed.

Lemma nth_pad : forall (x : ciphertext B) k i, nth i (x ++ ct_triv k) triv0 = nth i x triv0.
Proof.
  intros x k i. rewrite nth_app_any. destruct (i <? length x)%nat eqn:E; auto.
  rewrite ct_triv_nth, nth_overflow by lia. auto.
Qed.

Lemma mul_impl_shape : forall rec x y,
  let n := Nat.max (length x) (length y) in (n <= 32)%nat ->
  ((16 <= n)%nat -> n <> 17%nat -> mul_shaped rec ((n + 1) / 2 + 1)) ->
  cntP (mul_impl rec x y) (fun z k => mul_shape x y z /\
    (((2 <=? n) && (n <? 16) || (n =? 17))%nat = true -> (k <= school_cnt n)%nat /\
       (length x = length y -> allct x -> allct y -> k = school_cnt n))).
Proof.
  intros rec x y n Hn Hrec. unfold mul_impl.
  set (xi := x ++ ct_triv (length y - length x)). set (yi := y ++ ct_triv (length x - length y)).
  assert (Lx : length xi = n) by (unfold xi; rewrite app_length, ct_triv_length; lia).
  assert (Ly : length yi = n) by (unfold yi; rewrite app_length, ct_triv_length; lia).
  assert (HS : forall z, mul_shape xi yi z -> mul_shape x y z).
  { intros z [S1 S2 S3]. rewrite Lx, Ly, Nat.max_id in S1. split; auto.
    - intros N1 N2. apply S2; [unfold xi|unfold yi]; rewrite nth_pad; auto.
    - intros E Ax Ay Ht. rewrite Lx, Ly in S3. replace n with (length x) in S3 by lia.
      apply S3; auto.
      + unfold xi. rewrite E, Nat.sub_diag. change (ct_triv 0) with (@nil (word B)).
        rewrite app_nil_r. auto.
      + unfold yi. rewrite E, Nat.sub_diag. change (ct_triv 0) with (@nil (word B)).
        rewrite app_nil_r. auto. }
  assert (HA : length x = length y -> allct x -> allct y -> allct xi /\ allct yi).
  { intros E Ax Ay. unfold xi, yi. rewrite E, Nat.sub_diag. change (ct_triv 0) with (@nil (word B)).
    rewrite !app_nil_r. auto. }
  rewrite Lx.
  destruct (n =? 0)%nat eqn:E0.
  { apply cntP_ret. split; [|lia]. apply HS. split; rewrite ?Lx, ?Ly.
    - simpl; lia.
    - intros N _. apply nontriv_lt in N. lia.
    - intros _ _ _ Ht. replace n with 0%nat in Ht by lia. discriminate. }
  destruct (n =? 1)%nat eqn:E1.
  { unfold mul_1word. eapply cntP_bind; [apply cntP_measure, fill_mulary_shape; lia|].
    cbv beta. intros m k [Lm [Hm _]].
    eapply cntP_conseq; [apply (cntP_index _ m 0 [])|]. cbv beta. intros z k' [_ [-> _]].
    split; [|lia]. apply HS. destruct (Hm 0%nat ltac:(lia)) as [R1 [R2 [R3 R4]]].
    split; rewrite ?Lx, ?Ly, ?Nat.max_id.
    - replace n with 1%nat by lia. change (mul_len 1) with 2%nat. lia.
    - intros N1 N2. exists 0%nat. apply (R4 0%nat); auto.
    - intros _ _ _ Ht. replace n with 1%nat in Ht by lia. discriminate. }
  destruct ((n <? 16) || (n =? 17))%nat eqn:E2.
  { unfold mul_schoolbook. apply cntP_measure.
    eapply cntP_bind; [apply fill_mulary_shape; lia|].
    cbv beta. intros m k [Lm [Hm [K1 K2]]]. rewrite Lx in *.
    eapply cntP_conseq; [apply (reduce_shape m xi yi n); auto; lia|].
    cbv beta. intros z k' [Z1 [Z2 [Z3 [Z4 Z5]]]]. split.
    - apply HS. pose proof (mul_len_school n E2) as Hsl.
      split; rewrite ?Lx, ?Ly, ?Nat.max_id, ?Hsl; auto.
    - intros _. unfold school_cnt. split; [lia|]. intros E Ax Ay.
      destruct (HA E Ax Ay) as [Axi Ayi]. rewrite K2, Z5; auto. }
  replace (n <=? 32)%nat with true by lia.
  eapply cntP_conseq; [apply (kara_shape rec n); auto; try lia; apply Hrec; lia|].
  cbv beta. intros z k H. split; auto. lia.
Qed.

Lemma mul_fuel_shape : forall f n, (n < f)%nat -> (n <= 32)%nat -> mul_shaped (mul_fuel f) n.
Proof.
  induction f as [|f IH]; intros n Hf Hn x y Hm; [lia|].
  simpl. apply cntP_analysed. eapply cntP_conseq; [apply mul_impl_shape; [lia|]|].
  - intros H16 H17.
    set (m := Nat.max (length x) (length y)) in *.
    pose proof (Nat.div_mod (m + 1) 2 ltac:(lia)).
    pose proof (Nat.mod_upper_bound (m + 1) 2 ltac:(lia)). apply IH; lia.
  - cbv beta. tauto.
Qed.

Lemma pa_mul_shape : forall x y, (Nat.max (length x) (length y) <= 32)%nat ->
  cntP (pa_mul x y) (fun z _ => mul_shape x y z).
Proof. intros x y H. apply (mul_fuel_shape _ (Nat.max (length x) (length y))); auto. Qed.

Lemma pa_mul_school_count : forall x y, let n := Nat.max (length x) (length y) in
  ((2 <=? n) && (n <? 16) || (n =? 17))%nat = true ->
  cntP (pa_mul x y) (fun z k => (k <= school_cnt n)%nat /\
       (length x = length y -> allct x -> allct y -> k = school_cnt n)).
Proof.
  intros x y n Hn. unfold pa_mul. simpl. apply cntP_analysed.
  eapply cntP_conseq; [apply mul_impl_shape; fold n; lia|].
  cbv beta. intros z k [_ H]. apply H. auto.
Qed.

(** ** Squaring *)
(** numbers of words for which [squ_len] is attained by encrypted operands *)
Definition squ_tight (n : nat) : bool :=
  existsb (Nat.eqb n) [2; 3; 4; 7; 8; 15; 16; 31; 32]%nat.

Definition squ_shape (x z : ciphertext B) : Prop :=
  (length z <= squ_len (length x))%nat /\
  (allct x -> squ_tight (length x) = true ->
     length z = squ_len (length x) /\ ctop (squ_len (length x)) z).

Definition squ_shaped (rec : ciphertext B -> M (ciphertext B)) (n : nat) : Prop :=
  forall x, (length x <= n)%nat -> cntP (rec x) (fun z _ => squ_shape x z).

Lemma squ_1_shape : forall x, length x = 1%nat -> cntP (squ_1word x) (fun z _ => squ_shape x z).
Proof.
  intros x L. unfold squ_1word. eapply cntP_bind with (P := fun _ _ => True).
  - intros ? ?. auto.
  - intros z k _. apply cntP_ret. split; rewrite L; [apply Nat.leb_le; reflexivity|]. intros _ H. discriminate.
Qed.

Lemma squ_23_shape : forall x, (length x = 2 \/ length x = 3)%nat ->
  cntP (squ_2_3word x) (fun z k => squ_shape x z /\ (k <= 2 * length x - 1)%nat).
Proof.
  intros x HL. unfold squ_2_3word.
  replace ((length x =? 2) || (length x =? 3))%nat with true by lia. cbn [negb].
  set (xv := if (length x =? 2)%nat then _ else _).
  assert (Hxv : allct x -> is_triv xv = false).
  { intros A. unfold xv. destruct HL as [HL|HL]; rewrite HL; cbn [Nat.eqb];
      rewrite ?is_triv_w_add, ?is_triv_w_mul, A by lia; auto using andb_false_r. }
  clearbody xv.
  eapply cntP_bind; [apply cntP_measure, (cntP_mapM _ _ _ (fun _ w _ => is_triv w = is_triv xv) 0 1
     (seq 0 (2 * length x - 1)) 0%nat triv0)|].
  - intros i Hi. rewrite seq_length in Hi. rewrite seq_nth by lia. rewrite Nat.add_0_l.
    assert (Hp : (if (i <? 1)%nat then i else (i + 1)%nat) <> 1%nat) by (destruct (i <? 1)%nat eqn:E; lia).
    set (pos := if (i <? 1)%nat then i else (i + 1)%nat) in *. clearbody pos. unfold squ_3_bit_pi_5.
    destruct pos as [|[|[|[|[|[|?]]]]]]; try apply lutu_shape'; try apply cntP_panic.
    congruence.
  - cbv beta. rewrite seq_length. intros res k [R1 [R2 R3]].
    eapply cntP_bind; [apply (cntP_index _ res 0 triv0)|]. cbv beta. intros r0 k0 [_ [-> ->]].
    apply cntP_ret. split; [|lia].
    assert (Lz : length (nth 0 res triv0 :: encrypt_word_triv 0 :: skipn 1 res) = (2 * length x)%nat).
    { cbn [length]. rewrite skipn_length. lia. }
    assert (Hs : squ_len (length x) = (2 * length x)%nat) by (destruct HL as [ -> | -> ]; reflexivity).
    split; rewrite Lz, Hs; auto. intros A _. split; auto. split; [lia|]. split.
    + replace (2 * length x - 1)%nat with (S (S (2 * length x - 3))) by lia. cbn [nth].
      rewrite nth_skipn. destruct (R2 (1 + (2 * length x - 3))%nat ltac:(lia)) as [_ ->]. auto.
    + rewrite <- Lz. apply elen_length.
Qed.

Lemma dnq_shape : forall rec x, (4 <= length x <= 32)%nat ->
  squ_shaped rec ((length x + 1) / 2) -> cntP (squ_dnq rec x) (fun z _ => squ_shape x z).
Proof.
  intros rec x Hn Hrec. unfold squ_dnq, squ_shape.
  pose proof (squ_len_dnq (length x) ltac:(lia) ltac:(lia)) as Hkl. cbv zeta in Hkl.
  set (n := length x) in *.
  assert (Htl : squ_tight n = true -> ((n + 1) / 2 = 2 /\ n = 4 \/ (n + 1) / 2 = 4 /\ n = 7 \/
     (n + 1) / 2 = 4 /\ n = 8 \/ (n + 1) / 2 = 8 /\ n = 15 \/ (n + 1) / 2 = 8 /\ n = 16 \/
     (n + 1) / 2 = 16 /\ n = 31 \/ (n + 1) / 2 = 16 /\ n = 32)%nat).
  { intros H. unfold squ_tight in H. cbn [existsb] in H.
    assert (E : (n = 4 \/ n = 7 \/ n = 8 \/ n = 15 \/ n = 16 \/ n = 31 \/ n = 32)%nat) by lia.
    clear -E. destruct E as [-> |[-> |[-> |[-> |[-> |[-> | ->]]]]]]; cbv; tauto. }
  set (len0 := ((n + 1) / 2)%nat) in *.
  assert (Hl0 : (2 <= len0 <= n /\ n - len0 <= len0 /\ len0 <= 16 /\ 0 < n - len0)%nat).
  { unfold len0. pose proof (Nat.div_mod (n + 1) 2 ltac:(lia)).
    pose proof (Nat.mod_upper_bound (n + 1) 2 ltac:(lia)). lia. }
  apply cntP_measure.
  assert (Lx0 : length (firstn len0 x) = len0) by (rewrite firstn_length; lia).
  assert (Lx1 : length (skipn len0 x) = (n - len0)%nat) by (rewrite skipn_length; lia).
  set (La := squ_len (n - len0)) in *. set (Lb := squ_len len0) in *. set (Lc := mul_len len0) in *.
  eapply cntP_bind; [apply (Hrec (skipn len0 x) ltac:(lia))|].
  cbv beta. unfold squ_shape at 1. rewrite Lx1. intros a _ [La' Ta].
  eapply cntP_bind; [apply (Hrec (firstn len0 x) ltac:(lia))|].
  cbv beta. unfold squ_shape at 1. rewrite Lx0. intros b _ [Lb' _].
  fold La in La', Ta. fold Lb in Lb'.
  eapply cntP_bind; [apply (pa_mul_shape (firstn len0 x) (skipn len0 x) ltac:(lia))|].
  cbv beta. intros c _ [Lc' Nc _]. rewrite Lx0, Lx1, Nat.max_l in Lc' by lia. fold Lc in Lc'.
  rewrite pa_shift_triv.
  assert (Hc : allct x -> nz (ct_triv (len0 + 1) ++ c)).
  { intros A. apply nz_shift, Nc; [apply allct_firstn|apply allct_skipn]; auto; lia. }
  assert (Lcs : length (ct_triv (len0 + 1) ++ c) = (len0 + 1 + length c)%nat)
    by (rewrite app_length, ct_triv_length; auto).
  set (cs := ct_triv (len0 + 1) ++ c) in *. clearbody cs.
  assert (Hta : squ_tight n = true -> allct x -> ctop La a).
  { intros Ht A. apply Ta; [apply allct_skipn; auto|].
    destruct (Htl Ht) as [[E1 E2]|[[E1 E2]|[[E1 E2]|[[E1 E2]|[[E1 E2]|[[E1 E2]|[E1 E2]]]]]]];
      rewrite E1, E2; reflexivity. }
  unfold dnq_len in Hkl.
  assert (Htn : squ_tight n = true ->
    (Nat.max Lb (len0 + 1 + Lc) + 1 <= 2 * len0 + La /\ squ_len n = 2 * len0 + La + 1)%nat).
  { intros Ht. clear -Htl Ht. specialize (Htl Ht). clearbody len0. clear Ht.
    unfold La, Lb, Lc.
    destruct Htl as [[E1 E2]|[[E1 E2]|[[E1 E2]|[[E1 E2]|[[E1 E2]|[[E1 E2]|[E1 E2]]]]]]];
      rewrite E1, E2; (split; [apply Nat.leb_le|]; reflexivity). }
  destruct (length b =? 2 * len0)%nat eqn:Eb2.
  - apply Nat.eqb_eq in Eb2.
    eapply cntP_conseq; [apply pa_add_shape|].
    cbv beta. intros z _ [Lz _ _ Nz Tz _ _ _]. rewrite app_length in Lz. split.
    + rewrite Hkl. clear -Lz Lcs Lc' La' Lb' Eb2; clearbody Lc La Lb len0; lia.
    + intros A Ht. destruct (Htn Ht) as [T1 T2]. rewrite T2.
      pose proof (ctop_app b a _ (Hta Ht A)) as Hba. rewrite Eb2 in Hba.
      pose proof (ctop_elen _ _ Hba) as Eba. pose proof (elen_length cs) as Ecs.
      assert (Hm : Nat.max (elen (b ++ a)) (elen cs) = (2 * len0 + La)%nat).
      { clear -Eba Ecs Lcs Lc' T1. clearbody Lc La Lb len0. lia. }
      rewrite Hm in Tz. apply Tz.
      * apply nz_ctz. eapply ctop_nz; eauto.
      * apply nz_ctz; auto.
      * left. apply Hba.
  - eapply cntP_bind; [apply pa_add_shape|].
    cbv beta. intros bc _ [Lbc _ _ Nbc _ _ _ _].
    rewrite pa_shift_triv.
    eapply cntP_conseq; [apply pa_add_shape|].
    cbv beta. intros z _ [Lz _ _ Nz Tz _ _ _]. rewrite app_length, ct_triv_length in Lz. split.
    + rewrite Hkl. clear -Lz Lbc Lcs Lc' La' Lb'; clearbody Lc La Lb len0; lia.
    + intros A Ht. destruct (Htn Ht) as [T1 T2]. rewrite T2.
      pose proof (ctop_shift _ (2 * len0) a (Hta Ht A)) as Hba.
      pose proof (ctop_elen _ _ Hba) as Eba.
      assert (Hbcz : nz bc) by (destruct (Hc A) as [i Hi]; exists i; apply Nbc; right; auto).
      pose proof (elen_length bc) as Ebc.
      assert (Hm : Nat.max (elen (ct_triv (2 * len0) ++ a)) (elen bc) = (2 * len0 + La)%nat).
      { clear -Eba Ebc Lbc Lcs Lc' Lb' T1. clearbody Lc La Lb len0. lia. }
      rewrite Hm in Tz. apply Tz.
      * apply nz_ctz. eapply ctop_nz; eauto.
      * apply nz_ctz; auto.
      * left. apply Hba.
Qed.

Lemma squ_fuel_shape : forall f n, (n < f)%nat -> (n <= 32)%nat -> squ_shaped (squ_fuel f) n.
Proof.
  induction f as [|f IH]; intros n Hf Hn x Hm; [lia|].
  simpl. apply cntP_analysed. unfold squ_impl.
  destruct (length x =? 0)%nat eqn:E0.
  { apply cntP_ret. apply Nat.eqb_eq in E0. split; rewrite E0; [apply Nat.leb_le; reflexivity|]. intros _ H. discriminate. }
  destruct (length x =? 1)%nat eqn:E1; [apply squ_1_shape; lia|].
  destruct (length x <=? 3)%nat eqn:E3.
  { eapply cntP_conseq; [apply squ_23_shape; lia|]. cbv beta. tauto. }
  replace (length x <=? 32)%nat with true by lia.
  apply dnq_shape; [lia|].
  assert (((length x + 1) / 2 < length x)%nat).
  { pose proof (Nat.div_mod (length x + 1) 2 ltac:(lia)).
    pose proof (Nat.mod_upper_bound (length x + 1) 2 ltac:(lia)). lia. }
  apply IH; lia.
Qed.

Lemma pa_squ_shape : forall x, (length x <= 32)%nat -> cntP (pa_squ x) (fun z _ => squ_shape x z).
Proof. intros x H. apply (squ_fuel_shape _ (length x)); auto. Qed.

(** ** Signum *)
(** bootstraps of the rounds of the sign recursion after the first one *)
Lemma next_group_shape : forall (x : ciphertext B) j,
  cntP (sgn_next_group x j) (fun _ k => (k <= Nat.min 4 (length x - 4 * j))%nat).
Proof.
  intros x j. unfold sgn_next_group.
  assert (H : forall l, cntP (mapM (fun i => if (GAMMA * j + i <? length x)%nat
          then f_1_pi_5 (nth (GAMMA * j + i) x triv0) (2 ^ Z.of_nat i)
          else ret triv0) l)
        (fun _ k => (k <= length (filter (fun i => (4 * j + i <? length x)%nat) l))%nat)).
  { induction l as [|i l IH]; cbn [mapM filter].
    - apply cntP_ret. simpl; lia.
    - change GAMMA with 4%nat in *.
      eapply cntP_bind with (P := fun _ k => (k <= if (4 * j + i <? length x)%nat then 1 else 0)%nat).
      + destruct (4 * j + i <? length x)%nat; [|apply cntP_ret; lia].
        eapply cntP_conseq; [apply lutu_shape'|]. cbv beta. intros; lia.
      + intros w k Hk. eapply cntP_bind; [apply IH|]. cbv beta. intros r n Hn. apply cntP_ret.
        revert Hk. destruct (4 * j + i <? length x)%nat; intros; cbn [length]; lia. }
  eapply cntP_bind; [apply H|]. cbv beta. intros sj k Hk. apply cntP_ret. rewrite Nat.add_0_r.
  eapply Nat.le_trans; [apply Hk|]. change (seq 0 GAMMA) with [0; 1; 2; 3]%nat. cbn [filter].
  destruct (4 * j + 0 <? length x)%nat eqn:E0, (4 * j + 1 <? length x)%nat eqn:E1,
    (4 * j + 2 <? length x)%nat eqn:E2, (4 * j + 3 <? length x)%nat eqn:E3; simpl length; lia.
Qed.

Lemma first_group_shape : forall pc (x : ciphertext B) j,
  cntP (sgn_first_group pc x j)
    (fun _ k => (k <= if (4 * j + 3 <? length x)%nat then 1 else 0)%nat).
Proof.
  intros pc x j. unfold sgn_first_group. change GAMMA with 4%nat.
  eapply cntP_bind with (P := fun _ k => (k <= if (4 * j + 3 <? length x)%nat then 1 else 0)%nat).
  - destruct (4 * j + 3 <? length x)%nat; [|apply cntP_ret; lia].
    destruct (85 <=? quad_weight (cparams pc)).
    + rewrite ret_bind. apply cntP_ret. lia.
    + eapply cntP_bind; [apply lutu_shape'|]. cbv beta. intros w k [_ Hk]. apply cntP_ret. lia.
  - intros w k Hk. apply cntP_ret. lia.
Qed.

(** sum of a bound over the groups *)
Lemma cntP_groups : forall A (f : nat -> M A) (b : nat -> nat) n s,
  (forall j, cntP (f j) (fun _ k => (k <= b j)%nat)) ->
  cntP (mapM f (seq s n)) (fun r k => length r = n /\ (k <= list_sum (map b (seq s n)))%nat).
Proof.
  intros A f b. induction n as [|n IH]; intros s H; cbn [seq mapM map].
  - apply cntP_ret. auto.
  - eapply cntP_bind; [apply H|]. cbv beta. intros a k Hk.
    eapply cntP_bind; [apply IH; auto|]. cbv beta. intros r n' [L Hn].
    apply cntP_ret. simpl. lia.
Qed.

Lemma next_sum : forall n len s, list_sum (map (fun j => Nat.min 4 (len - 4 * j)) (seq s n)) =
  Nat.min (4 * n) (len - 4 * s)%nat.
Proof.
  induction n as [|n IH]; intros len s; cbn [seq map list_sum fold_right]; [lia|].
  unfold list_sum in IH. rewrite IH. lia.
Qed.

Lemma first_sum : forall n len s,
  (list_sum (map (fun j => if (4 * j + 3 <? len) then 1 else 0) (seq s n)) = 
  Nat.min n ((len - 4 * s) / 4))%nat.
Proof.
  induction n as [|n IH]; intros len s; cbn [seq map list_sum fold_right]; [lia|].
  unfold list_sum in IH. rewrite IH. destruct (4 * s + 3 <? len)%nat eqn:E.
  - replace (len - 4 * s)%nat with (1 * 4 + (len - 4 * S s))%nat at 1 by lia.
    rewrite Nat.div_add_l by lia. lia.
  - replace (len - 4 * S s)%nat with 0%nat by lia.
    rewrite (Nat.div_small (len - 4 * s)) by lia. change (0 / 4)%nat with 0%nat. lia.
Qed.

Lemma group_count : forall n, (2 <= n)%nat ->
  (4 * ((n - 1) / 4) <= n - 1 /\ n - 1 < 4 * ((n - 1) / 4) + 4)%nat.
Proof.
  intros n H. pose proof (Nat.div_mod (n - 1) 4 ltac:(lia)).
  pose proof (Nat.mod_upper_bound (n - 1) 4 ltac:(lia)). lia.
Qed.

(** later rounds use at most 2n-2 bootstraps (none for one word) *)
Lemma recursion_shape_next : forall fuel pc (x : ciphertext B),
  cntP (sgn_recursion_fuel fuel pc x false)
    (fun _ k => (2 <= length x -> k <= 2 * length x - 2)%nat /\ (length x < 2 -> k = 0)%nat).
Proof.
  induction fuel as [|fuel IH]; intros pc x; cbn [sgn_recursion_fuel]; [apply cntP_panic|].
  destruct (length x =? 0)%nat eqn:E0; [apply cntP_ret; lia|].
  destruct (length x =? 1)%nat eqn:E1; [apply cntP_ret; lia|].
  apply cntP_measure. change GAMMA with 4%nat.
  eapply cntP_bind; [apply (cntP_groups _ _ (fun j => Nat.min 4 (length x - 4 * j))); apply next_group_shape|].
  cbv beta. intros b k [Lb Hk]. rewrite next_sum in Hk.
  eapply cntP_conseq; [apply IH|]. cbv beta. rewrite Lb. intros z k' [K1 K2].
  pose proof (group_count (length x) ltac:(lia)). lia.
Qed.

Lemma recursion_shape : forall pc (x : ciphertext B),
  cntP (sgn_recursion_raw pc x true) (fun _ k => (S k <= Nat.max 1 (length x))%nat).
Proof.
  intros pc x. unfold sgn_recursion_raw. cbn [sgn_recursion_fuel].
  destruct (length x =? 0)%nat eqn:E0; [apply cntP_ret; lia|].
  destruct (length x =? 1)%nat eqn:E1; [apply cntP_ret; lia|].
  apply cntP_measure. change GAMMA with 4%nat.
  eapply cntP_bind; [apply (cntP_groups _ _ (fun j => if (4 * j + 3 <? length x)%nat then 1 else 0)%nat);
    apply first_group_shape|].
  cbv beta. intros b k [Lb Hk]. rewrite first_sum in Hk. rewrite Nat.mul_0_r, Nat.sub_0_r in Hk.
  eapply cntP_conseq; [apply recursion_shape_next|]. cbv beta. rewrite Lb. intros z k' [K1 K2].
  pose proof (group_count (length x) ltac:(lia)).
  pose proof (Nat.div_mod (length x) 4 ltac:(lia)).
  pose proof (Nat.mod_upper_bound (length x) 4 ltac:(lia)). lia.
Qed.

Lemma pa_sgn_shape : forall pc (x : ciphertext B),
  cntP (pa_sgn pc x) (fun z k => length z = Nat.min 1 (length x) /\
     (k <= length x)%nat /\ (length x <= 1 -> k = 0)%nat).
Proof.
  intros pc x. unfold pa_sgn. apply cntP_analysed. unfold sgn_impl.
  destruct (length x =? 0)%nat eqn:E0; [apply cntP_ret; change (length (@pa_zero B)) with 0%nat; lia|].
  destruct (length x =? 1)%nat eqn:E1; [apply cntP_ret; lia|].
  eapply cntP_bind with (P := fun _ k => (k <= length x)%nat).
  - apply cntP_measure. eapply cntP_bind; [apply recursion_shape|]. cbv beta. intros s k Hk.
    eapply cntP_bind; [apply (cntP_index _ s 0 triv0)|]. cbv beta. intros s0 k0 [_ [_ ->]].
    eapply cntP_conseq; [apply lutu_shape'|]. cbv beta. intros w k1 [_ H1]. lia.
  - cbv beta. intros w k Hk. apply cntP_ret. change (length (ct_single w)) with 1%nat. lia.
Qed.

Lemma nonneg_shape : forall c : word B,
  cntP (nonneg_pi_5 c) (fun w k => is_triv w = is_triv c /\ (0 <= k <= 1)%nat).
Proof.
  intros c. unfold nonneg_pi_5. eapply cntP_bind; [apply lut_shape'|]. cbv beta.
  intros w k [H1 H2]. apply cntP_ret. rewrite is_triv_w_half. split; auto. lia.
Qed.

Lemma pa_max_shape : forall pc (x y : ciphertext B), let n := Nat.max (length x) (length y) in
  cntP (pa_max pc x y) (fun z k => length z = n /\ (k <= 5 * n + 2)%nat /\
     (41 <= quad_weight (cparams pc) -> (k <= 4 * n + 2)%nat)).
Proof.
  intros pc x y n. unfold pa_max. apply cntP_analysed. unfold max_impl. apply cntP_measure.
  eapply cntP_bind; [apply pa_sub_shape|]. cbv beta. intros r k [L _ _ _ _ _ K _].
  assert (Ha : (active x y <= n)%nat).
  { unfold active, add_wlen. pose proof (elen_length x). pose proof (elen_length y). lia. }
  eapply cntP_bind; [apply recursion_shape|]. cbv beta. intros s k1 Hk1.
  eapply cntP_bind; [apply (cntP_index _ s 0 triv0)|]. cbv beta. intros s0 k0 [_ [_ ->]].
  eapply cntP_bind; [apply nonneg_shape|]. cbv beta. intros s1 k2 [_ Hk2].
  set (l := combine _ _).
  assert (Ll : length l = n).
  { unfold l. rewrite combine_length, !app_length, !ct_triv_length. lia. }
  eapply cntP_conseq; [apply (cntP_mapM _ _ _ (fun _ _ _ => True) 0
     (if 41 <=? quad_weight (cparams pc) then 1%nat else 2%nat) l (triv0, triv0) triv0)|].
  - intros i Hi. destruct (nth i l (triv0, triv0)) as [xi yi]. unfold max_word. cbv zeta.
    destruct (41 <=? quad_weight (cparams pc)).
    + rewrite ret_bind. eapply cntP_conseq; [apply lutu_shape'|]. cbv beta. intros; split; auto; lia.
    + eapply cntP_bind; [apply lutu_shape'|]. cbv beta. intros t kt [_ Ht].
      eapply cntP_conseq; [apply lutu_shape'|]. cbv beta. intros; split; auto; lia.
  - cbv beta. rewrite Ll. intros z kz [Lz [_ Kz]]. split; auto.
    destruct (41 <=? quad_weight (cparams pc)) eqn:E; lia.
Qed.

Lemma pa_round_shape : forall pc (x : ciphertext B) p,
  cntP (pa_round_at pc x p) (fun z k => (length z <= Nat.max (length x) (S p) + 1)%nat /\
     (k <= 2 * length x + 2)%nat /\ (p = 0 -> k = 0)%nat).
Proof.
  intros pc x p. unfold pa_round_at. apply cntP_analysed. unfold round_at_impl.
  destruct p as [|p]; [apply cntP_ret; lia|].
  destruct (length x + 1 <=? S p)%nat eqn:E; [apply cntP_ret; simpl; lia|].
  assert (Hp : (p < length x)%nat) by lia.
  eapply cntP_bind with (P := fun sr k => fst sr = pa_shift (skipn (S p) x) (S p) /\
     (exists rw, snd sr = ct_triv (S p) ++ [rw]) /\ (k <= p + 1)%nat).
  - apply cntP_measure. eapply cntP_bind; [apply pa_sgn_shape|]. cbv beta. intros s k [_ [Hk _]].
    rewrite firstn_length in Hk.
    eapply cntP_bind; [apply lutu_shape'|]. cbv beta. intros rw k1 [_ Hk1]. apply cntP_ret.
    split; [reflexivity|]. split; [exists rw; reflexivity|]. lia.
  - intros [slx r] k [H1 [[rw H2] Hk]]. simpl fst in H1. simpl snd in H2. subst slx r.
    eapply cntP_conseq; [apply pa_add_shape|]. cbv beta.
    intros z k' [L _ _ _ _ _ K _]. rewrite pa_shift_length, skipn_length, app_length, ct_triv_length in L.
    simpl in L. split; [lia|]. split; [|lia].
    assert (Ha : (active (pa_shift (skipn (S p) x) (S p)) (ct_triv (S p) ++ [rw]) <= Nat.max (length x - S p) 1)%nat).
    { unfold active, add_wlen, add_rtriv.
      pose proof (elen_length (pa_shift (skipn (S p) x) (S p))) as E1.
      pose proof (elen_length (ct_triv (S p) ++ [rw])) as E2.
      rewrite pa_shift_length, skipn_length in E1. rewrite app_length, ct_triv_length in E2.
      simpl length in E2.
      assert (E3 : (S p <= count_triv_zeros (ct_triv (S p) ++ [rw]))%nat).
      { apply ctz_ge; [rewrite app_length, ct_triv_length; lia|]. intros i Hi.
        rewrite nth_app_any, ct_triv_length. replace (i <? S p)%nat with true by lia.
        rewrite ct_triv_nth. reflexivity. }
      lia. }
    destruct (Nat.eq_dec (S p) (length x)); lia.
Qed.

(** no bootstraps without encrypted words *)
Lemma lut_triv_count : forall p h, npbs (snd (eval_LUT_5_half (B := B) (Triv p) h)) = 0%nat.
Proof.
  intros p h. unfold eval_LUT_5_half. cbv zeta. rewrite snd_bind.
  set (m := pt_to_mu MSG_MOD p).
  destruct (m <? 16); [|destruct (m <? 32)]; cbn [fst snd ret panic app]; try reflexivity;
    destruct (Z.land _ 1 =? 1); reflexivity.
Qed.

End Shape.

Lemma Forall_allct : forall {B : backend} (x : ciphertext B),
  Forall (fun w => is_triv w = false) x -> allct x.
Proof. intros B x H i Hi. rewrite Forall_forall in H. apply H, nth_In; auto. Qed.
Lemma ctz_lt_ex : forall {B : backend} (x : ciphertext B),
  (exists w, In w x /\ is_triv_zero w = false) -> (count_triv_zeros x < length x)%nat.
Proof.
  intros B x [w [H1 H2]]. destruct (In_nth _ _ triv0 H1) as [i [Hi Hn]].
  destruct (ctz_spec x) as [L [Z _]]. 
  destruct (le_lt_dec (count_triv_zeros x) i) as [H|H]; [lia|].
  rewrite <- Hn, (Z i H) in H2. discriminate.
Qed.
