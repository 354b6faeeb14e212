(** Every bootstrap behind a result has been counted. Proofs only.
    As RelProofs.v, with one run on the backend of terms: [S] lists all bootstraps seen so far, and an
    operation adds at most as many as it counts. *)
From Verif Require Import Base Backend Words Encryption Params Pbs Addition Signum Maximum
  Multiplication Squaring Rounding Naf Asc ScalarMul Arith NeuralNetwork Symbolic Weights Expr BaseProofs.
From Verif Require Import ShapeProofs RelProofs.
From Coq Require Import ZifyBool ZifyNat.

(** all bootstraps in a circuit *)
Fixpoint boots (t : term) : list term :=
  match t with
  | TVar _ => []
  | TAdd u v => boots u ++ boots v
  | TAddPt u _ | TOpp u | TMul u _ => boots u
  | TLut _ u => t :: boots u
  end.

Section Reach.
Context {N : nat}.
Notation B := (sym N).

Definition below (S : list term) (w : word B) : Prop := match w with Ct t => incl (boots t) S | Triv _ => True end.
Definition cb (S : list term) (x : ciphertext B) : Prop := Forall (below S) x.

(** *** computations *)
Definition grows (S : list term) {A} (m : M A) (Q : list term -> A -> Prop) : Prop :=
  match fst m with
  | Ok a => exists n, (length n <= npbs (snd m))%nat /\ Q (n ++ S) a
  | _ => True
  end.
Lemma g_ret : forall S {A} (a : A) (Q : list term -> A -> Prop), Q S a -> grows S (ret a) Q.
Proof. intros S A a Q H. exists []. split; [cbn; lia|exact H]. Qed.
Lemma g_panic : forall S {A} e (Q : list term -> A -> Prop), grows S (panic e) Q.
Proof. intros. exact I. Qed.
Lemma g_err : forall S {A} e (Q : list term -> A -> Prop), grows S (err_ e) Q.
Proof. intros. exact I. Qed.
Lemma g_bind : forall S {A C} (m : M A) (f : A -> M C) Q R, grows S m Q ->
  (forall n a, Q (n ++ S) a -> grows (n ++ S) (f a) R) -> grows S (bind m f) R.
Proof.
  intros S A C [[a|e|e] t] f Q R H Hf; unfold grows in *; cbn [fst snd bind] in *; auto.
  destruct H as [n [L H]]. specialize (Hf n a H). destruct (f a) as [[c|e|e] u]; cbn [fst snd] in *; auto.
  destruct Hf as [n' [L' H']]. exists (n' ++ n). rewrite app_length, npbs_app, <- app_assoc. split; [lia|exact H'].
Qed.
(** computations that do not bootstrap and have no ciphertexts in their result *)
Lemma g_any : forall S {A} (m : M A), grows S m (fun _ _ => True).
Proof. intros S A [[a|e|e] t]; cbn; auto. exists []. split; [cbn; lia|exact I]. Qed.
Lemma g_expect : forall S {A} (m : M A) Q, grows S m Q -> grows S (expect m) Q.
Proof. intros S A [[a|e|e] t] Q H; exact H. Qed.
Lemma g_measure : forall S {A} (m : M A) Q, grows S m Q -> grows S (measure m) Q.
Proof.
  intros S A m Q H. unfold grows in *. rewrite fst_measure, snd_measure. destruct (fst m) as [a|e|e]; auto.
  destruct H as [n [L H]]. exists n. split; [|exact H]. cbn [npbs]. rewrite npbs_app. lia.
Qed.
Lemma g_analysed : forall S {A} (m : M A) Q, grows S m Q -> grows S (analysed m) Q.
Proof.
  intros S A [[a|e|e] t] Q H; unfold grows in *; cbn [fst snd] in *; try exact I.
  destruct H as [n [L H]]. cbn. exists n. split; [|exact H]. cbn [npbs]. rewrite npbs_app. lia.
Qed.
Definition mono {A} (Q : list term -> A -> Prop) : Prop := forall n S a, Q S a -> Q (n ++ S) a.
Lemma mono_all : forall {A} (Q : list term -> A -> Prop), mono Q -> mono (fun S => Forall (Q S)).
Proof. intros A Q H n S l F. eapply Forall_impl; [|exact F]. intros a. apply H. Qed.
Lemma below_mono : mono below.
Proof. intros n S [t|p] H; cbn in *; auto. apply incl_appr, H. Qed.
Lemma cb_mono : mono cb.
Proof. exact (mono_all below below_mono). Qed.
Lemma g_mapM : forall {A C} (Q : list term -> A -> Prop) (R : list term -> C -> Prop) (f : A -> M C) l, mono Q -> mono R ->
  forall S, Forall (Q S) l -> (forall S a, Q S a -> grows S (f a) R) -> grows S (mapM f l) (fun S => Forall (R S)).
Proof.
  intros A C Q R f l MQ MR. induction l as [|a l IH]; intros S F Hf; cbn [mapM]; [apply g_ret; constructor|].
  inversion_clear F as [|? ? Ha Hl]. eapply g_bind; [apply Hf, Ha|]. intros n c Hc.
  eapply g_bind; [apply IH; [exact (mono_all Q MQ n S l Hl)|exact Hf]|]. intros n' r Hr. apply g_ret. constructor; auto.
Qed.
(** the list is public; [P] is what is known of the ciphertexts that the function uses *)
Lemma g_mapM_same : forall {A C} (P : list term -> Prop) (R : list term -> C -> Prop) (f : A -> M C) l,
  (forall n S, P S -> P (n ++ S)) -> mono R ->
  forall S, P S -> (forall S a, P S -> grows S (f a) R) -> grows S (mapM f l) (fun S => Forall (R S)).
Proof.
  intros A C P R f l MP MR S HP Hf. apply (g_mapM (fun S _ => P S) R f l); auto.
  - intros n S' a. apply MP.
  - apply Forall_forall. auto.
Qed.
Lemma g_foldM : forall {A C} (Q : list term -> A -> Prop) (R : list term -> C -> Prop) (f : C -> A -> M C) l, mono Q ->
  forall S s, Forall (Q S) l -> R S s -> (forall S s a, R S s -> Q S a -> grows S (f s a) R) -> grows S (foldM f l s) R.
Proof.
  intros A C Q R f l MQ. induction l as [|a l IH]; intros S s F Hs Hf; cbn [foldM]; [apply g_ret, Hs|].
  inversion_clear F as [|? ? Ha Hl]. eapply g_bind; [apply Hf; eauto|]. intros n c Hc. apply IH; auto.
  exact (mono_all Q MQ n S l Hl).
Qed.
Lemma g_index_c : forall S l i, Forall (cb S) l -> grows S (index l i) cb.
Proof.
  intros S l i H. unfold index. destruct (nth_error l i) eqn:E; [|exact I]. apply g_ret.
  rewrite Forall_forall in H. apply H. eapply nth_error_In, E.
Qed.
Lemma g_index_w : forall S x i, cb S x -> grows S (index x i) below.
Proof.
  intros S l i H. unfold index. destruct (nth_error l i) eqn:E; [|exact I]. apply g_ret.
  unfold cb in H. rewrite Forall_forall in H. apply H. eapply nth_error_In, E.
Qed.

(** *** words *)
Lemma b_triv : forall S p, below S (Triv p).
Proof. intros; exact I. Qed.
Lemma b_triv0 : forall S, below S triv0.
Proof. intros; exact I. Qed.
Lemma b_add : forall S a b, below S a -> below S b -> below S (w_add a b).
Proof. intros S [a|p] [b|q] H1 H2; cbn in *; auto. apply incl_app; auto. Qed.
Lemma b_add_half : forall S a, below S a -> below S (w_add_half a).
Proof. intros S [a|p] H; cbn in *; auto. Qed.
Lemma b_opp : forall S a, below S a -> below S (w_opp a).
Proof. intros S [a|p] H; cbn in *; auto. Qed.
Lemma b_sub : forall S a b, below S a -> below S b -> below S (w_sub a b).
Proof. intros. apply b_add; auto. apply b_opp; auto. Qed.
Lemma b_mul_const : forall S a k, below S a -> below S (w_mul_const a k).
Proof. intros S [a|p] k H; unfold w_mul_const; destruct (k <? 0); cbn in *; auto. Qed.
Lemma c_triv : forall S n, cb S (ct_triv n).
Proof. intros S n. unfold cb, ct_triv. induction n; cbn; constructor; auto. exact I. Qed.
Lemma b_nth : forall S i x, cb S x -> below S (nth i x triv0).
Proof.
  intros S i x H. destruct (nth_in_or_default i x triv0) as [I|E]; [|rewrite E; exact I].
  unfold cb in H. rewrite Forall_forall in H. auto.
Qed.
Lemma b_last : forall S x, cb S x -> below S (last x triv0).
Proof.
  intros S x H. induction H as [|a x Ha Hx IH]; [exact I|]. destruct x; [exact Ha|exact IH].
Qed.
Lemma c_app : forall S x y, cb S x -> cb S y -> cb S (x ++ y).
Proof. intros. apply Forall_app. auto. Qed.
Lemma c_firstn : forall S n x, cb S x -> cb S (firstn n x).
Proof. intros S n x H. unfold cb in *. rewrite <- (firstn_skipn n x) in H. apply Forall_app in H. tauto. Qed.
Lemma c_skipn : forall S n x, cb S x -> cb S (skipn n x).
Proof. intros S n x H. unfold cb in *. rewrite <- (firstn_skipn n x) in H. apply Forall_app in H. tauto. Qed.
Lemma c_opp : forall S x, cb S x -> cb S (pa_opp x).
Proof. intros S x H. induction H; constructor; auto using b_opp. Qed.
Lemma c_shift : forall S x k, cb S x -> cb S (pa_shift x k).
Proof. intros S x [|k] H; cbn [pa_shift]; auto. apply c_app; auto using c_triv. Qed.
Lemma c_one : forall S a, below S a -> cb S [a].
Proof. intros. apply Forall_cons; [assumption|apply Forall_nil]. Qed.
Lemma c_map : forall S {A} (f : A -> word B) l, (forall a, below S (f a)) -> cb S (map f l).
Proof. intros S A f l H. induction l; constructor; auto. Qed.
Lemma c_zip : forall S f x y, cb S x -> cb S y -> (forall a b, below S a -> below S b -> below S (f a b)) -> cb S (zip_inplace f x y).
Proof.
  intros S f x y H Hy Hf. revert y Hy. induction H as [|a x H1 H2 IH]; intros y Hy; cbn [zip_inplace]; [constructor|].
  destruct Hy; constructor; auto. apply IH; auto.
Qed.
Hint Resolve b_triv b_triv0 b_add b_add_half b_opp b_sub b_mul_const c_triv b_nth b_last c_app c_firstn c_skipn c_opp c_shift c_one
  below_mono cb_mono mono_all : rch.
Hint Extern 1 (mono _) => exact (mono_all _ cb_mono) : rch.

(** lift what is known to the longer list *)
Ltac lift n :=
  repeat match goal with
  | H : below ?S ?x |- context [n ++ ?S] => apply (below_mono n S x) in H
  | H : cb ?S ?x |- context [n ++ ?S] => apply (cb_mono n S x) in H
  | H : Forall (cb ?S) ?x |- context [n ++ ?S] => apply (mono_all cb cb_mono n S x) in H
  end.
(** *** bootstraps *)
Lemma g_lut_half : forall S a h, below S a -> grows S (eval_LUT_5_half a h) below.
Proof.
  intros S [a|p] h H; unfold eval_LUT_5_half.
  - unfold grows. cbn. exists [TLut (gen_no_padding_acc N h) a]. split; [cbn; lia|]. cbn.
    intros u [<-|I]; [left; reflexivity|right; apply H, I].
  - eapply g_bind; [apply g_any|]. intros n z _. apply g_ret. destruct (Z.land (sat_i32 z) 1 =? 1); exact I.
Qed.
Lemma g_lut : forall S a l, below S a -> grows S (eval_LUT_5_uint a l) below.
Proof. intros. apply g_lut_half; auto. Qed.
Lemma g_nonneg : forall S a, below S a -> grows S (nonneg_pi_5 a) below.
Proof. intros S a H. eapply g_bind; [apply g_lut_half, H|]. intros n b Hb. apply g_ret, b_add_half; auto. Qed.
Lemma g_squ_3 : forall S a i, below S a -> grows S (squ_3_bit_pi_5 a i) below.
Proof. intros S a i H. do 6 (destruct i as [|i]; [try (apply g_lut; exact H); apply g_ret, b_triv|]). apply g_panic. Qed.

(** *** addition *)
Lemma g_add_sub : forall S b x y r, cb S x -> cb S y -> grows S (add_sub_impl b x y r) cb.
Proof.
  intros S b x y r Hx Hy. unfold add_sub_impl.
  destruct (count_triv_zeros x =? length x)%nat; [apply g_ret; destruct b; auto with rch|].
  destruct (count_triv_zeros y =? length y)%nat; [apply g_ret; auto|].
  apply g_measure.
  set (rt := Nat.max (count_triv_zeros x) (count_triv_zeros y)).
  set (wlen := Nat.max (length x - _) _).
  assert (HW : cb S (zip_inplace (if b then w_add else w_sub) (firstn wlen x ++ ct_triv (wlen - length x)) y)).
  { apply c_zip; auto with rch. intros. destruct b; auto with rch. }
  set (w := zip_inplace _ _ y) in *. clearbody w.
  destruct (wlen <=? rt)%nat; [apply g_err|].
  eapply g_bind with (Q := cb).
  { apply (g_mapM_same (fun S => cb S w) below); auto with rch.
    intros S' i H. apply g_lut. destruct (0 <? i)%nat; auto with rch. }
  intros n q Hq. lift n.
  assert (HQ : cb (n ++ S) (ct_triv rt ++ q)) by (apply c_app; auto with rch).
  set (q1 := ct_triv rt ++ q) in *. clearbody q1. clear Hq.
  set (u := map _ (seq 0 wlen)).
  assert (HF : cb (n ++ S) u) by (apply c_map; intros i; destruct (0 <? i)%nat; auto with rch).
  clearbody u. set (S1 := n ++ S) in *. clearbody S1. clear Hx Hy HW.
  eapply g_bind with (Q := cb).
  { destruct r; [|apply g_ret; auto with rch].
    apply (g_mapM below below); auto with rch; [exact (c_skipn S1 rt u HF)|]. intros. apply g_lut; auto. }
  intros n1 z Hz. lift n1. apply g_ret. repeat apply c_app; auto with rch.
Qed.
Lemma g_add : forall S x y, cb S x -> cb S y -> grows S (pa_add x y) cb.
Proof. intros. apply g_analysed, g_add_sub; auto. Qed.
Lemma g_sub : forall S x y, cb S x -> cb S y -> grows S (pa_sub x y) cb.
Proof. intros. apply g_analysed, g_add_sub; auto. Qed.
Lemma g_add_noisy : forall S x y, cb S x -> cb S y -> grows S (pa_add_noisy x y) cb.
Proof. intros. apply g_analysed, g_add_sub; auto. Qed.
Lemma g_sub_noisy : forall S x y, cb S x -> cb S y -> grows S (pa_sub_noisy x y) cb.
Proof. intros. apply g_analysed, g_add_sub; auto. Qed.
Lemma g_add_const_impl : forall S pc x k, cb S x -> grows S (add_const_impl pc x k) cb.
Proof.
  intros S pc x k Hx. unfold add_const_impl.
  destruct (k =? 0); [apply g_ret; auto|].
  eapply g_bind; [apply g_any|]. intros n ka _. lift n.
  eapply g_bind with (Q := cb); [|intros n' c Hc; lift n'; apply g_add; auto].
  apply (g_mapM_same (fun _ => True) below); auto with rch. intros S' i _.
  eapply g_bind; [apply g_any|]. intros n1 ki _. apply g_ret. exact I.
Qed.
Lemma g_add_const : forall S pc x k, cb S x -> grows S (pa_add_const pc x k) cb.
Proof. intros. apply g_analysed, g_add_const_impl; auto. Qed.

(** *** signum *)
Lemma g_first_group : forall S pc x j, cb S x -> grows S (sgn_first_group pc x j) below.
Proof.
  intros S pc x j Hx. unfold sgn_first_group.
  eapply g_bind with (Q := below).
  - destruct (_ <? _)%nat; [|apply g_ret; exact I]. eapply g_bind with (Q := below).
    + destruct (85 <=? _); [apply g_ret|apply g_lut]; auto with rch.
    + intros n s Hs. apply g_ret, b_add; auto with rch.
  - intros n b Hb. lift n. apply g_ret. cbn [fold_left Nat.eqb]. repeat
      match goal with |- context [(?a <? ?l)%nat] => destruct (a <? l)%nat end; auto 10 with rch.
Qed.
Lemma b_fold_add : forall S l a, cb S l -> below S a -> below S (fold_left w_add l a).
Proof. intros S l a H. revert a. induction H; intros; cbn [fold_left]; auto with rch. Qed.
Lemma g_next_group : forall S x j, cb S x -> grows S (sgn_next_group x j) below.
Proof.
  intros S x j Hx. unfold sgn_next_group.
  eapply g_bind.
  - apply (g_mapM_same (fun S => cb S x) below); auto with rch.
    intros S' i H. destruct (_ <? _)%nat; [|apply g_ret; exact I]. apply g_lut; auto with rch.
  - intros n s Hs. apply g_ret, b_fold_add; auto with rch.
Qed.
Lemma g_sgn_rec : forall fuel S pc x b, cb S x -> grows S (sgn_recursion_fuel fuel pc x b) cb.
Proof.
  induction fuel as [|fuel IH]; intros S pc x b Hx; cbn [sgn_recursion_fuel]; [apply g_panic|].
  destruct (_ =? 0)%nat; [apply g_ret, c_triv|].
  destruct (_ =? 1)%nat; [apply g_ret; auto|]. apply g_measure. eapply g_bind.
  - apply (g_mapM_same (fun S => cb S x) below); auto with rch.
    intros S' j H. destruct b; [apply g_first_group|apply g_next_group]; auto.
  - intros n g Hg. apply IH; auto.
Qed.
Lemma g_sgn_raw : forall S pc x b, cb S x -> grows S (sgn_recursion_raw pc x b) cb.
Proof. intros. apply g_sgn_rec; auto. Qed.
Lemma g_sgn_impl : forall S pc x, cb S x -> grows S (sgn_impl pc x) cb.
Proof.
  intros S pc x Hx. unfold sgn_impl.
  destruct (_ =? 0)%nat; [apply g_ret; constructor|]. destruct (_ =? 1)%nat; [apply g_ret; auto|].
  eapply g_bind with (Q := below).
  - apply g_measure. eapply g_bind; [apply g_sgn_raw, Hx|]. intros n s Hs.
    eapply g_bind; [apply g_index_w, Hs|]. intros n' s0 H0. apply g_lut; exact H0.
  - intros n s Hs. apply g_ret, c_one; auto.
Qed.
Lemma g_sgn : forall S pc x, cb S x -> grows S (pa_sgn pc x) cb.
Proof. intros. apply g_analysed, g_sgn_impl; auto. Qed.

(** *** maximum *)
Definition pb (S : list term) (p : word B * word B) : Prop := below S (fst p) /\ below S (snd p).
Lemma pb_mono : mono pb.
Proof. intros n S [a b] [H1 H2]. split; apply below_mono; auto. Qed.
Lemma pb_combine : forall S x y, cb S x -> cb S y -> Forall (pb S) (combine x y).
Proof.
  intros S x y H. revert y. induction H as [|a x Ha Hx IH]; intros y Hy; cbn; [constructor|]. destruct Hy; constructor; auto.
  - split; auto.
Qed.
Lemma g_max_word : forall S pc t a b, below S t -> pb S (a, b) -> grows S (max_word pc t (a, b)) below.
Proof.
  intros S pc t a b Ht [Ha Hb]. cbn [fst snd] in *. unfold max_word. eapply g_bind with (Q := below).
  - destruct (41 <=? _); [apply g_ret|apply g_lut]; auto with rch.
  - intros n u Hu. lift n. apply g_lut; auto with rch.
Qed.
Lemma g_max_impl : forall S pc x y, cb S x -> cb S y -> grows S (max_impl pc x y) cb.
Proof.
  intros S pc x y Hx Hy. apply g_measure.
  eapply g_bind; [apply (g_sub S x y Hx Hy)|]. intros n r Hr. lift n.
  eapply g_bind; [apply g_sgn_raw, Hr|]. intros n1 s Hs. lift n1.
  eapply g_bind; [apply g_index_w, Hs|]. intros n2 s0 H0. lift n2.
  eapply g_bind; [apply g_nonneg, H0|]. intros n3 t Ht. lift n3.
  apply (g_mapM (fun S p => below S t /\ pb S p) below); auto with rch.
  - intros m S' p [H1 H2]. split; [apply below_mono|apply pb_mono]; auto.
  - eapply Forall_impl; [|apply pb_combine; apply c_app; eauto with rch]. auto.
  - intros S' [a b] [H1 H2]. apply g_max_word; auto.
Qed.
Lemma g_max : forall S pc x y, cb S x -> cb S y -> grows S (pa_max pc x y) cb.
Proof. intros. apply g_analysed, g_max_impl; auto. Qed.
Lemma g_relu : forall S pc x, cb S x -> grows S (pa_relu pc x) cb.
Proof. intros. apply g_analysed, g_max_impl; auto. constructor. Qed.

(** *** multiplication *)
Lemma g_mul_lwe : forall S a b, below S a -> below S b -> grows S (mul_lwe a b) below.
Proof.
  intros S a b Ha Hb. unfold mul_lwe.
  destruct (is_triv a); [eapply g_bind; [apply g_any|]; intros n m _; lift n; apply g_ret; auto with rch|].
  destruct (is_triv b); [eapply g_bind; [apply g_any|]; intros n m _; lift n; apply g_ret; auto with rch|].
  apply g_lut; auto with rch.
Qed.
Lemma g_fill : forall S x y, cb S x -> cb S y -> grows S (fill_mulary x y) (fun S => Forall (cb S)).
Proof.
  intros S x y Hx Hy. unfold fill_mulary. destruct (negb _); [apply g_panic|].
  apply (g_mapM (fun S p => cb S x /\ below S (snd p)) cb); auto with rch.
  - intros n S' p [H1 H2]. split; [apply cb_mono|apply below_mono]; auto.
  - generalize (length x). intros l. generalize (seq 0 l). clear l. intros q. revert q.
    induction Hy as [|b y Hb Hy IH]; intros [|j q]; cbn; constructor; auto.
  - intros S' [j b] [H1 H2]. cbn [snd] in H2. eapply g_bind with (Q := cb).
    + apply (g_mapM (fun S a => below S b /\ below S a) below); auto with rch.
      * intros n S2 p [K1 K2]. split; apply below_mono; auto.
      * eapply Forall_impl; [|exact H1]. auto.
      * intros S2 a [K1 K2]. apply g_expect, g_mul_lwe; auto.
    + intros n r Hr. apply g_ret. auto with rch.
Qed.
Lemma g_reduce : forall S m, Forall (cb S) m -> grows S (reduce_mulsquary m) cb.
Proof.
  intros S m H. unfold reduce_mulsquary.
  eapply g_bind; [apply g_index_c, H|]. intros n m0 H0. lift n.
  eapply g_bind; [apply g_index_c, H|]. intros n1 m1 H1. lift n1.
  eapply g_bind; [apply g_add; [exact H0|exact H1]|]. intros n2 a Ha. lift n2.
  apply (g_foldM cb cb); auto with rch.
  - rewrite <- (firstn_skipn 2 m) in H. apply Forall_app in H. apply H.
  - intros. apply g_add; auto.
Qed.
Lemma g_mul_impl : forall rec, (forall S x y, cb S x -> cb S y -> grows S (rec x y) cb) ->
  forall S x y, cb S x -> cb S y -> grows S (mul_impl rec x y) cb.
Proof.
  intros rec IH S x y Hx Hy. unfold mul_impl.
  assert (HXa : cb S (x ++ ct_triv (length y - length x))) by auto with rch.
  assert (HY : cb S (y ++ ct_triv (length x - length y))) by auto with rch.
  set (x1 := x ++ _) in *. set (y1 := y ++ _) in *. clearbody x1 y1. clear Hx Hy.
  destruct (_ =? 0)%nat; [apply g_ret; constructor|].
  destruct (_ =? 1)%nat.
  { unfold mul_1word. eapply g_bind; [apply g_measure, g_fill; eauto|]. intros n m Hm. apply g_index_c; auto. }
  destruct (_ || _)%bool.
  { apply g_measure. eapply g_bind; [apply g_fill; eauto|]. intros n m Hm. apply g_reduce; auto. }
  destruct (_ <=? 32)%nat; [|apply g_err].
  unfold mul_karatsuba. destruct (negb _); [apply g_panic|]. set (k := ((length x1 + 1) / 2)%nat). clearbody k.
  apply g_measure.
  eapply g_bind; [apply IH; apply c_skipn; eauto|]. intros n a Ha. lift n.
  eapply g_bind; [apply IH; apply c_firstn; eauto|]. intros n1 b Hb. lift n1.
  eapply g_bind; [apply g_add; eauto|]. intros n2 s Hs. lift n2.
  eapply g_bind; [apply g_add; eauto with rch|]. intros n3 u Hu. lift n3.
  eapply g_bind; [apply g_add; eauto with rch|]. intros n4 v Hv. lift n4.
  eapply g_bind; [apply IH; eauto|]. intros n5 c Hc. lift n5.
  eapply g_bind.
  { apply g_add; apply c_app; eauto with rch. apply (c_opp _ s); auto. }
  intros n6 d Hd. lift n6. destruct (_ =? 2 * k)%nat.
  - apply g_add; auto with rch.
  - eapply g_bind; [apply g_add; eauto|]. intros n7 e He. lift n7. apply g_add; auto with rch.
Qed.
Lemma g_mul_fuel : forall fuel S x y, cb S x -> cb S y -> grows S (mul_fuel fuel x y) cb.
Proof.
  induction fuel as [|fuel IH]; intros S x y Hx Hy; cbn [mul_fuel]; [apply g_panic|]. apply g_analysed, g_mul_impl; auto.
Qed.
Lemma g_mul : forall S x y, cb S x -> cb S y -> grows S (pa_mul x y) cb.
Proof. intros. apply g_mul_fuel; auto. Qed.

(** *** squaring *)
Lemma g_squ_impl : forall rec, (forall S x, cb S x -> grows S (rec x) cb) -> forall S x, cb S x -> grows S (squ_impl rec x) cb.
Proof.
  intros rec IH S x Hx. unfold squ_impl.
  destruct (_ =? 0)%nat; [apply g_ret; constructor|].
  destruct (_ =? 1)%nat.
  { eapply g_bind with (Q := below).
    - apply g_measure. eapply g_bind; [apply g_index_w, Hx|]. intros n a Ha. apply g_lut; exact Ha.
    - intros n a Ha. apply g_ret. apply c_one; auto. }
  destruct (_ <=? 3)%nat.
  { unfold squ_2_3word. destruct (negb _); [apply g_panic|].
    eapply g_bind with (Q := cb).
    - apply g_measure. apply (g_mapM_same (fun S => cb S x) below); auto with rch.
      intros S' i H. apply g_squ_3. destruct (_ =? 2)%nat; auto 10 with rch.
    - intros n r Hr. eapply g_bind; [apply g_index_w, Hr|]. intros n1 a Ha. lift n1. apply g_ret.
      apply Forall_cons; auto. apply Forall_cons; [exact I|]. apply (c_skipn _ 1 r); auto. }
  destruct (_ <=? 32)%nat; [|apply g_err].
  unfold squ_dnq. set (k := ((length x + 1) / 2)%nat). clearbody k.
  apply g_measure.
  eapply g_bind; [apply IH; apply c_skipn; eauto|]. intros n a Ha. lift n.
  eapply g_bind; [apply IH; apply c_firstn; eauto|]. intros n1 b Hb. lift n1.
  eapply g_bind; [apply g_mul; eauto with rch|]. intros n2 c Hc. lift n2.
  destruct (_ =? 2 * k)%nat.
  - apply g_add; auto with rch.
  - eapply g_bind; [apply g_add; eauto with rch|]. intros n3 e He. lift n3. apply g_add; auto with rch.
Qed.
Lemma g_squ_fuel : forall fuel S x, cb S x -> grows S (squ_fuel fuel x) cb.
Proof.
  induction fuel as [|fuel IH]; intros S x Hx; cbn [squ_fuel]; [apply g_panic|]. apply g_analysed, g_squ_impl; auto.
Qed.
Lemma g_squ : forall S x, cb S x -> grows S (pa_squ x) cb.
Proof. intros. apply g_squ_fuel; auto. Qed.

(** *** rounding *)
Lemma g_round_impl : forall S pc x p, cb S x -> grows S (round_at_impl pc x p) cb.
Proof.
  intros S pc x [|p] Hx; cbn [round_at_impl]; [apply g_ret; auto|].
  destruct (_ <=? _)%nat; [apply g_ret; constructor|].
  eapply g_bind with (Q := fun S a => cb S (fst a) /\ cb S (snd a)).
  - apply g_measure. eapply g_bind; [apply g_sgn, c_firstn, Hx|]. intros n s Hs. lift n.
    eapply g_bind with (Q := below).
    + apply g_lut. destruct Hs; auto with rch.
    + intros n1 r Hr. lift n1. apply g_ret. split; cbn [fst snd].
      * apply c_shift. apply (c_skipn _ (Datatypes.S p)); auto.
      * apply (c_app _ (ct_triv (Datatypes.S p))); auto with rch.
  - intros n [a b] [H1 H2]. cbn [fst snd] in *. apply g_add; auto.
Qed.
Lemma g_round : forall S pc x p, cb S x -> grows S (pa_round_at pc x p) cb.
Proof. intros. apply g_analysed, g_round_impl; auto. Qed.

(** *** scalar multiplication *)
Lemma g_asc_eval : forall S c x, cb S x -> grows S (asc_eval_ct c x) cb.
Proof.
  intros S c x Hx. unfold asc_eval_ct, asc_eval.
  eapply g_bind with (Q := fun S vs => Forall (cb S) vs /\ cb S x).
  - apply (g_foldM (fun _ _ => True) (fun S vs => Forall (cb S) vs /\ cb S x)).
    + intros n S' a _. exact I.
    + apply Forall_forall. auto.
    + split; auto.
    + intros S' vs a [Hv Hx'] _. unfold asc_step.
      eapply g_bind; [apply g_index_c, Hv|]. intros n l Hl. lift n. rewrite !ret_bind.
      eapply g_bind; [apply g_index_c, Hv|]. intros n1 r Hr. lift n1. rewrite !ret_bind.
      eapply g_bind with (Q := cb).
      * apply g_add; [destruct (l_pos a)|destruct (r_pos a)]; auto with rch.
      * intros n2 s Hs. lift n2. apply g_ret. split; auto. apply Forall_app. auto.
  - intros n vs [Hv Hx']. apply g_ret. clear Hx. induction Hv as [|v vs H1 H2 IH]; [exact Hx'|]. destruct vs; [exact H1|exact IH].
Qed.
Definition kb (S : list term) (p : Z * ciphertext B) : Prop := cb S (snd p).
Lemma kb_mono : mono kb.
Proof. intros n S p. apply cb_mono. Qed.
Lemma g_map_get : forall S m k, Forall (kb S) m -> grows S (map_get m k) cb.
Proof.
  intros S m k H. induction H as [|[a u] m H1 H2 IH]; cbn [map_get]; [apply g_panic|]. destruct (k =? a); [apply g_ret, H1|exact IH].
Qed.
Lemma g_scalar_mul_impl : forall S pc k x, cb S x -> grows S (scalar_mul_impl pc k x) cb.
Proof.
  intros S pc k x Hx. unfold scalar_mul_impl.
  assert (HP : cb S (if 0 <=? k then x else map w_opp x)) by (destruct (0 <=? k); auto; apply c_opp; auto).
  set (xp := if 0 <=? k then x else map w_opp x) in *. clearbody xp. clear Hx.
  eapply g_bind; [apply g_any|]. intros n ka _. lift n.
  destruct (u32 ka =? 0); [apply g_ret; constructor|].
  destruct (u32 ka =? 1); [apply g_ret; exact HP|].
  eapply g_bind; [apply g_any|]. intros n1 ws _. lift n1.
  eapply g_bind with (Q := fun S => Forall (kb S)).
  { apply (g_mapM_same (fun S => cb S xp) kb); auto using kb_mono; [intros m S' H; apply cb_mono, H|].
    intros S' a H. eapply g_bind; [apply g_any|]. intros m c _. lift m.
    eapply g_bind; [apply g_expect, g_asc_eval, H|]. intros m1 u Hu. apply g_ret. exact Hu. }
  intros n2 wm Hm. lift n2.
  eapply g_bind with (Q := fun S => Forall (cb S)).
  { apply (g_mapM_same (fun S => Forall (kb S) wm) cb); auto with rch; [intros m S' H; exact (mono_all kb kb_mono m S' wm H)|].
    intros S' [wi sh] H. unfold mulary_row. eapply g_bind; [apply g_map_get, H|]. intros m u Hu. apply g_ret.
    destruct (wi <? 0); auto with rch. }
  intros n3 ma Hma. destruct (_ =? 1)%nat; [apply g_index_c; auto|].
  apply g_measure. apply (g_reduce _ ma); auto.
Qed.
Lemma g_scalar_mul : forall S pc k x, cb S x -> grows S (pa_scalar_mul pc k x) cb.
Proof. intros. apply g_analysed, g_scalar_mul_impl; auto. Qed.

(** *** programs *)
Lemma g_run : forall pc e S env, Forall (cb S) env -> grows S (run (arith_ct pc) env e) cb.
Proof.
  intros pc. induction e; intros S env H; cbn [run].
  - apply g_ret. destruct (nth_in_or_default i env (a_zero (arith_ct pc))) as [J|E]; [rewrite Forall_forall in H; exact (H _ J)|rewrite E; constructor].
  - apply g_ret. constructor.
  - eapply g_bind; [apply IHe1, H|]. intros n x Hx. lift n. apply IHe2. constructor; auto.
  - eapply g_bind; [apply IHe, H|]. intros n x Hx. apply g_ret, c_opp; auto.
  - eapply g_bind; [apply IHe, H|]. intros n x Hx. apply g_ret, c_shift; auto.
  - eapply g_bind; [apply IHe1, H|]. intros n x Hx. lift n. eapply g_bind; [apply IHe2, H|]. intros n1 y Hy. lift n1. apply g_add; auto.
  - eapply g_bind; [apply IHe1, H|]. intros n x Hx. lift n. eapply g_bind; [apply IHe2, H|]. intros n1 y Hy. lift n1. apply g_sub; auto.
  - eapply g_bind; [apply IHe, H|]. intros n x Hx. apply g_add_const; auto.
  - eapply g_bind; [apply IHe, H|]. intros n x Hx. apply g_scalar_mul; auto.
  - eapply g_bind; [apply IHe, H|]. intros n x Hx. apply g_sgn; auto.
  - eapply g_bind; [apply IHe1, H|]. intros n x Hx. lift n. eapply g_bind; [apply IHe2, H|]. intros n1 y Hy. lift n1. apply g_max; auto.
  - eapply g_bind; [apply IHe, H|]. intros n x Hx. apply g_relu; auto.
  - eapply g_bind; [apply IHe1, H|]. intros n x Hx. lift n. eapply g_bind; [apply IHe2, H|]. intros n1 y Hy. lift n1. apply g_mul; auto.
  - eapply g_bind; [apply IHe, H|]. intros n x Hx. apply g_squ; auto.
  - eapply g_bind; [apply IHe, H|]. intros n x Hx. apply g_round; auto.
Qed.
(** *** networks *)
Notation cl S := (Forall (cb S)).
Lemma g_affine : forall pc w b S xs, cl S xs -> grows S (affine_pool (arith_ct pc) w xs b) cb.
Proof.
  intros pc w b S xs H. unfold affine_pool. eapply g_bind with (Q := cb).
  - apply (g_foldM (fun S p => cb S (snd p)) cb).
    + intros n S' p. apply cb_mono.
    + revert w. induction H as [|x xs Hx Hxs IH]; intros [|k w]; cbn; constructor; auto.
    + constructor.
    + intros S' s [k x] Hs Hx. cbn [fst snd] in *. eapply g_bind; [apply g_scalar_mul, Hx|]. intros n y Hy. lift n. apply g_add; auto.
  - intros n s Hs. apply g_add_const; auto.
Qed.
Lemma g_pairs : forall pc k S xs, (length xs <= k)%nat -> cl S xs -> grows S (max_pairs (arith_ct pc) xs) (fun S => cl S).
Proof.
  intros pc. induction k as [|k IH]; intros S xs Hk H.
  - destruct H; [apply g_ret; constructor|cbn in Hk; lia].
  - destruct H as [|x xs H1 H2]; [apply g_ret; constructor|].
    destruct H2 as [|y xs H2 H3]; [apply g_ret; constructor; auto|].
    cbn [max_pairs length] in *. eapply g_bind; [apply (g_max S pc x y H1 H2)|]. intros n m Hm. lift n.
    eapply g_bind; [apply IH; [lia|exact H3]|]. intros n1 r Hr. lift n1. apply g_ret. constructor; auto.
Qed.
Lemma g_max_rec : forall pc fuel S xs, cl S xs -> grows S (max_pool_recursion (arith_ct pc) fuel xs) cb.
Proof.
  intros pc. induction fuel as [|f IH]; intros S xs H; cbn [max_pool_recursion]; [apply g_panic|].
  pose proof H as H0. destruct H as [|x xs H1 H2]; [apply g_ret; constructor|].
  destruct H2 as [|y xs H2 H3]; [apply g_ret; auto|].
  eapply g_bind; [apply (g_pairs pc (length (x :: y :: xs))); [lia|exact H0]|]. intros n h Hh. apply IH; auto.
Qed.
Lemma g_max_pool : forall pc w b S xs, cl S xs -> grows S (max_pool (arith_ct pc) w xs b) cb.
Proof.
  intros pc w b S xs H. unfold max_pool. eapply g_bind with (Q := fun S => cl S).
  - apply (g_mapM (fun S p => cb S (snd p)) cb); auto with rch.
    + intros n S' p. apply cb_mono.
    + revert w. induction H as [|x xs Hx Hxs IH]; intros [|k w]; cbn; constructor; auto.
    + intros S' [k x] Hx. apply g_scalar_mul; auto.
  - intros n s Hs. eapply g_bind; [apply g_max_rec, Hs|]. intros n1 t Ht. apply g_add_const; auto.
Qed.
Lemma g_perceptron : forall pc p S xs, cl S xs -> grows S (eval_perceptron (arith_ct pc) xs p) cb.
Proof.
  intros pc [t w b] S xs H. apply g_measure. cbn [p_t p_w p_b]. destruct t.
  - apply g_max_pool; auto.
  - apply g_affine; auto.
  - eapply g_bind; [apply g_affine, H|]. intros n y Hy. apply g_relu; auto.
Qed.
Lemma g_nn : forall pc nn S xs, cl S xs -> grows S (nn_eval (arith_ct pc) nn xs) (fun S => cl S).
Proof.
  intros pc nn S xs H. unfold nn_eval.
  eapply g_bind with (Q := fun S a => cl S (fst a) /\ cl S (snd a)).
  - apply g_measure. unfold eval_layers.
    apply (g_foldM (fun _ _ => True) (fun S a => cl S (fst a) /\ cl S (snd a))).
    + intros n S' a _. exact I.
    + apply Forall_forall. auto.
    + split; cbn [fst snd]; auto.
    + intros S' [i o] l [H1 H2] _. cbn [fst snd] in *. apply g_measure. eapply g_bind with (Q := fun S => cl S).
      * unfold eval_layer. apply (g_mapM_same (fun S => cl S i) cb); auto with rch.
        -- intros n S2 K. exact (mono_all cb cb_mono n S2 i K).
        -- intros S2 p K. apply g_perceptron; auto.
      * intros n r Hr. apply g_ret. cbn [fst snd]. auto.
  - intros n st [H1 H2]. apply g_ret; auto.
Qed.
End Reach.
