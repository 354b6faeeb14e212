(** Two runs of the same operation on two backends: relational lemmas.
    [rc] relates the ciphertexts of the two backends; if the backend operations
    preserve it then every library operation preserves it, takes the same
    control flow, ends the same way and produces the same events. *)
From Verif Require Import Base Backend Words Encryption Params Pbs Addition Signum Maximum
  Multiplication Squaring Rounding Naf Asc ScalarMul Arith NeuralNetwork Spec Expr BaseProofs.
From Coq Require Import ZifyBool ZifyNat.

Record simulation (B1 B2 : backend) (rc : ct B1 -> ct B2 -> Prop) : Prop := {
  s_add : forall a b a' b', rc a a' -> rc b b' -> rc (ct_add B1 a b) (ct_add B2 a' b');
  s_add_pt : forall a a' p, rc a a' -> rc (ct_add_pt B1 a p) (ct_add_pt B2 a' p);
  s_opp : forall a a', rc a a' -> rc (ct_opp B1 a) (ct_opp B2 a');
  s_mul : forall a a' k, rc a a' -> rc (ct_mul B1 a k) (ct_mul B2 a' k);
  s_lut : forall a a' h, rc a a' ->
    rc (ct_lut B1 (gen_no_padding_acc (poly_size B1) h) a)
       (ct_lut B2 (gen_no_padding_acc (poly_size B2) h) a')
}.

(** words: equal trivial words, or related encrypted ones *)
Definition wrel {B1 B2 : backend} (rc : ct B1 -> ct B2 -> Prop) (w : word B1) (w' : word B2) : Prop :=
  match w, w' with
  | Ct a, Ct b => rc a b
  | Triv p, Triv q => p = q
  | _, _ => False
  end.

(** a property of the events of a computation that ends normally (true) or
    not (false); [tp_boot] is what must hold for a bootstrap to happen *)
Record tpred : Type := mkTpred {
  tp_boot : Prop;
  tp : bool -> list event -> Prop;
  tp_nil : forall b, tp b [];
  tp_app : forall b t u, tp true t -> tp b u -> tp b (t ++ u);
  tp_pbs : tp_boot -> tp true [EPbs];
  tp_false : forall t, tp true t -> tp false t;
  tp_measure : forall t, tp true t -> tp true (EEnter :: t ++ [EExit]);
  tp_measure_f : forall t, tp false t -> tp false (EEnter :: t);
  tp_analysed : forall t, tp true t -> tp true (EStart :: t ++ [EFinish]);
  tp_analysed_f : forall t, tp false t -> tp false (EStart :: t)
}.

Definition is_ok {S} (o : outcome S) : bool := match o with Ok _ => true | _ => false end.

(** computations: the same end, the same events *)
Definition mrel (X : tpred) {S T} (R : S -> T -> Prop) (m : M S) (m' : M T) : Prop :=
  match fst m, fst m' with
  | Ok a, Ok b => R a b
  | Err e, Err e' => e = e'
  | Panic e, Panic e' => e = e'
  | _, _ => False
  end /\ snd m = snd m' /\ tp X (is_ok (fst m)) (snd m).


Definition silent {A} (m : M A) : Prop := snd m = [].

Section Monad.
Context (X : tpred).

Lemma mrel_ret : forall {S T} (R : S -> T -> Prop) a b, R a b -> mrel X R (ret a) (ret b).
Proof. intros S T R a b H. split; [exact H|]. split; [reflexivity|apply tp_nil]. Qed.
Lemma mrel_panic : forall {S T} (R : S -> T -> Prop) e, mrel X R (panic e) (panic e).
Proof. intros S T R e. split; [reflexivity|]. split; [reflexivity|apply tp_nil]. Qed.
Lemma mrel_err : forall {S T} (R : S -> T -> Prop) e, mrel X R (err_ e) (err_ e).
Proof. intros S T R e. split; [reflexivity|]. split; [reflexivity|apply tp_nil]. Qed.
Lemma mrel_boot : tp_boot X -> mrel X (fun _ _ : unit => True) (tell EPbs) (tell EPbs).
Proof. intros H. split; [exact I|]. split; [reflexivity|]. apply tp_pbs; auto. Qed.
Lemma mrel_bind : forall {S T S' T'} (R : S -> T -> Prop) (R' : S' -> T' -> Prop) m m' f f',
  mrel X R m m' -> (forall a b, R a b -> mrel X R' (f a) (f' b)) -> mrel X R' (bind m f) (bind m' f').
Proof.
  intros S T S' T' R R' [o t] [o' t'] f f' [H1 [H2 H3]] Hf. cbn [fst snd] in *. subst t'.
  destruct o as [a|e|e], o' as [b|e'|e']; try tauto.
  - cbn [bind]. specialize (Hf a b H1). destruct (f a) as [p u], (f' b) as [p' u'].
    destruct Hf as [F1 [F2 F3]]. cbn [fst snd] in *. split; [exact F1|]. cbn [fst snd].
    split; [congruence|]. apply tp_app; auto.
  - split; auto.
  - split; auto.
Qed.
Lemma mrel_conseq : forall {S T} (R R' : S -> T -> Prop) m m',
  mrel X R m m' -> (forall a b, R a b -> R' a b) -> mrel X R' m m'.
Proof.
  intros S T R R' [[a|e|e] t] [[b|e'|e'] t'] [H1 H2] H; cbn [fst snd] in *; try tauto; split; cbn [fst snd]; auto.
Qed.
Lemma mrel_expect : forall {S T} (R : S -> T -> Prop) m m', mrel X R m m' -> mrel X R (expect m) (expect m').
Proof. intros S T R [[a|e|e] t] [[b|e'|e'] t'] [H1 H2]; cbn [fst snd] in *; try tauto; split; auto. Qed.
Lemma mrel_measure : forall {S T} (R : S -> T -> Prop) m m', mrel X R m m' -> mrel X R (measure m) (measure m').
Proof.
  intros S T R [[a|e|e] t] [[b|e'|e'] t'] [H1 [H2 H3]]; cbn [fst snd] in *; try tauto; subst;
    (split; [cbn; auto|split; [reflexivity|]]); cbn in H3.
  - apply tp_measure; auto.
  - apply tp_measure_f; auto.
  - apply tp_measure_f; auto.
Qed.
Lemma mrel_analysed : forall {S T} (R : S -> T -> Prop) m m', mrel X R m m' -> mrel X R (analysed m) (analysed m').
Proof.
  intros S T R [[a|e|e] t] [[b|e'|e'] t'] [H1 [H2 H3]]; cbn [fst snd] in *; try tauto; subst;
    (split; [cbn; auto|split; [reflexivity|]]); cbn in H3.
  - apply tp_analysed; auto.
  - apply tp_analysed_f; auto.
  - apply tp_analysed_f; auto.
Qed.
Lemma mrel_refl : forall {S} (m : M S), silent m -> mrel X eq m m.
Proof.
  intros S [o t] H. unfold silent in H. cbn [snd] in H. subst t.
  destruct o; (split; [reflexivity|split; [reflexivity|apply tp_nil]]).
Qed.
Lemma mrel_mapM : forall {S S' T T'} (RA : S -> S' -> Prop) (R : T -> T' -> Prop) f f' l l',
  Forall2 RA l l' -> (forall a b, RA a b -> mrel X R (f a) (f' b)) ->
  mrel X (Forall2 R) (mapM f l) (mapM f' l').
Proof.
  intros S S' T T' RA R f f' l l' HL Hf. induction HL as [|a b l l' H1 H2 IH]; cbn [mapM].
  - apply mrel_ret. constructor.
  - eapply mrel_bind; [apply Hf, H1|]. intros u v Huv. eapply mrel_bind; [exact IH|].
    intros us vs Hs. apply mrel_ret. constructor; auto.
Qed.
Lemma Forall2_eq_refl : forall {S} (l : list S), Forall2 eq l l.
Proof. induction l; constructor; auto. Qed.
Lemma mrel_mapM_same : forall {S T T'} (R : T -> T' -> Prop) f f' (l : list S),
  (forall a, mrel X R (f a) (f' a)) -> mrel X (Forall2 R) (mapM f l) (mapM f' l).
Proof.
  intros S T T' R f f' l Hf. eapply mrel_mapM; [apply Forall2_eq_refl|]. intros a b ->. auto.
Qed.
Lemma mrel_foldM : forall {A A' S S'} (RA : A -> A' -> Prop) (R : S -> S' -> Prop) f f' l l' s s',
  Forall2 RA l l' -> R s s' -> (forall s s' a a', R s s' -> RA a a' -> mrel X R (f s a) (f' s' a')) ->
  mrel X R (foldM f l s) (foldM f' l' s').
Proof.
  intros A A' S S' RA R f f' l l' s s' HL Hs Hf. revert s s' Hs.
  induction HL as [|a b l l' H1 H2 IH]; intros s s' Hs; cbn [foldM].
  - apply mrel_ret; auto.
  - eapply mrel_bind; [apply Hf; eauto|]. auto.
Qed.
Lemma mrel_index : forall {A A'} (R : A -> A' -> Prop) l l' i, Forall2 R l l' ->
  mrel X R (index l i) (index l' i).
Proof.
  intros A A' R l l' i H. unfold index. revert i.
  induction H as [|a b l l' H1 H2 IH]; intros [|i]; cbn [nth_error]; try apply mrel_panic.
  - apply mrel_ret; auto.
  - apply IH.
Qed.
End Monad.

(** ** Lists *)
Section Lists.
Context {A A' : Type} (R : A -> A' -> Prop).
Lemma F2_length : forall l l', Forall2 R l l' -> length l = length l'.
Proof. induction 1; cbn; auto. Qed.
Lemma F2_nth : forall l l' i d d', Forall2 R l l' -> R d d' -> R (nth i l d) (nth i l' d').
Proof. intros l l' i d d' H Hd. revert i. induction H; intros [|i]; cbn; auto. Qed.
Lemma F2_firstn : forall n l l', Forall2 R l l' -> Forall2 R (firstn n l) (firstn n l').
Proof. induction n; intros l l' H; cbn; [constructor|]. destruct H; constructor; auto. Qed.
Lemma F2_skipn : forall n l l', Forall2 R l l' -> Forall2 R (skipn n l) (skipn n l').
Proof. induction n; intros l l' H; cbn; [auto|]. destruct H; [constructor|auto]. Qed.
Lemma F2_rev : forall l l', Forall2 R l l' -> Forall2 R (rev l) (rev l').
Proof. induction 1; cbn; [constructor|]. apply Forall2_app; auto. Qed.
Lemma F2_last : forall l l' d d', Forall2 R l l' -> R d d' -> R (last l d) (last l' d').
Proof.
  intros l l' d d' H Hd. induction H as [|a b l l' H1 H2 IH]; cbn; auto.
  destruct H2; auto.
Qed.
Lemma F2_repeat : forall n a a', R a a' -> Forall2 R (repeat a n) (repeat a' n).
Proof. induction n; intros; cbn; constructor; auto. Qed.
Lemma F2_combine_seq : forall l l' s, Forall2 R l l' ->
  Forall2 (fun p q => fst p = fst q /\ R (snd p) (snd q)) (combine (seq s (length l)) l) (combine (seq s (length l')) l').
Proof. intros l l' s H. revert s. induction H; intros s; cbn; constructor; auto. Qed.
End Lists.
Lemma F2_map : forall {A A' C C'} (R : A -> A' -> Prop) (R' : C -> C' -> Prop) f f' l l',
  Forall2 R l l' -> (forall a b, R a b -> R' (f a) (f' b)) -> Forall2 R' (map f l) (map f' l').
Proof. intros. induction H; cbn; constructor; auto. Qed.
Lemma F2_map_same : forall {A C C'} (R' : C -> C' -> Prop) f f' (l : list A),
  (forall a, R' (f a) (f' a)) -> Forall2 R' (map f l) (map f' l).
Proof. intros. induction l; cbn; constructor; auto. Qed.
Lemma F2_combine : forall {A A' C C'} (R : A -> A' -> Prop) (R' : C -> C' -> Prop) l l' r r',
  Forall2 R l l' -> Forall2 R' r r' ->
  Forall2 (fun p q => R (fst p) (fst q) /\ R' (snd p) (snd q)) (combine l r) (combine l' r').
Proof.
  intros A A' C C' R R' l l' r r' H Hr. revert r r' Hr. induction H as [|a a' l l' H1 H2 IH]; intros r r' Hr; cbn; [constructor|].
  destruct Hr; constructor; auto.
Qed.

Lemma silent_ret : forall {A} (a : A), silent (ret a).
Proof. reflexivity. Qed.
Lemma silent_panic : forall {A} e, @silent A (panic e).
Proof. reflexivity. Qed.
Lemma silent_err : forall {A} e, @silent A (err_ e).
Proof. reflexivity. Qed.
Lemma silent_bind : forall {A C} (m : M A) (f : A -> M C), silent m -> (forall a, silent (f a)) -> silent (bind m f).
Proof.
  intros A C [[a|e|e] t] f H Hf; unfold silent in *; cbn [bind snd] in *; auto.
  specialize (Hf a). destruct (f a). cbn [snd] in *. subst. reflexivity.
Qed.
Lemma silent_expect : forall {A} (m : M A), silent m -> silent (expect m).
Proof. intros A [[a|e|e] t] H; exact H. Qed.
Lemma silent_foldM : forall {A S} (f : S -> A -> M S) l s, (forall s a, silent (f s a)) -> silent (foldM f l s).
Proof. intros A S f l. induction l; intros s Hf; cbn [foldM]; [reflexivity|]. apply silent_bind; auto. Qed.
Lemma silent_upd : forall {A} (l : list A) i a, silent (upd l i a).
Proof. intros. unfold upd. destruct (_ <? _)%nat; reflexivity. Qed.
Lemma silent_chk : forall o z, silent (chk_i64 o z) /\ silent (chk_i32 o z) /\ silent (chk_u32 o z).
Proof.
  intros o z. unfold chk_i64, chk_i32, chk_u32.
  destruct (in_i64 z), (in_i32 z), (in_u32 z), o; repeat split; reflexivity.
Qed.
Lemma silent_shift : forall o w k, silent (shift_amount o w k).
Proof. intros. unfold shift_amount. destruct (_ <? _); [|destruct o]; reflexivity. Qed.

Section Rel.
Context {B1 B2 : backend} {rc : ct B1 -> ct B2 -> Prop} (Sm : simulation B1 B2 rc).
Notation wr := (wrel rc).
Notation cr := (Forall2 wr).
(** there is something to bootstrap *)
Context {X : tpred} (HX : (exists (a : ct B1) (a' : ct B2), rc a a') -> tp_boot X).
Notation mr := (mrel X).

(** *** words *)
Lemma wr_triv : forall p, wr (Triv p) (Triv p).
Proof. reflexivity. Qed.
Lemma wr_triv0 : wr triv0 triv0.
Proof. reflexivity. Qed.
Lemma wr_add : forall a a' b b', wr a a' -> wr b b' -> wr (w_add a b) (w_add a' b').
Proof.
  intros [a|p] [a'|p'] [b|q] [b'|q'] H1 H2; cbn in *; try tauto; subst; auto.
  - apply (s_add _ _ _ Sm); auto.
  - apply (s_add_pt _ _ _ Sm); auto.
  - apply (s_add_pt _ _ _ Sm); auto.
Qed.
Lemma wr_add_half : forall a a', wr a a' -> wr (w_add_half a) (w_add_half a').
Proof. intros [a|p] [a'|p'] H; cbn in *; try tauto; subst; auto. apply (s_add_pt _ _ _ Sm); auto. Qed.
Lemma wr_opp : forall a a', wr a a' -> wr (w_opp a) (w_opp a').
Proof. intros [a|p] [a'|p'] H; cbn in *; try tauto; subst; auto. apply (s_opp _ _ _ Sm); auto. Qed.
Lemma wr_sub : forall a a' b b', wr a a' -> wr b b' -> wr (w_sub a b) (w_sub a' b').
Proof. intros. apply wr_add; auto. apply wr_opp; auto. Qed.
Lemma wr_mul_const : forall a a' k, wr a a' -> wr (w_mul_const a k) (w_mul_const a' k).
Proof.
  intros a a' k H. unfold w_mul_const.
  assert (E : wr (match a with Ct cs => Ct (ct_mul B1 cs (u64 (Z.abs k))) | Triv ps => Triv (u64 (ps * u64 (Z.abs k))) end)
              (match a' with Ct cs => Ct (ct_mul B2 cs (u64 (Z.abs k))) | Triv ps => Triv (u64 (ps * u64 (Z.abs k))) end)).
  { destruct a as [a|p], a' as [a'|p']; cbn in *; try tauto; subst; auto. apply (s_mul _ _ _ Sm); auto. }
  destruct (k <? 0); [apply wr_opp|]; auto.
Qed.
Lemma wr_is_triv : forall a a', wr a a' -> is_triv a = is_triv a'.
Proof. intros [a|p] [a'|p'] H; cbn in *; tauto. Qed.
Lemma wr_is_triv_zero : forall a a', wr a a' -> is_triv_zero a = is_triv_zero a'.
Proof. intros [a|p] [a'|p'] H; cbn in *; try tauto. subst; auto. Qed.
Lemma cr_triv : forall n, cr (ct_triv n) (ct_triv n).
Proof. intros. apply F2_repeat, wr_triv0. Qed.
Lemma wr_nth : forall i x x', cr x x' -> wr (nth i x triv0) (nth i x' triv0).
Proof. intros. apply F2_nth; auto using wr_triv0. Qed.

(** *** bootstraps *)
Lemma mr_lut_half : forall a a' h, wr a a' -> mr wr (eval_LUT_5_half a h) (eval_LUT_5_half a' h).
Proof.
  intros [a|p] [a'|p'] h H; cbn in H; try tauto; unfold eval_LUT_5_half.
  - eapply mrel_bind; [apply mrel_boot; eauto|]. intros _ _ _. apply mrel_ret. cbn.
    apply (s_lut _ _ _ Sm); auto.
  - subst p'. eapply mrel_bind with (R := eq).
    + apply mrel_refl. destruct (pt_to_mu MSG_MOD p <? 16); [reflexivity|].
      destruct (pt_to_mu MSG_MOD p <? 32); reflexivity.
    + intros z ? <-. apply mrel_ret. destruct (Z.land (sat_i32 z) 1 =? 1); [apply wr_add_half|]; apply wr_triv.
Qed.
Lemma mr_lut : forall a a' l, wr a a' -> mr wr (eval_LUT_5_uint a l) (eval_LUT_5_uint a' l).
Proof. intros. apply mr_lut_half; auto. Qed.
Lemma mr_nonneg : forall a a', wr a a' -> mr wr (nonneg_pi_5 a) (nonneg_pi_5 a').
Proof.
  intros a a' H. eapply mrel_bind; [apply mr_lut_half, H|]. intros b b' Hbb. apply mrel_ret, wr_add_half; auto.
Qed.
Lemma mr_squ_3 : forall a a' i, wr a a' -> mr wr (squ_3_bit_pi_5 a i) (squ_3_bit_pi_5 a' i).
Proof.
  intros a a' i H. do 6 (destruct i as [|i]; [try (apply mr_lut; exact H); apply mrel_ret, wr_triv|]).
  apply mrel_panic.
Qed.

(** *** addition *)
Lemma cr_count : forall x x', cr x x' -> count_triv_zeros x = count_triv_zeros x'.
Proof.
  induction 1 as [|a b x x' H1 H2 IH]; cbn; auto. rewrite (wr_is_triv_zero _ _ H1), IH. reflexivity.
Qed.
Lemma cr_opp : forall x x', cr x x' -> cr (pa_opp x) (pa_opp x').
Proof. intros x x' H. eapply F2_map; [exact H|]. apply wr_opp. Qed.
Lemma cr_shift : forall x x' k, cr x x' -> cr (pa_shift x k) (pa_shift x' k).
Proof. intros x x' [|k] H; cbn [pa_shift]; auto. apply Forall2_app; auto using cr_triv. Qed.
Lemma cr_zip : forall f f' x x' y y', cr x x' -> cr y y' ->
  (forall a a' b b', wr a a' -> wr b b' -> wr (f a b) (f' a' b')) ->
  cr (zip_inplace f x y) (zip_inplace f' x' y').
Proof.
  intros f f' x x' y y' H Hy Hf. revert y y' Hy. induction H as [|a a' x x' H1 H2 IH]; intros y y' Hy; cbn [zip_inplace]; [constructor|].
  destruct Hy; constructor; auto.
Qed.
Lemma mr_add_sub : forall b x x' y y' r, cr x x' -> cr y y' ->
  mr cr (add_sub_impl b x y r) (add_sub_impl b x' y' r).
Proof.
  intros b x x' y y' r Hx Hy. unfold add_sub_impl.
  rewrite <- (cr_count _ _ Hx), <- (cr_count _ _ Hy), <- (cr_count _ _ (F2_rev _ _ _ Hx)),
    <- (cr_count _ _ (F2_rev _ _ _ Hy)), <- (F2_length _ _ _ Hx), <- (F2_length _ _ _ Hy).
  destruct (count_triv_zeros x =? length x)%nat.
  { apply mrel_ret. destruct b; auto using cr_opp. }
  destruct (count_triv_zeros y =? length y)%nat; [apply mrel_ret; auto|].
  apply mrel_measure.
  set (rt := Nat.max (count_triv_zeros x) (count_triv_zeros y)).
  set (wlen := Nat.max (length x - _) _).
  assert (HW : cr (zip_inplace (if b then w_add else w_sub) (firstn wlen x ++ ct_triv (wlen - length x)) y)
                  (zip_inplace (if b then w_add else w_sub) (firstn wlen x' ++ ct_triv (wlen - length x)) y')).
  { apply cr_zip; auto.
    - apply Forall2_app; auto using F2_firstn, cr_triv.
    - intros. destruct b; auto using wr_add, wr_sub. }
  set (w := zip_inplace _ _ y) in *. set (w' := zip_inplace _ _ y') in *. clearbody w w'.
  destruct (wlen <=? rt)%nat; [apply mrel_err|].
  eapply mrel_bind.
  { apply mrel_mapM_same with (R := wr). intros i. apply mr_lut.
    destruct (0 <? i)%nat; auto using wr_add, wr_mul_const, wr_nth. }
  intros q q' Hq. assert (HQ : cr (ct_triv rt ++ q) (ct_triv rt ++ q')) by (apply Forall2_app; auto using cr_triv).
  set (q1 := ct_triv rt ++ q) in *. set (q2 := ct_triv rt ++ q') in *. clearbody q1 q2. clear Hq.
  set (u := map _ (seq 0 wlen)). set (u' := map _ (seq 0 wlen)).
  assert (HF : cr u u').
  { apply F2_map_same. intros i.
    destruct (0 <? i)%nat; auto using wr_add, wr_sub, wr_mul_const, wr_nth. }
  clearbody u u'.
  eapply mrel_bind with (R := cr).
  { destruct r; [|apply mrel_ret, F2_skipn; auto].
    eapply mrel_mapM; [apply F2_skipn, HF|]. intros. apply mr_lut; auto. }
  intros z z' Hz. apply mrel_ret. repeat apply Forall2_app; auto using F2_firstn.
  constructor; [apply F2_last; auto using wr_triv0|constructor].
Qed.
Lemma mr_add : forall x x' y y', cr x x' -> cr y y' -> mr cr (pa_add x y) (pa_add x' y').
Proof. intros. apply mrel_analysed, mr_add_sub; auto. Qed.
Lemma mr_sub : forall x x' y y', cr x x' -> cr y y' -> mr cr (pa_sub x y) (pa_sub x' y').
Proof. intros. apply mrel_analysed, mr_add_sub; auto. Qed.
Lemma mr_add_noisy : forall x x' y y', cr x x' -> cr y y' -> mr cr (pa_add_noisy x y) (pa_add_noisy x' y').
Proof. intros. apply mrel_analysed, mr_add_sub; auto. Qed.
Lemma mr_sub_noisy : forall x x' y y', cr x x' -> cr y y' -> mr cr (pa_sub_noisy x y) (pa_sub_noisy x' y').
Proof. intros. apply mrel_analysed, mr_add_sub; auto. Qed.
Lemma mr_add_const_impl : forall pc x x' k, cr x x' -> mr cr (add_const_impl pc x k) (add_const_impl pc x' k).
Proof.
  intros pc x x' k Hx. unfold add_const_impl.
  destruct (k =? 0); [apply mrel_ret; auto|].
  eapply mrel_bind; [apply mrel_refl, silent_chk|]. intros ka ? <-.
  eapply mrel_bind; [|intros c c' Hc; apply mr_add; [exact Hx|exact Hc]].
  apply mrel_mapM_same. intros i. eapply mrel_bind with (R := eq).
  - apply mrel_refl. destruct (Z.testbit ka (Z.of_nat i)); [|reflexivity].
    destruct (0 <=? k); [reflexivity|]. apply silent_bind; [apply silent_shift|].
    intros s. apply silent_chk.
  - intros ki ? <-. apply mrel_ret, wr_triv.
Qed.
Lemma mr_add_const : forall pc x x' k, cr x x' -> mr cr (pa_add_const pc x k) (pa_add_const pc x' k).
Proof. intros. apply mrel_analysed, mr_add_const_impl; auto. Qed.

(** *** signum *)
Lemma mr_first_group : forall pc x x' j, cr x x' -> mr wr (sgn_first_group pc x j) (sgn_first_group pc x' j).
Proof.
  intros pc x x' j Hx. unfold sgn_first_group. rewrite <- (F2_length _ _ _ Hx).
  eapply mrel_bind with (R := wr).
  - destruct (_ <? _)%nat; [|apply mrel_ret, wr_triv0]. eapply mrel_bind with (R := wr).
    + destruct (85 <=? _); [apply mrel_ret|apply mr_lut]; auto using wr_mul_const, wr_nth.
    + intros s s' Hs. apply mrel_ret, wr_add; auto using wr_triv0.
  - intros b b' Hbb. apply mrel_ret. cbn [fold_left]. repeat
      match goal with |- context [(?a <? ?l)%nat] => destruct (a <? l)%nat end;
      repeat apply wr_add; auto using wr_nth, wr_mul_const; cbn; auto using wr_nth, wr_mul_const.
Qed.
Lemma wr_fold_add : forall l l' a a', cr l l' -> wr a a' -> wr (fold_left w_add l a) (fold_left w_add l' a').
Proof. intros l l' a a' H. revert a a'. induction H; intros; cbn [fold_left]; auto using wr_add. Qed.
Lemma mr_next_group : forall x x' j, cr x x' -> mr wr (sgn_next_group x j) (sgn_next_group x' j).
Proof.
  intros x x' j Hx. unfold sgn_next_group. rewrite <- (F2_length _ _ _ Hx).
  eapply mrel_bind.
  - apply mrel_mapM_same with (R := wr). intros i. destruct (_ <? _)%nat; [|apply mrel_ret, wr_triv0].
    apply mr_lut, wr_nth; auto.
  - intros s s' Hs. apply mrel_ret, wr_fold_add; auto using wr_triv0.
Qed.
Lemma mr_sgn_rec : forall fuel pc x x' b, cr x x' ->
  mr cr (sgn_recursion_fuel fuel pc x b) (sgn_recursion_fuel fuel pc x' b).
Proof.
  induction fuel as [|fuel IH]; intros pc x x' b Hx; cbn [sgn_recursion_fuel]; [apply mrel_panic|].
  rewrite <- (F2_length _ _ _ Hx). destruct (_ =? 0)%nat; [apply mrel_ret, cr_triv|].
  destruct (_ =? 1)%nat; [apply mrel_ret; auto|]. apply mrel_measure. eapply mrel_bind.
  - apply mrel_mapM_same with (R := wr). intros j. destruct b; [apply mr_first_group|apply mr_next_group]; auto.
  - intros g g' Hg. apply IH; auto.
Qed.
Lemma mr_sgn_raw : forall pc x x' b, cr x x' -> mr cr (sgn_recursion_raw pc x b) (sgn_recursion_raw pc x' b).
Proof. intros. unfold sgn_recursion_raw. rewrite <- (F2_length _ _ _ H). apply mr_sgn_rec; auto. Qed.
Lemma mr_sgn_impl : forall pc x x', cr x x' -> mr cr (sgn_impl pc x) (sgn_impl pc x').
Proof.
  intros pc x x' Hx. unfold sgn_impl. rewrite <- (F2_length _ _ _ Hx).
  destruct (_ =? 0)%nat; [apply mrel_ret; constructor|]. destruct (_ =? 1)%nat; [apply mrel_ret; auto|].
  eapply mrel_bind.
  - apply mrel_measure. eapply mrel_bind; [apply mr_sgn_raw, Hx|]. intros s s' Hs.
    eapply mrel_bind; [apply mrel_index, Hs|]. intros s0 s0' H0. apply mr_lut; exact H0.
  - intros s s' Hs. apply mrel_ret. constructor; auto.
Qed.
Lemma mr_sgn : forall pc x x', cr x x' -> mr cr (pa_sgn pc x) (pa_sgn pc x').
Proof. intros. apply mrel_analysed, mr_sgn_impl; auto. Qed.

(** *** maximum *)
Lemma mr_max_impl : forall pc x x' y y', cr x x' -> cr y y' -> mr cr (max_impl pc x y) (max_impl pc x' y').
Proof.
  intros pc x x' y y' Hx Hy. apply mrel_measure.
  eapply mrel_bind; [apply mr_sub; eauto|]. intros r r' Hr.
  eapply mrel_bind; [apply mr_sgn_raw, Hr|]. intros s s' Hs.
  eapply mrel_bind; [apply mrel_index, Hs|]. intros s0 s0' H0.
  eapply mrel_bind; [apply mr_nonneg, H0|]. intros t t' Ht.
  rewrite <- (F2_length _ _ _ Hx), <- (F2_length _ _ _ Hy).
  eapply mrel_mapM; [apply F2_combine; apply Forall2_app; eauto using cr_triv|].
  intros [a b] [a' b'] [Ha Hbb]. cbn [fst snd] in *. unfold max_word.
  eapply mrel_bind with (R := wr).
  - destruct (41 <=? _); [apply mrel_ret|apply mr_lut]; auto using wr_mul_const.
  - intros u u' Hu. apply mr_lut. auto using wr_add, wr_mul_const.
Qed.
Lemma mr_max : forall pc x x' y y', cr x x' -> cr y y' -> mr cr (pa_max pc x y) (pa_max pc x' y').
Proof. intros. apply mrel_analysed, mr_max_impl; auto. Qed.
Lemma mr_relu : forall pc x x', cr x x' -> mr cr (pa_relu pc x) (pa_relu pc x').
Proof. intros. apply mrel_analysed, mr_max_impl; auto. constructor. Qed.

(** *** multiplication *)
Lemma mr_decrypt : forall a a', wr a a' -> is_triv a = true -> mr eq (decrypt_mi None a) (decrypt_mi None a').
Proof. intros [a|p] [a'|p'] H1 H2; cbn in *; try tauto; try discriminate. subst. apply mrel_refl. reflexivity. Qed.
Lemma mr_mul_lwe : forall a a' b b', wr a a' -> wr b b' -> mr wr (mul_lwe a b) (mul_lwe a' b').
Proof.
  intros a a' b b' Ha Hbb. unfold mul_lwe. rewrite <- (wr_is_triv _ _ Ha), <- (wr_is_triv _ _ Hbb).
  destruct (is_triv a) eqn:Ea.
  { eapply mrel_bind; [apply mr_decrypt; eauto|]. intros m ? <-. apply mrel_ret, wr_mul_const; auto. }
  destruct (is_triv b) eqn:Eb.
  { eapply mrel_bind; [apply mr_decrypt; eauto|]. intros m ? <-. apply mrel_ret, wr_mul_const; auto. }
  apply mr_lut. auto using wr_add, wr_mul_const.
Qed.
Lemma mr_fill : forall x x' y y', cr x x' -> cr y y' -> mr (Forall2 cr) (fill_mulary x y) (fill_mulary x' y').
Proof.
  intros x x' y y' Hx Hy. unfold fill_mulary. rewrite <- (F2_length _ _ _ Hx), <- (F2_length _ _ _ Hy).
  destruct (length x =? length y)%nat eqn:E; cbn [negb]; [|apply mrel_panic].
  apply Nat.eqb_eq in E. rewrite E.
  eapply mrel_mapM.
  { rewrite (F2_length _ _ _ Hy) at 2. apply F2_combine_seq, Hy. }
  intros [j b] [j' b'] [Hj Hbb]. cbn [fst snd] in *. subst j'.
  eapply mrel_bind.
  - eapply mrel_mapM; [exact Hx|]. intros a a' Ha. apply mrel_expect, mr_mul_lwe; [exact Ha|exact Hbb].
  - intros r r' Hr. apply mrel_ret. repeat apply Forall2_app; auto using cr_triv.
Qed.
Lemma mr_reduce : forall m m', Forall2 cr m m' -> mr cr (reduce_mulsquary m) (reduce_mulsquary m').
Proof.
  intros m m' H. unfold reduce_mulsquary.
  eapply mrel_bind; [apply mrel_index, H|]. intros m0 m0' H0.
  eapply mrel_bind; [apply mrel_index, H|]. intros m1 m1' H1.
  eapply mrel_bind; [apply mr_add; eauto|]. intros a a' Ha.
  eapply mrel_foldM; [apply F2_skipn, H|exact Ha|]. intros. apply mr_add; auto.
Qed.
Lemma mr_mul_impl : forall rec rec', (forall x x' y y', cr x x' -> cr y y' -> mr cr (rec x y) (rec' x' y')) ->
  forall x x' y y', cr x x' -> cr y y' -> mr cr (mul_impl rec x y) (mul_impl rec' x' y').
Proof.
  intros rec rec' IH x x' y y' Hx Hy. unfold mul_impl. rewrite <- (F2_length _ _ _ Hx), <- (F2_length _ _ _ Hy).
  assert (HXa : cr (x ++ ct_triv (length y - length x)) (x' ++ ct_triv (length y - length x)))
    by (apply Forall2_app; auto using cr_triv).
  assert (HY : cr (y ++ ct_triv (length x - length y)) (y' ++ ct_triv (length x - length y)))
    by (apply Forall2_app; auto using cr_triv).
  set (x1 := x ++ _) in *. set (x2 := x' ++ _) in *. set (y1 := y ++ _) in *. set (y2 := y' ++ _) in *.
  clearbody x1 x2 y1 y2. rewrite <- (F2_length _ _ _ HXa).
  destruct (_ =? 0)%nat; [apply mrel_ret; constructor|].
  destruct (_ =? 1)%nat.
  { unfold mul_1word. eapply mrel_bind; [apply mrel_measure, mr_fill; eauto|].
    intros m m' Hm. apply mrel_index; auto. }
  destruct (_ || _)%bool.
  { apply mrel_measure. eapply mrel_bind; [apply mr_fill; eauto|]. apply mr_reduce. }
  destruct (_ <=? 32)%nat; [|apply mrel_err].
  unfold mul_karatsuba. rewrite <- (F2_length _ _ _ HXa), <- (F2_length _ _ _ HY).
  destruct (negb _); [apply mrel_panic|]. set (n := ((length x1 + 1) / 2)%nat). clearbody n.
  apply mrel_measure.
  eapply mrel_bind; [apply IH; apply F2_skipn; eauto|]. intros a a' Ha.
  eapply mrel_bind; [apply IH; apply F2_firstn; eauto|]. intros b b' Hbb.
  eapply mrel_bind; [apply mr_add; eauto|]. intros s s' Hs.
  eapply mrel_bind; [apply mr_add; eauto using F2_firstn, F2_skipn|]. intros u u' Hu.
  eapply mrel_bind; [apply mr_add; eauto using F2_firstn, F2_skipn|]. intros v v' Hv.
  eapply mrel_bind; [apply IH; eauto|]. intros c c' Hc.
  eapply mrel_bind.
  { apply mr_add; apply Forall2_app; eauto using cr_triv. apply (cr_opp s s'); auto. }
  intros d d' Hd. rewrite <- (F2_length _ _ _ Hbb). destruct (_ =? 2 * n)%nat.
  - apply mr_add; auto. apply Forall2_app; auto.
  - eapply mrel_bind; [apply mr_add; eauto|]. intros e e' He. apply mr_add; auto using cr_shift.
Qed.
Lemma mr_mul_fuel : forall fuel x x' y y', cr x x' -> cr y y' -> mr cr (mul_fuel fuel x y) (mul_fuel fuel x' y').
Proof.
  induction fuel as [|fuel IH]; intros x x' y y' Hx Hy; cbn [mul_fuel]; [apply mrel_panic|].
  apply mrel_analysed, mr_mul_impl; auto.
Qed.
Lemma mr_mul : forall x x' y y', cr x x' -> cr y y' -> mr cr (pa_mul x y) (pa_mul x' y').
Proof.
  intros x x' y y' Hx Hy. unfold pa_mul. rewrite <- (F2_length _ _ _ Hx), <- (F2_length _ _ _ Hy).
  apply mr_mul_fuel; auto.
Qed.

(** *** squaring *)
Lemma mr_squ_impl : forall rec rec', (forall x x', cr x x' -> mr cr (rec x) (rec' x')) ->
  forall x x', cr x x' -> mr cr (squ_impl rec x) (squ_impl rec' x').
Proof.
  intros rec rec' IH x x' Hx. unfold squ_impl. rewrite <- (F2_length _ _ _ Hx).
  destruct (_ =? 0)%nat; [apply mrel_ret; constructor|].
  destruct (_ =? 1)%nat.
  { eapply mrel_bind.
    - apply mrel_measure. eapply mrel_bind; [apply mrel_index, Hx|]. intros a a' Ha. apply mr_lut; exact Ha.
    - intros a a' Ha. apply mrel_ret. constructor; auto. }
  destruct (_ <=? 3)%nat.
  { unfold squ_2_3word. rewrite <- (F2_length _ _ _ Hx). destruct (negb _); [apply mrel_panic|].
    eapply mrel_bind.
    - apply mrel_measure. apply mrel_mapM_same with (R := wr). intros i. apply mr_squ_3.
      destruct (_ =? 2)%nat; auto 10 using wr_add, wr_mul_const, wr_nth.
    - intros r r' Hr. eapply mrel_bind; [apply mrel_index, Hr|]. intros a a' Ha. apply mrel_ret.
      constructor; auto. constructor; [apply wr_triv|]. apply F2_skipn; auto. }
  destruct (_ <=? 32)%nat; [|apply mrel_err].
  unfold squ_dnq. rewrite <- (F2_length _ _ _ Hx). set (n := ((length x + 1) / 2)%nat). clearbody n.
  apply mrel_measure.
  eapply mrel_bind; [apply IH; apply F2_skipn; eauto|]. intros a a' Ha.
  eapply mrel_bind; [apply IH; apply F2_firstn; eauto|]. intros b b' Hbb.
  eapply mrel_bind; [apply mr_mul; eauto using F2_firstn, F2_skipn|]. intros c c' Hc.
  rewrite <- (F2_length _ _ _ Hbb). destruct (_ =? 2 * n)%nat.
  - apply mr_add; auto using cr_shift. apply Forall2_app; auto.
  - eapply mrel_bind; [apply mr_add; eauto using cr_shift|]. intros e e' He. apply mr_add; auto using cr_shift.
Qed.
Lemma mr_squ_fuel : forall fuel x x', cr x x' -> mr cr (squ_fuel fuel x) (squ_fuel fuel x').
Proof.
  induction fuel as [|fuel IH]; intros x x' Hx; cbn [squ_fuel]; [apply mrel_panic|].
  apply mrel_analysed, mr_squ_impl; auto.
Qed.
Lemma mr_squ : forall x x', cr x x' -> mr cr (pa_squ x) (pa_squ x').
Proof. intros x x' Hx. unfold pa_squ. rewrite <- (F2_length _ _ _ Hx). apply mr_squ_fuel; auto. Qed.

(** *** rounding *)
Lemma mr_round_impl : forall pc x x' p, cr x x' -> mr cr (round_at_impl pc x p) (round_at_impl pc x' p).
Proof.
  intros pc x x' [|p] Hx; cbn [round_at_impl]; [apply mrel_ret; auto|].
  rewrite <- (F2_length _ _ _ Hx). destruct (_ <=? _)%nat; [apply mrel_ret; constructor|].
  eapply mrel_bind with (R := fun a b => cr (fst a) (fst b) /\ cr (snd a) (snd b)).
  - apply mrel_measure. eapply mrel_bind; [apply mr_sgn, F2_firstn, Hx|]. intros s s' Hs.
    eapply mrel_bind.
    + apply mr_lut with (a := match s with [] => w_mul_const (nth p x triv0) 2
                                      | s0 :: _ => w_add (w_mul_const (nth p x triv0) 2) s0 end)
                  (a' := match s' with [] => w_mul_const (nth p x' triv0) 2
                                      | s0 :: _ => w_add (w_mul_const (nth p x' triv0) 2) s0 end).
      destruct Hs; auto using wr_add, wr_mul_const, wr_nth.
    + intros r r' Hr. apply mrel_ret. split; cbn [fst snd].
      * apply cr_shift. apply (F2_skipn _ (S p)); auto.
      * apply (Forall2_app (cr_triv (S p))). constructor; auto.
  - intros [a b] [a' b'] [H1 H2]. cbn [fst snd] in *. apply mr_add; auto.
Qed.

Lemma mr_round : forall pc x x' p, cr x x' -> mr cr (pa_round_at pc x p) (pa_round_at pc x' p).
Proof. intros. apply mrel_analysed, mr_round_impl; auto. Qed.

(** *** scalar multiplication *)
Lemma mr_asc_eval : forall c x x', cr x x' -> mr cr (asc_eval_ct c x) (asc_eval_ct c x').
Proof.
  intros c x x' Hx. unfold asc_eval_ct, asc_eval.
  eapply mrel_bind with (R := Forall2 cr).
  - eapply mrel_foldM; [apply Forall2_eq_refl|constructor; [exact Hx|constructor]|].
    intros vs vs' a ? Hvs <-. unfold asc_step.
    eapply mrel_bind; [apply mrel_index, Hvs|]. intros l l' Hl. rewrite !ret_bind.
    eapply mrel_bind; [apply mrel_index, Hvs|]. intros r r' Hr. rewrite !ret_bind.
    eapply mrel_bind.
    + apply mr_add with (x := if l_pos a then l else pa_opp l) (x' := if l_pos a then l' else pa_opp l')
        (y := if r_pos a then pa_shift r (r_shift a) else pa_opp (pa_shift r (r_shift a)))
        (y' := if r_pos a then pa_shift r' (r_shift a) else pa_opp (pa_shift r' (r_shift a))).
      * destruct (l_pos a); auto using cr_opp.
      * destruct (r_pos a); auto using cr_opp, cr_shift.
    + intros s s' Hs. apply mrel_ret. apply Forall2_app; auto.
  - intros vs vs' Hvs. apply mrel_ret. apply F2_last; auto.
Qed.
Lemma mr_scalar_mul_impl : forall pc k x x', (forall o n w, silent (wind_shifts o n w)) ->
  (forall m n, silent (asc_get m n)) ->
  cr x x' -> mr cr (scalar_mul_impl pc k x) (scalar_mul_impl pc k x').
Proof.
  intros pc k x x' Hw Hg Hx. unfold scalar_mul_impl.
  assert (HP : cr (if 0 <=? k then x else map w_opp x) (if 0 <=? k then x' else map w_opp x')).
  { destruct (0 <=? k); auto. apply cr_opp; auto. }
  eapply mrel_bind; [apply mrel_refl, silent_chk|]. intros ka ? <-.
  destruct (u32 ka =? 0); [apply mrel_ret; constructor|].
  destruct (u32 ka =? 1); [apply mrel_ret; exact HP|].
  eapply mrel_bind; [apply mrel_refl, Hw|]. intros ws ? <-.
  eapply mrel_bind with (R := Forall2 (fun a b => fst a = fst b /\ cr (snd a) (snd b))).
  { apply mrel_mapM_same. intros n. eapply mrel_bind; [apply mrel_refl, Hg|]. intros c ? <-.
    eapply mrel_bind; [apply mrel_expect, mr_asc_eval, HP|]. intros u u' Hu. apply mrel_ret; auto. }
  intros wm wm' Hm.
  eapply mrel_bind with (R := Forall2 cr).
  { apply mrel_mapM_same. intros [wi sh]. unfold mulary_row. eapply mrel_bind with (R := cr).
    - induction Hm as [|[a u] [a' u'] wm wm' H1 H2 IH]; cbn [map_get]; [apply mrel_panic|].
      destruct H1 as [H1 H3]. cbn [fst snd] in *. subst a'. destruct (Z.abs wi =? a); [apply mrel_ret; auto|exact IH].
    - intros u u' Hu. apply mrel_ret. destruct (wi <? 0); auto using cr_shift, cr_opp. }
  intros ma ma' Hma. unfold ciphertext in *. rewrite <- (F2_length _ _ _ Hma). destruct (_ =? 1)%nat; [apply mrel_index; auto|].
  apply mrel_measure. apply mr_reduce; auto.
Qed.
Lemma mr_scalar_mul : forall pc k x x', (forall o n w, silent (wind_shifts o n w)) ->
  (forall m n, silent (asc_get m n)) ->
  cr x x' -> mr cr (pa_scalar_mul pc k x) (pa_scalar_mul pc k x').
Proof. intros. apply mrel_analysed, mr_scalar_mul_impl; auto. Qed.
End Rel.

(** neither the recoding nor the table lookup bootstraps *)
Lemma silent_asc_get : forall m n, silent (asc_get m n).
Proof. induction m as [|[k c] m IH]; intros n; cbn [asc_get]; [reflexivity|]. destruct (n =? k); [reflexivity|auto]. Qed.
Lemma silent_fill : forall n j f kv, (forall j, silent (f j)) -> silent (kt_fill n j f kv).
Proof.
  induction n; intros j f kv Hf; cbn [kt_fill]; [reflexivity|]. apply silent_bind; auto. intros d.
  apply silent_bind; auto using silent_upd.
Qed.
Lemma silent_kt_step : forall o k s, silent (kt_step o k s).
Proof.
  intros o k [j m x y z u v w kv]. unfold kt_step.
  assert (F1 : forall j, silent (kt_bit k j)) by reflexivity.
  assert (F2 : forall j, silent (kt_bit_m1 o k j)).
  { intros i. apply silent_bind; [apply silent_chk|reflexivity]. }
  destruct (negb m); destruct (_ <=? _); try (destruct (_ <? _); reflexivity);
    repeat (apply silent_bind; [auto using silent_fill, silent_upd|intros ?]); reflexivity.
Qed.
Lemma silent_kt : forall o k, silent (koyama_tsuruoka_vec o k).
Proof.
  intros o k. unfold koyama_tsuruoka_vec. destruct (k =? 0); [reflexivity|]. destruct (k =? 1); [reflexivity|].
  apply silent_bind.
  { generalize (bit_len_32 k - 1)%nat (mkKt 0 false 0 0 0 0 0 0 (repeat 0 (bit_len_32 k + 1))).
    induction n; intros s; cbn [kt_loop]; [reflexivity|]. apply silent_bind; auto using silent_kt_step. }
  intros [j m x y z u v w kv]. apply silent_bind; [|reflexivity]. unfold kt_end.
  assert (F1 : forall j, silent (kt_bit k j)) by reflexivity.
  assert (F2 : forall j, silent (kt_bit_m1 o k j)).
  { intros i. apply silent_bind; [apply silent_chk|reflexivity]. }
  assert (F3 : forall j : nat, silent (ret (bit k j - Z.b2z m))) by reflexivity.
  destruct (_ || _)%bool;
    repeat (first [apply silent_upd | apply silent_bind; [auto using silent_fill, silent_upd|intros ?]]).
Qed.
Lemma silent_wind : forall o k w, silent (wind_shifts o k w).
Proof.
  intros o k w. unfold wind_shifts. apply silent_bind; [apply silent_kt|]. intros kv.
  generalize (S (length kv)) 0%nat. induction n; intros sh; cbn [wind_loop]; [reflexivity|].
  apply silent_bind.
  - apply silent_expect. unfold convert_from_vec. destruct (_ <? _)%nat; [reflexivity|].
    apply silent_foldM. intros s [i d]. unfold from_vec_step.
    repeat match goal with
    | |- silent (if ?b then _ else _) => destruct b
    | |- silent (ret _) => reflexivity
    | |- silent (err_ _) => reflexivity
    | |- silent (chk_i64 _ _) => apply silent_chk
    | |- silent (bind _ _) => apply silent_bind; [|intros ?]
    end; try reflexivity; try apply silent_chk.
  - intros wi. destruct (_ <=? _)%nat; [reflexivity|]. apply silent_bind; auto. reflexivity.
Qed.
(** ** The arithmetic interface, programs, networks *)
Record arel {T T' : Type} (X : tpred) (A : arith T) (A' : arith T') (R : T -> T' -> Prop) : Prop := {
  r_zero : R (a_zero A) (a_zero A');
  r_opp : forall x x', R x x' -> mrel X R (a_opp A x) (a_opp A' x');
  r_shift : forall x x' k, R x x' -> mrel X R (a_shift A x k) (a_shift A' x' k);
  r_add : forall x x' y y', R x x' -> R y y' -> mrel X R (a_add A x y) (a_add A' x' y');
  r_sub : forall x x' y y', R x x' -> R y y' -> mrel X R (a_sub A x y) (a_sub A' x' y');
  r_add_noisy : forall x x' y y', R x x' -> R y y' -> mrel X R (a_add_noisy A x y) (a_add_noisy A' x' y');
  r_sub_noisy : forall x x' y y', R x x' -> R y y' -> mrel X R (a_sub_noisy A x y) (a_sub_noisy A' x' y');
  r_add_const : forall x x' k, R x x' -> mrel X R (a_add_const A x k) (a_add_const A' x' k);
  r_scalar_mul : forall k x x', R x x' -> mrel X R (a_scalar_mul A k x) (a_scalar_mul A' k x');
  r_sgn : forall x x', R x x' -> mrel X R (a_sgn A x) (a_sgn A' x');
  r_max : forall x x' y y', R x x' -> R y y' -> mrel X R (a_max A x y) (a_max A' x' y');
  r_relu : forall x x', R x x' -> mrel X R (a_relu A x) (a_relu A' x');
  r_mul : forall x x' y y', R x x' -> R y y' -> mrel X R (a_mul A x y) (a_mul A' x' y');
  r_squ : forall x x', R x x' -> mrel X R (a_squ A x) (a_squ A' x');
  r_round : forall x x' k, R x x' -> mrel X R (a_round_at A x k) (a_round_at A' x' k)
}.

Lemma arel_ct : forall {B1 B2 rc} (Sm : simulation B1 B2 rc) (X : tpred) pc,
  ((exists a a', rc a a') -> tp_boot X) -> arel X (arith_ct pc) (arith_ct pc) (Forall2 (wrel rc)).
Proof.
  intros B1 B2 rc Sm X pc HX. constructor; intros; cbn.
  - constructor.
  - apply mrel_ret, cr_opp; auto.
  - apply mrel_ret, cr_shift; auto.
  - apply mr_add; auto.
  - apply mr_sub; auto.
  - apply mr_add_noisy; auto.
  - apply mr_sub_noisy; auto.
  - apply mr_add_const; auto.
  - apply mr_scalar_mul; auto using silent_wind, silent_asc_get.
  - apply mr_sgn; auto.
  - apply mr_max; auto.
  - apply mr_relu; auto.
  - apply mr_mul; auto.
  - apply mr_squ; auto.
  - apply mr_round; auto.
Qed.

Section Programs.
Context {T T' : Type} {X : tpred} {A : arith T} {A' : arith T'} {R : T -> T' -> Prop} (Ar : arel X A A' R).

Lemma run_rel : forall e env env', Forall2 R env env' -> mrel X R (run A env e) (run A' env' e).
Proof.
  induction e; intros env env' H; cbn [run].
  - apply mrel_ret. apply F2_nth; auto. apply (r_zero _ _ _ _ Ar).
  - apply mrel_ret, (r_zero _ _ _ _ Ar).
  - eapply mrel_bind; [apply IHe1, H|]. intros x x' Hx. apply IHe2. constructor; auto.
  - eapply mrel_bind; [apply IHe, H|]. intros x x' Hx. apply (r_opp _ _ _ _ Ar); auto.
  - eapply mrel_bind; [apply IHe, H|]. intros x x' Hx. apply (r_shift _ _ _ _ Ar); auto.
  - eapply mrel_bind; [apply IHe1, H|]. intros x x' Hx. eapply mrel_bind; [apply IHe2, H|]. intros y y' Hy.
    apply (r_add _ _ _ _ Ar); auto.
  - eapply mrel_bind; [apply IHe1, H|]. intros x x' Hx. eapply mrel_bind; [apply IHe2, H|]. intros y y' Hy.
    apply (r_sub _ _ _ _ Ar); auto.
  - eapply mrel_bind; [apply IHe, H|]. intros x x' Hx. apply (r_add_const _ _ _ _ Ar); auto.
  - eapply mrel_bind; [apply IHe, H|]. intros x x' Hx. apply (r_scalar_mul _ _ _ _ Ar); auto.
  - eapply mrel_bind; [apply IHe, H|]. intros x x' Hx. apply (r_sgn _ _ _ _ Ar); auto.
  - eapply mrel_bind; [apply IHe1, H|]. intros x x' Hx. eapply mrel_bind; [apply IHe2, H|]. intros y y' Hy.
    apply (r_max _ _ _ _ Ar); auto.
  - eapply mrel_bind; [apply IHe, H|]. intros x x' Hx. apply (r_relu _ _ _ _ Ar); auto.
  - eapply mrel_bind; [apply IHe1, H|]. intros x x' Hx. eapply mrel_bind; [apply IHe2, H|]. intros y y' Hy.
    apply (r_mul _ _ _ _ Ar); auto.
  - eapply mrel_bind; [apply IHe, H|]. intros x x' Hx. apply (r_squ _ _ _ _ Ar); auto.
  - eapply mrel_bind; [apply IHe, H|]. intros x x' Hx. apply (r_round _ _ _ _ Ar); auto.
Qed.

Lemma affine_rel : forall w b xs xs', Forall2 R xs xs' -> mrel X R (affine_pool A w xs b) (affine_pool A' w xs' b).
Proof.
  intros w b xs xs' H. unfold affine_pool. eapply mrel_bind with (R := R).
  - eapply mrel_foldM; [apply F2_combine; [apply Forall2_eq_refl|exact H]|apply (r_zero _ _ _ _ Ar)|].
    intros s s' [k x] [k' x'] Hs [Hk Hx]. cbn [fst snd] in *. subst k'.
    eapply mrel_bind; [apply (r_scalar_mul _ _ _ _ Ar); eauto|]. intros y y' Hy. apply (r_add _ _ _ _ Ar); auto.
  - intros s s' Hs. apply (r_add_const _ _ _ _ Ar); auto.
Qed.
Lemma pairs_rel : forall n xs xs', (length xs <= n)%nat -> Forall2 R xs xs' ->
  mrel X (Forall2 R) (max_pairs A xs) (max_pairs A' xs').
Proof.
  induction n as [|n IH]; intros xs xs' Hn H.
  - destruct H; [apply mrel_ret; constructor|cbn in Hn; lia].
  - destruct H as [|x x' xs xs' H1 H2]; [apply mrel_ret; constructor|].
    destruct H2 as [|y y' xs xs' H2 H3]; [apply mrel_ret; constructor; auto|].
    cbn [max_pairs length] in *. eapply mrel_bind; [apply (r_max _ _ _ _ Ar); eauto|]. intros m m' Hm.
    eapply mrel_bind; [apply IH; [lia|exact H3]|]. intros r r' Hr. apply mrel_ret. constructor; auto.
Qed.
Lemma max_rec_rel : forall fuel xs xs', Forall2 R xs xs' ->
  mrel X R (max_pool_recursion A fuel xs) (max_pool_recursion A' fuel xs').
Proof.
  induction fuel as [|f IH]; intros xs xs' H; cbn [max_pool_recursion]; [apply mrel_panic|].
  pose proof H as H0. destruct H as [|x x' xs xs' H1 H2]; [apply mrel_ret, (r_zero _ _ _ _ Ar)|].
  destruct H2 as [|y y' xs xs' H2 H3]; [apply mrel_ret; auto|].
  eapply mrel_bind; [apply (pairs_rel (length (x :: y :: xs))); [lia|exact H0]|]. intros h h' Hh. apply IH; auto.
Qed.
Lemma max_pool_rel : forall w b xs xs', Forall2 R xs xs' -> mrel X R (max_pool A w xs b) (max_pool A' w xs' b).
Proof.
  intros w b xs xs' H. unfold max_pool. eapply mrel_bind with (R := Forall2 R).
  - eapply mrel_mapM; [apply F2_combine; [apply Forall2_eq_refl|exact H]|].
    intros [k x] [k' x'] [Hk Hx]. cbn [fst snd] in *. subst k'. apply (r_scalar_mul _ _ _ _ Ar); auto.
  - intros s s' Hs. rewrite <- (F2_length _ _ _ Hs). eapply mrel_bind; [apply max_rec_rel, Hs|].
    intros t t' Ht. apply (r_add_const _ _ _ _ Ar); auto.
Qed.
Lemma perceptron_rel : forall p xs xs', Forall2 R xs xs' ->
  mrel X R (eval_perceptron A xs p) (eval_perceptron A' xs' p).
Proof.
  intros [t w b] xs xs' H. apply mrel_measure. cbn [p_t p_w p_b]. destruct t.
  - apply max_pool_rel; auto.
  - apply affine_rel; auto.
  - eapply mrel_bind; [apply affine_rel, H|]. intros y y' Hy. apply (r_relu _ _ _ _ Ar); auto.
Qed.
Lemma nn_rel : forall nn xs xs', Forall2 R xs xs' -> mrel X (Forall2 R) (nn_eval A nn xs) (nn_eval A' nn xs').
Proof.
  intros nn xs xs' H. unfold nn_eval.
  eapply mrel_bind with (R := fun a b => Forall2 R (fst a) (fst b) /\ Forall2 R (snd a) (snd b)).
  - apply mrel_measure. unfold eval_layers.
    eapply mrel_foldM; [apply Forall2_eq_refl|split; cbn [fst snd]; [exact H|constructor]|].
    intros [i o] [i' o'] l ? [H1 H2] <-. cbn [fst snd] in *. apply mrel_measure.
    eapply mrel_bind.
    + unfold eval_layer. apply mrel_mapM_same with (R := R). intros p. apply perceptron_rel; auto.
    + intros r r' Hr. apply mrel_ret. auto.
  - intros st st' [H1 H2]. apply mrel_ret; auto.
Qed.
End Programs.

(** bootstraps only if allowed *)
Definition tp_only (P : Prop) : tpred.
Proof.
  refine (mkTpred P (fun _ t => In EPbs t -> P) _ _ _ _ _ _ _ _).
  - intros _ [].
  - intros _ t u H1 H2 H. apply in_app_or in H. tauto.
  - auto.
  - auto.
  - intros t H [E|I]; [discriminate|]. apply in_app_or in I. destruct I as [I|[E|[]]]; [auto|discriminate].
  - intros t H [E|I]; [discriminate|auto].
  - intros t H [E|I]; [discriminate|]. apply in_app_or in I. destruct I as [I|[E|[]]]; [auto|discriminate].
  - intros t H [E|I]; [discriminate|auto].
Defined.
