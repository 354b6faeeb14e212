(** Lemmas about the monad and machine integers *)
From Verif Require Import Base.
From Coq Require Import ZifyBool.

Global Arguments Z.mul : simpl never.
Global Arguments Z.add : simpl never.
Global Arguments Z.sub : simpl never.
Global Arguments Z.opp : simpl never.
Global Arguments Z.pow : simpl never.
Global Arguments Z.of_nat : simpl never.
Global Arguments Z.div : simpl never.
Global Arguments Z.modulo : simpl never.
Global Arguments Z.abs : simpl never.

(** Total correctness: returns a value satisfying P *)
Definition okP {A} (m : M A) (P : A -> Prop) : Prop :=
  exists a, fst m = Ok a /\ P a.

(** Partial correctness *)
Definition safeP {A} (m : M A) (P : A -> Prop) : Prop :=
  forall a, fst m = Ok a -> P a.

Lemma fst_bind : forall A B (m : M A) (f : A -> M B),
  fst (bind m f) = match fst m with
                   | Ok a => fst (f a)
                   | Err e => Err e
                   | Panic e => Panic e
                   end.
Proof. intros A B [[a|e|e] t] f; simpl; auto. destruct (f a); auto. Qed.

Lemma snd_bind : forall A B (m : M A) (f : A -> M B),
  snd (bind m f) = snd m ++ match fst m with
                   | Ok a => snd (f a)
                   | _ => []
                   end.
Proof.
  intros A B [[a|e|e] t] f; simpl; rewrite ?app_nil_r; auto. destruct (f a); auto.
Qed.

Lemma okP_ret : forall A (a : A) (P : A -> Prop), P a -> okP (ret a) P.
Proof. intros A a P H; exists a; auto. Qed.

Lemma okP_bind : forall A B (m : M A) (f : A -> M B) P Q,
  okP m P -> (forall a, P a -> okP (f a) Q) -> okP (bind m f) Q.
Proof.
  intros A B m f P Q [a [Ha HP]] Hf. destruct (Hf a HP) as [b [Hb HQ]].
  exists b. rewrite fst_bind, Ha. auto.
Qed.

Lemma okP_conseq : forall A (m : M A) (P Q : A -> Prop),
  okP m P -> (forall a, P a -> Q a) -> okP m Q.
Proof. intros A m P Q [a [Ha HP]] H; exists a; auto. Qed.

Lemma fst_expect : forall A (m : M A),
  fst (expect m) = match fst m with Err e => Panic e | o => o end.
Proof. intros A [[a|e|e] t]; auto. Qed.

Lemma snd_expect : forall A (m : M A), snd (expect m) = snd m.
Proof. intros A [[a|e|e] t]; auto. Qed.

Lemma fst_measure : forall A (m : M A), fst (measure m) = fst m.
Proof.
  intros A m. unfold measure. rewrite fst_bind; simpl. rewrite fst_bind.
  destruct (fst m); auto.
Qed.

Lemma snd_measure : forall A (m : M A),
  snd (measure m) = EEnter :: snd m ++ match fst m with Ok _ => [EExit] | _ => [] end.
Proof.
  intros A m. unfold measure. rewrite snd_bind; simpl. rewrite snd_bind.
  destruct (fst m); simpl; auto.
Qed.

Lemma fst_analysed : forall A (m : M A),
  fst (analysed m) = match fst m with Err e => Panic e | o => o end.
Proof.
  intros A m. unfold analysed. rewrite fst_bind; simpl. rewrite fst_bind, fst_expect.
  destruct (fst m); auto.
Qed.

Lemma snd_analysed : forall A (m : M A),
  snd (analysed m) = EStart :: snd m ++ match fst m with Ok _ => [EFinish] | _ => [] end.
Proof.
  intros A m. unfold analysed. rewrite snd_bind; simpl.
  rewrite snd_bind, fst_expect, snd_expect. destruct (fst m); simpl; auto.
Qed.

Lemma okP_expect : forall A (m : M A) P, okP m P -> okP (expect m) P.
Proof. intros A m P [a [Ha HP]]; exists a; rewrite fst_expect, Ha; auto. Qed.
Lemma okP_measure : forall A (m : M A) P, okP m P -> okP (measure m) P.
Proof. intros A m P [a [Ha HP]]; exists a; rewrite fst_measure, Ha; auto. Qed.
Lemma okP_analysed : forall A (m : M A) P, okP m P -> okP (analysed m) P.
Proof. intros A m P [a [Ha HP]]; exists a; rewrite fst_analysed, Ha; auto. Qed.

Lemma okP_mapM : forall A B (f : A -> M B) (R : A -> B -> Prop) l,
  (forall a, In a l -> okP (f a) (R a)) -> okP (mapM f l) (Forall2 R l).
Proof.
  induction l as [|a t IH]; intros H; simpl.
  - apply okP_ret; constructor.
  - eapply okP_bind; [apply H; left; auto|]. intros b Hb.
    eapply okP_bind; [apply IH; intros; apply H; right; auto|]. intros r Hr.
    apply okP_ret; constructor; auto.
Qed.

Lemma okP_mapM_nth : forall A B (f : A -> M B) (P : nat -> B -> Prop) l d d',
  (forall i, (i < length l)%nat -> okP (f (nth i l d)) (P i)) ->
  okP (mapM f l) (fun r => length r = length l /\
                           forall i, (i < length l)%nat -> P i (nth i r d')).
Proof.
  intros A B f P l d d'. revert P. induction l as [|a t IH]; intros P H; simpl.
  - apply okP_ret. split; auto. intros; lia.
  - eapply okP_bind; [apply (H 0%nat); simpl; lia|]. intros b Hb. cbv beta in Hb.
    eapply okP_bind; [apply (IH (fun i => P (S i)))|].
    + intros i Hi. apply (H (S i)). simpl; lia.
    + intros r [Hl Hr]. apply okP_ret. split; [simpl; lia|].
      intros [|i] Hi; simpl in *; auto. apply Hr; lia.
Qed.

Lemma okP_foldM : forall A S (f : S -> A -> M S) (I : list A -> S -> Prop) l pre s,
  I pre s ->
  (forall pre a s, In a l -> I pre s -> okP (f s a) (I (pre ++ [a]))) ->
  okP (foldM f l s) (I (pre ++ l)).
Proof.
  induction l as [|a t IH]; intros pre s HI H; simpl.
  - apply okP_ret. rewrite app_nil_r; auto.
  - eapply okP_bind; [eapply (H pre a); [left; auto|eauto]|].
    intros s' Hs'. replace (pre ++ a :: t) with ((pre ++ [a]) ++ t)
      by (rewrite <- app_assoc; auto).
    apply IH; auto. intros; apply H; auto. right; auto.
Qed.

Lemma okP_index : forall A (l : list A) i d (P : A -> Prop),
  (i < length l)%nat -> P (nth i l d) -> okP (index l i) P.
Proof.
  intros A l i d P Hi HP. unfold index.
  rewrite (nth_error_nth' l d Hi). apply okP_ret; auto.
Qed.

(** Partial correctness rules *)
Lemma safeP_ret : forall A (a : A) (P : A -> Prop), P a -> safeP (ret a) P.
Proof. intros A a P H b Hb; inversion Hb; subst; auto. Qed.
Lemma safeP_panic : forall A e (P : A -> Prop), safeP (panic e) P.
Proof. intros A e P b Hb; inversion Hb. Qed.
Lemma safeP_err : forall A e (P : A -> Prop), safeP (err_ e) P.
Proof. intros A e P b Hb; inversion Hb. Qed.
Lemma safeP_bind : forall A B (m : M A) (f : A -> M B) P Q,
  safeP m P -> (forall a, P a -> safeP (f a) Q) -> safeP (bind m f) Q.
Proof.
  intros A B m f P Q Hm Hf b Hb. rewrite fst_bind in Hb.
  destruct (fst m) eqn:E; try discriminate. eapply Hf; eauto.
Qed.
Lemma safeP_conseq : forall A (m : M A) (P Q : A -> Prop),
  safeP m P -> (forall a, P a -> Q a) -> safeP m Q.
Proof. unfold safeP; auto. Qed.
Lemma safeP_expect : forall A (m : M A) P, safeP m P -> safeP (expect m) P.
Proof.
  intros A m P H a Ha. rewrite fst_expect in Ha. destruct (fst m) eqn:E; try discriminate.
  inversion Ha; subst; auto.
Qed.
Lemma safeP_measure : forall A (m : M A) P, safeP m P -> safeP (measure m) P.
Proof. intros A m P H a Ha. rewrite fst_measure in Ha; auto. Qed.
Lemma safeP_analysed : forall A (m : M A) P, safeP m P -> safeP (analysed m) P.
Proof.
  intros A m P H a Ha. rewrite fst_analysed in Ha. destruct (fst m) eqn:E; try discriminate.
  inversion Ha; subst; auto.
Qed.
Lemma okP_safeP : forall A (m : M A) P, okP m P -> safeP m P.
Proof. intros A m P [a [Ha HP]] b Hb. rewrite Ha in Hb; inversion Hb; subst; auto. Qed.
Lemma safeP_mapM : forall A B (f : A -> M B) (R : A -> B -> Prop) l,
  (forall a, In a l -> safeP (f a) (R a)) -> safeP (mapM f l) (Forall2 R l).
Proof.
  induction l as [|a t IH]; intros H; simpl.
  - apply safeP_ret; constructor.
  - eapply safeP_bind; [apply H; left; auto|]. intros b Hb.
    eapply safeP_bind; [apply IH; intros; apply H; right; auto|]. intros r Hr.
    apply safeP_ret; constructor; auto.
Qed.

(* ------------------------------------------------------------------ *)
Lemma set_nth_length : forall A (l : list A) i a, length (set_nth l i a) = length l.
Proof. induction l; destruct i; simpl; auto. Qed.

Lemma nth_set_nth : forall A (l : list A) i j a d,
  (i < length l)%nat ->
  nth j (set_nth l i a) d = if (j =? i)%nat then a else nth j l d.
Proof.
  induction l; simpl; intros i j b d H; [lia|].
  destruct i, j; simpl; auto. apply IHl; lia.
Qed.

Lemma okP_upd : forall A (l : list A) i a,
  (i < length l)%nat -> upd l i a = ret (set_nth l i a).
Proof.
  intros A l i a H. unfold upd. destruct (i <? length l)%nat eqn:E; auto.
  apply Nat.ltb_ge in E; lia.
Qed.

Lemma chk_i64_in : forall o z, I64_MIN <= z <= I64_MAX -> chk_i64 o z = ret z.
Proof.
  intros o z H. unfold chk_i64, in_i64.
  replace ((I64_MIN <=? z) && (z <=? I64_MAX)) with true; auto.
  symmetry; apply andb_true_iff; rewrite !Z.leb_le; lia.
Qed.
Lemma chk_i32_in : forall o z, I32_MIN <= z <= I32_MAX -> chk_i32 o z = ret z.
Proof.
  intros o z H. unfold chk_i32, in_i32.
  replace ((I32_MIN <=? z) && (z <=? I32_MAX)) with true; auto.
  symmetry; apply andb_true_iff; rewrite !Z.leb_le; lia.
Qed.
Lemma chk_u32_in : forall o z, 0 <= z < 2^32 -> chk_u32 o z = ret z.
Proof.
  intros o z H. unfold chk_u32, in_u32.
  replace ((0 <=? z) && (z <? 2^32)) with true; auto.
  symmetry; apply andb_true_iff; rewrite Z.leb_le, Z.ltb_lt; lia.
Qed.

Lemma ret_bind : forall A B (a : A) (f : A -> M B), bind (ret a) f = f a.
Proof. intros. unfold bind, ret. destruct (f a); auto. Qed.

(* ------------------------------------------------------------------ *)
(** ** Lists *)

Lemma nth_skipn : forall A n (l : list A) i d, nth i (skipn n l) d = nth (n + i) l d.
Proof. induction n; intros [|a l] i d; simpl; auto. destruct i; auto. Qed.

Lemma nth_firstn : forall A n (l : list A) i d,
  nth i (firstn n l) d = if (i <? n)%nat then nth i l d else d.
Proof.
  induction n as [|n IHn]; intros l i d; simpl.
  - destruct i; auto.
  - destruct l as [|a l].
    + destruct (i <? S n)%nat; destruct i; auto.
    + destruct i; simpl; auto. rewrite IHn. auto.
Qed.

Lemma nth_repeat_any : forall A (a : A) n i d,
  nth i (repeat a n) d = if (i <? n)%nat then a else d.
Proof.
  induction n; intros i d; simpl; destruct i; auto. apply IHn.
Qed.

Lemma nth_app_any : forall A (l m : list A) i d,
  nth i (l ++ m) d = if (i <? length l)%nat then nth i l d else nth (i - length l) m d.
Proof.
  intros A l m i d. destruct (i <? length l)%nat eqn:E.
  - apply Nat.ltb_lt in E. apply app_nth1; auto.
  - apply Nat.ltb_ge in E. apply app_nth2; auto.
Qed.

Lemma nth_map_seq : forall A (f : nat -> A) n s i d,
  nth i (map f (seq s n)) d = if (i <? n)%nat then f (s + i)%nat else d.
Proof.
  induction n; intros s i d; simpl.
  - destruct i; auto.
  - destruct i; simpl; [f_equal; lia|]. rewrite IHn.
    replace (S s + i)%nat with (s + S i)%nat by lia.
    change (S i <? S n)%nat with (i <? n)%nat. auto.
Qed.
