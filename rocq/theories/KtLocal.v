(** The Koyama-Tsuruoka recoding as a run of a small automaton: which digit can
    follow which, whatever the scalar is (C56) *)
From Verif Require Import Base Encryption Naf Spec BaseProofs ValueProofs BitsProofs EncProofs NafProofs.
From Coq Require Import ZifyBool ZifyNat.

(** [Keep m e]: digits are those of mode m (bit - m), the walk is e above its
    lowest (m = 0) or below its highest point (m = 1). [Turn m e]: the mode has
    just changed to m, the walk is e away from where it changed. *)
Inductive phase := Keep (m : bool) (e : Z) | Turn (m : bool) (e : Z).
Definition sg (m : bool) : Z := if m then -1 else 1.
Definition follow (s : phase) : list (Z * phase) :=
  match s with
  | Keep m e =>
      (0, Keep m (Z.max (e - 1) 0)) ::
      (if e <? 2 then [(sg m, Keep m (e + 1))] else []) ++
      (if e =? 0 then [(- sg m, Turn (negb m) 1)] else [])
  | Turn m e =>
      (0, if e =? 2 then Keep m 0 else Turn m (e + 1)) ::
      (if 0 <? e then [(sg m, Turn m (e - 1))] else [])
  end.
(** how the digits may end *)
Definition finals (s : phase) : list (list Z) :=
  match s with
  | Keep false _ => [[1]]
  | Keep true e => if e =? 0 then [[0; 1]] else []
  | Turn false e => if 1 <=? e then [[1]] else []
  | Turn true _ => []
  end.

Inductive go (f : nat -> Z) : nat -> phase -> nat -> phase -> Prop :=
| go_here : forall i s, go f i s i s
| go_on : forall i s n s' s'', go f i s n s' -> In (f n, s'') (follow s') -> go f i s (S n) s''.

Lemma go_le : forall f i s n s', go f i s n s' -> (i <= n)%nat.
Proof. induction 1; lia. Qed.
Lemma go_ext : forall f g i s n s', go f i s n s' -> (forall t, (i <= t < n)%nat -> f t = g t) -> go g i s n s'.
Proof.
  intros f g i s n s' H. induction H as [i s|i s n s' s'' H IH K]; intros E; [constructor|].
  pose proof (go_le _ _ _ _ _ H). econstructor; [apply IH; intros t Ht; apply E; lia|]. rewrite <- E by lia. exact K.
Qed.
Lemma go_trans : forall f i s n s' p s'', go f i s n s' -> go f n s' p s'' -> go f i s p s''.
Proof. intros f i s n s' p s'' H H'. induction H' as [|n s' p t t' H1 IH H2]; auto. econstructor; eauto. Qed.
Lemma go_one : forall f i s s', In (f i, s') (follow s) -> go f i s (S i) s'.
Proof. intros f i s s' H. econstructor; [constructor|exact H]. Qed.

Lemma keep_eq : forall (d d' : Z) m e e', d = d' -> e = e' -> (d, Keep m e) = (d', Keep m e').
Proof. intros; subst; auto. Qed.
Lemma turn_eq : forall (d d' : Z) m e e', d = d' -> e = e' -> (d, Turn m e) = (d', Turn m e').
Proof. intros; subst; auto. Qed.

(** ** Walks within a band *)
Section Band.
Context (m : bool) (c h : nat -> Z) (w : nat).
Hypothesis Hc : forall i, c i = 0 \/ c i = 1.
Hypothesis Hh : forall i, h (S i) = h i + (2 * c i - 1).
Hypothesis Hw : h w = 0.

Lemma band : forall x, (w <= x)%nat -> (forall i, (w <= i <= x)%nat -> 0 <= h i <= 2) ->
  go (fun i => sg m * c i) w (Keep m 0) x (Keep m (h x)).
Proof.
  intros x H. induction H as [|x H IH]; intros B; [rewrite Hw; constructor|].
  econstructor; [apply IH; intros i Hi; apply B; lia|]. pose proof (B x ltac:(lia)) as B1. pose proof (B (S x) ltac:(lia)) as B2.
  rewrite Hh in *. cbn [follow]. destruct (Hc x) as [E|E]; rewrite E in *.
  - left. apply keep_eq; lia.
  - right. apply in_or_app. left. replace (h x <? 2) with true by lia. left. apply keep_eq; lia.
Qed.
Lemma turn_first : forall x, (w < x)%nat -> (forall i, (w <= i <= x)%nat -> 0 <= h i) -> c w = 1.
Proof. intros x H B. pose proof (B (S w) ltac:(lia)) as K. rewrite Hh, Hw in K. destruct (Hc w); lia. Qed.
Lemma turn : forall x, (w < x)%nat -> (forall i, (w <= i <= x)%nat -> 0 <= h i <= 2) ->
  go (fun i => sg (negb m) * (1 - c i)) (S w) (Turn (negb m) 1) x (Turn (negb m) (h x)).
Proof.
  intros x H. induction H as [|x H IH]; intros B.
  - assert (E : c w = 1) by (apply (turn_first (S w)); [lia|]; intros i Hi; apply B; lia).
    rewrite Hh, Hw, E. constructor.
  - econstructor; [apply IH; intros i Hi; apply B; lia|]. pose proof (B x ltac:(lia)) as B1. pose proof (B (S x) ltac:(lia)) as B2.
    rewrite Hh in *. cbn [follow]. destruct (Hc x) as [E|E]; rewrite E in *.
    + right. replace (0 <? h x) with true by lia. left. apply turn_eq; lia.
    + left. replace (h x =? 2) with false by lia. apply turn_eq; lia.
Qed.
(** ... until it leaves the band at the far end *)
Lemma turned : forall x, (w <= x)%nat -> (forall i, (w <= i <= x)%nat -> 0 <= h i <= 2) -> h (S x) = 3 ->
  c w = 1 /\ go (fun i => sg (negb m) * (1 - c i)) (S w) (Turn (negb m) 1) (S x) (Keep (negb m) 0).
Proof.
  intros x H B E. pose proof (B x ltac:(lia)) as B1. rewrite Hh in E.
  assert (K : (w < x)%nat). { destruct (Nat.eq_dec w x); [subst; destruct (Hc x); lia|lia]. }
  split; [apply (turn_first x K); intros i Hi; apply B; lia|].
  econstructor; [apply turn; auto|]. cbn [follow]. left.
  assert (h x = 2 /\ c x = 1) as [E1 E2] by (destruct (Hc x); lia). rewrite E1, E2. cbn [Z.eqb Pos.eqb]. apply keep_eq; lia.
Qed.
End Band.

Section Rec.
Variable k : Z.
Local Notation b := (bitz k).
Local Notation walk := (walk k).
Variable o : bool.
Variable L : nat.
Definition start : phase := Keep false 0.
Definition md (m : bool) (i : nat) : Z := b i - Z.b2z m.
Lemma md_0 : forall i, md false i = sg false * b i.
Proof. intros i. unfold md, sg. cbn [Z.b2z]. lia. Qed.
Lemma md_0' : forall i, md false i = sg (negb true) * (1 - (1 - b i)).
Proof. intros i. unfold md, sg. cbn [Z.b2z negb]. lia. Qed.
Lemma md_1 : forall i, md true i = sg true * (1 - b i).
Proof. intros i. unfold md, sg. cbn [Z.b2z]. lia. Qed.
Lemma md_1' : forall i, md true i = sg (negb false) * (1 - b i).
Proof. intros i. unfold md, sg. cbn [Z.b2z negb]. lia. Qed.
Lemma b_01 : forall i, b i = 0 \/ b i = 1.
Proof. intros i. pose proof (bitz_range k i). lia. Qed.
Lemma nb_01 : forall i, 1 - b i = 0 \/ 1 - b i = 1.
Proof. intros i. pose proof (bitz_range k i). lia. Qed.

Lemma band0 : forall w x, (w <= x)%nat -> (forall i, (w <= i <= x)%nat -> 0 <= walk i - walk w <= 2) ->
  go (md false) w (Keep false 0) x (Keep false (walk x - walk w)).
Proof.
  intros w x H B. eapply go_ext; [apply (band false b (fun i => walk i - walk w) w b_01)|]; auto.
  - intros i. cbn [NafProofs.walk]. lia.
  - lia.
  - intros t _. symmetry. apply md_0.
Qed.
Lemma turned0 : forall w x, (w <= x)%nat -> (forall i, (w <= i <= x)%nat -> 0 <= walk i - walk w <= 2) ->
  walk (S x) - walk w = 3 -> b w = 1 /\ go (md true) (S w) (Turn true 1) (S x) (Keep true 0).
Proof.
  intros w x H B E. destruct (turned false b (fun i => walk i - walk w) w b_01) with (x := x) as [T1 T2]; auto.
  - intros i. cbn [NafProofs.walk]. lia.
  - lia.
  - split; auto. eapply go_ext; [exact T2|]. intros t _. symmetry. apply md_1'.
Qed.
Lemma band1 : forall u x, (u <= x)%nat -> (forall i, (u <= i <= x)%nat -> 0 <= walk u - walk i <= 2) ->
  go (md true) u (Keep true 0) x (Keep true (walk u - walk x)).
Proof.
  intros u x H B. eapply go_ext; [apply (band true (fun i => 1 - b i) (fun i => walk u - walk i) u nb_01)|]; auto.
  - intros i. cbn [NafProofs.walk]. lia.
  - lia.
  - intros t _. symmetry. apply md_1.
Qed.
Lemma turned1 : forall u x, (u <= x)%nat -> (forall i, (u <= i <= x)%nat -> 0 <= walk u - walk i <= 2) ->
  walk u - walk (S x) = 3 -> b u = 0 /\ go (md false) (S u) (Turn false 1) (S x) (Keep false 0).
Proof.
  intros u x H B E. destruct (turned true (fun i => 1 - b i) (fun i => walk u - walk i) u nb_01) with (x := x) as [T1 T2]; auto.
  - intros i. cbn [NafProofs.walk]. lia.
  - lia.
  - split; [lia|]. eapply go_ext; [exact T2|]. intros t _. symmetry. apply md_0'.
Qed.
Lemma turn1 : forall u x, (u < x)%nat -> (forall i, (u <= i <= x)%nat -> 0 <= walk u - walk i <= 2) ->
  b u = 0 /\ go (md false) (S u) (Turn false 1) x (Turn false (walk u - walk x)).
Proof.
  intros u x H B. assert (S1 : forall i, walk u - walk (S i) = walk u - walk i + (2 * (1 - b i) - 1)).
  { intros i. cbn [NafProofs.walk]. lia. }
  split.
  - assert (1 - b u = 1); [|lia]. apply (turn_first (fun i => 1 - b i) (fun i => walk u - walk i) u nb_01 S1 ltac:(lia) x); auto.
    intros i Hi. apply B; auto.
  - eapply go_ext; [apply (turn true (fun i => 1 - b i) (fun i => walk u - walk i) u nb_01 S1)|]; auto; [lia|].
    intros t _. symmetry. apply md_0'.
Qed.

(** ** The loop *)
Definition kt_run (x0 : nat) (s : kt_state) : Prop :=
  kt_inv k L x0 s /\
  let (j, m, x, y, z, u, v, w, kv) := s in
  exists t, go (fn kv) 0 start j t /\
  if m then go (md true) j t u (Keep true 0) /\ (forall i, (u <= i <= x)%nat -> v - walk i <= 2)
  else go (md false) j t w (Keep false 0) /\ (forall i, (w <= i <= x)%nat -> walk i - z <= 2).

Lemma ovfP_and : forall A (m : M A) P Q, ovfP o m P -> ovfP o m Q -> ovfP o m (fun a => P a /\ Q a).
Proof. intros A m P Q H H'. unfold ovfP in *. destruct (fst m); auto. Qed.

(** filling, then one digit, as one list *)
Lemma filled_go : forall kv kv1 j e d g t t' t'', (j <= e < length kv1)%nat ->
  (forall i, fn kv1 i = if ((j <=? i) && (i <? j + (e - j)))%nat then g i else fn kv i) ->
  go (fn kv) 0 start j t -> go g j t e t' -> In (d, t'') (follow t') ->
  go (fn (set_nth kv1 e d)) 0 start (S e) t''.
Proof.
  intros kv kv1 j e d g t t' t'' He F G1 G2 K.
  assert (E : fn (set_nth kv1 e d) e = d) by (rewrite set_fn, Nat.eqb_refl by lia; reflexivity).
  econstructor; [|rewrite E; exact K]. eapply go_trans.
  - eapply go_ext; [exact G1|]. intros i Hi. rewrite set_fn by lia. replace (i =? e)%nat with false by lia. rewrite F.
    replace ((j <=? i) && (i <? j + (e - j)))%nat with false by lia. reflexivity.
  - eapply go_ext; [exact G2|]. intros i Hi. rewrite set_fn by lia. replace (i =? e)%nat with false by lia. rewrite F.
    replace ((j <=? i) && (i <? j + (e - j)))%nat with true by lia. reflexivity.
Qed.

Lemma kt_step_run : forall x0 s, kt_run x0 s -> (S (S x0) < L)%nat -> ovfP o (kt_step o k s) (kt_run (S x0)).
Proof.
  intros x0 [j m x y z u v w kv] [I G] Hx. apply ovfP_and; [apply (kt_step_ok k o L x0); auto|].
  destruct I as [-> [-> [HL [Hd Hm]]]]. destruct G as [t [G1 G2]]. unfold kt_step.
  rewrite <- walk_step. set (y := walk (S x0)).
  assert (ST : y = walk x0 + (2 * b x0 - 1)) by reflexivity. pose proof (b_01 x0) as B0.
  destruct m; cbn [negb].
  - destruct Hm as [Hju [-> [Hmax HD]]]. destruct G2 as [G2 G3].
    assert (BD : forall i, (u <= i <= x0)%nat -> 0 <= walk u - walk i <= 2).
    { intros i Hi. specialize (Hmax i Hi). specialize (G3 i Hi). lia. }
    pose proof (BD x0 ltac:(lia)) as BX.
    destruct (y + 3 <=? walk u) eqn:E.
    + destruct (turned1 u x0) as [T1 T2]; auto; [lia| |].
      { fold y. lia. }
      eapply ovfP_bind.
      { apply (fill_ok o (u - j) j _ (fun i => b i - 1)); auto; try lia.
        - intros; apply bit_m1_ok.
        - intros; apply b_m1_digit. }
      intros kv1 [L1 [D1 F1]]. rewrite okP_upd by lia. rewrite ret_bind. apply ovfP_ret.
      replace (Nat.max j u) with u by lia. exists (Turn false 1). split; [|split].
      * apply (filled_go kv kv1 j u 1 (md true) t (Keep true 0)); auto; [lia|right; right; left; reflexivity].
      * exact T2.
      * intros i Hi. replace i with (S x0) by lia. fold y. lia.
    + apply ovfP_ret. destruct (walk u <? y) eqn:E2; exists t; (split; [exact G1|]).
      * split; [|intros i Hi; replace i with (S x0) by lia; fold y; lia].
        eapply go_trans; [exact G2|]. pose proof (band1 u x0 ltac:(lia) BD) as GB.
        assert (b x0 = 1 /\ walk x0 = walk u) as [E3 E4] by lia. rewrite E4, Z.sub_diag in GB.
        eapply go_on; [exact GB|]. left. unfold md. rewrite E3. reflexivity.
      * split; [exact G2|]. intros i Hi. destruct (Nat.eq_dec i (S x0)); [subst i; fold y; lia|apply BD; lia].
  - destruct Hm as [Hjw [-> [Hmin HD]]]. destruct G2 as [G2 G3].
    assert (BD : forall i, (w <= i <= x0)%nat -> 0 <= walk i - walk w <= 2).
    { intros i Hi. specialize (Hmin i Hi). specialize (G3 i Hi). lia. }
    pose proof (BD x0 ltac:(lia)) as BX.
    destruct (walk w + 3 <=? y) eqn:E.
    + destruct (turned0 w x0) as [T1 T2]; auto; [lia| |].
      { fold y. lia. }
      eapply ovfP_bind.
      { apply (fill_ok o (w - j) j _ b); auto; try lia.
        - intros; apply bit_ok.
        - intros; apply b_digit. }
      intros kv1 [L1 [D1 F1]]. rewrite okP_upd by lia. rewrite ret_bind. apply ovfP_ret.
      replace (Nat.max j w) with w by lia. exists (Turn true 1). split; [|split].
      * apply (filled_go kv kv1 j w (-1) b t (Keep false 0)); auto; [lia| |right; right; left; reflexivity].
        eapply go_ext; [exact G2|]. intros i _. unfold md. cbn [Z.b2z]. lia.
      * exact T2.
      * intros i Hi. replace i with (S x0) by lia. fold y. lia.
    + apply ovfP_ret. destruct (y <? walk w) eqn:E2; exists t; (split; [exact G1|]).
      * split; [|intros i Hi; replace i with (S x0) by lia; fold y; lia].
        eapply go_trans; [exact G2|]. pose proof (band0 w x0 ltac:(lia) BD) as GB.
        assert (b x0 = 0 /\ walk x0 = walk w) as [E3 E4] by lia. rewrite E4, Z.sub_diag in GB.
        eapply go_on; [exact GB|]. left. unfold md. rewrite E3. reflexivity.
      * split; [exact G2|]. intros i Hi. destruct (Nat.eq_dec i (S x0)); [subst i; fold y; lia|apply BD; lia].
Qed.
Lemma kt_loop_run : forall n x0 s, kt_run x0 s -> (S (x0 + n) < L)%nat -> ovfP o (kt_loop n o k s) (kt_run (x0 + n)).
Proof.
  induction n as [|n IH]; intros x0 s Hs HL; cbn [kt_loop].
  - rewrite Nat.add_0_r. apply ovfP_ret; auto.
  - eapply ovfP_bind; [apply (kt_step_run x0); auto; lia|]. intros s' Hs'.
    replace (x0 + S n)%nat with (S x0 + n)%nat by lia. apply IH; auto. lia.
Qed.

(** ** The end *)
(** the digits read so far, then one of the ends *)
Definition shaped (l : list Z) : Prop :=
  exists n t e, go (fn l) 0 start n t /\ In e (finals t) /\ skipn n l = e.
Lemma skip_two : forall (l : list Z) x, length l = S (S x) -> skipn x l = [fn l x; fn l (S x)].
Proof.
  intros l x H. apply (nth_ext _ _ 0 0).
  - rewrite skipn_length. cbn [length]. lia.
  - intros i Hi. rewrite skipn_length in Hi. rewrite nth_skipn. assert (i = 0 \/ i = 1)%nat as [ -> | -> ] by lia; cbn [nth].
    + unfold fn. f_equal. lia.
    + unfold fn. f_equal. lia.
Qed.
Lemma pop_shaped : forall l x t, length l = S (S x) -> go (fn l) 0 start x t ->
  (fn l x = 1 /\ fn l (S x) = 0 /\ In [1] (finals t) \/ fn l x = 0 /\ fn l (S x) = 1 /\ In [0; 1] (finals t)) ->
  shaped (pop_zero l).
Proof.
  intros l x t HL G H. pose proof (skip_two l x HL) as E. pose proof (firstn_skipn x l) as FS. rewrite E in FS.
  assert (LF : length (firstn x l) = x) by (rewrite firstn_length; lia).
  destruct H as [[E1 [E2 F]]|[E1 [E2 F]]]; rewrite E1, E2 in FS.
  - assert (P : pop_zero l = firstn x l ++ [1]).
    { rewrite <- FS at 1. unfold pop_zero. change [1; 0] with ([1] ++ [0]). rewrite app_assoc, rev_unit.
      cbn [Z.eqb]. apply removelast_last. }
    rewrite P. exists x, t, [1]. split; [|split; [exact F|]].
    + eapply go_ext; [exact G|]. intros i Hi. unfold fn. rewrite app_nth1 by lia. rewrite nth_firstn.
      replace (i <? x)%nat with true by lia. reflexivity.
    + rewrite <- LF at 1. rewrite skipn_app, skipn_all, Nat.sub_diag. reflexivity.
  - assert (P : pop_zero l = l).
    { rewrite <- FS. unfold pop_zero. change [0; 1] with ([0] ++ [1]). rewrite app_assoc, rev_unit. reflexivity. }
    rewrite P. exists x, t, [0; 1]. split; [exact G|]. split; [exact F|]. rewrite E, E1, E2. reflexivity.
Qed.

Lemma kt_end_run : forall x s, kt_run x s -> L = S (S x) -> ovfP o (kt_end o k s) (fun l => shaped (pop_zero l)).
Proof.
  intros x0 [j m x y z u v w kv] [[-> [-> [HL [Hd Hm]]]] [t [G1 G2]]] HLx. unfold kt_end.
  destruct (negb m || (v <=? walk x0)) eqn:Ec.
  - assert (Hj : (j <= x0)%nat) by (destruct m; [lia|]; destruct Hm as [Hm _]; lia).
    eapply ovfP_bind.
    { apply (fill_ok o (x0 - j) j _ (md m)); auto; try lia.
      - intros i Hi. apply ovfP_ret. reflexivity.
      - intros i Hi. unfold md. destruct m; cbn; [apply b_m1_digit|rewrite Z.sub_0_r; apply b_digit]. }
    intros kv1 [L1 [D1 F1]]. rewrite okP_upd by lia. rewrite ret_bind.
    replace (Nat.max j x0) with x0 by lia. rewrite okP_upd by (rewrite set_nth_length; lia). apply ovfP_ret.
    set (l := set_nth _ _ _).
    assert (Fin : forall i, fn l i = if (i =? S x0)%nat then Z.b2z m else if (i =? x0)%nat then 1 - Z.b2z m else fn kv1 i).
    { intros i. unfold l. rewrite set_fn by (rewrite set_nth_length; lia). rewrite set_fn by lia. auto. }
    assert (Ll : length l = S (S x0)) by (unfold l; rewrite !set_nth_length; lia).
    assert (X1 : fn l x0 = 1 - Z.b2z m).
    { rewrite Fin. replace (x0 =? S x0)%nat with false by lia. rewrite Nat.eqb_refl. reflexivity. }
    assert (X2 : fn l (S x0) = Z.b2z m) by (rewrite Fin, Nat.eqb_refl; reflexivity).
    assert (PRE : go (fn l) 0 start j t).
    { eapply go_ext; [exact G1|]. intros i Hi. rewrite Fin. replace (i =? S x0)%nat with false by lia.
      replace (i =? x0)%nat with false by lia. rewrite F1. replace ((j <=? i) && (i <? j + (x0 - j)))%nat with false by lia. reflexivity. }
    assert (SUF : forall t', go (md m) j t x0 t' -> go (fn l) 0 start x0 t').
    { intros t' G. eapply go_trans; [exact PRE|]. eapply go_ext; [exact G|]. intros i Hi. rewrite Fin.
      replace (i =? S x0)%nat with false by lia. replace (i =? x0)%nat with false by lia. rewrite F1.
      replace ((j <=? i) && (i <? j + (x0 - j)))%nat with true by lia. reflexivity. }
    destruct m; cbn [Z.b2z negb orb] in *.
    + destruct Hm as [Hju [-> [Hmax HD]]], G2 as [G2 G3].
      assert (BD : forall i, (u <= i <= x0)%nat -> 0 <= walk u - walk i <= 2).
      { intros i Hi. specialize (Hmax i Hi). specialize (G3 i Hi). lia. }
      pose proof (BD x0 ltac:(lia)) as BX. pose proof (band1 u x0 ltac:(lia) BD) as GB.
      replace (walk u - walk x0) with 0 in GB by lia.
      apply (pop_shaped l x0 (Keep true 0) Ll); [apply SUF; eapply go_trans; eauto|]. right.
      split; [exact X1|]. split; [exact X2|]. left. reflexivity.
    + destruct Hm as [Hjw [-> [Hmin HD]]], G2 as [G2 G3].
      assert (BD : forall i, (w <= i <= x0)%nat -> 0 <= walk i - walk w <= 2).
      { intros i Hi. specialize (Hmin i Hi). specialize (G3 i Hi). lia. }
      pose proof (band0 w x0 ltac:(lia) BD) as GB.
      apply (pop_shaped l x0 _ Ll (SUF _ (go_trans _ _ _ _ _ _ _ G2 GB))). left.
      split; [exact X1|]. split; [exact X2|]. left. reflexivity.
  - destruct m; [|discriminate]. cbn [negb orb] in Ec. destruct Hm as [Hju [-> [Hmax HD]]], G2 as [G2 G3].
    assert (Hu : (u < x0)%nat) by (destruct (Nat.eq_dec u x0); [subst; lia|lia]).
    assert (BD : forall i, (u <= i <= x0)%nat -> 0 <= walk u - walk i <= 2).
    { intros i Hi. specialize (Hmax i Hi). specialize (G3 i Hi). lia. }
    destruct (turn1 u x0 Hu BD) as [T1 T2].
    eapply ovfP_bind.
    { apply (fill_ok o (u - j) j _ (md true)); auto; try lia.
      - intros; apply bit_m1_ok.
      - intros; apply b_m1_digit. }
    intros kv1 [L1 [D1 F1]]. rewrite okP_upd by lia. rewrite ret_bind.
    replace (Nat.max j u) with u by lia.
    eapply ovfP_bind.
    { apply (fill_ok o (x0 - S u) (S u) _ (md false)); [| |rewrite set_nth_length; lia|].
      - intros i Hi. apply ovfP_ret. unfold md. cbn [Z.b2z]. rewrite Z.sub_0_r. reflexivity.
      - intros i Hi. unfold md. cbn [Z.b2z]. rewrite Z.sub_0_r. apply b_digit.
      - apply set_digits; auto; [lia|unfold digit; lia]. }
    intros kv2 [L2 [D2 F2]]. rewrite set_nth_length in L2.
    replace (Nat.max (S u) x0) with x0 by lia.
    rewrite okP_upd by lia. rewrite ret_bind. rewrite okP_upd by (rewrite set_nth_length; lia).
    apply ovfP_ret. set (l := set_nth _ _ _).
    assert (Fin : forall i, fn l i = if (i =? S x0)%nat then 0 else if (i =? x0)%nat then 1 else fn kv2 i).
    { intros i. unfold l. rewrite set_fn by (rewrite set_nth_length; lia). rewrite set_fn by lia. auto. }
    assert (Ll : length l = S (S x0)) by (unfold l; rewrite !set_nth_length; lia).
    assert (LOW : forall i, (i < x0)%nat -> fn l i = if (S u <=? i)%nat then md false i else fn (set_nth kv1 u 1) i).
    { intros i Hi. rewrite Fin. replace (i =? S x0)%nat with false by lia. replace (i =? x0)%nat with false by lia. rewrite F2.
      replace ((S u <=? i) && (i <? S u + (x0 - S u)))%nat with (S u <=? i)%nat by lia. reflexivity. }
    assert (PRE : go (fn l) 0 start (S u) (Turn false 1)).
    { eapply go_ext; [apply (filled_go kv kv1 j u 1 (md true) t (Keep true 0)); auto; [lia|right; right; left; reflexivity]|].
      intros i Hi. rewrite LOW by lia. replace (S u <=? i)%nat with false by lia. reflexivity. }
    apply (pop_shaped l x0 (Turn false (walk u - walk x0)) Ll).
    + eapply go_trans; [exact PRE|]. eapply go_ext; [exact T2|]. intros i Hi. rewrite LOW by lia.
      replace (S u <=? i)%nat with true by lia. reflexivity.
    + left. split; [|split].
      * rewrite Fin. replace (x0 =? S x0)%nat with false by lia. rewrite Nat.eqb_refl. reflexivity.
      * rewrite Fin, Nat.eqb_refl. reflexivity.
      * cbn [finals]. replace (1 <=? walk u - walk x0) with true by lia. left. reflexivity.
Qed.
End Rec.

Theorem kt_shaped : forall o k, 0 < k < 2^32 -> ovfP o (koyama_tsuruoka_vec o k) shaped.
Proof.
  intros o k Hk. unfold koyama_tsuruoka_vec. pose proof (bit_len_32_ok k ltac:(lia)) as HB.
  replace (k =? 0) with false by lia. destruct (k =? 1) eqn:E1.
  { apply ovfP_ret. exists 0%nat, start, [1]. split; [constructor|]. split; [left; reflexivity|reflexivity]. }
  set (n := bit_len_32 k) in *. clearbody n. destruct HB as [[HB _]|[Hn HB]]; [lia|].
  assert (Hn2 : (2 <= n)%nat). { destruct (Nat.eq_dec n 1); [subst n; cbn in HB; lia|lia]. }
  destruct n as [|x]; [lia|]. replace (S x - 1)%nat with x in * by lia.
  eapply ovfP_bind.
  { apply (kt_loop_run k o (S (S x)) x 0); [|lia]. split.
    - unfold kt_inv. split; auto. split; auto. split; [rewrite repeat_length; lia|].
      split; [apply digits_repeat0|]. split; [lia|]. split; auto. split; [|reflexivity].
      intros i Hi. replace i with 0%nat by lia. cbn. lia.
    - exists start. split; [constructor|]. split; [constructor|]. intros i Hi. replace i with 0%nat by lia. cbn. lia. }
  intros s Hs. cbn [Nat.add] in Hs. eapply ovfP_bind; [apply (kt_end_run k o (S (S x)) x s); auto|].
  intros l Hl. apply ovfP_ret. exact Hl.
Qed.

(* ------------------------------------------------------------------ *)
(** ** Every suffix is read from one of finitely many phases *)

Inductive accepts : phase -> list Z -> Prop :=
| acc_end : forall s e, In e (finals s) -> accepts s e
| acc_on : forall s d s' l, In (d, s') (follow s) -> accepts s' l -> accepts s (d :: l).

Definition phases : list phase :=
  flat_map (fun m => flat_map (fun e => [Keep m e; Turn m e]) [0; 1; 2]) [false; true].
Lemma phases_closed : forall s d s', In s phases -> In (d, s') (follow s) -> In s' phases.
Proof.
  intros s d s' H F. unfold phases in *. cbn [flat_map app] in *.
  repeat (destruct H as [<-|H]; [cbn in F; repeat (destruct F as [F|F]; [injection F as <- <-; cbn; tauto|]); destruct F|]).
  destruct H.
Qed.
Lemma go_phases : forall f i s n s', go f i s n s' -> In s phases -> In s' phases.
Proof. induction 1 as [|i s n s' s'' H IH K]; intros P; [exact P|]. exact (phases_closed _ _ _ (IH P) K). Qed.
Lemma go_accepts : forall f l s0 n t, go f 0 s0 n t -> f = fn l -> (n <= length l)%nat -> accepts t (skipn n l) ->
  forall r, (r <= n)%nat -> exists s, go f 0 s0 r s /\ accepts s (skipn r l).
Proof.
  intros f l s0 n t H. remember 0%nat as i eqn:Ei. induction H as [i s|i s n s' s'' H IH K]; intros Ef HL A r Hr.
  - assert (r = i) by lia. subst r. exists s. split; [constructor|exact A].
  - destruct (Nat.eq_dec r (S n)) as [->|NE]; [exists s''; split; [exact (go_on f i s n s' s'' H K)|exact A]|].
    apply IH; auto; [lia| |lia].
    assert (E : skipn n l = f n :: skipn (S n) l).
    { subst f. unfold fn. clear - HL. revert l HL. induction n as [|n IH]; intros [|a l] HL; cbn [length] in HL; try lia; [reflexivity|].
      cbn [skipn nth] in *. rewrite IH by lia. reflexivity. }
    rewrite E. exact (acc_on s' (f n) s'' _ K A).
Qed.
Lemma finals_two : forall t e, In e (finals t) -> e = [1] \/ e = [0; 1].
Proof.
  intros [[] x|[] x] e F; cbn [finals] in F; [destruct (x =? 0)| | |destruct (1 <=? x)]; cbn in F; intuition auto.
Qed.
Lemma shaped_suffix : forall l r, shaped l -> (r < length l)%nat -> nth r l 0 <> 0 ->
  exists s, In s phases /\ accepts s (skipn r l).
Proof.
  intros l r [n [t [e [G [F E]]]]] Hr NZ.
  assert (HL : (n <= length l)%nat).
  { destruct (Nat.le_gt_cases n (length l)); auto. rewrite skipn_all2 in E by lia. subst e.
    destruct (finals_two t _ F); discriminate. }
  assert (A : accepts t (skipn n l)) by (rewrite E; constructor; exact F).
  destruct (Nat.le_gt_cases r n) as [C|C].
  - destruct (go_accepts (fn l) l start n t G eq_refl HL A r C) as [s [G' A']]. exists s. split; auto.
    eapply go_phases; [exact G'|]. left. reflexivity.
  - assert (K : skipn r l = [1]).
    { replace r with (r - n + n)%nat by lia. rewrite <- skipn_skipn, E.
      assert (LE : length e = (length l - n)%nat) by (rewrite <- E, skipn_length; reflexivity).
      pose proof (finals_two t e F) as D.
      destruct D as [ -> | -> ]; cbn [length] in LE; [lia|]. replace (r - n)%nat with 1%nat by lia. reflexivity. }
    rewrite K. exists (Keep false 0). split; [left; reflexivity|]. constructor. left. reflexivity.
Qed.

(** ** Checking all windows *)
Fixpoint covered (ok : Z -> bool) (n : nat) (p : Z) (s : phase) (v : Z) : bool :=
  match n with
  | O => ok v
  | S n' => forallb (fun ds : Z * phase => covered ok n' (2 * p) (snd ds) (v + p * fst ds)) (follow s) &&
            forallb (fun e => ok (v + p * value (firstn n e))) (finals s)
  end.
Lemma covered_ok : forall ok n p s v l, covered ok n p s v = true -> accepts s l -> ok (v + p * value (firstn n l)) = true.
Proof.
  intros ok. induction n as [|n IH]; intros p s v l H A.
  - cbn in *. rewrite Z.mul_0_r, Z.add_0_r. exact H.
  - cbn [covered] in H. apply andb_prop in H as [H1 H2]. destruct A as [s e F|s d s' l F A].
    + exact (proj1 (forallb_forall _ _) H2 e F).
    + pose proof (proj1 (forallb_forall _ _) H1 (d, s') F) as K. cbn [fst snd] in K.
      specialize (IH _ _ _ _ K A). cbn [firstn value]. replace (v + p * (d + 2 * value (firstn n l)))
        with (v + p * d + 2 * p * value (firstn n l)) by ring. exact IH.
Qed.
(** windows that start with a digit other than zero *)
Definition covers (ok : Z -> bool) (n : nat) (s : phase) : bool :=
  forallb (fun ds : Z * phase => (fst ds =? 0) || covered ok n 2 (snd ds) (fst ds)) (follow s) &&
  forallb (fun e => (hd 0 e =? 0) || ok (value (firstn (S n) e))) (finals s).
Lemma covers_ok : forall ok n s l, covers ok n s = true -> accepts s l -> hd 0 l <> 0 -> ok (value (firstn (S n) l)) = true.
Proof.
  intros ok n s l H A NZ. unfold covers in H. apply andb_prop in H as [H1 H2]. destruct A as [s e F|s d s' l F A].
  - pose proof (proj1 (forallb_forall _ _) H2 e F) as K. apply orb_prop in K as [K|K]; [lia|exact K].
  - pose proof (proj1 (forallb_forall _ _) H1 (d, s') F) as K. cbn [fst snd hd] in *. apply orb_prop in K as [K|K]; [lia|].
    pose proof (covered_ok ok n 2 s' d l K A) as R. cbn [firstn value]. exact R.
Qed.
