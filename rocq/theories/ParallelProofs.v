(** The parallel operations are race-free and compute what the sequential ones do *)
From Verif Require Import Base Backend Words Params Pbs Addition Signum Maximum
  Multiplication Squaring Rounding Naf Asc ScalarMul Arith NeuralNetwork Parallel ParallelOps BaseProofs AddProofs.
From Verif Require Import Expr.

Section Good.
Context {B : backend}.
Notation P := (@P B).
Notation val := (val B).

Lemma under_refl : forall p, under p p.
Proof. intros p. exists []. rewrite app_nil_r. reflexivity. Qed.
Lemma under_app : forall p q x, under (p ++ q) x -> under p x.
Proof. intros p q x [t ->]. exists (q ++ t). rewrite app_assoc. reflexivity. Qed.
Lemma under_self : forall p q, under p (p ++ q).
Proof. intros p q. exists q. reflexivity. Qed.
Lemma under_disj : forall p i j l l' x, i <> j -> under (p ++ i :: l) x -> ~ under (p ++ j :: l') x.
Proof.
  intros p i j l l' x N [t ->] [t' E]. rewrite <- !app_assoc in E. apply app_inv_head in E.
  cbn in E. congruence.
Qed.

(** In a context where the cells [Rd] hold what they hold in [s0]: wherever its
    own cells are, [m] is race-free and does what [r] does. *)
Definition good {A} (Rd : path -> Prop) (s0 : path -> val) (m : P A) (r : M A) : Prop :=
  forall p, (forall x, Rd x -> ~ under p x) ->
    (forall (k : option A -> prog val) (R W : path -> Prop), (forall x, under p x -> R x) -> (forall x, under p x -> W x) -> (forall x, Rd x -> R x) ->
       (forall o, rf R W (k o)) -> rf R W (m p k)) /\
    exists n, (forall a, fst r = Ok a -> n = count_pbs (snd r)) /\
      forall k s c, (forall x, Rd x -> s x = s0 x) ->
        exists s', (forall x, ~ under p x -> s' x = s x) /\
          exec (m p k) (s, c) = exec (k (to_option (fst r))) (s', (c + n)%nat).

Lemma count_app : forall t u, count_pbs (t ++ u) = (count_pbs t + count_pbs u)%nat.
Proof. intros. unfold count_pbs. rewrite filter_app, app_length. reflexivity. Qed.

Section Ctx.
Context {Rd : path -> Prop} {s0 : path -> val}.
Notation gd := (good Rd s0).

Lemma good_ret : forall {A} (a : A), gd (pret a) (ret a).
Proof.
  intros A a p Hp. split; [intros k R W _ _ _ H; apply H|]. exists 0%nat. split; [reflexivity|].
  intros k s c Hs. exists s. split; auto. rewrite Nat.add_0_r. reflexivity.
Qed.
Lemma good_fail : forall {A} (r : M A), (forall a, fst r <> Ok a) -> gd pfail r.
Proof.
  intros A [[a|e|e] t] H p Hp; [exfalso; eapply H; reflexivity|..];
    (split; [intros k R W _ _ _ Hk; apply Hk|]; exists 0%nat; split; [discriminate|];
     intros k s c Hs; exists s; split; auto; rewrite Nat.add_0_r; reflexivity).
Qed.
Lemma good_panic : forall {A} e, gd (@pfail B A) (panic e).
Proof. intros. apply good_fail. discriminate. Qed.
Lemma good_err : forall {A} e, gd (@pfail B A) (err_ e).
Proof. intros. apply good_fail. discriminate. Qed.

Lemma ticks_rf : forall R W n (k : prog val), rf R W k -> rf R W (ticks n k).
Proof. intros R W n k H. induction n; cbn; auto. constructor. auto. Qed.
Lemma ticks_exec : forall n (k : prog val) s c, exec (ticks n k) (s, c) = exec k (s, (c + n)%nat).
Proof.
  induction n; intros k s c; cbn [ticks]; [rewrite Nat.add_0_r; reflexivity|].
  cbn [exec fst snd]. rewrite IHn. f_equal. f_equal. lia.
Qed.
Lemma good_lift : forall {A} (r : M A), gd (lift r) r.
Proof.
  intros A r p Hp. split; [intros k R W _ _ _ H; apply ticks_rf, H|]. exists (count_pbs (snd r)). split; [reflexivity|].
  intros k s c Hs. exists s. split; auto. unfold lift. apply ticks_exec.
Qed.

Lemma good_bind : forall {A C} (m : P A) (r : M A) (f : A -> P C) (g : A -> M C),
  gd m r -> (forall a, gd (f a) (g a)) -> gd (pbind m f) (bind r g).
Proof.
  intros A C m r f g Hm Hf p Hp.
  destruct (Hm (p ++ [0%nat])) as [Rm [n [En Xm]]].
  { intros x Hx H. apply (Hp x Hx). eapply under_app, H. }
  assert (Hp1 : forall x, Rd x -> ~ under (p ++ [1%nat]) x).
  { intros x Hx H. apply (Hp x Hx). eapply under_app, H. }
  split.
  - intros k R W HR HW HRd Hk. apply Rm.
    + intros x Hx. apply HR. eapply under_app, Hx.
    + intros x Hx. apply HW. eapply under_app, Hx.
    + exact HRd.
    + intros [a|]; [|apply Hk]. apply (Hf a (p ++ [1%nat]) Hp1); auto; intros x Hx; [apply HR|apply HW]; eapply under_app, Hx.
  - destruct r as [[a|e|e] t]; cbn [fst snd to_option] in *.
    + destruct (Hf a (p ++ [1%nat]) Hp1) as [_ [n' [En' Xf]]].
      destruct (g a) as [o t'] eqn:Eg. cbn [bind]. rewrite Eg. cbn [fst snd] in *.
      exists (n + n')%nat. split.
      * intros b E. rewrite count_app, (En' b E). rewrite <- (En a eq_refl). reflexivity.
      * intros k s c Hs. unfold pbind.
        destruct (Xm (fun o => match o with Some a => f a (p ++ [1%nat]) k | None => k None end) s c Hs) as [s1 [F1 E1]].
        destruct (Xf k s1 (c + n)%nat) as [s2 [F2 E2]].
        { intros x Hx. rewrite F1; auto. intros H. apply (Hp x Hx). eapply under_app, H. }
        exists s2. split.
        -- intros x Hx. rewrite F2, F1; auto; intros H; apply Hx; eapply under_app, H.
        -- rewrite E1, E2, Nat.add_assoc. reflexivity.
    + exists n. split; [discriminate|]. intros k s c Hs.
      destruct (Xm (fun o => match o with Some a => f a (p ++ [1%nat]) k | None => k None end) s c Hs) as [s1 [F1 E1]].
      exists s1. split; auto. intros x Hx. apply F1. intros H. apply Hx. eapply under_app, H.
    + exists n. split; [discriminate|]. intros k s c Hs.
      destruct (Xm (fun o => match o with Some a => f a (p ++ [1%nat]) k | None => k None end) s c Hs) as [s1 [F1 E1]].
      exists s1. split; auto. intros x Hx. apply F1. intros H. apply Hx. eapply under_app, H.
Qed.

(** instrumentation makes no difference *)
Lemma good_conv : forall {A} (m : P A) (r r' : M A), gd m r ->
  to_option (fst r) = to_option (fst r') -> (forall a, fst r' = Ok a -> count_pbs (snd r) = count_pbs (snd r')) -> gd m r'.
Proof.
  intros A m r r' H E C p Hp. destruct (H p Hp) as [H1 [n [H2 H3]]]. split; auto. exists n. split.
  - intros a Ha. rewrite <- (C a Ha). rewrite Ha in E. destruct (fst r) as [b| |] eqn:F; try discriminate.
    apply (H2 b). reflexivity.
  - intros k s c Hs. rewrite <- E. auto.
Qed.
Lemma good_expect : forall {A} (m : P A) r, gd m r -> gd m (expect r).
Proof. intros A m [[a|e|e] t] H; eapply good_conv; eauto; cbn; auto; discriminate. Qed.
Lemma good_measure : forall {A} (m : P A) r, gd m r -> gd m (measure r).
Proof.
  intros A m [[a|e|e] t] H; eapply good_conv; eauto; try reflexivity; try discriminate.
  intros b _. change (snd (measure (Ok a, t))) with ([EEnter] ++ t ++ [EExit]). rewrite !count_app. change (count_pbs [_]) with 0%nat. cbn [snd]. lia.
Qed.
Lemma good_analysed : forall {A} (m : P A) r, gd m r -> gd m (analysed r).
Proof.
  intros A m [[a|e|e] t] H; eapply good_conv; eauto; try reflexivity; try discriminate.
  intros b _. change (snd (analysed (Ok a, t))) with ([EStart] ++ t ++ [EFinish]). rewrite !count_app. change (count_pbs [_]) with 0%nat. cbn [snd]. lia.
Qed.
(** a silent result that is always there *)
Lemma good_fold : forall {A S} (f : S -> A -> P S) g l s, (forall s a, gd (f s a) (g s a)) -> gd (pfold f l s) (foldM g l s).
Proof.
  intros A S f g l. induction l as [|a l IH]; intros s H; cbn [pfold foldM]; [apply good_ret|].
  apply good_bind; auto.
Qed.
Lemma good_map : forall {A C} (f : A -> P C) g l, (forall a, gd (f a) (g a)) -> gd (pmap f l) (mapM g l).
Proof.
  intros A C f g l H. induction l as [|a l IH]; cbn [pmap mapM]; [apply good_ret|].
  apply good_bind; auto. intros b. apply good_bind; auto. intros r. apply good_ret.
Qed.

(* ------------------------------------------------------------------ *)
(** *** tasks *)

Definition kind_ok {A} (c : @kind B A) : Prop := (forall a, prj _ c (inj _ c a) = Some a) /\ prj _ c VPanic = None.

(** cells of tasks i, i+1, ... *)
Definition below (p : path) (i : nat) (x : path) : Prop := exists j t, (i <= j)%nat /\ x = p ++ j :: t.
Lemma below_under : forall p i x, below p i x -> under p x.
Proof. intros p i x [j [t [_ ->]]]. apply under_self. Qed.
Lemma below_here : forall p i l x, under (p ++ i :: l) x -> below p i x.
Proof. intros p i l x [t ->]. exists i, (l ++ t). split; [lia|]. rewrite <- app_assoc. reflexivity. Qed.
Lemma below_next : forall p i x, below p (S i) x -> below p i x.
Proof. intros p i x [j [t [H ->]]]. exists j, t. split; [lia|reflexivity]. Qed.
Lemma below_disj : forall p i l x, under (p ++ i :: l) x -> ~ below p (S i) x.
Proof.
  intros p i l x [t ->] [j [u [H E]]]. rewrite <- app_assoc in E. apply app_inv_head in E.
  cbn in E. injection E as E _. lia.
Qed.

Definition seqM {A} (rs : list (M A)) : M (list A) := mapM (fun r => r) rs.
Fixpoint seqO {A} (os : list (option A)) : option (list A) :=
  match os with
  | [] => Some []
  | Some a :: os => option_map (cons a) (seqO os)
  | None :: _ => None
  end.
Lemma seqM_seqO : forall {A} (rs : list (M A)), to_option (fst (seqM rs)) = seqO (map (fun r => to_option (fst r)) rs).
Proof.
  intros A rs. induction rs as [|[[a|e|e] t] rs IH]; [reflexivity| |reflexivity|reflexivity].
  unfold seqM in *. cbn [mapM map fst to_option seqO bind]. rewrite <- IH.
  destruct (mapM (fun r => r) rs) as [[l|e|e] u]; reflexivity.
Qed.

Lemma tasks_rf : forall {A} (c : @kind B A) (ms : list (P A)) rs, Forall2 gd ms rs ->
  forall p i, (forall x, Rd x -> ~ under p x) ->
  rf (fun x => below p i x \/ Rd x) (below p i) (tasks c p i ms).
Proof.
  intros A c ms rs H. induction H as [|m r ms rs Hm Hms IH]; intros p i Hp; cbn [tasks]; [constructor|].
  eapply rf_par with (R1 := fun x => under (p ++ [i]) x \/ Rd x) (W1 := under (p ++ [i]))
                     (R2 := fun x => below p (S i) x \/ Rd x) (W2 := below p (S i)).
  - destruct (Hm (p ++ [i; 1%nat])) as [Rm _].
    { intros x Hx G. apply (Hp x Hx). eapply under_app, G. }
    apply Rm.
    + intros x [t ->]. left. exists (1%nat :: t). rewrite <- !app_assoc. reflexivity.
    + intros x [t ->]. exists (1%nat :: t). rewrite <- !app_assoc. reflexivity.
    + auto.
    + intros o. constructor; [|constructor]. exists [0%nat]. rewrite <- app_assoc. reflexivity.
  - apply IH; auto.
  - constructor.
  - intros x [G|G]; auto. left. eapply below_here, G.
  - intros x [G|G]; auto. left. apply below_next, G.
  - intros x G. eapply below_here, G.
  - intros x G. apply below_next, G.
  - intros x G [G'|G']; [eapply below_disj; eauto|]. apply (Hp x G'). eapply under_app, G.
  - intros x G G'. eapply below_disj; eauto.
  - intros x G [G'|G']; [eapply below_disj; eauto|]. apply (Hp x G'). eapply below_under, G.
Qed.

Lemma tasks_exec : forall {A} (c : @kind B A) (ms : list (P A)) rs, Forall2 gd ms rs ->
  forall p i, (forall x, Rd x -> ~ under p x) ->
  exists n, (forall l, fst (seqM rs) = Ok l -> n = count_pbs (snd (seqM rs))) /\
  forall s cnt, (forall x, Rd x -> s x = s0 x) -> exists s',
    (forall x, ~ below p i x -> s' x = s x) /\
    (forall j, (j < length rs)%nat -> s' (p ++ [i + j; 0]%nat) = put c (nth j (map (fun r => to_option (fst r)) rs) None)) /\
    exec (tasks c p i ms) (s, cnt) = (s', (cnt + n)%nat).
Proof.
  intros A c ms rs H. induction H as [|m r ms rs Hm Hms IH]; intros p i Hp; cbn [tasks].
  - exists 0%nat. split; [reflexivity|]. intros s cnt Hs. exists s. split; auto. split; [cbn; lia|].
    rewrite Nat.add_0_r. reflexivity.
  - destruct (Hm (p ++ [i; 1%nat])) as [_ [n [En Xm]]].
    { intros x Hx G. apply (Hp x Hx). eapply under_app, G. }
    destruct (IH p (S i) Hp) as [n' [En' Xs]].
    exists (n + n')%nat. split.
    + intros l. unfold seqM in *. cbn [mapM]. destruct r as [[a|e|e] t]; cbn [bind fst]; try discriminate.
      destruct (mapM (fun r => r) rs) as [[b|e|e] u]; cbn [bind fst snd ret]; try discriminate.
      intros _. cbn [fst snd] in *. rewrite (En a eq_refl), (En' b eq_refl), !count_app. cbn. lia.
    + intros s cnt Hs.
      destruct (Xm (fun o => Write (p ++ [i; 0%nat]) (put c o) Done) s cnt Hs) as [s1 [F1 E1]].
      destruct (Xs (upd_cell (p ++ [i; 0%nat]) (put c (to_option (fst r))) s1) (cnt + n)%nat) as [s2 [F2 [V2 E2]]].
      { intros x Hx. rewrite upd_other; [rewrite F1; auto; intros G; apply (Hp x Hx); eapply under_app, G|].
        intros <-. apply (Hp _ Hx). apply under_self. }
      exists s2. split; [|split].
      * intros x Hx. rewrite F2; [rewrite upd_other; [apply F1|]|].
        -- intros G. apply Hx. eapply below_here, G.
        -- intros <-. apply Hx. exists i, [0%nat]. split; auto.
        -- intros G. apply Hx, below_next, G.
      * intros [|j] Hj; cbn [length] in Hj.
        -- rewrite Nat.add_0_r. cbn [map nth]. rewrite F2; [apply upd_same|].
           apply below_disj with (l := [0%nat]). apply under_refl.
        -- replace (i + S j)%nat with (S i + j)%nat by lia. cbn [map nth]. apply V2. lia.
      * cbn [exec]. rewrite E1. cbn [exec fst snd]. rewrite E2. f_equal. lia.
Qed.

Lemma collect_rf : forall {A} (c : @kind B A) (R W : path -> Prop) p n i (k : option (list A) -> prog val),
  (forall x, under p x -> R x) -> (forall o, rf R W (k o)) -> rf R W (collect c p i n k).
Proof.
  intros A c R W p n. induction n; intros i k HR Hk; cbn [collect]; [apply Hk|].
  constructor; [apply HR, under_self|]. intros v. destruct (prj _ c v); auto. 
Qed.
Lemma collect_exec : forall {A} (c : @kind B A), kind_ok c -> forall p os i (k : option (list A) -> prog val) s cnt,
  (forall j, (j < length os)%nat -> s (p ++ [i + j; 0]%nat) = put c (nth j os None)) ->
  exec (collect c p i (length os) k) (s, cnt) = exec (k (seqO os)) (s, cnt).
Proof.
  intros A c [C1 C2] p os. induction os as [|o os IH]; intros i k s cnt H; cbn [length collect]; [reflexivity|].
  cbn [exec fst]. assert (H0 := H 0%nat). rewrite Nat.add_0_r in H0. rewrite H0 by (cbn; lia). cbn [nth].
  destruct o as [a|]; cbn [put seqO]; [|rewrite C2; reflexivity]. rewrite C1. apply (IH (S i) (fun o => k (option_map (cons a) o))).
  intros j Hj. replace (S i + j)%nat with (i + S j)%nat by lia. apply (H (S j)). cbn. lia.
Qed.

Lemma good_par : forall {A} (c : @kind B A), kind_ok c -> forall ms rs, Forall2 gd ms rs -> gd (ppar c ms) (seqM rs).
Proof.
  intros A c Hc ms rs H p Hp. split.
  - intros k R W HR HW HRd Hk. unfold ppar.
    eapply rf_par with (R1 := fun x => below p 0 x \/ Rd x) (W1 := below p 0) (R2 := fun _ => False) (W2 := fun _ => False);
      try tauto; auto.
    + eapply tasks_rf; eauto.
    + constructor.
    + apply collect_rf; auto.
    + intros x [G|G]; auto. apply HR. eapply below_under, G.
    + intros x G. apply HW. eapply below_under, G.
  - destruct (tasks_exec c ms rs H p 0 Hp) as [n [En X]]. exists n. split; auto.
    intros k s cnt Hs. destruct (X s cnt Hs) as [s' [F [V E]]]. exists s'. split.
    + intros x Hx. apply F. intros G. apply Hx. eapply below_under, G.
    + unfold ppar. cbn [exec]. rewrite E, seqM_seqO.
      assert (L : length ms = length (map (fun r : M A => to_option (fst r)) rs)).
      { rewrite map_length. clear - H. induction H; cbn; auto. }
      rewrite L. apply collect_exec; auto. rewrite map_length. exact V.
Qed.
Lemma mapM_seqM : forall {A C} (f : A -> M C) l, mapM f l = seqM (map f l).
Proof. intros A C f l. unfold seqM. induction l; cbn [mapM map]; auto. rewrite IHl. reflexivity. Qed.
Lemma good_par_map : forall {A C} (c : @kind B C), kind_ok c -> forall (f : A -> P C) g l,
  (forall a, In a l -> gd (f a) (g a)) -> gd (ppar c (map f l)) (mapM g l).
Proof.
  intros A C c Hc f g l H. rewrite mapM_seqM. apply good_par; auto.
  induction l as [|a l IH]; cbn; constructor; auto with datatypes.
Qed.
End Ctx.

(* ------------------------------------------------------------------ *)
(** *** shared variables *)

Lemma good_mono : forall {A} (Rd Rd' : path -> Prop) (s0 s0' : path -> val) (m : P A) r,
  (forall x, Rd x -> Rd' x) -> (forall x, Rd x -> s0' x = s0 x) -> good Rd s0 m r -> good Rd' s0' m r.
Proof.
  intros A Rd Rd' s0 s0' m r H1 H2 H p Hp. destruct (H p) as [G1 [n [G2 G3]]]; auto.
  split; auto. exists n. split; auto. intros k s c Hs. apply G3. intros x Hx. rewrite Hs; auto.
Qed.

Lemma share_rf : forall {A} (c : @kind B A) (R W : path -> Prop) p l i k, (forall x, under p x -> W x) -> rf R W k ->
  rf R W (@share_all B A c p i l k).
Proof. intros A c R W p l. induction l; intros i k HW Hk; cbn [share_all]; auto. constructor; auto. apply HW, under_self. Qed.
Lemma share_exec : forall {A} (c : @kind B A) p l i (k : prog val) s cnt, exists s',
  (forall x, ~ under (p ++ [0%nat]) x -> s' x = s x) /\
  (forall j, (j < i)%nat -> s' (p ++ [0; j]%nat) = s (p ++ [0; j]%nat)) /\
  (forall j d, (j < length l)%nat -> s' (p ++ [0; i + j]%nat) = inj _ c (nth j l d)) /\
  exec (share_all c p i l k) (s, cnt) = exec k (s', cnt).
Proof.
  intros A c p l. induction l as [|a l IH]; intros i k s cnt; cbn [share_all].
  - exists s. repeat split; auto. cbn. lia.
  - destruct (IH (S i) k (upd_cell (p ++ [0; i]%nat) (inj _ c a) s) cnt) as [s' [F1 [F2 [V E]]]].
    assert (N : forall j, j <> i -> p ++ [0; i]%nat <> p ++ [0; j]%nat).
    { intros j Hj G. apply app_inv_head in G. congruence. }
    exists s'. split; [|split; [|split]].
    + intros x Hx. rewrite F1 by auto. apply upd_other. intros <-. apply Hx.
      change (p ++ [0; i]%nat) with (p ++ [0%nat] ++ [i]). rewrite app_assoc. apply under_self.
    + intros j Hj. rewrite F2 by lia. apply upd_other, N. lia.
    + intros [|j] d Hj; cbn [length nth] in *.
      * rewrite Nat.add_0_r, F2 by lia. apply upd_same.
      * replace (i + S j)%nat with (S i + j)%nat by lia. apply V. lia.
    + cbn [exec fst snd]. exact E.
Qed.

(** [body] may read, and everything readable before stays so *)
Lemma good_share : forall {A C} (c : @kind B A) d, kind_ok c -> forall Rd s0 l (body : (nat -> P A) -> P C) r,
  (forall (Rd' : path -> Prop) (s0' : path -> val) rd,
     (forall T (m : P T) t, good Rd s0 m t -> good Rd' s0' m t) ->
     (forall i, (i < length l)%nat -> good Rd' s0' (rd i) (ret (nth i l d))) ->
     good Rd' s0' (body rd) r) ->
  good Rd s0 (pshare c l body) r.
Proof.
  intros A C c d [C1 C2] Rd s0 l body r H p Hp.
  set (cell := fun x => exists i, (i < length l)%nat /\ x = p ++ [0; i]%nat).
  set (s0' := fun x => if in_dec (list_eq_dec Nat.eq_dec) x (map (fun i => p ++ [0; i]%nat) (seq 0 (length l)))
                       then inj _ c (nth (last x 0%nat) l d) else s0 x).
  assert (IN : forall x, In x (map (fun i => p ++ [0; i]%nat) (seq 0 (length l))) <-> cell x).
  { intros x. rewrite in_map_iff. split.
    - intros [i [<- Hi]]. apply in_seq in Hi. exists i. split; [lia|reflexivity].
    - intros [i [Hi ->]]. exists i. split; auto. apply in_seq. lia. }
  assert (UN : forall x, cell x -> under (p ++ [0%nat]) x).
  { intros x [i [_ ->]]. change (p ++ [0; i]%nat) with (p ++ [0%nat] ++ [i]). rewrite app_assoc. apply under_self. }
  assert (S1 : forall x, Rd x -> s0' x = s0 x).
  { intros x Hx. unfold s0'. destruct (in_dec _ _ _) as [G|G]; auto. apply IN, UN, under_app in G. exfalso. eapply Hp; eauto. }
  assert (S2 : forall i, (i < length l)%nat -> s0' (p ++ [0; i]%nat) = inj _ c (nth i l d)).
  { intros i Hi. unfold s0'. destruct (in_dec _ _ _) as [G|G].
    - change [0%nat; i] with ([0%nat] ++ [i]). rewrite app_assoc, last_last. reflexivity.
    - exfalso. apply G, IN. exists i. auto. }
  assert (G : good (fun x => Rd x \/ cell x) s0' (body (fun i => pread c (p ++ [0; i]%nat))) r).
  { apply H.
    - intros T m t. apply good_mono; auto.
    - intros i Hi q Hq. split.
      + intros k R W HR HW HRd Hk. constructor; [|intros v; apply Hk]. apply HRd. right. exists i. auto.
      + exists 0%nat. split; [reflexivity|]. intros k s cnt Hs. exists s. split; auto.
        unfold pread. cbn [exec fst]. rewrite Nat.add_0_r, Hs by (right; exists i; auto). rewrite S2, C1 by auto. reflexivity. }
  destruct (G (p ++ [1%nat])) as [G1 [n [G2 G3]]].
  { intros x [Hx|Hx] F; [apply (Hp x Hx); eapply under_app, F|].
    apply UN in Hx. eapply (under_disj p 0 1 [] []); eauto. }
  unfold pshare. split.
  - intros k R W HR HW HRd Hk. apply share_rf; auto. apply G1; auto.
    + intros x Hx. eapply HR, under_app, Hx.
    + intros x Hx. eapply HW, under_app, Hx.
    + intros x [Hx|Hx]; auto. apply UN in Hx. eapply HR, under_app, Hx.
  - exists n. split; auto. intros k s cnt Hs.
    destruct (share_exec c p l 0 (body (fun i => pread c (p ++ [0; i]%nat)) (p ++ [1%nat]) k) s cnt) as [s1 [F1 [_ [V1 E1]]]].
    destruct (G3 k s1 cnt) as [s2 [F2 E2]].
    { intros x [Hx|[i [Hi ->]]].
      - rewrite F1, Hs, S1; auto. intros F. apply (Hp x Hx). eapply under_app, F.
      - rewrite S2 by auto. apply (V1 i d Hi). }
    exists s2. split.
    + intros x Hx. rewrite F2, F1; auto; intros F; apply Hx; eapply under_app, F.
    + rewrite E1, E2. reflexivity.
Qed.
End Good.

(* ------------------------------------------------------------------ *)
(** ** The operations *)
Section Ops.
Context {B : backend}.
Notation P := (@P B).

Lemma kword_ok : kind_ok (@kword B).
Proof. split; reflexivity. Qed.
Lemma kct_ok : kind_ok (@kct B).
Proof. split; reflexivity. Qed.
Lemma kcts_ok : kind_ok (@kcts B).
Proof. split; reflexivity. Qed.

(** in every context *)
Definition fine {A} (m : P A) (r : M A) : Prop := forall Rd s0, good Rd s0 m r.

Lemma good_eq : forall {A} Rd s0 (m : P A) r r', good Rd s0 m r -> r = r' -> good Rd s0 m r'.
Proof. intros. subst. auto. Qed.
Lemma good_rd : forall {A C} Rd s0 (m : P A) v (f : A -> P C) g,
  good Rd s0 m (ret v) -> (forall a, good Rd s0 (f a) (g a)) -> good Rd s0 (pbind m f) (g v).
Proof. intros. eapply good_eq; [apply good_bind; eauto|]. apply ret_bind. Qed.
Lemma mapM_nth : forall {A C} (f : A -> M C) d l, mapM f l = mapM (fun i => f (nth i l d)) (seq 0 (length l)).
Proof.
  intros A C f d l. rewrite !mapM_seqM. f_equal. rewrite <- (map_map (fun i => nth i l d) f). f_equal.
  induction l as [|a l IH]; auto. cbn [length seq map nth]. f_equal. rewrite <- seq_shift, map_map. exact IH.
Qed.

Lemma fine_add_sub : forall b x y r, fine (par_add_sub b x y r) (add_sub_impl b x y r).
Proof.
  intros b x y r Rd s0. unfold par_add_sub, add_sub_impl.
  destruct (_ =? _)%nat; [apply good_ret|]. destruct (_ =? _)%nat; [apply good_ret|].
  apply good_measure.
  set (r_triv := Nat.max (count_triv_zeros x) (count_triv_zeros y)).
  set (wlen := Nat.max (length x - _) _). set (w := zip_inplace _ _ _).
  assert (LW : length w = wlen).
  { unfold w. rewrite AddProofs.zip_length, app_length, firstn_length. unfold ct_triv. rewrite repeat_length. lia. }
  destruct (wlen <=? r_triv)%nat eqn:E; [apply good_err|].
  apply good_bind.
  - apply good_share with (d := triv0); [apply kword_ok|]. intros Rd' s0' rd _ Hrd.
    apply good_par_map; [apply kword_ok|]. intros i0 Hi. apply in_seq in Hi.
    apply Nat.leb_gt in E.
    destruct (0 <? i0)%nat eqn:Ei.
    + apply (good_rd _ _ _ (nth (i0 + r_triv) w triv0) _ (fun wi => f_4_pi_5 (w_add (w_mul_const wi 3) (nth (i0 + r_triv - 1) w triv0)))).
      * apply Hrd. lia.
      * intros a. apply (good_rd _ _ _ (nth (i0 + r_triv - 1) w triv0) _ (fun wm => f_4_pi_5 (w_add (w_mul_const a 3) wm))); [apply Hrd; lia|].
        intros a'. apply good_lift.
    + apply (good_rd _ _ _ (nth (i0 + r_triv) w triv0) _ (fun wi => f_4_pi_5 (w_mul_const wi 3))); [apply Hrd; lia|].
      intros a. apply good_lift.
  - intros q. apply good_bind; [|intros z; apply good_ret].
    destruct r; [|apply good_ret].
    set (w' := skipn r_triv _). clearbody w'.
    apply good_share with (d := triv0); [apply kword_ok|]. intros Rd' s0' rd _ Hrd.
    rewrite (mapM_nth _ triv0). apply good_par_map; [apply kword_ok|]. intros i Hi. apply in_seq in Hi.
    apply (good_rd _ _ _ (nth i w' triv0) _ id_pi_5); [apply Hrd; lia|]. intros a. apply good_lift.
Qed.
Lemma fine_add : forall x y, fine (par_add x y) (pa_add x y).
Proof. intros x y Rd s0. apply good_analysed, fine_add_sub. Qed.
Lemma fine_sub : forall x y, fine (par_sub x y) (pa_sub x y).
Proof. intros x y Rd s0. apply good_analysed, fine_add_sub. Qed.
Lemma fine_add_const : forall pc x k, fine (par_add_const pc x k) (pa_add_const pc x k).
Proof.
  intros pc x k Rd s0. apply good_analysed. unfold par_add_const, add_const_impl.
  destruct (k =? 0); [apply good_ret|]. apply good_bind; [apply good_lift|]. intros ka.
  apply good_bind; [apply good_lift|]. intros ck. apply fine_add.
Qed.

(** *** signum *)
(** the sum of a group, as a fold *)
Lemma foldM_ret : forall {A S} (f : S -> A -> S) l s, foldM (fun s a => ret (f s a)) l s = ret (fold_left f l s).
Proof. intros A S f l. induction l as [|a l IH]; intros s; cbn [foldM fold_left]; auto. rewrite ret_bind. apply IH. Qed.

Lemma good_first_group : forall Rd s0 pc (x : ciphertext B) rd j,
  (forall i, (i < length x)%nat -> good Rd s0 (rd i) (ret (nth i x triv0))) ->
  good Rd s0 (par_first_group pc (length x) rd j) (sgn_first_group pc x j).
Proof.
  intros Rd s0 pc x rd j Hrd. unfold par_first_group, sgn_first_group. apply good_bind.
  - destruct (_ <? _)%nat eqn:E; [|apply good_ret]. apply Nat.ltb_lt in E.
    apply (good_rd _ _ _ (nth (GAMMA * j + 3) x triv0) _
      (fun v => bind (if 85 <=? quad_weight (cparams pc) then ret (w_mul_const v 8) else f_1_pi_5 v 8)
                     (fun sj3 => ret (w_add triv0 sj3)))); [apply Hrd, E|].
    intros a. apply good_bind; [|intros; apply good_ret]. destruct (85 <=? _); [apply good_ret|apply good_lift].
  - intros b. eapply good_eq; [|apply foldM_ret]. apply good_fold. intros b' i.
    destruct (GAMMA * j + i <? length x)%nat eqn:E; [|apply good_ret]. apply Nat.ltb_lt in E.
    apply (good_rd _ _ _ (nth (GAMMA * j + i) x triv0) _
      (fun xi => ret (w_add b' (if (i =? 0)%nat then xi else w_mul_const xi (2 ^ Z.of_nat i))))); [apply Hrd, E|].
    intros a. apply good_ret.
Qed.
Lemma good_next_group : forall Rd s0 (x : ciphertext B) rd j,
  (forall i, (i < length x)%nat -> good Rd s0 (rd i) (ret (nth i x triv0))) ->
  good Rd s0 (par_next_group (length x) rd j) (sgn_next_group x j).
Proof.
  intros Rd s0 x rd j Hrd. unfold par_next_group, sgn_next_group. apply good_bind; [|intros; apply good_ret].
  apply good_par_map; [apply kword_ok|]. intros i _.
  destruct (_ <? _)%nat eqn:E; [|apply good_ret]. apply Nat.ltb_lt in E.
  apply (good_rd _ _ _ (nth (GAMMA * j + i) x triv0) _ (fun xi => f_1_pi_5 xi (2 ^ Z.of_nat i))); [apply Hrd, E|].
  intros a. apply good_lift.
Qed.
Lemma fine_sgn_fuel : forall fuel pc x b, fine (par_sgn_fuel fuel pc x b) (sgn_recursion_fuel fuel pc x b).
Proof.
  induction fuel as [|fuel IH]; intros pc x b Rd s0; cbn [par_sgn_fuel sgn_recursion_fuel]; [apply good_panic|].
  destruct (_ =? 0)%nat; [apply good_ret|]. destruct (_ =? 1)%nat; [apply good_ret|]. apply good_measure.
  apply good_bind; [|intros; apply IH].
  apply good_share with (d := triv0); [apply kword_ok|]. intros Rd' s0' rd _ Hrd.
  apply good_par_map; [apply kword_ok|]. intros j _.
  destruct b; [apply good_first_group|apply good_next_group]; exact Hrd.
Qed.
Lemma fine_sgn_raw : forall pc x b, fine (par_sgn_raw pc x b) (sgn_recursion_raw pc x b).
Proof. intros. apply fine_sgn_fuel. Qed.
Lemma bind_assoc : forall {A C D} (m : M A) (f : A -> M C) (g : C -> M D),
  bind (bind m f) g = bind m (fun a => bind (f a) g).
Proof.
  intros A C D [[a|e|e] t] f g; cbn [bind]; auto. destruct (f a) as [[b|e|e] u]; cbn [bind]; auto.
  destruct (g b). rewrite app_assoc. reflexivity.
Qed.
(** a measured block followed by more *)
Lemma good_meas_bind : forall {A C} Rd s0 (m : P C) (r : M A) (g : A -> M C),
  good Rd s0 m (bind r g) -> good Rd s0 m (bind (measure r) g).
Proof.
  intros A C Rd s0 m [[a|e|e] t] g H; eapply good_conv; eauto; try discriminate; try reflexivity.
  - change (bind (measure (Ok a, t)) g) with (let (o, u) := g a in (o, (EEnter :: t ++ [EExit]) ++ u)).
    cbn [bind]. destruct (g a) as [o u]. reflexivity.
  - change (bind (measure (Ok a, t)) g) with (let (o, u) := g a in (o, (EEnter :: t ++ [EExit]) ++ u)).
    cbn [bind]. destruct (g a) as [o u]. intros c _. cbn [snd].
    change (EEnter :: t ++ [EExit]) with ([EEnter] ++ t ++ [EExit]). rewrite !count_app. change (count_pbs [_]) with 0%nat. lia.
Qed.
Lemma fine_sgn : forall pc x, fine (par_sgn pc x) (pa_sgn pc x).
Proof.
  intros pc x Rd s0. apply good_analysed. unfold par_sgn, sgn_impl.
  destruct (_ =? 0)%nat; [apply good_ret|]. destruct (_ =? 1)%nat; [apply good_ret|].
  apply good_meas_bind. rewrite bind_assoc. apply good_bind; [apply fine_sgn_raw|]. intros s.
  rewrite bind_assoc. apply good_bind; [apply good_lift|]. intros a.
  apply good_bind; [apply good_lift|]. intros. apply good_ret.
Qed.

(** *** maximum *)
Lemma combine_nth2 : forall {A C} (l : list A) (l' : list C) a c, length l = length l' ->
  combine l l' = map (fun i => (nth i l a, nth i l' c)) (seq 0 (length l)).
Proof.
  intros A C l. induction l as [|x l IH]; intros [|y l'] a c H; try discriminate; auto.
  cbn [combine length seq map nth]. f_equal. rewrite <- seq_shift, map_map. apply IH. cbn in H. lia.
Qed.
Lemma mapM_map : forall {A C D} (f : C -> M D) (g : A -> C) l, mapM f (map g l) = mapM (fun a => f (g a)) l.
Proof. intros. rewrite !mapM_seqM, map_map. reflexivity. Qed.
Lemma fine_max_impl : forall pc x y, fine (par_max pc x y) (max_impl pc x y).
Proof.
  intros pc x y Rd s0. apply good_measure. unfold par_max.
  apply good_bind; [apply fine_sub|]. intros r. apply good_bind; [apply fine_sgn_raw|]. intros sr.
  apply good_bind; [apply good_lift|]. intros sa. apply good_bind; [apply good_lift|]. intros s.
  set (xa := x ++ _). set (ya := y ++ _).
  assert (L : length xa = length ya).
  { unfold xa, ya. rewrite !app_length. unfold ct_triv. rewrite !repeat_length. unfold ciphertext. lia. }
  clearbody xa ya.
  apply good_share with (d := triv0); [apply kword_ok|]. intros Rd1 s1 rs _ Hs.
  apply good_share with (d := triv0); [apply kword_ok|]. intros Rd2 s2 rx M2 Hx.
  apply good_share with (d := triv0); [apply kword_ok|]. intros Rd3 s3 ry M3 Hy.
  rewrite (combine_nth2 xa ya triv0 triv0 L), mapM_map.
  apply good_par_map; [apply kword_ok|]. intros i Hi. apply in_seq in Hi. unfold par_max_word, max_word.
  apply (good_rd _ _ _ (nth i ya triv0) _ (fun yi =>
    bind (if 41 <=? quad_weight (cparams pc) then ret (w_mul_const yi 6) else f_1_pi_5 yi 6)
      (fun t => max_s_2x_6y_pi_5 (w_add (w_add t (w_mul_const (nth i xa triv0) 2)) s)))).
  { apply Hy. unfold ciphertext in *. lia. }
  intros yi. apply good_bind; [destruct (41 <=? _); [apply good_ret|apply good_lift]|]. intros t.
  apply (good_rd _ _ _ (nth i xa triv0) _ (fun xi => max_s_2x_6y_pi_5 (w_add (w_add t (w_mul_const xi 2)) s))).
  { apply M3, Hx. lia. }
  intros xi. apply (good_rd _ _ _ s _ (fun s => max_s_2x_6y_pi_5 (w_add (w_add t (w_mul_const xi 2)) s))).
  { apply M3, M2. apply (Hs 0%nat). cbn. lia. }
  intros a. apply good_lift.
Qed.
Lemma fine_max : forall pc x y, fine (par_max pc x y) (pa_max pc x y).
Proof. intros pc x y Rd s0. apply good_analysed, fine_max_impl. Qed.
Lemma fine_relu : forall pc x, fine (par_relu pc x) (pa_relu pc x).
Proof. intros pc x Rd s0. apply good_analysed, fine_max_impl. Qed.

(** *** multiplication *)
Lemma fine_fill : forall x y, fine (par_fill x y) (fill_mulary x y).
Proof.
  intros x y Rd s0. unfold par_fill, fill_mulary. destruct (negb _) eqn:E; [apply good_panic|].
  apply negb_false_iff, Nat.eqb_eq in E.
  apply good_share with (d := triv0); [apply kword_ok|]. intros Rd1 s1 rx _ Hx.
  apply good_share with (d := triv0); [apply kword_ok|]. intros Rd2 s2 ry M2 Hy.
  rewrite (combine_nth2 (seq 0 (length x)) y 0%nat triv0) by (rewrite seq_length; exact E).
  rewrite mapM_map, seq_length. apply good_par_map; [apply kct_ok|]. intros j Hj. apply in_seq in Hj.
  rewrite seq_nth by lia. rewrite Nat.add_0_l. apply good_bind; [|intros; apply good_ret].
  rewrite (mapM_nth _ triv0). apply good_par_map; [apply kword_ok|]. intros i Hi. apply in_seq in Hi.
  apply (good_rd _ _ _ (nth j y triv0) _ (fun yj => expect (mul_lwe (nth i x triv0) yj))).
  { apply Hy. unfold ciphertext in *. lia. }
  intros yj. apply (good_rd _ _ _ (nth i x triv0) _ (fun xi => expect (mul_lwe xi yj))).
  { apply M2, Hx. lia. }
  intros xi. apply good_expect, good_lift.
Qed.
Lemma fine_reduce : forall m, fine (par_reduce m) (reduce_mulsquary m).
Proof.
  intros m Rd s0. unfold par_reduce, reduce_mulsquary.
  apply good_bind; [apply good_lift|]. intros a. apply good_bind; [apply good_lift|]. intros b.
  apply good_bind; [apply fine_add|]. intros acc. apply good_fold. intros. apply fine_add.
Qed.

Lemma kar_shape : forall {X D} (ra rb rx ry : M X) (f g : X -> X -> M X) (F G : X -> X) (K : X -> X -> X -> X -> M D) e e' e'',
  bind (seqM [bind (seqM [ra; rb]) (fun ab => match ab with [a; b] => bind (f a b) (fun s => ret [a; b; F s]) | _ => panic e end);
              bind (seqM [rx; ry]) (fun xy => match xy with [x; y] => bind (g x y) (fun c => ret [G c]) | _ => panic e' end)])
       (fun abc => match abc with [[a; b; n]; [c]] => K a b n c | _ => panic e'' end) =
  bind ra (fun a => bind rb (fun b => bind (f a b) (fun s =>
    bind rx (fun x => bind ry (fun y => bind (g x y) (fun c => K a b (F s) (G c))))))).
Proof.
  intros X D ra rb rx ry f g F G K e e' e''. unfold seqM. cbn [mapM].
  destruct ra as [[a|?|?] ta]; cbn [bind]; auto.
  destruct rb as [[b|?|?] tb]; cbn [bind]; auto. cbn [ret bind]. rewrite !app_nil_r.
  destruct (f a b) as [[s|?|?] tf]; cbn [bind ret]; rewrite ?app_assoc; auto.
  destruct rx as [[x|?|?] tx]; cbn [bind]; rewrite ?app_nil_r, ?app_assoc; auto.
  destruct ry as [[y|?|?] ty]; cbn [bind ret]; rewrite ?app_nil_r, ?app_assoc; auto.
  destruct (g x y) as [[c|?|?] tg]; cbn [bind ret]; rewrite ?app_nil_r, ?app_assoc; auto.
  destruct (K a b (F s) (G c)) as [o tk]. rewrite ?app_nil_r, ?app_assoc. reflexivity.
Qed.

Lemma fine_mul_impl : forall prec rec, (forall x y, fine (prec x y) (rec x y)) ->
  forall x y, fine (par_mul_impl prec x y) (mul_impl rec x y).
Proof.
  intros prec rec IH x y Rd s0. unfold par_mul_impl, mul_impl. set (x1 := x ++ _). set (y1 := y ++ _). clearbody x1 y1.
  destruct (_ =? 0)%nat; [apply good_ret|]. destruct (_ =? 1)%nat.
  { unfold mul_1word. apply good_meas_bind, good_bind; [apply fine_fill|]. intros m. apply good_lift. }
  destruct (_ || _)%bool.
  { apply good_measure, good_bind; [apply fine_fill|]. intros m. apply fine_reduce. }
  destruct (_ <=? 32)%nat; [|apply good_err].
  unfold par_karatsuba, mul_karatsuba. destruct (negb _); [apply good_panic|]. apply good_measure.
  set (n := ((length x1 + 1) / 2)%nat). clearbody n.
  set (xl := firstn n x1). set (xh := skipn n x1). set (yl := firstn n y1). set (yh := skipn n y1). clearbody xl xh yl yh.
  eapply good_eq; [|apply (kar_shape (rec xh yh) (rec xl yl) (pa_add xl xh) (pa_add yl yh) pa_add rec
    (fun s => ct_triv n ++ map w_opp s) (fun c => ct_triv n ++ c)
    (fun a b na_nb c => bind (pa_add c na_nb) (fun c_nanb =>
       if (length b =? 2 * n)%nat then pa_add (b ++ a) c_nanb
       else bind (pa_add b c_nanb) (fun b_cnanb => pa_add (pa_shift a (2 * n)) b_cnanb))) P_fuel P_fuel P_fuel)].
  apply good_bind.
  - apply good_share with (d := []); [apply kct_ok|]. intros Rd' s0' rd _ Hrd.
    assert (R0 : good Rd' s0' (rd 0%nat) (ret xl)) by (apply (Hrd 0%nat); cbn; lia).
    assert (R1 : good Rd' s0' (rd 1%nat) (ret xh)) by (apply (Hrd 1%nat); cbn; lia).
    assert (R2 : good Rd' s0' (rd 2%nat) (ret yl)) by (apply (Hrd 2%nat); cbn; lia).
    assert (R3 : good Rd' s0' (rd 3%nat) (ret yh)) by (apply (Hrd 3%nat); cbn; lia).
    clear Hrd.
    assert (RR : forall i j u v (pf : ciphertext B -> ciphertext B -> P (ciphertext B)) f, (forall x y, fine (pf x y) (f x y)) ->
      good Rd' s0' (rd i) (ret u) -> good Rd' s0' (rd j) (ret v) ->
      good Rd' s0' (pbind (rd i) (fun a => pbind (rd j) (fun b => pf a b))) (f u v)).
    { intros i j u v pf f Hf Hi Hj. apply (good_rd _ _ _ u _ (fun a => f a v)); auto. intros a.
      apply (good_rd _ _ _ v _ (fun b => f a b)); auto. intros b. apply Hf. }
    apply good_par; [apply kcts_ok|]. constructor; [|constructor; [|constructor]].
    + apply good_bind.
      * apply good_par; [apply kct_ok|]. constructor; [|constructor; [|constructor]]; apply RR; auto.
      * intros [|a [|b [|c l]]]; try apply good_panic. apply good_bind; [apply fine_add|]. intros s. apply good_ret.
    + apply good_bind.
      * apply good_par; [apply kct_ok|]. constructor; [|constructor; [|constructor]]; apply RR; auto using fine_add.
      * intros [|a [|b [|c l]]]; try apply good_panic. apply good_bind; [apply IH|]. intros s. apply good_ret.
  - intros abc. destruct abc as [|[|a [|b [|m [|z t]]]] [|[|c [|z' t']] [|z'' t'']]]; try apply good_panic.
    apply good_bind; [apply fine_add|]. intros d. destruct (_ =? _)%nat; [apply fine_add|].
    apply good_bind; [apply fine_add|]. intros d'. apply fine_add.
Qed.
Lemma fine_mul_fuel : forall fuel x y, fine (par_mul_fuel fuel x y) (mul_fuel fuel x y).
Proof.
  induction fuel as [|fuel IH]; intros x y Rd s0; cbn [par_mul_fuel mul_fuel]; [apply good_panic|].
  apply good_analysed, fine_mul_impl; auto.
Qed.
Lemma fine_mul : forall x y, fine (par_mul x y) (pa_mul x y).
Proof. intros. apply fine_mul_fuel. Qed.

(** *** squaring *)
Lemma seq3_shape : forall {X D} (ra rb rc : M X) (K : X -> X -> X -> M D) e,
  bind (seqM [ra; rb; rc]) (fun l => match l with [a; b; c] => K a b c | _ => panic e end) =
  bind ra (fun a => bind rb (fun b => bind rc (fun c => K a b c))).
Proof.
  intros X D ra rb rc K e. unfold seqM. cbn [mapM].
  destruct ra as [[a|?|?] ta]; cbn [bind]; auto.
  destruct rb as [[b|?|?] tb]; cbn [bind]; auto.
  destruct rc as [[c|?|?] tc]; cbn [bind ret]; auto.
  destruct (K a b c) as [o tk]. rewrite ?app_nil_r, ?app_assoc. reflexivity.
Qed.
Lemma fine_squ_impl : forall prec rec, (forall x, fine (prec x) (rec x)) ->
  forall x, fine (par_squ_impl prec x) (squ_impl rec x).
Proof.
  intros prec rec IH x Rd s0. unfold par_squ_impl, squ_impl.
  destruct (_ =? 0)%nat; [apply good_ret|]. destruct (_ =? 1)%nat; [apply good_lift|].
  destruct (_ <=? 3)%nat.
  { unfold par_squ_2_3, squ_2_3word. destruct (negb _); [apply good_panic|].
    apply good_meas_bind, good_bind.
    - set (v := if (length x =? 2)%nat then _ else _). clearbody v.
      apply good_share with (d := triv0); [apply kword_ok|]. intros Rd' s0' rd _ Hrd.
      apply good_par_map; [apply kword_ok|]. intros i _.
      apply (good_rd _ _ _ v _ (fun v => squ_3_bit_pi_5 v (if (i <? 1)%nat then i else i + 1)%nat)).
      { apply (Hrd 0%nat). cbn. lia. }
      intros a. apply good_lift.
    - intros r. apply good_bind; [apply good_lift|]. intros a. apply good_ret. }
  destruct (_ <=? 32)%nat; [|apply good_err]. unfold par_squ_dnq, squ_dnq. apply good_measure.
  set (n := ((length x + 1) / 2)%nat). clearbody n.
  set (xl := firstn n x). set (xh := skipn n x). clearbody xl xh.
  eapply good_eq; [|eapply eq_trans; [apply (seq3_shape (rec xh) (rec xl) (bind (pa_mul xl xh) (fun c => ret (pa_shift c (n + 1))))
    (fun a b c => if (length b =? 2 * n)%nat then pa_add (b ++ a) c
       else bind (pa_add b c) (fun b_c => pa_add (pa_shift a (2 * n)) b_c)) P_fuel)|]].
  2: { destruct (rec xh) as [[a|?|?] ta]; cbn [bind]; auto.
       destruct (rec xl) as [[b|?|?] tb]; cbn [bind]; auto. rewrite bind_assoc.
       destruct (pa_mul xl xh) as [[c|?|?] tc]; cbn [bind]; auto. rewrite ret_bind. reflexivity. }
  apply good_bind.
  - apply good_share with (d := []); [apply kct_ok|]. intros Rd' s0' rd _ Hrd.
    assert (R0 : good Rd' s0' (rd 0%nat) (ret xl)) by (apply (Hrd 0%nat); cbn; lia).
    assert (R1 : good Rd' s0' (rd 1%nat) (ret xh)) by (apply (Hrd 1%nat); cbn; lia).
    apply good_par; [apply kct_ok|]. constructor; [|constructor; [|constructor; [|constructor]]].
    + apply (good_rd _ _ _ xh _ rec); auto. intros a. apply IH.
    + apply (good_rd _ _ _ xl _ rec); auto. intros a. apply IH.
    + apply (good_rd _ _ _ xl _ (fun a => bind (pa_mul a xh) (fun c => ret (pa_shift c (n + 1))))); auto. intros a.
      apply (good_rd _ _ _ xh _ (fun b => bind (pa_mul a b) (fun c => ret (pa_shift c (n + 1))))); auto. intros b.
      apply good_bind; [apply fine_mul|]. intros c. apply good_ret.
  - intros [|a [|b [|c [|z t]]]]; try apply good_panic.
    destruct (_ =? _)%nat; [apply fine_add|]. apply good_bind; [apply fine_add|]. intros. apply fine_add.
Qed.
Lemma fine_squ : forall x, fine (par_squ x) (pa_squ x).
Proof.
  intros x. unfold par_squ, pa_squ. generalize (S (length x)). intros fuel. revert x.
  induction fuel as [|fuel IH]; intros x Rd s0; cbn [par_squ_fuel squ_fuel]; [apply good_panic|].
  apply good_analysed, fine_squ_impl; auto.
Qed.

(** *** rounding *)
Lemma fine_round : forall pc x p, fine (par_round pc x p) (pa_round_at pc x p).
Proof.
  intros pc x [|p] Rd s0; apply good_analysed; cbn [par_round round_at_impl]; [apply good_ret|].
  destruct (_ <=? _)%nat; [apply good_ret|]. apply good_meas_bind. rewrite bind_assoc.
  apply good_bind; [apply fine_sgn|]. intros s. rewrite bind_assoc. apply good_bind; [apply good_lift|].
  intros r. rewrite ret_bind. apply fine_add.
Qed.

(** *** scalar multiplication *)
Lemma fine_asc_eval : forall c x, fine (par_asc_eval c x) (asc_eval_ct c x).
Proof.
  intros c x Rd s0. unfold par_asc_eval, asc_eval_ct, asc_eval. apply good_bind; [|intros; apply good_ret].
  apply good_fold. intros vs a. unfold asc_step. apply good_bind; [apply good_lift|]. intros l. rewrite ret_bind.
  apply good_bind; [apply good_lift|]. intros r. rewrite !ret_bind.
  apply good_bind; [apply fine_add|]. intros. apply good_ret.
Qed.
Lemma mapM_pair : forall {K X} (f : K -> M X) ks, 
  mapM (fun k => bind (f k) (fun v => ret (k, v))) ks = bind (mapM f ks) (fun vs => ret (combine ks vs)).
Proof.
  intros K X f ks. induction ks as [|k ks IH]; cbn [mapM]; [reflexivity|]. rewrite IH.
  destruct (f k) as [[v|?|?] t]; cbn [bind ret]; auto.
  destruct (mapM f ks) as [[vs|?|?] u]; cbn [bind ret]; rewrite ?app_nil_r; auto. 
Qed.
Lemma fine_scalar_mul : forall pc k x, fine (par_scalar_mul pc k x) (pa_scalar_mul pc k x).
Proof.
  intros pc k x Rd s0. apply good_analysed. unfold par_scalar_mul, scalar_mul_impl.
  set (xp := if 0 <=? k then x else map w_opp x). clearbody xp.
  apply good_bind; [apply good_lift|]. intros ka. destruct (u32 ka =? 0); [apply good_ret|].
  destruct (u32 ka =? 1); [apply good_ret|]. apply good_bind; [apply good_lift|]. intros ws.
  set (g := fun wiabs => bind (asc_get (asc_12 pc) wiabs) (fun c => expect (asc_eval_ct c xp))).
  eapply good_eq; [apply good_bind with (r := mapM g (window_keys ws)) (g := fun wx =>
     bind (mapM (mulary_row (combine (window_keys ws) wx)) ws) (fun mulary =>
       if (length mulary =? 1)%nat then index mulary 0 else measure (reduce_mulsquary mulary)))|].
  - apply good_share with (d := []); [apply kct_ok|]. intros Rd' s0' rd _ Hrd.
    apply good_par_map; [apply kct_ok|]. intros w _. unfold g. apply good_bind; [apply good_lift|]. intros c.
    apply (good_rd _ _ _ xp _ (fun xp => expect (asc_eval_ct c xp))); [apply (Hrd 0%nat); cbn; lia|].
    intros a. apply good_expect, fine_asc_eval.
  - intros wx. apply good_bind; [apply good_lift|]. intros m. destruct (_ =? 1)%nat; [apply good_lift|].
    apply good_measure, fine_reduce.
  - transitivity (bind (bind (mapM g (window_keys ws)) (fun vs => ret (combine (window_keys ws) vs)))
      (fun wm => bind (mapM (mulary_row wm) ws) (fun mulary =>
       if (length mulary =? 1)%nat then index mulary 0 else measure (reduce_mulsquary mulary)))).
    + rewrite bind_assoc. destruct (mapM g (window_keys ws)) as [[vs|?|?] t]; cbn [bind]; auto. rewrite ret_bind. reflexivity.
    + rewrite <- mapM_pair. f_equal. unfold g. rewrite !mapM_seqM. f_equal. apply map_ext. intros w.
      rewrite bind_assoc. reflexivity.
Qed.

(** *** programs and networks *)
Lemma fine_run : forall pc e env, fine (par_run pc env e) (run (arith_ct pc) env e).
Proof.
  intros pc e. induction e; intros env Rd s0; cbn [par_run run arith_ct a_zero a_opp a_shift a_add a_sub a_add_const
    a_scalar_mul a_sgn a_max a_relu a_mul a_squ a_round_at];
    try apply good_ret;
    repeat (apply good_bind; [solve [apply IHe|apply IHe1|apply IHe2]|intros ?]);
    try apply good_ret;
    solve [apply fine_add|apply fine_sub|apply fine_add_const|apply fine_scalar_mul|apply fine_sgn|apply fine_max
      |apply fine_relu|apply fine_mul|apply fine_squ|apply fine_round|apply IHe2].
Qed.
Lemma fine_affine : forall pc w a b, fine (par_affine pc w a b) (affine_pool (arith_ct pc) w a b).
Proof.
  intros pc w a b Rd s0. apply good_bind; [|intros; apply fine_add_const]. apply good_fold.
  intros s wa. apply good_bind; [apply fine_scalar_mul|]. intros. apply fine_add.
Qed.
Lemma fine_max_pairs : forall pc n a, (length a <= n)%nat -> fine (par_max_pairs pc a) (max_pairs (arith_ct pc) a).
Proof.
  intros pc n. induction n as [|n IH]; intros a Ha; (destruct a as [|x [|y t]]; intros Rd s0; cbn [par_max_pairs max_pairs];
    [apply good_ret|cbn in Ha; try lia; try apply good_ret|cbn in Ha; try lia]).
  apply good_bind; [apply fine_max|]. intros m. apply good_bind; [apply IH; lia|]. intros. apply good_ret.
Qed.
Lemma fine_max_rec : forall pc fuel a, fine (par_max_rec fuel pc a) (max_pool_recursion (arith_ct pc) fuel a).
Proof.
  intros pc fuel. induction fuel as [|fuel IH]; intros a Rd s0; cbn [par_max_rec max_pool_recursion]; [apply good_panic|].
  destruct a as [|x [|y t]]; [apply good_ret|apply good_ret|].
  apply good_bind; [eapply fine_max_pairs; reflexivity|]. intros h. apply IH.
Qed.
Lemma fine_nn : forall pc nn xs, fine (par_nn pc nn xs) (nn_eval (arith_ct pc) nn xs).
Proof.
  intros pc nn xs Rd s0. unfold par_nn, nn_eval. apply good_meas_bind, good_bind; [|intros; apply good_ret].
  apply good_fold. intros st l. apply good_measure. apply good_bind; [|intros; apply good_ret].
  apply good_map. intros p. apply good_measure. unfold par_perceptron. destruct (p_t p).
  - apply good_bind; [apply good_map; intros; apply fine_scalar_mul|]. intros wa.
    apply good_bind; [apply fine_max_rec|]. intros. apply fine_add_const.
  - apply fine_affine.
  - apply good_bind; [apply fine_affine|]. intros. apply fine_relu.
Qed.
End Ops.
