(** Fingerprints of circuits: a second backend on which the weights of a whole
    circuit can be computed without comparing terms. Samples with different
    fingerprints are different; samples with equal ones are counted as if they
    were the same. Not a model of code: a tool for C34. *)
From Verif Require Import Base Backend Words Params Pbs Addition Multiplication Squaring
  Symbolic Weights BaseProofs RelProofs.
From Coq Require Import ZifyBool ZifyNat.

(* ------------------------------------------------------------------ *)
(** ** Bounds on coefficients, by fingerprint *)

Definition mass := list (Z * Z).
Fixpoint add_mass (h c : Z) (l : mass) : mass :=
  match l with
  | [] => [(h, c)]
  | (h', c') :: t => if h =? h' then (h', c + c') :: t else (h', c') :: add_mass h c t
  end.
Definition merge (a b : mass) : mass := fold_right (fun p l => add_mass (fst p) (snd p) l) b a.
Definition scale (k : Z) (a : mass) : mass := map (fun p => (fst p, Z.abs k * snd p)) a.
Definition heft (l : mass) : Z := fold_right (fun p s => snd p * snd p + s) 0 l.
Fixpoint get (l : mass) (h : Z) : Z :=
  match l with
  | [] => 0
  | (h', c) :: t => if h =? h' then c else get t h
  end.
Definition positive (l : mass) : Prop := Forall (fun p => 0 <= snd p) l.

Lemma add_get : forall h c l k, get (add_mass h c l) k = get l k + (if k =? h then c else 0).
Proof.
  intros h c l k. induction l as [|[h' c'] l IH]; cbn [add_mass get].
  - destruct (k =? h); lia.
  - destruct (h =? h') eqn:E; cbn [get].
    + apply Z.eqb_eq in E. subst h'. destruct (k =? h); lia.
    + destruct (k =? h') eqn:E'; [|exact IH]. destruct (k =? h) eqn:E''; lia.
Qed.
Lemma add_positive : forall h c l, 0 <= c -> positive l -> positive (add_mass h c l).
Proof.
  intros h c l Hc H. induction H as [|[h' c'] l H1 H2 IH]; cbn [add_mass].
  - repeat constructor. exact Hc.
  - cbn [snd] in H1. destruct (h =? h'); constructor; auto; cbn [snd]; lia.
Qed.
Lemma get_positive : forall l k, positive l -> 0 <= get l k.
Proof.
  intros l k H. induction H as [|[h c] l H1 H2 IH]; cbn [get]; [lia|]. cbn [snd] in H1. destruct (k =? h); auto.
Qed.
Lemma merge_positive : forall a b, positive a -> positive b -> positive (merge a b).
Proof.
  intros a b Ha Hb. induction Ha as [|[h c] a H1 H2 IH]; cbn [merge fold_right]; auto. apply add_positive; auto.
Qed.
Lemma merge_get : forall a b k, positive a -> positive b -> get a k + get b k <= get (merge a b) k.
Proof.
  intros a b k Ha Hb. induction Ha as [|[h c] a H1 H2 IH]; [cbn; lia|].
  change (merge ((h, c) :: a) b) with (add_mass h c (merge a b)). rewrite add_get. cbn [get].
  cbn [snd] in H1. pose proof (get_positive a k H2). destruct (k =? h); lia.
Qed.
Lemma scale_positive : forall k a, positive a -> positive (scale k a).
Proof.
  intros k a H. induction H as [|[h c] a H1 H2 IH]; cbn [scale map]; constructor; auto. cbn [fst snd] in *. nia.
Qed.
Lemma scale_get : forall k a h, get (scale k a) h = Z.abs k * get a h.
Proof.
  intros k a h. induction a as [|[h' c] a IH]; cbn [scale map get fst snd]; [lia|]. destruct (h =? h'); auto.
Qed.

(** absolute values of coefficients, summed over the samples of one fingerprint *)
Fixpoint part (f : term -> Z) (g : term -> Z) (h : Z) (l : list term) : Z :=
  match l with
  | [] => 0
  | a :: t => (if g a =? h then Z.abs (f a) else 0) + part f g h t
  end.
Lemma part_nonneg : forall f g h l, 0 <= part f g h l.
Proof. intros f g h l. induction l as [|a l IH]; cbn [part]; [lia|]. destruct (g a =? h); lia. Qed.

Definition other (g : term -> Z) (h : Z) (l : list term) : list term := filter (fun a => negb (g a =? h)) l.
Lemma part_other : forall f g h k l, part f g k (other g h l) = if k =? h then 0 else part f g k l.
Proof.
  intros f g h k l. induction l as [|a l IH]; cbn [other filter part]; [destruct (k =? h); reflexivity|].
  fold (other g h l). destruct (g a =? h) eqn:E; cbn [negb part]; rewrite IH.
  - destruct (k =? h) eqn:E'; auto. destruct (g a =? k) eqn:E''; lia.
  - destruct (k =? h) eqn:E'; [|reflexivity]. destruct (g a =? k) eqn:E''; lia.
Qed.
Lemma sq_split : forall f g h l, sq_sum f l <= part f g h l * part f g h l + sq_sum f (other g h l).
Proof.
  intros f g h l. induction l as [|a l IH]; [cbn; lia|].
  cbn [part other filter]. fold (other g h l). pose proof (part_nonneg f g h l) as P.
  destruct (g a =? h); cbn [negb]; unfold sq_sum in *; cbn [fold_right] in *; nia.
Qed.
(** the sum of squares is at most the sum of the squared bounds *)
Lemma heft_bounds : forall L f g l, positive L -> (forall h, part f g h l <= get L h) -> sq_sum f l <= heft L.
Proof.
  intros L f g. induction L as [|[h c] L IH]; intros l HP H.
  - cbn [heft fold_right]. induction l as [|a l IHl]; [cbn; lia|].
    assert (E : f a = 0).
    { specialize (H (g a)). cbn [part get] in H. rewrite Z.eqb_refl in H. pose proof (part_nonneg f g (g a) l). lia. }
    unfold sq_sum in *. cbn [fold_right]. rewrite E. apply IHl. intros k. specialize (H k). cbn [part get] in *.
    destruct (g a =? k); lia.
  - inversion HP as [|? ? H1 H2]; subst. cbn [snd] in H1.
    pose proof (sq_split f g h l) as S. pose proof (H h) as Hh. cbn [get] in Hh. rewrite Z.eqb_refl in Hh.
    assert (K : sq_sum f (other g h l) <= heft L).
    { apply IH; auto. intros k. rewrite part_other. specialize (H k). cbn [get] in H.
      destruct (k =? h); [apply get_positive; auto|exact H]. }
    pose proof (part_nonneg f g h l). unfold heft in *. cbn [fold_right snd]. nia.
Qed.

Lemma part_add : forall f f' f'' g h l, (forall a, Z.abs (f a) <= Z.abs (f' a) + Z.abs (f'' a)) ->
  part f g h l <= part f' g h l + part f'' g h l.
Proof.
  intros f f' f'' g h l H. induction l as [|a l IH]; cbn [part]; [lia|]. specialize (H a). destruct (g a =? h); lia.
Qed.
Lemma part_scale : forall f f' k g h l, (forall a, f a = k * f' a) -> part f g h l = Z.abs k * part f' g h l.
Proof.
  intros f f' k g h l H. induction l as [|a l IH]; cbn [part]; [lia|]. rewrite H, Z.abs_mul. destruct (g a =? h); lia.
Qed.
Lemma part_one : forall t g h l, NoDup l ->
  part (fun a => if term_eq_dec t a then 1 else 0) g h l <= if h =? g t then 1 else 0.
Proof.
  intros t g h l H. induction H as [|a l H1 H2 IH]; cbn [part]; [destruct (h =? g t); lia|].
  destruct (term_eq_dec t a) as [E|E].
  - subst a. assert (Z0 : part (fun a => if term_eq_dec t a then 1 else 0) g h l = 0).
    { clear IH H2. induction l as [|b l IHl]; [reflexivity|]. cbn [part]. cbn [In] in H1.
      destruct (term_eq_dec t b) as [->|_]; [tauto|]. rewrite IHl by tauto. destruct (g b =? h); reflexivity. }
    rewrite Z0. destruct (g t =? h) eqn:E, (h =? g t) eqn:E'; lia.
  - destruct (g a =? h); cbn [Z.abs]; lia.
Qed.

(* ------------------------------------------------------------------ *)
(** ** The backend of fingerprints *)

(** A combination: its coefficients by fingerprint, its own fingerprint, the
    heaviest bootstrap input behind it. *)
Record print := mkPrint { lin : mass; mark : Z; heavy : Z }.
Definition mask : Z := 1048575.
Definition mix (z : Z) : Z := Z.land (z * (2 * z + 1) + Z.shiftr z 8) mask.
Definition sample_print (m : Z) (w : Z) : print := mkPrint [(m, 1)] m w.
Definition var_print (i : nat) : print := sample_print (mix (1000 + 777 * Z.of_nat i)) 0.

Section Prints.
Context (look : list Z -> Z).
Definition prints (N : nat) : backend := mkBackend print
  (fun a b => mkPrint (merge (lin a) (lin b)) (Z.land (3 * mark a + mark b) mask) (Z.max (heavy a) (heavy b)))
  (fun a p => mkPrint (lin a) (mark a + Z.shiftr p 58) (heavy a))
  (fun a => mkPrint (lin a) (mark a + 5) (heavy a))
  (fun a k => mkPrint (scale k (lin a)) (7 * mark a + k) (heavy a))
  (fun acc a => sample_print (mix (mark a + look acc)) (Z.max (heavy a) (heft (lin a))))
  N.

Definition printed (t : term) : print := teval (prints 0) var_print t.
Definition mark_of (t : term) : Z := mark (printed t).

Lemma printed_sound : forall t, positive (lin (printed t)) /\
  (forall l h, NoDup l -> part (coef t) mark_of h l <= get (lin (printed t)) h) /\
  (forall u, In u (boot_inputs t) -> qle (coef u) (heavy (printed t))).
Proof.
  assert (ONE : forall t m w, m = mark_of t -> (forall a, coef t a = if term_eq_dec t a then 1 else 0) ->
    positive (lin (sample_print m w)) /\
    (forall l h, NoDup l -> part (coef t) mark_of h l <= get (lin (sample_print m w)) h)).
  { intros t m w -> E. split; [repeat constructor; cbn; lia|]. intros l h H. cbn [sample_print lin get].
    eapply Z.le_trans; [|apply (part_one t mark_of h l H)].
    apply Z.eq_le_incl. clear H. induction l as [|a l IH]; cbn [part]; auto. rewrite E, IH. reflexivity. }
  assert (UP : forall u f m n, qle f m -> m <= n -> (u : term) = u -> qle f n).
  { intros _ f m n H L _ l Hl. specialize (H l Hl). lia. }
  induction t as [i|a IHa b IHb|a IHa p|a IHa|a IHa k|acc a IHa].
  - split; [|split].
    + apply (ONE (TVar i) _ 0 eq_refl). reflexivity.
    + apply (ONE (TVar i) (mark_of (TVar i)) 0 eq_refl). reflexivity.
    + intros u [].
  - destruct IHa as [A1 [A2 A3]], IHb as [B1 [B2 B3]].
    change (printed (TAdd a b)) with (mkPrint (merge (lin (printed a)) (lin (printed b)))
      (Z.land (3 * mark (printed a) + mark (printed b)) mask) (Z.max (heavy (printed a)) (heavy (printed b)))).
    cbn [lin heavy]. split; [apply merge_positive; auto|]. split.
    + intros l h H. eapply Z.le_trans; [|apply merge_get; auto].
      eapply Z.le_trans; [apply (part_add _ (coef a) (coef b)); intros x; cbn [coef]; lia|].
      specialize (A2 l h H). specialize (B2 l h H). lia.
    + intros u Hu. cbn [boot_inputs] in Hu. apply in_app_or in Hu. destruct Hu as [Hu|Hu].
      * eapply (UP u); [apply A3; auto|lia|reflexivity].
      * eapply (UP u); [apply B3; auto|lia|reflexivity].
  - exact IHa.
  - destruct IHa as [A1 [A2 A3]]. split; [exact A1|]. split; [|exact A3]. intros l h H.
    rewrite (part_scale _ (coef a) (-1)) by (intros x; cbn [coef]; lia). specialize (A2 l h H).
    change (lin (printed (TOpp a))) with (lin (printed a)). lia.
  - destruct IHa as [A1 [A2 A3]]. change (lin (printed (TMul a k))) with (scale k (lin (printed a))).
    split; [apply scale_positive; auto|]. split; [|exact A3]. intros l h H.
    rewrite (part_scale _ (coef a) k) by reflexivity. rewrite scale_get. specialize (A2 l h H). nia.
  - destruct IHa as [A1 [A2 A3]]. split; [|split].
    + apply (ONE (TLut acc a) (mark_of (TLut acc a)) 0 eq_refl). reflexivity.
    + apply (ONE (TLut acc a) (mark_of (TLut acc a)) 0 eq_refl). reflexivity.
    + change (heavy (printed (TLut acc a))) with (Z.max (heavy (printed a)) (heft (lin (printed a)))).
      intros u [<-|Hu].
      * intros l Hl. eapply Z.le_trans; [apply (heft_bounds (lin (printed a)) _ mark_of l A1); intros h; apply A2; auto|lia].
      * eapply (UP u); [apply A3; auto|lia|reflexivity].
Qed.

(** circuits and their prints, computed side by side *)
Definition is_print (t : term) (c : print) : Prop := c = printed t.
Lemma print_sim : forall N N', (forall h, look (gen_no_padding_acc N h) = look (gen_no_padding_acc N' h)) ->
  simulation (sym N) (prints N') is_print.
Proof.
  intros N N' HL. unfold is_print. constructor; cbn [ct ct_add ct_add_pt ct_opp ct_mul ct_lut poly_size sym prints].
  - intros a b a' b' -> ->. reflexivity.
  - intros a a' p ->. reflexivity.
  - intros a a' ->. reflexivity.
  - intros a a' k ->. reflexivity.
  - intros a a' h ->. rewrite <- HL. reflexivity.
Qed.

Fixpoint pinput (N n : nat) (s : list (option Z)) : ciphertext (prints N) :=
  match s with
  | [] => []
  | Some p :: t => Triv p :: pinput N n t
  | None :: t => @Ct (prints N) (var_print n) :: pinput N (S n) t
  end.
Lemma pinput_rel : forall N N' s n, Forall2 (wrel (B1 := sym N) (B2 := prints N') is_print) (sinput N n s) (pinput N' n s).
Proof.
  intros N N'. induction s as [|[p|] s IH]; intros n; cbn [sinput pinput]; constructor; auto; reflexivity.
Qed.

(** a computed bound *)
Definition light (N : nat) (n : Z) (m : M (ciphertext (prints N))) : bool :=
  match fst m with
  | Ok z => forallb (fun w : word (prints N) => match w with Ct c => heavy c <=? n | Triv _ => true end) z
  | _ => false
  end.
Lemma light_within : forall N N' X n (m : M (ciphertext (sym N))) (m' : M (ciphertext (prints N'))),
  mrel X (Forall2 (wrel (B1 := sym N) (B2 := prints N') is_print)) m m' -> light N' n m' = true ->
  exists z, fst m = Ok z /\ within n z.
Proof.
  intros N N' X n [[z|e|e] t0] [[z'|e'|e'] t'] [R _] H; unfold light in H; cbn [fst] in *; try tauto; try discriminate.
  exists z. split; [reflexivity|]. intros t u Ht Hu.
  assert (K : qle (coef u) (heavy (printed t)) /\ heavy (printed t) <= n).
  { split; [apply printed_sound; auto|]. clear Hu.
    revert H Ht. induction R as [|w w' z z' R1 R2 IH]; intros H Ht; [cbn in Ht; tauto|]. cbn [forallb] in H. apply andb_prop in H as [H1 H2].
    cbn [secrets flat_map] in Ht. apply in_app_or in Ht. destruct Ht as [Ht|Ht]; [|apply IH; auto].
    destruct w as [c|p], w' as [c'|p']; cbn [wrel] in R1; try tauto; [|destruct Ht].
    destruct Ht as [<-|[]]. rewrite R1 in H1. lia. }
  destruct K as [K1 K2]. intros l Hl. specialize (K1 l Hl). lia.
Qed.
End Prints.

(* ------------------------------------------------------------------ *)
(** ** Products: without looking at the tables *)

Definition blind (acc : list Z) : Z := 9.
Definition mul_light (n : nat) : bool :=
  light blind 0 22 (pa_mul (pinput blind 0 0 (repeat None n)) (pinput blind 0 n (repeat None n))).
Lemma mul_light_all : forallb mul_light (16%nat :: seq 18 15) = true.
Proof. vm_compute. reflexivity. Qed.

(** ** Squares: looking at two entries of the table *)

Definition seen (z : Z) : Z := match z with Z0 => 0 | _ => 1 end.
Definition peek (acc : list Z) : Z :=
  1 + 2 * seen (nth (3 * (length acc / 16)) acc 0) + 3 * seen (nth (4 * (length acc / 16)) acc 0).
Definition squ_light (n : nat) : bool := light peek 16 22 (pa_squ (pinput peek 16 0 (repeat None n))).
Lemma squ_light_all : forallb squ_light (seq 2 31) = true.
Proof. vm_compute. reflexivity. Qed.
