(** Exact bootstrap counts and depths of products and squares. A backend whose
    ciphertexts are just depths, and the operations again on lists of such
    depths, quick to compute (C51, C52). *)
From Verif Require Import Base Backend Words Encryption Params Pbs Addition Multiplication Squaring
  Rounding Naf Asc AscTable ScalarMul
  Spec Symbolic BaseProofs EncProofs BitsProofs NafProofs RelProofs ShapeProofs CountProofs DepthProofs AddProofs MulProofs
  TotalProofs ScalarProofs.
From Coq Require Import ZifyBool ZifyNat.

(** a ciphertext is the number of bootstraps on its longest path *)
Definition depths : backend :=
  mkBackend nat Nat.max (fun a _ => a) (fun a => a) (fun a _ => a) (fun _ a => S a) 1.

(** ** The operations on depths; [None] is a trivial zero *)
Definition dw : Type := option nat.
Definition join (a b : dw) : dw :=
  match a, b with
  | Some x, Some y => Some (Nat.max x y)
  | None, _ => b
  | _, None => a
  end.
Definition up (a : dw) : dw := option_map S a.
Definition paid (a : dw) : Z := match a with Some _ => 1 | None => 0 end.
Definition sumZ (l : list Z) : Z := fold_right Z.add 0 l.
Definition tw (a : dw) : word depths := match a with Some d => @Ct depths d | None => triv0 end.
Notation td := (map tw).

(** cost and result *)
Definition cost (A : Type) : Type := (Z * A)%type.
Definition cret {A} (a : A) : cost A := (0, a).
Definition cbind {A C} (m : cost A) (f : A -> cost C) : cost C :=
  let (c, a) := m in let (c', b) := f a in (c + c', b).

Fixpoint zeros (x : list dw) : nat :=
  match x with None :: t => S (zeros t) | _ => 0 end.
Fixpoint zipj (w y : list dw) : list dw :=
  match w, y with wi :: wt, yi :: yt => join wi yi :: zipj wt yt | _, _ => w end.

Definition addc (x y : list dw) : cost (list dw) :=
  if (zeros x =? length x)%nat then cret y
  else if (zeros y =? length y)%nat then cret x
  else
    let rt := Nat.max (zeros x) (zeros y) in
    let wlen := Nat.max (length x - zeros (rev x)) (length y - zeros (rev y)) in
    let w := zipj (firstn wlen x ++ repeat None (wlen - length x)) y in
    let q_in := map (fun i0 => let i := (i0 + rt)%nat in
                       if (0 <? i0)%nat then join (nth i w None) (nth (i - 1) w None) else nth i w None)
                    (seq 0 (wlen - rt)) in
    let q := repeat None rt ++ map up q_in in
    let w' := map (fun i => let wi := join (nth i w None) (nth i q None) in
                     if (0 <? i)%nat then join wi (nth (i - 1) q None) else wi) (seq 0 wlen) in
    (sumZ (map paid q_in) + sumZ (map paid (skipn rt w')),
     firstn rt w' ++ map up (skipn rt w') ++ [last q None]).

Definition mulw (a b : dw) : cost dw :=
  match a, b with
  | Some x, Some y => (1, Some (S (Nat.max x y)))
  | None, _ => (0, b)
  | _, None => (0, a)
  end.
Definition mulary (x y : list dw) : cost (list (list dw)) :=
  let len := length x in
  let rows := map (fun jyj : nat * dw => map (fun a => mulw a (snd jyj)) x) (combine (seq 0 len) y) in
  (sumZ (map (fun r => sumZ (map fst r)) rows),
   map (fun jr : nat * list (cost dw) => repeat None (fst jr) ++ map snd (snd jr) ++ repeat None (2 * len - fst jr - len))
       (combine (seq 0 len) rows)).
Definition sumc (rows : list (list dw)) : cost (list dw) :=
  match rows with
  | r0 :: r1 :: rest => fold_left (fun m r => cbind m (fun acc => addc acc r)) rest (addc r0 r1)
  | _ => cret []
  end.
Definition schoolc (x y : list dw) : cost (list dw) := cbind (mulary x y) sumc.
Definition karac (rec : list dw -> list dw -> cost (list dw)) (x y : list dw) : cost (list dw) :=
  let len0 := ((length x + 1) / 2)%nat in
  let x0 := firstn len0 x in let x1 := skipn len0 x in
  let y0 := firstn len0 y in let y1 := skipn len0 y in
  cbind (rec x1 y1) (fun a => cbind (rec x0 y0) (fun b =>
  cbind (addc a b) (fun s => cbind (addc x0 x1) (fun x01 => cbind (addc y0 y1) (fun y01 =>
  cbind (rec x01 y01) (fun c =>
  cbind (addc (repeat None len0 ++ c) (repeat None len0 ++ s)) (fun d =>
  if (length b =? 2 * len0)%nat then addc (b ++ a) d
  else cbind (addc b d) (fun e => addc (repeat None (2 * len0) ++ a) e)))))))).
Fixpoint mulc (fuel : nat) (x y : list dw) : cost (list dw) :=
  match fuel with
  | O => cret []
  | S f =>
      let x := x ++ repeat None (length y - length x) in
      let y := y ++ repeat None (length x - length y) in
      let l := length x in
      if (l =? 0)%nat then cret []
      else if (l =? 1)%nat then cbind (mulary x y) (fun m => cret (nth 0 m []))
      else if ((l <? 16) || (l =? 17))%nat then schoolc x y
      else karac (mulc f) x y
  end.
Definition squ23 (x : list dw) : cost (list dw) :=
  let v := if (length x =? 2)%nat then join (nth 1 x None) (nth 0 x None)
           else join (join (nth 2 x None) (nth 1 x None)) (nth 0 x None) in
  let n := (2 * length x - 1)%nat in
  (paid v * Z.of_nat n, up v :: None :: repeat (up v) (n - 1)).
Fixpoint squc (fuel : nat) (x : list dw) : cost (list dw) :=
  match fuel with
  | O => cret []
  | S f =>
      let l := length x in
      if (l =? 0)%nat then cret []
      else if (l =? 1)%nat then (paid (nth 0 x None), [up (nth 0 x None)])
      else if (l <=? 3)%nat then squ23 x
      else
        let len0 := ((l + 1) / 2)%nat in
        let x0 := firstn len0 x in let x1 := skipn len0 x in
        cbind (squc f x1) (fun a => cbind (squc f x0) (fun b =>
        cbind (mulc (S (Nat.max (length x0) (length x1))) x0 x1) (fun c =>
        let c := repeat None (len0 + 1) ++ c in
        if (length b =? 2 * len0)%nat then addc (b ++ a) c
        else cbind (addc b c) (fun e => addc (repeat None (2 * len0) ++ a) e))))
  end.

Definition fresh_dw (n : nat) : list dw := repeat (Some 0%nat) n.
Definition deepest (x : list dw) : nat := fold_right (fun a d => match a with Some k => Nat.max k d | None => d end) 0%nat x.

(* ------------------------------------------------------------------ *)
(** ** The model on the backend of depths does the same *)
Definition runs {A} (m : M A) (a : A) (c : Z) : Prop := fst m = Ok a /\ Z.of_nat (npbs (snd m)) = c.

Lemma runs_ret : forall A (a : A), runs (ret a) a 0.
Proof. intros A a. split; reflexivity. Qed.
Lemma runs_bind : forall A C (m : M A) (f : A -> M C) a b c1 c2,
  runs m a c1 -> runs (f a) b c2 -> runs (bind m f) b (c1 + c2).
Proof.
  intros A C m f a b c1 c2 [E1 N1] [E2 N2]. split.
  - rewrite fst_bind, E1. exact E2.
  - rewrite snd_bind, E1, npbs_app. lia.
Qed.
Lemma runs_eq : forall A (m : M A) a c c', runs m a c -> c = c' -> runs m a c'.
Proof. intros A m a c c' H <-. exact H. Qed.
Lemma runs_measure : forall A (m : M A) a c, runs m a c -> runs (measure m) a c.
Proof.
  intros A m a c [E N]. split; [rewrite fst_measure; exact E|].
  rewrite snd_measure, E. cbn [npbs]. rewrite npbs_app. cbn [npbs]. lia.
Qed.
Lemma runs_analysed : forall A (m : M A) a c, runs m a c -> runs (analysed m) a c.
Proof.
  intros A m a c [E N]. split; [rewrite fst_analysed, E; reflexivity|].
  rewrite snd_analysed, E. cbn [npbs]. rewrite npbs_app. cbn [npbs]. lia.
Qed.
Lemma runs_expect : forall A (m : M A) a c, runs m a c -> runs (expect m) a c.
Proof. intros A m a c [E N]. split; [rewrite fst_expect, E; reflexivity|]. rewrite snd_expect. exact N. Qed.
Lemma runs_mapM : forall A C (f : A -> M C) (g : A -> C) (k : A -> Z) l,
  (forall a, In a l -> runs (f a) (g a) (k a)) -> runs (mapM f l) (map g l) (sumZ (map k l)).
Proof.
  intros A C f g k l. induction l as [|a l IH]; intros H; cbn [mapM map sumZ fold_right]; [apply runs_ret|].
  eapply runs_bind; [apply H; left; auto|]. eapply runs_eq.
  - eapply runs_bind; [apply IH; intros; apply H; right; auto|]. apply runs_ret.
  - unfold sumZ. lia.
Qed.
Lemma runs_index : forall A (l : list A) i a, nth_error l i = Some a -> runs (index l i) a 0.
Proof. intros A l i a H. unfold index. rewrite H. apply runs_ret. Qed.

Lemma tw_add : forall a b, w_add (tw a) (tw b) = tw (join a b).
Proof. intros [a|] [b|]; reflexivity. Qed.
Lemma tw_mul : forall a k, 0 <= k -> w_mul_const (tw a) k = tw a.
Proof. intros [a|] k H; unfold w_mul_const; replace (k <? 0) with false by lia; [reflexivity|]. cbn. reflexivity. Qed.
Lemma tw_opp : forall a, w_opp (tw a) = tw a.
Proof. intros [a|]; reflexivity. Qed.
Lemma tw_sub : forall a b, w_sub (tw a) (tw b) = tw (join a b).
Proof. intros a b. unfold w_sub. rewrite tw_opp. apply tw_add. Qed.
Lemma tw_f4 : forall a, runs (f_4_pi_5 (tw a)) (tw (up a)) (paid a).
Proof. intros [a|]; split; vm_compute; reflexivity. Qed.
Lemma tw_id : forall a, runs (id_pi_5 (tw a)) (tw (up a)) (paid a).
Proof. intros [a|]; split; vm_compute; reflexivity. Qed.
Lemma td_opp : forall x, map w_opp (td x) = td x.
Proof. intros x. rewrite map_map. apply map_ext. apply tw_opp. Qed.
Lemma td_triv : forall n, ct_triv n = td (repeat None n).
Proof. intros n. unfold ct_triv. induction n; cbn; congruence. Qed.
Lemma td_zeros : forall x, count_triv_zeros (td x) = zeros x.
Proof. induction x as [|[a|] x IH]; cbn [map count_triv_zeros zeros]; auto. cbn. rewrite IH. reflexivity. Qed.
Lemma td_nth : forall x i, nth i (td x) triv0 = tw (nth i x None).
Proof. intros x i. change (@triv0 depths) with (tw None). apply map_nth. Qed.
Lemma td_firstn : forall n x, firstn n (td x) = td (firstn n x).
Proof. intros n x. apply firstn_map. Qed.
Lemma td_skipn : forall n x, skipn n (td x) = td (skipn n x).
Proof. intros n x. apply skipn_map. Qed.
Lemma td_shift : forall x k, pa_shift (td x) k = td (repeat None k ++ x).
Proof.
  intros x [|k]; [reflexivity|]. unfold pa_shift. rewrite map_app, <- td_triv. reflexivity.
Qed.
Lemma td_last : forall x, last (td x) triv0 = tw (last x None).
Proof. induction x as [|a x IH]; [reflexivity|]. cbn [map last]. destruct x; [reflexivity|]. exact IH. Qed.
Lemma td_zip : forall x y, zip_inplace w_add (td x) (td y) = td (zipj x y).
Proof.
  induction x as [|a x IH]; intros [|b y]; cbn [map zip_inplace zipj]; auto. rewrite tw_add, IH. reflexivity.
Qed.
Lemma zeros_le : forall x, (zeros x <= length x)%nat.
Proof. induction x as [|[a|] x IH]; cbn; lia. Qed.

Lemma runs_add : forall x y, runs (pa_add (td x) (td y)) (td (snd (addc x y))) (fst (addc x y)).
Proof.
  intros x y. apply runs_analysed.
  destruct (add_sub_total true (td x) (td y) true) as [z0 [Hz0 _]].
  revert Hz0. unfold add_sub_impl, addc. rewrite !td_zeros, !map_length, <- !map_rev, !td_zeros.
  destruct (zeros x =? length x)%nat; [intros _; apply runs_ret|].
  destruct (zeros y =? length y)%nat; [intros _; apply runs_ret|].
  set (rt := Nat.max (zeros x) (zeros y)). set (wlen := Nat.max _ _).
  rewrite td_firstn, td_triv, <- map_app, td_zip. set (w := zipj _ y).
  destruct (wlen <=? rt)%nat eqn:Ew; [rewrite fst_measure; discriminate|]. intros _.
  apply runs_measure. cbn [fst snd].
  set (q_in := map (fun i0 : nat => let i := (i0 + rt)%nat in _) (seq 0 (wlen - rt))).
  set (q := repeat None rt ++ map up q_in).
  set (w' := map (fun i => let wi := join (nth i w None) (nth i q None) in _) (seq 0 wlen)).
  apply (runs_bind _ _ _ _ (td (map up q_in))).
  { replace (td (map up q_in)) with (map (fun i0 =>
        tw (up (if (0 <? i0)%nat then join (nth (i0 + rt) w None) (nth (i0 + rt - 1) w None) else nth (i0 + rt) w None)))
        (seq 0 (wlen - rt))) by (unfold q_in; rewrite !map_map; reflexivity).
    unfold q_in. rewrite map_map. apply runs_mapM.
    intros i0 _. rewrite !td_nth, tw_mul by lia. destruct (0 <? i0)%nat; [rewrite tw_add|]; apply tw_f4. }
  rewrite td_triv, <- map_app. fold q.
  replace (map _ (seq 0 wlen)) with (td w').
  2:{ unfold w'. rewrite map_map. apply map_ext. intros i. rewrite !td_nth, tw_mul, tw_sub by lia.
      destruct (0 <? i)%nat; [rewrite tw_add|]; reflexivity. }
  rewrite td_skipn, td_firstn, td_last.
  apply (runs_eq _ _ _ (sumZ (map paid (skipn rt w')) + 0)); [|lia].
  apply (runs_bind _ _ _ _ (td (map up (skipn rt w')))).
  - generalize (skipn rt w'). intros l. clear. induction l as [|a l IH]; [apply runs_ret|].
    cbn [map mapM sumZ fold_right]. eapply runs_bind; [apply tw_id|].
    eapply runs_eq; [eapply runs_bind; [exact IH|apply runs_ret]|unfold sumZ; lia].
  - rewrite !map_app. apply runs_ret.
Qed.

Lemma zipj_len : forall w y, length (zipj w y) = length w.
Proof. induction w as [|a w IH]; intros [|b y]; cbn [zipj length]; auto. Qed.
Lemma addc_len : forall x y, (length (snd (addc x y)) <= S (Nat.max (length x) (length y)))%nat.
Proof.
  intros x y. unfold addc.
  destruct (zeros x =? length x)%nat; [cbn; lia|]. destruct (zeros y =? length y)%nat; [cbn; lia|].
  cbn [snd]. rewrite !app_length, map_length, firstn_length, skipn_length, map_length, seq_length. cbn [length]. lia.
Qed.

Lemma runs_mul_lwe : forall a b, runs (expect (mul_lwe (tw a) (tw b))) (tw (snd (mulw a b))) (fst (mulw a b)).
Proof. intros [a|] [b|]; apply runs_expect; split; vm_compute; reflexivity. Qed.

Lemma runs_fill : forall x y, length x = length y ->
  runs (fill_mulary (td x) (td y)) (map td (snd (mulary x y))) (fst (mulary x y)).
Proof.
  intros x y E. unfold fill_mulary, mulary. rewrite !map_length, E, Nat.eqb_refl. cbn [negb fst snd].
  set (len := length y). rewrite !map_map.
  replace (combine (seq 0 len) (td y)) with (map (fun p : nat * dw => (fst p, tw (snd p))) (combine (seq 0 len) y)).
  2:{ generalize (seq 0 len). clear. intros s. revert y. induction s as [|k s IH]; intros [|b y]; cbn; auto. rewrite IH. reflexivity. }
  replace (combine (seq 0 len) (map (fun jyj : nat * dw => map (fun a => mulw a (snd jyj)) x) (combine (seq 0 len) y)))
    with (map (fun p : nat * dw => (fst p, map (fun a => mulw a (snd p)) x)) (combine (seq 0 len) y)).
  2:{ generalize (seq 0 len). clear. intros s. revert y. induction s as [|k s IH]; intros [|b y]; cbn; auto. rewrite IH. reflexivity. }
  rewrite map_map. cbn [fst snd].
  clearbody len. generalize (combine (seq 0 len) y). clear y E. intros l.
  induction l as [|[j b] l IH]; [apply runs_ret|].
  cbn [map mapM fst snd]. unfold sumZ at 1. cbn [fold_right].
  eapply runs_bind.
  - eapply runs_eq; [eapply runs_bind; [|apply runs_ret]|].
    + instantiate (2 := td (map (fun a => snd (mulw a b)) x)).
      instantiate (1 := sumZ (map (fun a => fst (mulw a b)) x)).
      clear. induction x as [|a x IH]; [apply runs_ret|]. cbn [map mapM].
      unfold sumZ. cbn [fold_right].
      eapply runs_bind; [apply runs_mul_lwe|]. eapply runs_eq; [eapply runs_bind; [exact IH|apply runs_ret]|unfold sumZ; lia].
    + rewrite map_map. lia.
  - eapply runs_eq; [eapply runs_bind; [exact IH|]|].
    + rewrite (map_map (fun a => mulw a b) snd), !map_app, !td_triv. apply runs_ret.
    + unfold sumZ. lia.
Qed.

Lemma runs_fold_add : forall rows m acc c, runs m (td acc) c ->
  runs (bind m (fun a => foldM (fun acc row => pa_add acc row) (map td rows) a))
       (td (snd (fold_left (fun m r => cbind m (fun acc => addc acc r)) rows (c, acc))))
       (fst (fold_left (fun m r => cbind m (fun acc => addc acc r)) rows (c, acc))).
Proof.
  induction rows as [|r rows IH]; intros m acc c H.
  - cbn [map foldM fold_left fst snd]. eapply runs_eq; [eapply runs_bind; [exact H|apply runs_ret]|lia].
  - cbn [map foldM fold_left]. unfold cbind at 2. unfold cbind at 3.
    specialize (IH (bind m (fun a => pa_add a (td r))) (snd (addc acc r)) (c + fst (addc acc r))).
    destruct (addc acc r) as [c' b] eqn:E. cbn [fst snd] in IH.
    assert (H2 : runs (bind m (fun a => pa_add a (td r))) (td b) (c + c')).
    { eapply runs_bind; [exact H|]. generalize (runs_add acc r). rewrite E. auto. }
    specialize (IH H2). destruct H as [H1 H3]. destruct IH as [I1 I2]. split.
    + rewrite <- I1. rewrite !fst_bind, H1. rewrite !fst_bind. reflexivity.
    + rewrite <- I2. rewrite !snd_bind, fst_bind, H1, snd_bind. rewrite app_assoc. reflexivity.
Qed.

Lemma runs_reduce : forall rows, (2 <= length rows)%nat ->
  runs (reduce_mulsquary (map td rows)) (td (snd (sumc rows))) (fst (sumc rows)).
Proof.
  intros [|r0 [|r1 rows]] H; cbn [length] in H; [lia|lia|]. unfold reduce_mulsquary.
  eapply runs_eq; [eapply runs_bind; [apply runs_index; reflexivity|]; eapply runs_bind; [apply runs_index; reflexivity|]|].
  - cbn [map skipn]. unfold sumc. rewrite (surjective_pairing (addc r0 r1)).
    apply runs_fold_add. apply runs_add.
  - rewrite !Z.add_0_l. unfold sumc. destruct (addc r0 r1); reflexivity.
Qed.

Lemma cbind_eq : forall A C (m : cost A) (f : A -> cost C),
  cbind m f = (fst m + fst (f (snd m)), snd (f (snd m))).
Proof. intros A C [c a] f. unfold cbind. cbn [fst snd]. destruct (f a); reflexivity. Qed.

(** the model's run and the calculus agree *)
Definition follows {A C} (g : C -> A) (m : M A) (c : cost C) : Prop := runs m (g (snd c)) (fst c).
Lemma fo_ret : forall A C (g : C -> A) (m : M A) a, m = ret (g a) -> follows g m (cret a).
Proof. intros A C g m a ->. apply runs_ret. Qed.
Lemma fo_bind : forall A A' C C' (g : C -> A) (g' : C' -> A') (m : M A) (f : A -> M A') c h,
  follows g m c -> follows g' (f (g (snd c))) (h (snd c)) -> follows g' (bind m f) (cbind c h).
Proof. intros A A' C C' g g' m f c h H1 H2. unfold follows. rewrite cbind_eq. cbn [fst snd]. eapply runs_bind; [exact H1|exact H2]. Qed.
Lemma fo_add : forall x y, follows td (pa_add (td x) (td y)) (addc x y).
Proof. exact runs_add. Qed.

Lemma mulary_len : forall x y, length x = length y -> length (snd (mulary x y)) = length x.
Proof. intros x y E. unfold mulary. cbn [snd]. rewrite map_length, combine_length, map_length, combine_length, seq_length. lia. Qed.

Lemma fo_school : forall x y, length x = length y -> (2 <= length x)%nat ->
  follows td (mul_schoolbook (td x) (td y)) (schoolc x y).
Proof.
  intros x y E H. apply runs_measure. apply (fo_bind _ _ _ _ (map td)); [apply runs_fill; exact E|].
  apply runs_reduce. rewrite mulary_len; assumption.
Qed.

Lemma mul_zero_len : pa_zero = @nil (word depths).
Proof. reflexivity. Qed.

Lemma fo_mul : forall f x y, (Nat.max (length x) (length y) < f)%nat -> (Nat.max (length x) (length y) <= 32)%nat ->
  follows td (mul_fuel f (td x) (td y)) (mulc f x y).
Proof.
  induction f as [|f IH]; intros x y Hf H32; [lia|].
  cbn [mul_fuel mulc]. apply runs_analysed. unfold mul_impl.
  rewrite !map_length, !td_triv, <- !map_app, !map_length.
  assert (El : length (y ++ repeat (@None nat) (length (x ++ repeat (@None nat) (length y - length x)) - length y))
             = length (x ++ repeat (@None nat) (length y - length x))).
  { rewrite !app_length, !repeat_length. lia. }
  assert (Em : length (x ++ repeat (@None nat) (length y - length x)) = Nat.max (length x) (length y)).
  { rewrite app_length, repeat_length. lia. }
  replace (length x - length y)%nat with (length (x ++ repeat (@None nat) (length y - length x)) - length y)%nat by lia.
  revert El Em.
  generalize (x ++ repeat (@None nat) (length y - length x)). intros x'.
  generalize (y ++ repeat (@None nat) (length x' - length y)). intros y' El Em.
  assert (Hl : (length x' <= f)%nat /\ (length x' <= 32)%nat) by lia. clear Em Hf H32 x y.
  destruct Hl as [Hf H32]. rename x' into x, y' into y.
  destruct (length x =? 0)%nat eqn:E0; [apply runs_ret|].
  destruct (length x =? 1)%nat eqn:E1.
  { apply (fo_bind _ _ _ _ (map td)); [apply runs_measure, runs_fill; lia|].
    apply runs_index. assert (Hm := mulary_len x y ltac:(lia)).
    destruct (snd (mulary x y)) as [|r0 rs]; [cbn [length] in Hm; lia|reflexivity]. }
  destruct ((length x <? 16)%nat || (length x =? 17)%nat) eqn:E2; [apply fo_school; lia|].
  replace (length x <=? 32)%nat with true by lia.
  unfold mul_karatsuba, karac. rewrite !map_length, El, Nat.eqb_refl. cbn [negb]. apply runs_measure.
  set (len0 := ((length x + 1) / 2)%nat). rewrite !td_firstn, !td_skipn.
  assert (Hl0 : (len0 + 2 <= length x)%nat /\ (length x <= 2 * len0 <= length x + 1)%nat).
  { apply orb_false_elim in E2. destruct E2 as [E2 _].
    assert (length x + 1 = 2 * len0 + (length x + 1) mod 2)%nat by (apply Nat.div_mod; lia).
    assert ((length x + 1) mod 2 < 2)%nat by (apply Nat.mod_upper_bound; lia).
    apply Nat.ltb_ge in E2. lia. }
  assert (L1 := addc_len (firstn len0 x) (skipn len0 x)).
  assert (L2 := addc_len (firstn len0 y) (skipn len0 y)).
  rewrite !firstn_length, !skipn_length in L1, L2.
  apply (fo_bind _ _ _ _ td); [apply IH; rewrite !skipn_length; lia|].
  apply (fo_bind _ _ _ _ td); [apply IH; rewrite !firstn_length; lia|].
  apply (fo_bind _ _ _ _ td); [apply fo_add|].
  rewrite td_opp, !td_triv.
  apply (fo_bind _ _ _ _ td); [apply fo_add|].
  apply (fo_bind _ _ _ _ td); [apply fo_add|].
  apply (fo_bind _ _ _ _ td); [apply IH; lia|].
  rewrite <- !map_app.
  apply (fo_bind _ _ _ _ td); [apply fo_add|].
  cbv beta. rewrite map_length.
  destruct (length _ =? 2 * len0)%nat.
  - apply fo_add.
  - apply (fo_bind _ _ _ _ td); [apply fo_add|]. rewrite td_shift. apply fo_add.
Qed.

Lemma fo_squ23 : forall x, (length x = 2 \/ length x = 3)%nat -> follows td (squ_2_3word (td x)) (squ23 x).
Proof.
  intros x H. unfold squ_2_3word, squ23. rewrite !map_length, !td_nth.
  replace (negb ((length x =? 2) || (length x =? 3))%nat) with false by (destruct H as [-> | ->]; reflexivity).
  cbv zeta. rewrite !tw_mul, !tw_add, tw_mul, tw_add by lia.
  destruct H as [-> | ->]; cbn [Nat.eqb].
  - destruct (join (nth 1 x None) (nth 0 x None)); split; vm_compute; reflexivity.
  - destruct (join _ (nth 0 x None)); split; vm_compute; reflexivity.
Qed.

Lemma fo_squ : forall f x, (length x < f)%nat -> (length x <= 32)%nat ->
  follows td (squ_fuel f (td x)) (squc f x).
Proof.
  induction f as [|f IH]; intros x Hf H32; [lia|].
  cbn [squ_fuel squc]. apply runs_analysed. unfold squ_impl. rewrite !map_length.
  destruct (length x =? 0)%nat eqn:E0; [apply runs_ret|].
  destruct (length x =? 1)%nat eqn:E1.
  { destruct x as [|a [|b x]]; cbn [length] in E0, E1; try discriminate. clear.
    destruct a as [a|]; split; vm_compute; reflexivity. }
  destruct (length x <=? 3)%nat eqn:E3; [apply fo_squ23; lia|].
  replace (length x <=? 32)%nat with true by lia.
  unfold squ_dnq. rewrite !map_length. apply runs_measure.
  set (len0 := ((length x + 1) / 2)%nat). rewrite !td_firstn, !td_skipn.
  assert (Hl0 : (len0 + 1 <= length x)%nat /\ (length x <= 2 * len0 <= length x + 1)%nat).
  { assert (length x + 1 = 2 * len0 + (length x + 1) mod 2)%nat by (apply Nat.div_mod; lia).
    assert ((length x + 1) mod 2 < 2)%nat by (apply Nat.mod_upper_bound; lia). lia. }
  apply (fo_bind _ _ _ _ td); [apply IH; rewrite !skipn_length; lia|].
  apply (fo_bind _ _ _ _ td); [apply IH; rewrite !firstn_length; lia|].
  unfold pa_mul. rewrite !map_length.
  apply (fo_bind _ _ _ _ td); [apply fo_mul; rewrite ?firstn_length, ?skipn_length; lia|].
  cbv beta zeta. rewrite td_shift.
  destruct (length _ =? 2 * len0)%nat.
  - rewrite <- map_app. apply fo_add.
  - apply (fo_bind _ _ _ _ td); [apply fo_add|]. rewrite td_shift. apply fo_add.
Qed.

(* ------------------------------------------------------------------ *)
(** ** Bounds of the depth for operands of any shape *)
Section Bounds.
Context {B : backend} {P : nat -> ct B -> Prop} (G : grading B P).
Notation cP k := (Forall (@wP B P k)).

Lemma gr_add_to : forall k l x y, cP k x -> cP k y -> (k + 2 <= l)%nat -> allP (pa_add x y) (cP l).
Proof.
  intros k l x y Hx Hy Hl. eapply allP_conseq; [apply (gr_add G); eauto|].
  intros z. apply (cP_mono G). lia.
Qed.
Lemma add_length : forall x y : ciphertext B,
  allP (pa_add x y) (fun z => (length z <= Nat.max (length x) (length y) + 1)%nat).
Proof.
  intros x y. apply allP_analysed. unfold add_sub_impl.
  destruct (_ =? length x)%nat; [apply allP_ret; lia|].
  destruct (_ =? length y)%nat; [apply allP_ret; lia|]. apply allP_measure.
  set (rt := Nat.max (count_triv_zeros x) _). set (wlen := Nat.max (length x - _) _).
  destruct (wlen <=? rt)%nat eqn:E; [apply allP_err|].
  eapply allP_bind with (P := fun _ => True); [intros ? ?; exact I|]. intros q _.
  eapply allP_bind.
  { apply allP_mapM with (P := fun _ => True). intros ? _ ? ?. exact I. }
  intros z [_ Hz]. apply allP_ret. rewrite !app_length, Hz, firstn_length, skipn_length, map_length, seq_length.
  cbn [length]. unfold wlen. lia.
Qed.
Lemma gr_mul_lwe : forall k a b, wP (P := P) k a -> wP (P := P) k b -> allP (mul_lwe a b) (wP (P := P) (S k)).
Proof.
  intros k a b Ha Hb. unfold mul_lwe.
  destruct (is_triv a).
  { eapply allP_bind with (P := fun _ => True); [intros ? ?; exact I|]. intros m _. apply allP_ret.
    apply (wP_mul G). eapply (wP_mono G); [|exact Hb]. lia. }
  destruct (is_triv b).
  { eapply allP_bind with (P := fun _ => True); [intros ? ?; exact I|]. intros m _. apply allP_ret.
    apply (wP_mul G). eapply (wP_mono G); [|exact Ha]. lia. }
  apply (gr_lut G). apply (wP_add G); auto. apply (wP_mul G); auto.
Qed.
Lemma gr_fill : forall k x y, cP k x -> cP k y ->
  allP (fill_mulary x y) (fun m => Forall (cP (S k)) m /\ length m = length x).
Proof.
  intros k x y Hx Hy. unfold fill_mulary. destruct (length x =? length y)%nat eqn:E; cbn [negb]; [|apply allP_panic].
  apply Nat.eqb_eq in E.
  eapply allP_conseq; [apply allP_mapM with (P := cP (S k))|].
  - intros [j b] Hjb. assert (Hb : wP (P := P) k b).
    { apply in_combine_r in Hjb. rewrite Forall_forall in Hy. auto. }
    eapply allP_bind with (P := cP (S k)).
    + eapply allP_conseq; [apply allP_mapM with (P := wP (P := P) (S k))|intros r [H _]; exact H].
      intros a Ha. apply allP_expect, gr_mul_lwe; auto. rewrite Forall_forall in Hx. auto.
    + intros r Hr. apply allP_ret. auto using cP_app, cP_triv.
  - intros m [H1 H2]. split; auto. etransitivity; [exact H2|]. rewrite combine_length, seq_length. lia.
Qed.
Lemma gr_fold : forall rows k acc, Forall (cP k) rows -> cP k acc ->
  allP (foldM (fun acc row => pa_add acc row) rows acc) (cP (k + 2 * length rows)).
Proof.
  intros rows. induction rows as [|r rows IH]; intros k acc Hr Ha; cbn [foldM length].
  - apply allP_ret. rewrite Nat.add_0_r. exact Ha.
  - inversion Hr as [|? ? Hr1 Hr2]; subst.
    eapply allP_bind; [apply (gr_add G); [exact Ha|exact Hr1]|]. intros z Hz.
    eapply allP_conseq; [apply (IH (S (S k))); auto|].
    + eapply Forall_impl; [|exact Hr2]. intros w. apply (cP_mono G). lia.
    + intros w. apply (cP_mono G). lia.
Qed.
Lemma gr_reduce : forall k m, Forall (cP k) m -> allP (reduce_mulsquary m) (cP (k + 2 * (length m - 1))).
Proof.
  intros k m Hm. unfold reduce_mulsquary.
  destruct m as [|r0 [|r1 m]]; try (intros z Hz; discriminate).
  inversion Hm as [|? ? H0 Hm']; subst. inversion Hm' as [|? ? H1 Hm2]; subst.
  change (index (r0 :: r1 :: m) 0) with (ret r0). change (index (r0 :: r1 :: m) 1) with (ret r1).
  rewrite !ret_bind. cbn [skipn length].
  eapply allP_bind; [apply (gr_add G); eauto|]. intros z Hz.
  eapply allP_conseq; [apply (gr_fold m (S (S k))); auto|].
  - eapply Forall_impl; [|exact Hm2]. intros w. apply (cP_mono G). lia.
  - intros w. apply (cP_mono G). lia.
Qed.
Lemma gr_school : forall k x y, cP k x -> cP k y -> (1 <= length x)%nat ->
  allP (mul_schoolbook x y) (cP (k + (2 * length x - 1))).
Proof.
  intros k x y Hx Hy Hl. apply allP_measure. eapply allP_bind; [apply gr_fill; eauto|].
  intros m [Hm Em]. eapply allP_conseq; [apply gr_reduce, Hm|]. intros z. apply (cP_mono G). unfold ciphertext in *. lia.
Qed.

(** length of the longer operand to depth *)
Definition mul_bound (l : nat) : nat := if (l <=? 17)%nat then 2 * l - 1 else 2 * ((l + 1) / 2) + 9.

Lemma gr_kara : forall rec b k x y, length x = length y -> cP k x -> cP k y ->
  (forall k x' y', cP k x' -> cP k y' -> (Nat.max (length x') (length y') <= (length x + 1) / 2 + 1)%nat ->
     allP (rec x' y') (cP (k + b))) ->
  allP (mul_karatsuba rec x y) (cP (k + (b + 8))).
Proof.
  intros rec b k x y El Hx Hy IH. unfold mul_karatsuba. rewrite El, Nat.eqb_refl. cbn [negb]. rewrite <- El.
  assert (Hn : (length x + 1 = 2 * ((length x + 1) / 2) + (length x + 1) mod 2)%nat) by (apply Nat.div_mod; lia).
  assert (Hm : ((length x + 1) mod 2 < 2)%nat) by (apply Nat.mod_upper_bound; lia).
  set (n := ((length x + 1) / 2)%nat) in *. apply allP_measure.
  eapply allP_bind; [apply (IH k); [apply cP_skipn|apply cP_skipn|rewrite !skipn_length; lia]; auto|]. intros a Ha.
  eapply allP_bind; [apply (IH k); [apply cP_firstn|apply cP_firstn|rewrite !firstn_length; lia]; auto|]. intros b' Hb.
  eapply allP_bind; [apply (gr_add G); eauto|]. intros s Hs.
  eapply allP_bind with (P := fun z => cP (S (S k)) z /\ (length z <= n + 1)%nat).
  { intros z Ez. split; [exact (gr_add G k _ _ (cP_firstn _ _ _ Hx) (cP_skipn _ _ _ Hx) z Ez)|].
    pose proof (add_length _ _ z Ez) as H. cbv beta in H. rewrite firstn_length, skipn_length in H. lia. }
  intros u [Hu Lu].
  eapply allP_bind with (P := fun z => cP (S (S k)) z /\ (length z <= n + 1)%nat).
  { intros z Ez. split; [exact (gr_add G k _ _ (cP_firstn _ _ _ Hy) (cP_skipn _ _ _ Hy) z Ez)|].
    pose proof (add_length _ _ z Ez) as H. cbv beta in H. rewrite firstn_length, skipn_length in H. lia. }
  intros v [Hv Lv].
  eapply allP_bind; [apply (IH (S (S k))); auto; lia|]. intros c Hc.
  eapply allP_bind.
  { apply (gr_add_to (k + (b + 2)) (k + (b + 4))); [| |lia].
    - apply cP_app; [apply cP_triv|]. eapply (cP_mono G); [|exact Hc]. lia.
    - apply cP_app; [apply cP_triv|]. apply (cP_opp G). eapply (cP_mono G); [|exact Hs]. lia. }
  intros d Hd. destruct (_ =? 2 * n)%nat.
  - apply (gr_add_to (k + (b + 4))); [|exact Hd|lia].
    apply cP_app; [eapply (cP_mono G); [|exact Hb]|eapply (cP_mono G); [|exact Ha]]; lia.
  - eapply allP_bind.
    { apply (gr_add_to (k + (b + 4)) (k + (b + 6))); [|exact Hd|lia]. eapply (cP_mono G); [|exact Hb]. lia. }
    intros e He. apply (gr_add_to (k + (b + 6))); [|exact He|lia].
    apply cP_shift. eapply (cP_mono G); [|exact Ha]. lia.
Qed.

Lemma gr_mul_fuel : forall f k x y, cP k x -> cP k y ->
  allP (mul_fuel f x y) (cP (k + mul_bound (Nat.max (length x) (length y)))).
Proof.
  induction f as [f IHf] using (well_founded_induction lt_wf). intros k x y Hx Hy.
  destruct f as [|f]; cbn [mul_fuel]; [apply allP_panic|].
  apply allP_analysed. unfold mul_impl.
  set (x' := x ++ _). set (y' := y ++ _).
  assert (Lx : length x' = Nat.max (length x) (length y)).
  { unfold x', ct_triv. rewrite app_length, repeat_length. lia. }
  assert (Ly : length y' = Nat.max (length x) (length y)).
  { unfold y', ct_triv. rewrite app_length, repeat_length. lia. }
  assert (Hx' : cP k x') by (apply cP_app; auto using cP_triv).
  assert (Hy' : cP k y') by (apply cP_app; auto using cP_triv).
  clearbody x' y'. rewrite <- Lx. assert (El : length x' = length y') by lia. clear Lx Ly Hx Hy x y.
  rename x' into x, y' into y.
  destruct (length x =? 0)%nat eqn:E0; [apply allP_ret; constructor|].
  unfold mul_bound.
  destruct (length x =? 1)%nat eqn:E1.
  { unfold mul_1word. replace (length x) with 1%nat by lia. eapply allP_bind; [apply allP_measure, gr_fill; eauto|]. intros m [Hm _].
    apply allP_index. replace (k + _)%nat with (S k); [exact Hm|]. cbn. lia. }
  assert (SC : (length x <= 17)%nat -> allP (mul_schoolbook x y) (cP (k + (2 * length x - 1)))).
  { intros _. apply gr_school; auto. lia. }
  destruct ((length x <? 16)%nat || (length x =? 17)%nat) eqn:E2.
  { replace (length x <=? 17)%nat with true by lia. apply SC. lia. }
  destruct (length x <=? 32)%nat eqn:E3; [|apply allP_err].
  assert (Hn : (length x + 1 = 2 * ((length x + 1) / 2) + (length x + 1) mod 2)%nat) by (apply Nat.div_mod; lia).
  assert (Hm : ((length x + 1) mod 2 < 2)%nat) by (apply Nat.mod_upper_bound; lia).
  eapply allP_conseq; [apply (gr_kara _ (2 * ((length x + 1) / 2) + 1) k); auto|].
  - intros j u v Hu Hv Luv.
    eapply allP_conseq; [apply (IHf f (Nat.lt_succ_diag_r f) j); [exact Hu|exact Hv]|]. intros z. apply (cP_mono G).
    apply orb_false_elim in E2. destruct E2 as [E2 _].
    unfold mul_bound. destruct (_ <=? 17)%nat eqn:E4; lia.
  - intros z. apply (cP_mono G). apply orb_false_elim in E2. destruct E2 as [E2 E4].
    destruct (length x <=? 17)%nat eqn:E5; [|lia].
    assert (length x = 16)%nat as E6 by lia. rewrite E6 in *. cbn in Hn. cbn. lia.
Qed.
Lemma gr_mul : forall k x y, cP k x -> cP k y ->
  allP (pa_mul x y) (cP (k + mul_bound (Nat.max (length x) (length y)))).
Proof. intros. apply gr_mul_fuel; auto. Qed.

Definition squ_bound (l : nat) : nat := if (l <=? 3)%nat then 1 else 2 * ((l + 1) / 2) + 3.
Lemma gr_squ_3 : forall k a i, wP (P := P) k a -> allP (squ_3_bit_pi_5 a i) (wP (P := P) (S k)).
Proof.
  intros k a i Ha. unfold squ_3_bit_pi_5.
  destruct i as [|[|[|[|[|[|i]]]]]]; try (apply (gr_lut G); exact Ha); [|apply allP_panic].
  apply allP_ret. exact I.
Qed.
Lemma gr_squ_fuel : forall f k x, cP k x -> allP (squ_fuel f x) (cP (k + squ_bound (length x))).
Proof.
  induction f as [f IHf] using (well_founded_induction lt_wf). intros k x Hx.
  destruct f as [|f]; cbn [squ_fuel]; [apply allP_panic|].
  apply allP_analysed. unfold squ_impl.
  destruct (length x =? 0)%nat eqn:E0; [apply allP_ret; constructor|].
  destruct (length x =? 1)%nat eqn:E1.
  { unfold squ_1word. replace (length x) with 1%nat by lia. replace (k + squ_bound 1)%nat with (S k) by (cbn; lia).
    eapply allP_bind with (P := wP (P := P) (S k)).
    - apply allP_measure. eapply allP_bind; [apply allP_index, Hx|]. intros a Ha. apply (gr_lut G). exact Ha.
    - intros a Ha. apply allP_ret. constructor; auto. }
  unfold squ_bound. destruct (length x <=? 3)%nat eqn:E3.
  { replace (k + 1)%nat with (S k) by lia. unfold squ_2_3word. destruct (negb _); [apply allP_panic|].
    eapply allP_bind with (P := cP (S k)).
    - apply allP_measure. eapply allP_conseq; [apply allP_mapM with (P := wP (P := P) (S k))|intros r [H _]; exact H].
      intros i _. apply gr_squ_3.
      destruct (length x =? 2)%nat; cbv zeta; repeat first [apply (wP_add G)|apply (wP_mul G)|apply wP_nth; exact Hx].
    - intros r Hr. eapply allP_bind; [apply allP_index, Hr|]. intros a Ha. apply allP_ret.
      constructor; auto. constructor; [exact I|]. apply cP_skipn; auto. }
  destruct (length x <=? 32)%nat eqn:E32; [|apply allP_err].
  assert (Hn : (length x + 1 = 2 * ((length x + 1) / 2) + (length x + 1) mod 2)%nat) by (apply Nat.div_mod; lia).
  assert (Hm : ((length x + 1) mod 2 < 2)%nat) by (apply Nat.mod_upper_bound; lia).
  unfold squ_dnq. set (n := ((length x + 1) / 2)%nat) in *. apply allP_measure.
  assert (SB : forall u, cP k u -> (length u <= n)%nat -> allP (squ_fuel f u) (cP (k + (2 * n - 1)))).
  { intros u Hu Lu. eapply allP_conseq; [apply (IHf f (Nat.lt_succ_diag_r f) k); exact Hu|]. intros z. apply (cP_mono G). unfold squ_bound.
    assert (length u + 1 = 2 * ((length u + 1) / 2) + (length u + 1) mod 2)%nat by (apply Nat.div_mod; lia).
    destruct (length u <=? 3)%nat eqn:E4; [lia|].
    assert (length u + 1 <= 2 * ((length u + 1) / 2) + 1)%nat by (pose proof (Nat.mod_upper_bound (length u + 1) 2); lia).
    lia. }
  eapply allP_bind; [apply SB; [apply cP_skipn; auto|rewrite skipn_length; lia]|]. intros a Ha.
  eapply allP_bind; [apply SB; [apply cP_firstn; auto|rewrite firstn_length; lia]|]. intros b Hb.
  eapply allP_bind with (P := cP (k + (2 * n - 1))).
  { eapply allP_conseq; [apply (gr_mul k); [apply cP_firstn|apply cP_skipn]; auto|]. intros z. apply (cP_mono G).
    rewrite firstn_length, skipn_length. unfold mul_bound. replace (_ <=? 17)%nat with true by lia. lia. }
  intros c Hc. cbv zeta. destruct (_ =? 2 * n)%nat.
  - apply (gr_add_to (k + (2 * n - 1))); [| |lia]; [apply cP_app|apply cP_shift]; auto.
  - eapply allP_bind; [apply (gr_add_to (k + (2 * n - 1)) (k + (2 * n + 1))); [exact Hb|apply cP_shift, Hc|lia]|].
    intros e He. apply (gr_add_to (k + (2 * n + 1))); [|exact He|lia].
    apply cP_shift. eapply (cP_mono G); [|exact Ha]. lia.
Qed.
Lemma gr_squ : forall k x, cP k x -> allP (pa_squ x) (cP (k + squ_bound (length x))).
Proof. intros. apply gr_squ_fuel; auto. Qed.

Lemma gr_chain : forall c k vals, Forall (cP k) vals -> vals <> [] ->
  allP (foldM (asc_step (fun x => ret (pa_opp x)) (fun x n => ret (pa_shift x n)) pa_add) c vals)
       (fun vs => Forall (cP (k + 2 * length c)) vs /\ vs <> []).
Proof.
  induction c as [|a c IH]; intros k vals Hv Hn; cbn [foldM length].
  - apply allP_ret. rewrite Nat.add_0_r. auto.
  - eapply allP_bind with (P := fun vs => Forall (cP (S (S k))) vs /\ vs <> []).
    + unfold asc_step. eapply allP_bind; [apply allP_index, Hv|]. intros l Hl. rewrite ret_bind.
      eapply allP_bind; [apply allP_index, Hv|]. intros r Hr. rewrite !ret_bind.
      eapply allP_bind.
      { apply (gr_add G k); [destruct (l_pos a)|destruct (r_pos a)]; auto using cP_shift, (cP_opp G). }
      intros z Hz. apply allP_ret. split; [|destruct vals; discriminate].
      apply Forall_app. split; [|constructor; auto].
      eapply Forall_impl; [|exact Hv]. intros w. apply (cP_mono G). lia.
    + intros vs [H1 H2]. eapply allP_conseq; [apply (IH (S (S k))); auto|].
      intros ws [H3 H4]. split; auto. eapply Forall_impl; [|exact H3]. intros w. apply (cP_mono G). lia.
Qed.
Lemma gr_asc : forall c k x, cP k x -> allP (asc_eval_ct c x) (cP (k + 2 * length c)).
Proof.
  intros c k x Hx. unfold asc_eval_ct, asc_eval.
  eapply allP_bind; [apply (gr_chain c k [x]); [constructor; auto|discriminate]|].
  intros vs [H1 H2]. apply allP_ret. rewrite Forall_forall in H1. apply H1.
  destruct vs as [|v vs]; [destruct H2; auto|]. clear. revert v. induction vs as [|u vs IH]; intros v; [left; auto|].
  right. apply (IH u).
Qed.
Lemma map_get_in : forall wm k, allP (map_get (B := B) wm k) (fun c => In (k, c) wm).
Proof.
  induction wm as [|[k' c] wm IH]; intros k; cbn [map_get]; [apply allP_panic|].
  destruct (k =? k') eqn:E; [|eapply allP_conseq; [apply IH|right; auto]].
  apply allP_ret. left. f_equal. symmetry. apply Z.eqb_eq, E.
Qed.
Lemma asc_get_bounded : forall b m k, forallb (fun kc => (length (snd kc) <=? b)%nat) m = true ->
  allP (asc_get m k) (fun c => (length c <= b)%nat).
Proof.
  intros b. induction m as [|[k' c] m IH]; intros k H; cbn [asc_get forallb] in *; [apply allP_panic|].
  apply andb_true_iff in H as [H1 H2]. destruct (k =? k'); [|apply IH; exact H2].
  apply allP_ret. cbn [snd] in H1. apply Nat.leb_le in H1. exact H1.
Qed.
(** a chain of at most [b] additions for every window, [b + 2] in a row at most *)
Lemma gr_scalar : forall pc b k n x, forallb (fun kc => (length (snd kc) <=? b)%nat) (asc_12 pc) = true ->
  cP n x -> allP (pa_scalar_mul pc k x) (cP (n + 2 * (b + 2))).
Proof.
  intros pc b k n x Hb Hx. apply allP_analysed. unfold scalar_mul_impl.
  cbv zeta. change (list (word B)) with (ciphertext B) in *. set (xp := if 0 <=? k then x else map w_opp x).
  assert (Hp : cP n xp) by (unfold xp; destruct (0 <=? k); [auto|apply (cP_opp G); auto]). clearbody xp.
  eapply allP_bind with (P := fun a => 0 <= a \/ ovf pc = false).
  { unfold chk_i32. destruct (in_i32 (Z.abs k)); [apply allP_ret; lia|].
    destruct (ovf pc); [apply allP_panic|apply allP_ret; auto]. }
  intros ka _. unfold u32. set (kk := ka mod 2 ^ 32).
  assert (Hkk : 0 <= kk < 2 ^ 32) by (apply Z.mod_pos_bound; lia). clearbody kk.
  destruct (kk =? 0) eqn:E0; [apply allP_ret; constructor|].
  destruct (kk =? 1) eqn:E1; [apply allP_ret, (cP_mono G n); auto; lia|].
  eapply allP_bind with (P := fun ws => (length ws <= 3)%nat).
  { intros ws Hws. pose proof (wind_shifts_ok (ovf pc) kk ASC_BITLEN) as W. unfold ovfP in W. rewrite Hws in W.
    destruct W as [_ [W [W1 W']]]; [lia|unfold ASC_BITLEN; lia|].
    assert (HF : Forall (fun w => (snd w <= 32)%nat) ws).
    { eapply Forall_impl; [|exact W]. intros w [_ [_ Hw]].
      destruct (bit_len_32_ok kk ltac:(lia)) as [[_ E]|[H5 H6]]; [lia|].
      destruct (le_lt_dec (bit_len_32 kk) 32) as [|H]; [lia|].
      assert (2 ^ 32 <= 2 ^ Z.of_nat (bit_len_32 kk - 1)) by (apply Z.pow_le_mono_r; lia). lia. }
    destruct (spaced_length ASC_BITLEN ws 0) as [H|H]; auto; [unfold ASC_BITLEN; lia|destruct (W' H)]. }
  intros ws Hws.
  eapply allP_bind with (P := Forall (fun kc => cP (n + 2 * b) (snd kc))).
  { eapply allP_conseq; [apply allP_mapM with (P := fun kc => cP (n + 2 * b) (snd kc))|intros r [H _]; exact H].
    intros w _. eapply allP_bind; [apply (asc_get_bounded b), Hb|]. intros c Hc.
    eapply allP_bind; [apply allP_expect, (gr_asc c n), Hp|]. intros z Hz. apply allP_ret. cbn [snd].
    eapply (cP_mono G); [|exact Hz]. unfold asc in *. lia. }
  intros wm Hwm.
  eapply allP_bind with (P := fun rows => Forall (cP (n + 2 * b)) rows /\ (length rows <= 3)%nat).
  { eapply allP_conseq; [apply allP_mapM with (P := cP (n + 2 * b))|intros r [H1 H2]; split; [exact H1|rewrite H2; exact Hws]].
    intros [wi sh] _. unfold mulary_row. eapply allP_bind; [apply map_get_in|]. intros c Hc.
    rewrite Forall_forall in Hwm. specialize (Hwm _ Hc). cbn [snd] in Hwm.
    apply allP_ret. destruct (wi <? 0); auto using cP_shift, (cP_opp G). }
  intros rows [Hr Hl]. destruct (length _ =? 1)%nat.
  - eapply allP_conseq; [apply allP_index, Hr|]. intros z. apply (cP_mono G). lia.
  - apply allP_measure. change (allP (reduce_mulsquary rows) (cP (n + 2 * (b + 2)))).
    eapply allP_conseq; [apply gr_reduce, Hr|]. intros z. apply (cP_mono G). lia.
Qed.
Lemma gr_round : forall r k pc x pos, (length x <= 4 ^ r)%nat -> cP k x ->
  allP (pa_round_at pc x pos) (cP (r + first_depth pc + 3 + k)).
Proof.
  intros r k pc x pos Hl Hx. apply allP_analysed. unfold round_at_impl.
  destruct pos as [|p]; [apply allP_ret, (cP_mono G k); auto; lia|].
  destruct (_ <=? S p)%nat; [apply allP_ret; constructor|].
  eapply allP_bind with (P := fun sr => cP (r + first_depth pc + 1 + k) (fst sr) /\ cP (r + first_depth pc + 1 + k) (snd sr)).
  - apply allP_measure. eapply allP_bind.
    { apply (gr_sgn G r k pc (firstn p x)); [rewrite firstn_length; lia|apply cP_firstn; auto]. }
    intros s Hs. cbv zeta.
    assert (Hy : wP (P := P) (r + first_depth pc + k) (w_mul_const (nth p x triv0) 2)).
    { apply (wP_mul G), wP_nth. eapply (cP_mono G); [|exact Hx]. lia. }
    eapply allP_bind with (P := wP (P := P) (S (r + first_depth pc + k))).
    { apply (gr_lut G). destruct Hs; auto. apply (wP_add G); auto. }
    intros rw Hrw. apply allP_ret. cbn [fst snd]. split.
    + apply cP_shift, cP_skipn. eapply (cP_mono G); [|exact Hx]. lia.
    + apply cP_app; [apply cP_triv|]. constructor; [|constructor]. eapply (wP_mono G); [|exact Hrw]. lia.
  - intros [u v] [Hu Hv]. cbn [fst snd] in *. apply (gr_add_to (r + first_depth pc + 1 + k)); auto. lia.
Qed.
Lemma gr_add_const : forall n pc x k, cP n x -> allP (pa_add_const pc x k) (cP (n + 2)).
Proof.
  intros n pc x k Hx. apply allP_analysed. unfold add_const_impl. destruct (k =? 0); [apply allP_ret, (cP_mono G n); auto; lia|].
  eapply allP_bind with (P := fun _ => True); [intros ? ?; exact I|]. intros ka _. cbv zeta.
  eapply allP_bind with (P := cP n).
  { eapply allP_conseq; [apply allP_mapM with (P := wP (P := P) n)|intros r [H _]; exact H].
    intros i _. eapply allP_bind with (P := fun _ => True); [intros ? ?; exact I|]. intros ki _. apply allP_ret. exact I. }
  intros c Hc. first [apply (gr_add_to n); auto|idtac]; lia.
Qed.
End Bounds.
