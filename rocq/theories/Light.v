(** Linear combinations from which one lookup gives a result (C71). Not a model of
    code: what C71 talks about, and how its searches are justified. *)
From Verif Require Import Spec.
From Coq Require Import ZifyBool ZifyNat.

(* ------------------------------------------------------------------ *)
(** ** Specification *)

(** what a bootstrap can compute of the message m modulo 32 *)
Definition table (g : Z -> Z) : Prop := forall m, g (m + 16) = - g m.
(** the combination with coefficients [cs] of the messages [ds], and the sum of the squares of the coefficients *)
Fixpoint comb (cs ds : list Z) : Z :=
  match cs, ds with
  | c :: cs, d :: ds => c * d + comb cs ds
  | _, _ => 0
  end.
Fixpoint quad (cs : list Z) : Z := match cs with [] => 0 | c :: cs => c * c + quad cs end.
(** Bootstraps of one combination give words of value [f ds], for all messages [ds] in [D].
    There is one table for every word. *)
Definition lookups (D : list Z -> Prop) (f : list Z -> Z) (cs : list Z) : Prop :=
  exists gs, Forall table gs /\ forall ds, D ds -> value (map (fun g => g (comb cs ds)) gs) = f ds.

(** [n] digits *)
Definition words (n : nat) (ds : list Z) : Prop := length ds = n /\ digits ds.

(** Parallel addition: [ws] are the pairs of words of the operands, lowest first. The carry out of a
    position is looked up in [g] from the words of this position and of the one below. *)
Fixpoint carries (cs : list Z) (g : Z -> Z) (below : Z * Z) (ws : list (Z * Z)) : list Z :=
  match ws with
  | [] => []
  | w :: t => g (comb cs [fst w; snd w; fst below; snd below]) :: carries cs g w t
  end.
Fixpoint settle (cin : Z) (ws : list (Z * Z)) (qs : list Z) : list Z :=
  match ws, qs with
  | w :: ws, q :: qs => (fst w + snd w - 2 * q + cin) :: settle q ws qs
  | _, _ => [cin]
  end.
Definition adder (cs : list Z) (g : Z -> Z) (ws : list (Z * Z)) : list Z := settle 0 ws (carries cs g (0, 0) ws).
Definition pairs (ws : list (Z * Z)) : Prop := Forall (fun w => digit (fst w) /\ digit (snd w)) ws.
(** the words of the result are digits again, whatever the operands *)
Definition adds (cs : list Z) (g : Z -> Z) : Prop := table g /\ forall ws, pairs ws -> digits (adder cs g ws).

(** [Spec.negacyclic] is such a table *)
Lemma negacyclic_table : forall t, table (negacyclic t).
Proof.
  intros t m. unfold negacyclic. pose proof (Z.mod_pos_bound m 32 ltac:(lia)) as Hm.
  pose proof (Z.div_mod m 32 ltac:(lia)) as Em. set (r := m mod 32) in *. set (k := m / 32) in *.
  destruct (r <? 16) eqn:E.
  - replace ((m + 16) mod 32) with (r + 16) by (apply Z.mod_unique with k; lia).
    replace (r + 16 <? 16) with false by lia. replace (r + 16 - 16) with r by lia. reflexivity.
  - replace ((m + 16) mod 32) with (r - 16) by (apply Z.mod_unique with (k + 1); lia).
    replace (r - 16 <? 16) with true by lia. lia.
Qed.

(* ------------------------------------------------------------------ *)
(** ** Periodicity *)

Lemma table_k : forall g k m, table g -> g (m + 32 * k) = g m.
Proof.
  intros g k m H. assert (P : forall m, g (m + 32) = g m).
  { intros x. replace (x + 32) with (x + 16 + 16) by lia. rewrite !H. lia. }
  assert (N : forall n x, g (x + 32 * Z.of_nat n) = g x).
  { induction n as [|n IH]; intros x; [f_equal; lia|].
    replace (x + 32 * Z.of_nat (S n)) with (x + 32 * Z.of_nat n + 32) by lia. rewrite P. apply IH. }
  destruct (Z_le_dec 0 k) as [C|C].
  - replace k with (Z.of_nat (Z.to_nat k)) by lia. apply N.
  - rewrite <- (N (Z.to_nat (- k)) (m + 32 * k)). f_equal. lia.
Qed.
Lemma table_mod : forall g m, table g -> g (m mod 32) = g m.
Proof.
  intros g m H. rewrite <- (table_k g (m / 32) (m mod 32) H). f_equal. pose proof (Z.div_mod m 32 ltac:(lia)). lia.
Qed.
Lemma table_low : forall g m, table g -> g m = if m mod 32 <? 16 then g (m mod 32) else - g (m mod 32 - 16).
Proof.
  intros g m H. destruct (m mod 32 <? 16) eqn:E; [symmetry; apply table_mod; exact H|].
  rewrite <- (table_mod g m H). rewrite <- H. f_equal. lia.
Qed.
Lemma table_value : forall gs, Forall table gs -> table (fun m => value (map (fun g => g m) gs)).
Proof.
  intros gs H m. induction H as [|g gs Hg H IH]; [reflexivity|]. cbn [map value]. rewrite Hg, IH. lia.
Qed.
Lemma lookups_one : forall D f cs, lookups D f cs -> exists g, table g /\ forall ds, D ds -> g (comb cs ds) = f ds.
Proof. intros D f cs [gs [H K]]. eexists. split; [apply (table_value gs H)|]. exact K. Qed.

Definition low (cs : list Z) : list Z := map (fun c => c mod 32) cs.
Lemma comb_low : forall cs ds, exists k, comb cs ds = comb (low cs) ds + 32 * k.
Proof.
  induction cs as [|c cs IH]; intros [|d ds]; try (exists 0; reflexivity).
  destruct (IH ds) as [k E]. cbn [low map comb]. fold (low cs). rewrite E.
  exists (c / 32 * d + k). pose proof (Z.div_mod c 32 ltac:(lia)) as Ec. nia.
Qed.
Lemma table_comb : forall g cs ds, table g -> g (comb (low cs) ds) = g (comb cs ds).
Proof. intros g cs ds H. destruct (comb_low cs ds) as [k E]. rewrite E. symmetry. apply table_k. exact H. Qed.

(* ------------------------------------------------------------------ *)
(** ** Trying a combination: what the table has to be, entry by entry *)

Fixpoint get (m : Z) (t : list (Z * Z)) : option Z :=
  match t with [] => None | (k, p) :: t => if m =? k then Some p else get m t end.
Fixpoint fits (cs : list Z) (ins : list (list Z * Z)) (t : list (Z * Z)) : bool :=
  match ins with
  | [] => true
  | (v, p) :: r =>
      let m := comb cs v mod 32 in
      let m' := if m <? 16 then m else m - 16 in
      let p' := if m <? 16 then p else - p in
      match get m' t with
      | Some q => if p' =? q then fits cs r t else false
      | None => fits cs r ((m', p') :: t)
      end
  end.
Definition inputs (f : list Z -> Z) (vs : list (list Z)) : list (list Z * Z) := map (fun v => (v, f v)) vs.

Lemma get_in : forall m t p, get m t = Some p -> In (m, p) t.
Proof.
  intros m. induction t as [|[k q] t IH]; intros p H; [discriminate|]. cbn [get] in H.
  destruct (m =? k) eqn:E; [left; injection H as <-; f_equal; lia|right; apply IH; exact H].
Qed.
Lemma fits_any : forall g cs ins t, table g -> (forall v p, In (v, p) ins -> g (comb cs v) = p) ->
  (forall m p, In (m, p) t -> g m = p) -> fits cs ins t = true.
Proof.
  intros g cs ins t Hg. revert t. induction ins as [|[v p] r IH]; intros t Hi Ht; [reflexivity|]. cbn [fits].
  pose proof (Hi v p (or_introl eq_refl)) as Hv. rewrite (table_low g _ Hg) in Hv.
  set (m := comb cs v mod 32) in *.
  assert (E : g (if m <? 16 then m else m - 16) = (if m <? 16 then p else - p)) by (destruct (m <? 16); lia).
  destruct (get (if m <? 16 then m else m - 16) t) as [q|] eqn:G.
  - pose proof (Ht _ _ (get_in _ _ _ G)) as K. rewrite E in K. rewrite K, Z.eqb_refl.
    apply IH; [|exact Ht]. intros v' p' Hin. apply Hi. right. exact Hin.
  - apply IH; [intros v' p' Hin; apply Hi; right; exact Hin|].
    intros m' p' [H|H]; [injection H as <- <-; exact E|apply Ht; exact H].
Qed.
Lemma fits_lookups : forall D f cs vs, lookups D f cs -> (forall v, In v vs -> D v) ->
  fits (low cs) (inputs f vs) [] = true.
Proof.
  intros D f cs vs H Hv. destruct (lookups_one _ _ _ H) as [g [Hg K]].
  apply (fits_any g); [exact Hg| |intros m p []].
  intros v p Hin. unfold inputs in Hin. apply in_map_iff in Hin. destruct Hin as [v' [E Hin]]. injection E as <- <-.
  rewrite table_comb by exact Hg. apply K, Hv, Hin.
Qed.

(** residues *)
Definition residues : list Z := map Z.of_nat (seq 0 32).
Lemma residue_in : forall c, In (c mod 32) residues.
Proof.
  intros c. pose proof (Z.mod_pos_bound c 32 ltac:(lia)) as H. apply in_map_iff. exists (Z.to_nat (c mod 32)).
  split; [lia|]. apply in_seq. lia.
Qed.
(** the lightest integer with a given residue *)
Definition least (r : Z) : Z := if r <=? 16 then r * r else (32 - r) * (32 - r).
Lemma least_le : forall c, least (c mod 32) <= c * c.
Proof.
  intros c. unfold least. pose proof (Z.mod_pos_bound c 32 ltac:(lia)) as H. pose proof (Z.div_mod c 32 ltac:(lia)) as E.
  set (r := c mod 32) in *. set (k := c / 32) in *. clearbody r k. destruct (r <=? 16) eqn:C.
  - assert (r <= Z.abs c) by lia. nia.
  - assert (32 - r <= Z.abs c) by lia. nia.
Qed.

(* ------------------------------------------------------------------ *)
(** ** All digit vectors *)

Fixpoint vectors (n : nat) : list (list Z) :=
  match n with O => [[]] | S n => flat_map (fun v => [1 :: v; -1 :: v; 0 :: v]) (vectors n) end.
Lemma vectors_words : forall n v, In v (vectors n) <-> words n v.
Proof.
  unfold words, digits. induction n as [|n IH]; intros v; cbn [vectors].
  - split; [intros [<-|[]]; auto|]. intros [L _]. destruct v; [left; reflexivity|discriminate].
  - rewrite in_flat_map. split.
    + intros [u [Hu H]]. apply IH in Hu. destruct Hu as [L F]. unfold digit in *.
      destruct H as [<-|[<-|[<-|[]]]]; (split; [cbn; lia|constructor; [lia|exact F]]).
    + intros [L F]. destruct v as [|d v]; [discriminate|]. inversion F as [|a b Hd Hf]; subst. exists v. split.
      * apply IH. split; [cbn in L; lia|exact Hf].
      * unfold digit in Hd. assert (K : d = 1 \/ d = -1 \/ d = 0) by lia. destruct K as [->|[->| ->]]; cbn; auto.
Qed.

(* ------------------------------------------------------------------ *)
(** ** Addition *)

Lemma settle_value : forall ws cin qs, length qs = length ws ->
  value (settle cin ws qs) = cin + value (map (fun w => fst w + snd w) ws).
Proof.
  induction ws as [|w ws IH]; intros cin [|q qs] L; try discriminate; [cbn; lia|].
  cbn [settle map value]. rewrite IH by (cbn in L; lia). lia.
Qed.
Lemma carries_length : forall cs g ws b, length (carries cs g b ws) = length ws.
Proof. intros cs g. induction ws as [|w ws IH]; intros b; cbn; auto. Qed.

(** what a position asks of the table: [v] holds the words of the position and of two below *)
Definition local (cs : list Z) (g : Z -> Z) (v : list Z) : Prop :=
  match v with
  | [x2; y2; x1; y1; x0; y0] =>
      digit (x2 + y2 - 2 * g (comb cs [x2; y2; x1; y1]) + g (comb cs [x1; y1; x0; y0]))
  | _ => True
  end.
Lemma adds_local : forall cs g v, adds cs g -> words 6 v -> local cs g v.
Proof.
  intros cs g v [_ H] [L F]. destruct v as [|x2 [|y2 [|x1 [|y1 [|x0 [|y0 [|]]]]]]]; try exact I. unfold local.
  assert (P : pairs [(x0, y0); (x1, y1); (x2, y2)]).
  { unfold digits in F. rewrite Forall_forall in F. repeat constructor; apply F; cbn; tauto. }
  specialize (H _ P). unfold adder, digits in H. cbn [carries settle fst snd] in H.
  rewrite Forall_forall in H. apply H. cbn. tauto.
Qed.
Lemma adds_carry : forall cs g v, adds cs g -> words 4 v -> digit (g (comb cs v)).
Proof.
  intros cs g v [_ H] [L F]. destruct v as [|x2 [|y2 [|x1 [|y1 [|]]]]]; try discriminate.
  assert (P : pairs [(x1, y1); (x2, y2)]).
  { unfold digits in F. rewrite Forall_forall in F. repeat constructor; apply F; cbn; tauto. }
  specialize (H _ P). unfold adder, digits in H. cbn [carries settle fst snd] in H.
  rewrite Forall_forall in H. apply H. cbn. tauto.
Qed.
Lemma local_adds : forall cs g, table g -> g 0 = 0 -> (forall v, words 4 v -> digit (g (comb cs v))) ->
  (forall v, words 6 v -> local cs g v) -> adds cs g.
Proof.
  intros cs g Hg G0 H4 H6. split; [exact Hg|]. intros ws P. unfold adder.
  assert (K : forall ws w1 w0, digit (fst w1) /\ digit (snd w1) -> digit (fst w0) /\ digit (snd w0) -> pairs ws ->
    digits (settle (g (comb cs [fst w1; snd w1; fst w0; snd w0])) ws (carries cs g w1 ws))).
  { clear ws P. induction ws as [|w ws IH]; intros w1 w0 H1 H0 P.
    - cbn. constructor; [|constructor]. apply H4. split; [reflexivity|]. destruct H1, H0.
      repeat (apply Forall_cons; [assumption|]). apply Forall_nil.
    - inversion P as [|a b Hw Hws]; subst. cbn [carries settle]. constructor.
      + apply (H6 [fst w; snd w; fst w1; snd w1; fst w0; snd w0]). split; [reflexivity|]. destruct H1, H0, Hw.
        repeat (apply Forall_cons; [assumption|]). apply Forall_nil.
      + apply IH; assumption. }
  specialize (K ws (0, 0) (0, 0)). cbn [fst snd] in K.
  assert (E : comb cs [0; 0; 0; 0] = 0).
  { destruct cs as [|a [|b [|c [|d cs]]]]; cbn [comb]; try lia. destruct cs; cbn [comb]; lia. }
  rewrite E, G0 in K. apply K; auto; unfold digit; lia.
Qed.

(** Trying a combination: every condition bounds two entries *)
Definition norm (m : Z) : Z * Z := let m := m mod 32 in if m <? 16 then (m, 1) else (m - 16, -1).
Definition cond (cs : list Z) (v : list Z) : Z * (Z * Z) * (Z * Z) :=
  match v with
  | [x2; y2; x1; y1; x0; y0] => (x2 + y2, norm (comb cs [x2; y2; x1; y1]), norm (comb cs [x1; y1; x0; y0]))
  | _ => (0, (0, 0), (0, 0))
  end.
Definition choices (p : Z) (t : list (Z * Z)) : list Z := match get p t with Some a => [a] | None => [-1; 0; 1] end.
Fixpoint sat (cs : list Z) (vs : list (list Z)) (t : list (Z * Z)) : bool :=
  match vs with
  | [] => true
  | v :: r =>
      let '(w, (p, s), (q, u)) := cond cs v in
      existsb (fun a =>
        let t1 := (p, a) :: t in
        existsb (fun b =>
          if (Z.abs (w - 2 * (s * a) + u * b) <=? 1) then sat cs r ((q, b) :: t1) else false) (choices q t1)) (choices p t)
  end.
Lemma norm_table : forall g m, table g -> g m = snd (norm m) * g (fst (norm m)).
Proof. intros g m H. rewrite (table_low g m H). unfold norm. destruct (m mod 32 <? 16); cbn [fst snd]; lia. Qed.
Lemma choices_in : forall g p t, (forall m a, In (m, a) t -> g m = a) -> digit (g p) -> In (g p) (choices p t).
Proof.
  intros g p t Ht H. unfold choices. destruct (get p t) as [a|] eqn:E.
  - left. symmetry. apply Ht. apply get_in. exact E.
  - unfold digit in H. assert (K : g p = -1 \/ g p = 0 \/ g p = 1) by lia. destruct K as [->|[->| ->]]; cbn; auto.
Qed.
Lemma sat_any : forall cs g, table g -> (forall v, words 4 v -> digit (g (comb cs v))) ->
  (forall v, words 6 v -> local cs g v) ->
  forall vs t, Forall (words 6) vs -> (forall m a, In (m, a) t -> g m = a) -> sat cs vs t = true.
Proof.
  intros cs g Hg H4 H6. induction vs as [|v vs IH]; intros t F Ht; [reflexivity|].
  inversion F as [|a b Hv Fv]; subst. pose proof (H6 v Hv) as L. destruct Hv as [Len D]. unfold digits in D.
  destruct v as [|x2 [|y2 [|x1 [|y1 [|x0 [|y0 [|]]]]]]]; try discriminate.
  assert (D4 : words 4 [x2; y2; x1; y1] /\ words 4 [x1; y1; x0; y0]).
  { rewrite Forall_forall in D. split; (split; [reflexivity|]; repeat (apply Forall_cons; [apply D; cbn; tauto|]); apply Forall_nil). }
  destruct D4 as [Da Db]. pose proof (H4 _ Da) as Ga. pose proof (H4 _ Db) as Gb.
  cbn [sat cond]. unfold local in L.
  pose proof (norm_table g (comb cs [x2; y2; x1; y1]) Hg) as Ea. pose proof (norm_table g (comb cs [x1; y1; x0; y0]) Hg) as Eb.
  assert (Sg : forall m, snd (norm m) = 1 \/ snd (norm m) = -1) by (intros m; unfold norm; destruct (m mod 32 <? 16); cbn; auto).
  pose proof (Sg (comb cs [x2; y2; x1; y1])) as Sa. pose proof (Sg (comb cs [x1; y1; x0; y0])) as Sb. clear Sg.
  rewrite Ea, Eb in L. rewrite Ea in Ga. rewrite Eb in Gb.
  destruct (norm (comb cs [x2; y2; x1; y1])) as [p s]. destruct (norm (comb cs [x1; y1; x0; y0])) as [q u]. cbn [fst snd] in *.
  assert (Dp : digit (g p)) by (unfold digit in *; destruct Sa as [->| ->]; lia).
  assert (Dq : digit (g q)) by (unfold digit in *; destruct Sb as [->| ->]; lia).
  assert (Ht1 : forall m a, In (m, a) ((p, g p) :: t) -> g m = a).
  { intros m a [E|E]; [injection E as <- <-; reflexivity|apply Ht; exact E]. }
  apply existsb_exists. exists (g p). split; [apply choices_in; assumption|].
  apply existsb_exists. exists (g q). split; [apply choices_in; assumption|].
  unfold digit in L. replace (Z.abs (x2 + y2 - 2 * (s * g p) + u * g q) <=? 1) with true by lia.
  apply IH; [exact Fv|]. intros m a [E|E]; [injection E as <- <-; reflexivity|apply Ht1; exact E].
Qed.

(* ------------------------------------------------------------------ *)
(** ** Trying all combinations, one coefficient after another *)

Section Search.
Variable D : list Z -> Prop.
Variable f : list Z -> Z.
(** messages of which only the first [k] may differ from 0 *)
Variable vs : nat -> list (list Z).
Hypothesis vs_D : forall k v, In v (vs k) -> D v.
Hypothesis vs_k : forall k v cs, In v (vs k) -> comb cs v = comb (firstn k cs) v.
Variable goal : list Z -> bool.

Fixpoint search (n : nat) (pre : list Z) : bool :=
  match n with
  | O => goal pre
  | S n => let ins := inputs f (vs (Datatypes.S (length pre))) in
           forallb (fun c => let cs := pre ++ [c] in if fits cs ins [] then search n cs else true) residues
  end.

Lemma fits_prefix : forall cs k, lookups D f cs -> (k <= length cs)%nat ->
  fits (firstn k (low cs)) (inputs f (vs k)) [] = true.
Proof.
  intros cs k H Hk. destruct (lookups_one _ _ _ H) as [g [Hg K]]. apply (fits_any g); [exact Hg| |intros m p []].
  intros v p Hin. unfold inputs in Hin. apply in_map_iff in Hin. destruct Hin as [v' [E Hin]]. injection E as <- <-.
  rewrite <- (vs_k k v' (low cs) Hin), table_comb by exact Hg. apply K, (vs_D k), Hin.
Qed.
Lemma search_ok : forall n cs k, lookups D f cs -> length cs = (k + n)%nat -> search n (firstn k (low cs)) = true ->
  goal (low cs) = true.
Proof.
  induction n as [|n IH]; intros cs k H L S.
  - cbn [search] in S. rewrite firstn_all2 in S by (unfold low; rewrite map_length; lia). exact S.
  - cbn [search] in S. apply (IH cs (Datatypes.S k) H ltac:(lia)).
    assert (N : exists c, nth_error (low cs) k = Some (c mod 32)).
    { unfold low. destruct (nth_error cs k) as [c|] eqn:E; [exists c; apply (map_nth_error (fun c => c mod 32)); exact E|].
      apply nth_error_None in E. lia. }
    destruct N as [c N]. rewrite forallb_forall in S. specialize (S _ (residue_in c)). cbv zeta in S.
    assert (E : firstn k (low cs) ++ [c mod 32] = firstn (Datatypes.S k) (low cs)).
    { clear - N. revert N. generalize (low cs) as l. generalize (c mod 32) as x. clear.
      induction k as [|k IH]; intros x [|a l] N; try discriminate.
      - cbn in N. injection N as ->. reflexivity.
      - cbn [firstn app]. f_equal. apply IH. exact N. }
    rewrite E in S. replace (length (firstn k (low cs))) with k in S by (unfold low; rewrite firstn_length, map_length; lia).
    rewrite fits_prefix in S by (auto; lia). exact S.
Qed.
End Search.

(** digit vectors of length [n] in which only the first [k] may differ from 0 *)
Definition first_digits (n k : nat) : list (list Z) := map (fun v => v ++ repeat 0 (n - k)) (vectors (Nat.min k n)).
Lemma comb_zeros : forall j cs, comb cs (repeat 0 j) = 0.
Proof. induction j as [|j IH]; intros [|c cs]; cbn [repeat comb]; try reflexivity. rewrite IH. lia. Qed.
Lemma comb_pad : forall v cs j, comb cs (v ++ repeat 0 j) = comb (firstn (length v) cs) (v ++ repeat 0 j).
Proof.
  induction v as [|d v IH]; intros [|c cs] j; try reflexivity.
  - cbn [app length firstn]. rewrite !comb_zeros. reflexivity.
  - cbn [length firstn app comb]. rewrite IH. reflexivity.
Qed.
Lemma first_digits_words : forall n k v, In v (first_digits n k) -> words n v.
Proof.
  intros n k v H. unfold first_digits in H. apply in_map_iff in H. destruct H as [u [<- Hu]]. apply vectors_words in Hu.
  destruct Hu as [L F]. split; [rewrite app_length, repeat_length; lia|]. unfold digits. apply Forall_app. split; [exact F|].
  apply Forall_forall. intros x Hx. apply repeat_spec in Hx. subst x. unfold digit. lia.
Qed.
Lemma firstn_min : forall A k n (l : list A), firstn (Nat.min k n) l = firstn k (firstn n l).
Proof. intros. rewrite firstn_firstn. reflexivity. Qed.
Lemma first_digits_k : forall n k v cs, In v (first_digits n k) -> comb cs v = comb (firstn k cs) v.
Proof.
  intros n k v cs H. pose proof (first_digits_words _ _ _ H) as [L _]. unfold first_digits in H. apply in_map_iff in H.
  destruct H as [u [<- Hu]]. apply vectors_words in Hu. destruct Hu as [Lu _].
  destruct (Nat.le_gt_cases k n) as [C|C].
  - rewrite comb_pad, (comb_pad _ (firstn k cs)). rewrite Lu, firstn_firstn. f_equal. f_equal. lia.
  - assert (T : forall (a b : list Z), comb a b = comb (firstn (length b) a) b).
    { clear. intros a b. revert a. induction b as [|d b IH]; intros [|c a]; try reflexivity. cbn [length firstn comb]. rewrite IH. reflexivity. }
    rewrite T, (T (firstn k cs)). f_equal. rewrite firstn_firstn. f_equal. rewrite L. lia.
Qed.

(** the search on digits *)
Definition search_digits (f : list Z -> Z) (goal : list Z -> bool) (n : nat) : bool := search f (first_digits n) goal n [].
Lemma search_digits_ok : forall f goal n cs, search_digits f goal n = true -> length cs = n -> lookups (words n) f cs ->
  goal (low cs) = true.
Proof.
  intros f goal n cs S L H.
  apply (search_ok (words n) f (first_digits n) (first_digits_words n) (first_digits_k n) goal n cs 0 H ltac:(lia) S).
Qed.
