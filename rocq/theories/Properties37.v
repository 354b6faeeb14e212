(** C72: how many lookups the square of two or three words takes *)
From Verif Require Import Base Backend Words Params Pbs Squaring Spec Light CostProofs Properties9 Properties14 Properties36.
From Coq Require Import ZifyBool ZifyNat.

(* ------------------------------------------------------------------ *)
(** ** Specification *)

(** Words at the positions [ps] are enough for the squares of numbers of [n] words *)
Definition serve (ps : list nat) (n : nat) : Prop :=
  NoDup ps /\ forall v, 0 <= v < 2 ^ Z.of_nat n ->
    exists ds, words (length ps) ds /\ comb (map (fun p => 2 ^ Z.of_nat p) ps) ds = v * v.
(** [k] lookups are enough: each gives some digit for every number of [n] words, and the words of the square are
    combinations of these digits (row by row) *)
Definition spanned (k n : nat) : Prop :=
  exists (ts : list (list Z -> Z)) (rows : list (list Z)), length ts = k /\
    forall ds, words n ds -> digits (map (fun t => t ds) ts) /\
      value (map (fun r => comb r (map (fun t => t ds) ts)) rows) = square ds.
(** the same in the way lookups are done: from the combination [cs], and every word is, up to its sign, a lookup or 0 *)
Definition looked_up (k n : nat) (cs : list Z) : Prop :=
  exists (gs : list (list Z)) (rows : list (list Z)), length gs = k /\
    Forall (fun r => In r (repeat 0 k :: flat_map (fun j => [repeat 0 j ++ [1] ++ repeat 0 (k - 1 - j); repeat 0 j ++ [-1] ++ repeat 0 (k - 1 - j)])
      (seq 0 k))) rows /\
    forall ds, words n ds -> digits (map (fun g => negacyclic g (comb cs ds)) gs) /\
      value (map (fun r => comb r (map (fun g => negacyclic g (comb cs ds)) gs)) rows) = square ds.

(* ------------------------------------------------------------------ *)
(** ** Not more zeros *)

Definition at_pos (p : nat) (ps : list nat) : list Z := map (fun q => if (q =? p)%nat then 1 else 0) ps.
Definition beyond_4 (ps : list nat) : list Z := map (fun q => if (q <? 5)%nat then 0 else 2 ^ Z.of_nat (q - 5)) ps.

Lemma at_pos_out : forall p ps ds, ~ In p ps -> comb (at_pos p ps) ds = 0.
Proof.
  intros p. induction ps as [|q ps IH]; intros [|d ds] H; try reflexivity. cbn [at_pos map comb]. fold (at_pos p ps).
  rewrite IH by (intros K; apply H; right; exact K). destruct (q =? p)%nat eqn:E; [|lia].
  exfalso. apply H. left. lia.
Qed.
Lemma at_pos_digit : forall p ps ds, NoDup ps -> digits ds -> digit (comb (at_pos p ps) ds).
Proof.
  intros p. induction ps as [|q ps IH]; intros [|d ds] N D; try (cbn; unfold digit; lia).
  inversion N as [|x y Hq Nps]; subst. inversion D as [|x y Hd Dds]; subst. cbn [at_pos map comb]. fold (at_pos p ps).
  destruct (q =? p)%nat eqn:E.
  - rewrite at_pos_out by (replace p with q by lia; exact Hq). unfold digit in *. lia.
  - specialize (IH ds Nps Dds). unfold digit in *. lia.
Qed.
Lemma parts : forall ps ds, comb (map (fun p => 2 ^ Z.of_nat p) ps) ds =
  comb (at_pos 0 ps) ds + 2 * comb (at_pos 1 ps) ds + 4 * comb (at_pos 2 ps) ds + 8 * comb (at_pos 3 ps) ds +
  16 * comb (at_pos 4 ps) ds + 32 * comb (beyond_4 ps) ds.
Proof.
  induction ps as [|q ps IH]; intros [|d ds]; try reflexivity. cbn [at_pos beyond_4 map comb].
  rewrite IH. fold (at_pos 0 ps) (at_pos 1 ps) (at_pos 2 ps) (at_pos 3 ps) (at_pos 4 ps) (beyond_4 ps).
  assert (K : (q = 0 \/ q = 1 \/ q = 2 \/ q = 3 \/ q = 4 \/ 5 <= q)%nat) by lia.
  destruct K as [->|[->|[->|[->|[->|K]]]]]; try (cbn [Nat.eqb Nat.ltb Nat.leb]; lia).
  replace (q =? 0)%nat with false by lia. replace (q =? 1)%nat with false by lia. replace (q =? 2)%nat with false by lia.
  replace (q =? 3)%nat with false by lia. replace (q =? 4)%nat with false by lia. replace (q <? 5)%nat with false by lia.
  replace (2 ^ Z.of_nat q) with (32 * 2 ^ Z.of_nat (q - 5)); [ring|].
  change 32 with (2 ^ 5). rewrite <- Z.pow_add_r by lia. f_equal. lia.
Qed.
Lemma beyond_none : forall ps ds, (forall q, In q ps -> (q < 5)%nat) -> comb (beyond_4 ps) ds = 0.
Proof.
  induction ps as [|q ps IH]; intros [|d ds] H; try reflexivity. cbn [beyond_4 map comb]. fold (beyond_4 ps).
  rewrite IH by (intros r Hr; apply H; right; exact Hr). specialize (H q (or_introl eq_refl)).
  replace (q <? 5)%nat with true by lia. lia.
Qed.
Lemma served : forall ps n v, serve ps n -> 0 <= v < 2 ^ Z.of_nat n -> exists e0 e1 e2 e3 e4 r,
  v * v = e0 + 2 * e1 + 4 * e2 + 8 * e3 + 16 * e4 + 32 * r /\
  (-1 <= e0 <= 1 /\ -1 <= e1 <= 1 /\ -1 <= e2 <= 1 /\ -1 <= e3 <= 1 /\ -1 <= e4 <= 1) /\
  (~ In 0%nat ps -> e0 = 0) /\ (~ In 1%nat ps -> e1 = 0) /\ (~ In 2%nat ps -> e2 = 0) /\ (~ In 3%nat ps -> e3 = 0) /\
  (~ In 4%nat ps -> e4 = 0) /\ ((forall q, In q ps -> (q < 5)%nat) -> r = 0).
Proof.
  intros ps n v [N H] Hv. destruct (H v Hv) as [ds [[_ D] E]].
  exists (comb (at_pos 0 ps) ds), (comb (at_pos 1 ps) ds), (comb (at_pos 2 ps) ds), (comb (at_pos 3 ps) ds),
    (comb (at_pos 4 ps) ds), (comb (beyond_4 ps) ds).
  split; [rewrite <- E; apply parts|]. split; [repeat split; apply at_pos_digit; assumption|].
  repeat (split; [apply at_pos_out|]). apply beyond_none.
Qed.

Lemma has_0 : forall ps n, (1 <= n)%nat -> serve ps n -> In 0%nat ps.
Proof.
  intros ps n Hn S. destruct (in_dec Nat.eq_dec 0%nat ps) as [I|I]; [exact I|exfalso].
  assert (V : 0 <= 1 < 2 ^ Z.of_nat n) by (split; [lia|]; apply Z.pow_gt_1; lia).
  destruct (served _ _ 1 S V) as (e0 & e1 & e2 & e3 & e4 & r & E & B & N0 & N1 & N2 & N3 & N4 & R). apply N0 in I. lia.
Qed.
Lemma has_2 : forall ps n, (2 <= n)%nat -> serve ps n -> In 2%nat ps.
Proof.
  intros ps n Hn S. destruct (in_dec Nat.eq_dec 2%nat ps) as [I|I]; [exact I|exfalso].
  assert (V : 0 <= 2 < 2 ^ Z.of_nat n).
  { split; [lia|]. apply (Z.lt_le_trans _ (2 ^ 2)); [reflexivity|]. apply Z.pow_le_mono_r; lia. }
  destruct (served _ _ 2 S V) as (e0 & e1 & e2 & e3 & e4 & r & E & B & N0 & N1 & N2 & N3 & N4 & R). apply N2 in I. lia.
Qed.

(** The squares of two words need three words, those of three words five: no representation leaves more of them zero
    than the library does *)
Theorem C72_zeros : (forall ps, serve ps 2 -> (3 <= length ps)%nat) /\ (forall ps, serve ps 3 -> (5 <= length ps)%nat) /\
  serve [0; 2; 3]%nat 2 /\ serve [0; 2; 3; 4; 5]%nat 3.
Proof.
  split; [|split; [|split]].
  - intros ps S. pose proof (has_0 ps 2 ltac:(lia) S) as I0. pose proof (has_2 ps 2 ltac:(lia) S) as I2.
    destruct (Nat.le_gt_cases 3 (length ps)) as [C|C]; [exact C|exfalso].
    assert (In2 : incl ps [0; 2]%nat).
    { apply (NoDup_length_incl (l := [0; 2]%nat)); [repeat constructor; cbn; lia|cbn; lia|].
      intros q [<-|[<-|[]]]; assumption. }
    destruct (served _ _ 3 S ltac:(cbn; lia)) as (e0 & e1 & e2 & e3 & e4 & r & E & B & N0 & N1 & N2 & N3 & N4 & R).
    assert (r = 0) by (apply R; intros q Hq; specialize (In2 q Hq); cbn in In2; lia).
    assert (e1 = 0) by (apply N1; intros K; specialize (In2 _ K); cbn in In2; lia).
    assert (e3 = 0) by (apply N3; intros K; specialize (In2 _ K); cbn in In2; lia).
    assert (e4 = 0) by (apply N4; intros K; specialize (In2 _ K); cbn in In2; lia). lia.
  - intros ps S. pose proof (has_0 ps 3 ltac:(lia) S) as I0. pose proof (has_2 ps 3 ltac:(lia) S) as I2.
    assert (I4 : In 4%nat ps).
    { destruct (in_dec Nat.eq_dec 4%nat ps) as [I|I]; [exact I|exfalso].
      destruct (served _ _ 4 S ltac:(cbn; lia)) as (e0 & e1 & e2 & e3 & e4 & r & E & B & N0 & N1 & N2 & N3 & N4 & R).
      apply N4 in I. lia. }
    assert (I : In 1%nat ps \/ In 3%nat ps).
    { destruct (in_dec Nat.eq_dec 1%nat ps) as [I|I]; [left; exact I|].
      destruct (in_dec Nat.eq_dec 3%nat ps) as [J|J]; [right; exact J|exfalso].
      destruct (served _ _ 3 S ltac:(cbn; lia)) as (e0 & e1 & e2 & e3 & e4 & r & E & B & N0 & N1 & N2 & N3 & N4 & R).
      apply N1 in I. apply N3 in J. lia. }
    destruct (Nat.le_gt_cases 5 (length ps)) as [C|C]; [exact C|exfalso].
    assert (In4 : exists q, (q = 1 \/ q = 3)%nat /\ incl ps [0; 2; 4; q]%nat).
    { destruct I as [I|I]; [exists 1%nat|exists 3%nat]; (split; [auto|]);
        (apply (NoDup_length_incl (l := [0; 2; 4; _]%nat)); [repeat constructor; cbn; lia|cbn; lia|];
         intros q [<-|[<-|[<-|[<-|[]]]]]; assumption). }
    destruct In4 as [q [Hq In4]].
    destruct (served _ _ 6 S ltac:(cbn; lia)) as (e0 & e1 & e2 & e3 & e4 & r & E & B & N0 & N1 & N2 & N3 & N4 & R).
    assert (r = 0) by (apply R; intros p Hp; specialize (In4 p Hp); cbn in In4; lia). lia.
  - split; [repeat constructor; cbn; lia|]. intros v Hv. cbn in Hv.
    assert (K : v = 0 \/ v = 1 \/ v = 2 \/ v = 3) by lia.
    assert (W : forall ds, forallb (fun d => (-1 <=? d) && (d <=? 1)) ds = true -> digits ds).
    { intros ds H. rewrite forallb_forall in H. apply Forall_forall. intros d Hd. specialize (H d Hd). unfold digit. lia. }
    destruct K as [->|[->|[->| ->]]]; [exists [0; 0; 0]|exists [1; 0; 0]|exists [0; 1; 0]|exists [1; 0; 1]];
      (split; [split; [reflexivity|apply W; reflexivity]|reflexivity]).
  - split; [repeat constructor; cbn; lia|]. intros v Hv. cbn in Hv.
    assert (K : v = 0 \/ v = 1 \/ v = 2 \/ v = 3 \/ v = 4 \/ v = 5 \/ v = 6 \/ v = 7) by lia.
    assert (W : forall ds, forallb (fun d => (-1 <=? d) && (d <=? 1)) ds = true -> digits ds).
    { intros ds H. rewrite forallb_forall in H. apply Forall_forall. intros d Hd. specialize (H d Hd). unfold digit. lia. }
    destruct K as [->|[->|[->|[->|[->|[->|[->| ->]]]]]]];
      [exists [0; 0; 0; 0; 0]|exists [1; 0; 0; 0; 0]|exists [0; 1; 0; 0; 0]|exists [1; 0; 1; 0; 0]|exists [0; 0; 0; 1; 0]
      |exists [1; 0; 1; 1; 0]|exists [0; 1; 0; 0; 1]|exists [1; 0; 0; 1; 1]];
      (split; [split; [reflexivity|apply W; reflexivity]|reflexivity]).
Qed.
Print Assumptions C72_zeros.

(* ------------------------------------------------------------------ *)
(** ** But fewer lookups *)

(** Two words: the digits t1, t2 of two tables give the words t1, t1, t2, -t1. Three words: t1, t1, t2, 0, t3, t4. *)
Definition two_tables : list (list Z) :=
  [[0; -1; 0; -1; 0; 0; 0; 0; 0; 0; 0; 0; 0; 1; 0; 1]; [0; -1; 1; 1; 0; 0; 0; 0; 0; 0; 0; 0; 0; -1; -1; 1]].
Definition two_rows : list (list Z) := [[1; 0]; [1; 0]; [0; 1]; [-1; 0]].
Definition three_tables : list (list Z) :=
  [[0; -1; 0; -1; 0; -1; 0; -1; 0; 1; 0; 1; 0; 1; 0; 1]; [0; 1; 1; -1; 0; -1; 1; 1; 0; -1; -1; 1; 0; 1; -1; -1];
   [0; 0; 0; 1; 1; 0; 0; 1; 0; -1; 0; 0; -1; -1; 0; 0]; [0; 0; 0; 0; 0; 1; 1; 1; 0; -1; -1; -1; 0; 0; 0; 0]].
Definition three_rows : list (list Z) :=
  [[1; 0; 0; 0]; [1; 0; 0; 0]; [0; 1; 0; 0]; [0; 0; 0; 0]; [0; 0; 1; 0]; [0; 0; 0; 1]].

Lemma digits_dec : forall ds, forallb (fun d => (-1 <=? d) && (d <=? 1)) ds = true -> digits ds.
Proof. intros ds H. rewrite forallb_forall in H. apply Forall_forall. intros d Hd. specialize (H d Hd). unfold digit. lia. Qed.
Lemma digits_words : forall n f, forallb (fun ds => forallb (fun d => (-1 <=? d) && (d <=? 1)) (f ds)) (vectors n) = true ->
  forall ds, words n ds -> digits (f ds).
Proof. intros n f H ds Hd. apply digits_dec. exact (all_words n (fun ds => forallb (fun d => (-1 <=? d) && (d <=? 1)) (f ds)) H ds Hd). Qed.

Theorem C72_fewer : looked_up 2 2 [1; 2] /\ looked_up 4 3 [1; 2; 4].
Proof.
  split.
  - exists two_tables, two_rows. split; [reflexivity|]. split; [repeat (apply Forall_cons; [cbn; tauto|]); apply Forall_nil|].
    intros ds Hd. split; [revert ds Hd; apply digits_words; vm_compute; reflexivity|].
    revert ds Hd. apply equal_words. vm_compute. reflexivity.
  - exists three_tables, three_rows. split; [reflexivity|]. split; [repeat (apply Forall_cons; [cbn; tauto|]); apply Forall_nil|].
    intros ds Hd. split; [revert ds Hd; apply digits_words; vm_compute; reflexivity|].
    revert ds Hd. apply equal_words. vm_compute. reflexivity.
Qed.
Print Assumptions C72_fewer.

(** while the library takes three and five: *)
Theorem C72_library : forall B (x : ciphertext B), Properties9.fresh x ->
  (length x = 2%nat -> pbs (pa_squ x) = 3) /\ (length x = 3%nat -> pbs (pa_squ x) = 5).
Proof. intros B x H. split; intros L; rewrite C52_squ by (auto; lia); rewrite L; reflexivity. Qed.
Print Assumptions C72_library.

(** *** Not fewer still: solving for what each lookup contributes *)

(** an equation a w1 + b w2 + c w3 = d *)
Definition eqn : Type := Z * Z * Z * Z.
Definition holds (w1 w2 w3 : Z) (e : eqn) : Prop := let '(a, b, c, d) := e in a * w1 + b * w2 + c * w3 = d.
Definition lead (r x : eqn) : Z :=
  let '(a, b, _, _) := r in let '(x1, x2, x3, _) := x in if negb (a =? 0) then x1 else if negb (b =? 0) then x2 else x3.
Definition cancel (x r : eqn) : eqn :=
  let p := lead r r in let q := lead r x in
  let '(a, b, c, d) := r in let '(x1, x2, x3, x4) := x in
  if q =? 0 then x else (p * x1 - q * a, p * x2 - q * b, p * x3 - q * c, p * x4 - q * d).
Definition triples : list (Z * Z * Z) :=
  flat_map (fun a => flat_map (fun b => map (fun c => (a, b, c)) [-1; 0; 1]) [-1; 0; 1]) [-1; 0; 1].
Fixpoint solvable (vs : list Z) (es : list eqn) : bool :=
  match vs with
  | [] => true
  | v :: vs => existsb (fun '(a, b, c) =>
      let e := fold_left cancel es (a, b, c, v * v) in
      let '(x, y, z, d) := e in
      if (x =? 0) && (y =? 0) && (z =? 0) then if d =? 0 then solvable vs es else false
      else solvable vs (es ++ [e])) triples
  end.

Lemma cancel_holds : forall w1 w2 w3 x r, holds w1 w2 w3 r -> holds w1 w2 w3 x -> holds w1 w2 w3 (cancel x r).
Proof.
  intros w1 w2 w3 [[[x1 x2] x3] x4] [[[a b] c] d] Hr Hx. unfold cancel.
  set (q := lead _ (x1, _, _, _)). set (p := lead _ _). destruct (q =? 0); [exact Hx|]. unfold holds in *. rewrite <- Hr, <- Hx. ring.
Qed.
Lemma cancel_all : forall w1 w2 w3 es x, Forall (holds w1 w2 w3) es -> holds w1 w2 w3 x -> holds w1 w2 w3 (fold_left cancel es x).
Proof.
  intros w1 w2 w3 es. induction es as [|r es IH]; intros x F Hx; [exact Hx|]. inversion F as [|a b Hr Fr]; subst.
  cbn [fold_left]. apply IH; [exact Fr|]. apply cancel_holds; assumption.
Qed.
Lemma in_triples : forall a b c, digit a -> digit b -> digit c -> In (a, b, c) triples.
Proof.
  assert (K : forall a, digit a -> In a [-1; 0; 1]).
  { intros a H. unfold digit in H. assert (E : a = -1 \/ a = 0 \/ a = 1) by lia. cbn. destruct E as [->|[->| ->]]; auto. }
  intros a b c Ha Hb Hc. unfold triples. apply in_flat_map. exists a. split; [apply K, Ha|].
  apply in_flat_map. exists b. split; [apply K, Hb|]. apply in_map_iff. exists c. split; [reflexivity|apply K, Hc].
Qed.
Lemma solvable_ok : forall (t1 t2 t3 : Z -> Z) w1 w2 w3 vs es,
  (forall v, In v vs -> (digit (t1 v) /\ digit (t2 v) /\ digit (t3 v)) /\ t1 v * w1 + t2 v * w2 + t3 v * w3 = v * v) ->
  Forall (holds w1 w2 w3) es -> solvable vs es = true.
Proof.
  intros t1 t2 t3 w1 w2 w3. induction vs as [|v vs IH]; intros es H F; [reflexivity|]. cbn [solvable].
  destruct (H v (or_introl eq_refl)) as [[D1 [D2 D3]] E].
  apply existsb_exists. exists (t1 v, t2 v, t3 v). split; [apply in_triples; assumption|].
  pose proof (cancel_all w1 w2 w3 es (t1 v, t2 v, t3 v, v * v) F E) as K. cbv zeta.
  assert (G : holds w1 w2 w3 (fold_left cancel es (t1 v, t2 v, t3 v, v * v))) by exact K.
  destruct (fold_left cancel es (t1 v, t2 v, t3 v, v * v)) as [[[x y] z] d]. unfold holds in K.
  assert (H' : forall u, In u vs -> (digit (t1 u) /\ digit (t2 u) /\ digit (t3 u)) /\ t1 u * w1 + t2 u * w2 + t3 u * w3 = u * u)
    by (intros u Hu; apply H; right; exact Hu).
  destruct ((x =? 0) && (y =? 0) && (z =? 0)) eqn:C.
  - assert (x = 0 /\ y = 0 /\ z = 0) as [-> [-> ->]] by (clear - C; lia). replace (d =? 0) with true by (clear - K; lia).
    apply IH; assumption.
  - apply IH; [exact H'|]. apply Forall_app. split; [exact F|]. constructor; [exact G|constructor].
Qed.

(** Up to the order and the signs of the lookups, those of 7 are 1, 0, 0 or 1, 1, 0 or 1, 1, 1 *)
Lemma three_search : existsb (fun e => solvable [6; 5; 4; 3; 2; 1] [e]) [(1, 0, 0, 49); (1, 1, 0, 49); (1, 1, 1, 49)] = false.
Proof. vm_compute. reflexivity. Qed.
Definition shares (t1 t2 t3 : Z -> Z) (w1 w2 w3 : Z) : Prop := forall v, 0 <= v <= 7 ->
  (digit (t1 v) /\ digit (t2 v) /\ digit (t3 v)) /\ t1 v * w1 + t2 v * w2 + t3 v * w3 = v * v.
Lemma shares_first : forall t1 t2 t3 w1 w2 w3, shares t1 t2 t3 w1 w2 w3 ->
  In (t1 7, t2 7, t3 7, 49) [(1, 0, 0, 49); (1, 1, 0, 49); (1, 1, 1, 49)] -> False.
Proof.
  intros t1 t2 t3 w1 w2 w3 H I.
  assert (E : existsb (fun e => solvable [6; 5; 4; 3; 2; 1] [e]) [(1, 0, 0, 49); (1, 1, 0, 49); (1, 1, 1, 49)] = true).
  { apply existsb_exists. eexists. split; [exact I|]. apply (solvable_ok t1 t2 t3 w1 w2 w3).
    - intros v Hv. apply H. cbn in Hv. clear - Hv. lia.
    - constructor; [|constructor]. exact (proj2 (H 7 ltac:(lia))). }
  rewrite three_search in E. discriminate.
Qed.
Lemma shares_positive : forall t1 t2 t3 w1 w2 w3, shares t1 t2 t3 w1 w2 w3 ->
  (t1 7 = 0 \/ t1 7 = 1) -> (t2 7 = 0 \/ t2 7 = 1) -> (t3 7 = 0 \/ t3 7 = 1) -> False.
Proof.
  assert (S12 : forall t1 t2 t3 w1 w2 w3, shares t1 t2 t3 w1 w2 w3 -> shares t2 t1 t3 w2 w1 w3).
  { intros t1 t2 t3 w1 w2 w3 H v Hv. destruct (H v Hv) as [D E]. split; [tauto|]. lia. }
  assert (S23 : forall t1 t2 t3 w1 w2 w3, shares t1 t2 t3 w1 w2 w3 -> shares t1 t3 t2 w1 w3 w2).
  { intros t1 t2 t3 w1 w2 w3 H v Hv. destruct (H v Hv) as [D E]. split; [tauto|]. lia. }
  intros t1 t2 t3 w1 w2 w3 H [A|A] [B|B] [C|C].
  - pose proof (proj2 (H 7 ltac:(lia))) as E. rewrite A, B, C in E. lia.
  - apply S23, S12 in H. apply (shares_first _ _ _ _ _ _ H). rewrite A, B, C. cbn. auto.
  - apply S12 in H. apply (shares_first _ _ _ _ _ _ H). rewrite A, B, C. cbn. auto.
  - apply S12, S23 in H. apply (shares_first _ _ _ _ _ _ H). rewrite A, B, C. cbn. auto.
  - apply (shares_first _ _ _ _ _ _ H). rewrite A, B, C. cbn. auto.
  - apply S23 in H. apply (shares_first _ _ _ _ _ _ H). rewrite A, B, C. cbn. auto.
  - apply (shares_first _ _ _ _ _ _ H). rewrite A, B, C. cbn. auto.
  - apply (shares_first _ _ _ _ _ _ H). rewrite A, B, C. cbn. auto.
Qed.
Lemma shares_none : forall t1 t2 t3 w1 w2 w3, shares t1 t2 t3 w1 w2 w3 -> False.
Proof.
  intros t1 t2 t3 w1 w2 w3 H.
  assert (P : forall x, digit x -> exists s, (s = 1 \/ s = -1) /\ (s * x = 0 \/ s * x = 1)).
  { intros x Hx. unfold digit in Hx. destruct (Z_lt_le_dec x 0) as [C|C]; [exists (-1)|exists 1]; lia. }
  destruct (H 7 ltac:(lia)) as [[D1 [D2 D3]] _].
  destruct (P _ D1) as [s1 [H1 K1]]. destruct (P _ D2) as [s2 [H2 K2]]. destruct (P _ D3) as [s3 [H3 K3]].
  apply (shares_positive (fun v => s1 * t1 v) (fun v => s2 * t2 v) (fun v => s3 * t3 v) (s1 * w1) (s2 * w2) (s3 * w3)); auto.
  intros v Hv. destruct (H v Hv) as [[F1 [F2 F3]] E]. clear - H1 H2 H3 F1 F2 F3 E. unfold digit in *.
  split; [destruct H1 as [->| ->], H2 as [->| ->], H3 as [->| ->]; lia|].
  assert (s1 * s1 = 1) by (destruct H1 as [->| ->]; reflexivity). assert (s2 * s2 = 1) by (destruct H2 as [->| ->]; reflexivity).
  assert (s3 * s3 = 1) by (destruct H3 as [->| ->]; reflexivity).
  replace (s1 * t1 v * (s1 * w1)) with (s1 * s1 * (t1 v * w1)) by ring.
  replace (s2 * t2 v * (s2 * w2)) with (s2 * s2 * (t2 v * w2)) by ring.
  replace (s3 * t3 v * (s3 * w3)) with (s3 * s3 * (t3 v * w3)) by ring. rewrite H, H0, H4. lia.
Qed.

(** what all words together make of each lookup *)
Fixpoint plus2 (r w : list Z) : list Z :=
  match r, w with
  | [], w => map (fun b => 2 * b) w
  | r, [] => r
  | a :: r, b :: w => (a + 2 * b) :: plus2 r w
  end.
Lemma comb_twice : forall w d, comb (map (fun b => 2 * b) w) d = 2 * comb w d.
Proof. induction w as [|b w IH]; intros [|x d]; try reflexivity. cbn [map comb]. rewrite IH. ring. Qed.
Lemma comb_plus2 : forall r w d, comb (plus2 r w) d = comb r d + 2 * comb w d.
Proof.
  induction r as [|a r IH]; intros w d; [cbn [plus2 comb]; rewrite comb_twice; reflexivity|].
  destruct w as [|b w]; [cbn [plus2]; destruct d; cbn [comb]; lia|].
  destruct d as [|x d]; [reflexivity|]. cbn [plus2 comb]. rewrite IH. ring.
Qed.
Lemma rows_value : forall rows, exists W, forall d, value (map (fun r => comb r d) rows) = comb W d.
Proof.
  induction rows as [|r rows [W IH]]; [exists []; intros [|x d]; reflexivity|]. exists (plus2 r W). intros d.
  cbn [map value]. rewrite IH, comb_plus2. reflexivity.
Qed.

(** the number v in n words *)
Fixpoint bits (n : nat) (v : Z) : list Z := match n with O => [] | S n => v mod 2 :: bits n (v / 2) end.
Lemma bits_words : forall n v, words n (bits n v).
Proof.
  induction n as [|n IH]; intros v; [split; [reflexivity|apply Forall_nil]|]. destruct (IH (v / 2)) as [L D]. split; [cbn; lia|].
  apply Forall_cons; [|exact D]. pose proof (Z.mod_pos_bound v 2 ltac:(lia)). unfold digit. lia.
Qed.
Lemma bits_value : forall n v, 0 <= v < 2 ^ Z.of_nat n -> value (bits n v) = v.
Proof.
  induction n as [|n IH]; intros v H; [cbn in *; lia|]. cbn [bits value]. rewrite Nat2Z.inj_succ, Z.pow_succ_r in H by lia.
  pose proof (Z.div_mod v 2 ltac:(lia)) as E. pose proof (Z.mod_pos_bound v 2 ltac:(lia)) as B. rewrite IH by lia. lia.
Qed.

Lemma digits_nth : forall ds i, digits ds -> digit (nth i ds 0).
Proof.
  intros ds i D. destruct (Nat.lt_ge_cases i (length ds)) as [C|C].
  - unfold digits in D. rewrite Forall_forall in D. apply D, nth_In, C.
  - rewrite nth_overflow by exact C. unfold digit. lia.
Qed.
Lemma comb_3 : forall W d, (length d <= 3)%nat ->
  comb W d = nth 0 d 0 * nth 0 W 0 + nth 1 d 0 * nth 1 W 0 + nth 2 d 0 * nth 2 W 0.
Proof.
  intros [|a [|b [|c W]]] [|x [|y [|z [|u d]]]] L; cbn [length] in L; try lia; cbn [comb nth]; try ring;
    destruct W; cbn [comb]; ring.
Qed.

(** Two lookups are least for two words, and four for three, however the words are made of the lookups *)
Theorem C72_fewest : (forall k, spanned k 2 -> (2 <= k)%nat) /\ (forall k, spanned k 3 -> (4 <= k)%nat).
Proof.
  assert (P : forall n k, (k <= 3)%nat -> spanned k n -> exists t1 t2 t3 w1 w2 w3,
    (forall v, 0 <= v < 2 ^ Z.of_nat n -> (digit (t1 v) /\ digit (t2 v) /\ digit (t3 v)) /\ t1 v * w1 + t2 v * w2 + t3 v * w3 = v * v) /\
    ((k <= 1)%nat -> forall v, t2 v = 0 /\ t3 v = 0)).
  { intros n k Hk [ts [rows [L H]]]. destruct (rows_value rows) as [W EW].
    set (d := fun v => map (fun t => t (bits n v)) ts).
    exists (fun v => nth 0 (d v) 0), (fun v => nth 1 (d v) 0), (fun v => nth 2 (d v) 0), (nth 0 W 0), (nth 1 W 0), (nth 2 W 0).
    assert (Ld : forall v, length (d v) = k) by (intros v; unfold d; rewrite map_length; exact L). split.
    - intros v Hv. destruct (H (bits n v) (bits_words n v)) as [D E]. fold (d v) in D, E. rewrite EW in E.
      split; [repeat split; apply digits_nth, D|]. rewrite <- comb_3 by (rewrite Ld; exact Hk). rewrite E. unfold square.
      rewrite bits_value by exact Hv. reflexivity.
    - intros K v. split; apply nth_overflow; rewrite Ld; lia. }
  split; intros k H.
  - destruct (Nat.le_gt_cases 2 k) as [C|C]; [exact C|exfalso].
    destruct (P 2%nat k ltac:(lia) H) as [t1 [t2 [t3 [w1 [w2 [w3 [E Z]]]]]]].
    destruct (E 1 ltac:(cbn; lia)) as [[D _] E1]. destruct (E 2 ltac:(cbn; lia)) as [[D' _] E2].
    destruct (Z ltac:(lia) 1) as [Z2 Z3]. destruct (Z ltac:(lia) 2) as [Z2' Z3'].
    rewrite Z2, Z3 in E1. rewrite Z2', Z3' in E2. unfold digit in *. clear - D D' E1 E2.
    assert (K : t1 1 = -1 \/ t1 1 = 0 \/ t1 1 = 1) by lia. assert (K' : t1 2 = -1 \/ t1 2 = 0 \/ t1 2 = 1) by lia.
    destruct K as [K|[K|K]], K' as [K'|[K'|K']]; rewrite K in E1; rewrite K' in E2; lia.
  - destruct (Nat.le_gt_cases 4 k) as [C|C]; [exact C|exfalso].
    destruct (P 3%nat k ltac:(lia) H) as [t1 [t2 [t3 [w1 [w2 [w3 [E _]]]]]]].
    apply (shares_none t1 t2 t3 w1 w2 w3). intros v Hv. apply E. cbn. lia.
Qed.
Print Assumptions C72_fewest.

(** and lookups of a combination are of that kind *)
Theorem C72_enough : spanned 2 2 /\ spanned 4 3.
Proof.
  assert (P : forall k n cs, looked_up k n cs -> spanned k n).
  { intros k n cs [gs [rows [L [_ H]]]]. exists (map (fun g ds => negacyclic g (comb cs ds)) gs), rows.
    rewrite map_length. split; [exact L|]. intros ds Hd. rewrite map_map. apply H, Hd. }
  split; [apply (P _ _ _ (proj1 C72_fewer))|apply (P _ _ _ (proj2 C72_fewer))].
Qed.
Print Assumptions C72_enough.

(* ------------------------------------------------------------------ *)
(** ** Examples *)

(** 3, 5 and 7 squared: the lookups and the words *)
Example C72_lookups_ex :
  map (fun g => negacyclic g 3) two_tables = [-1; 1] /\ map (fun r => comb r [-1; 1]) two_rows = [-1; -1; 1; 1] /\
  value [-1; -1; 1; 1] = 9 /\
  map (fun g => negacyclic g 5) three_tables = [-1; -1; 0; 1] /\
  map (fun r => comb r [-1; -1; 0; 1]) three_rows = [-1; -1; -1; 0; 0; 1] /\ value [-1; -1; -1; 0; 0; 1] = 25 /\
  map (fun r => comb r (map (fun g => negacyclic g 7) three_tables)) three_rows = [-1; -1; 1; 0; 1; 1].
Proof. vm_compute. repeat split. Qed.
(** five positions may be others *)
Example C72_zeros_ex : serve [0; 1; 2; 4; 5]%nat 3.
Proof.
  split; [repeat constructor; cbn; lia|]. intros v Hv. cbn in Hv.
  assert (K : v = 0 \/ v = 1 \/ v = 2 \/ v = 3 \/ v = 4 \/ v = 5 \/ v = 6 \/ v = 7) by lia.
  destruct K as [->|[->|[->|[->|[->|[->|[->| ->]]]]]]];
    [exists [0; 0; 0; 0; 0]|exists [1; 0; 0; 0; 0]|exists [0; 0; 1; 0; 0]|exists [-1; -1; -1; 1; 0]|exists [0; 0; 0; 1; 0]
    |exists [-1; -1; -1; 0; 1]|exists [0; 0; 1; 0; 1]|exists [1; 0; 0; 1; 1]];
    (split; [split; [reflexivity|apply digits_dec; reflexivity]|reflexivity]).
Qed.
Example C72_library_ex : Properties9.fresh (Properties36.fresh 0 3) /\ pbs (pa_squ (Properties36.fresh 0 3)) = 5.
Proof. split; [repeat (apply Forall_cons; [reflexivity|]); apply Forall_nil|vm_compute; reflexivity]. Qed.
