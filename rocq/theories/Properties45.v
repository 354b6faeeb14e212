(** C80: how many words a circuit of few bootstraps in a row can look at *)
From Verif Require Import Base Backend Words Params Pbs Signum Spec Symbolic Weights BaseProofs
  ShapeProofs DepthProofs WeightProofs Instances Properties5 Properties8 Properties36.
From Coq Require Import ZifyBool ZifyNat.

(* ------------------------------------------------------------------ *)
(** ** Specification *)

(** The message that a circuit computes: [env] gives those of the inputs, [F] what bootstraps do, whatever it is *)
Fixpoint msg (F : list Z -> Z -> Z) (env : nat -> Z) (t : term) : Z :=
  match t with
  | TVar i => env i
  | TAdd u v => msg F env u + msg F env v
  | TAddPt u p => msg F env u + p
  | TOpp u => - msg F env u
  | TMul u k => k * msg F env u
  | TLut acc u => F acc (msg F env u)
  end.
(** The circuit [t] gives [f], perhaps only after decoding *)
Definition computes (f : (nat -> Z) -> Z) (t : term) : Prop :=
  exists F out, forall env, (forall i, digit (env i)) -> out (msg F env t) = f env.
(** words [0 .. n-1] all matter: each can change the result, the others staying the same *)
Definition looks_at (n : nat) (f : (nat -> Z) -> Z) : Prop :=
  forall i, (i < n)%nat -> exists env env', (forall j, digit (env j)) /\ (forall j, digit (env' j)) /\
    (forall j, j <> i -> env j = env' j) /\ f env <> f env'.
(** no bootstrap behind [t] is heavier than [w] *)
Definition light (w : nat) (t : term) : Prop := Forall (fun u => qle (coef u) (Z.of_nat w)) (boot_inputs t).

(* ------------------------------------------------------------------ *)
(** ** A circuit is determined by few inputs *)

Definition dot (f g : term -> Z) (l : list term) : Z := fold_right (fun a s => f a * g a + s) 0 l.
Lemma dot_one : forall b g l, NoDup l -> In b l -> dot (fun a => if term_eq_dec b a then 1 else 0) g l = g b.
Proof.
  intros b g l N H. induction N as [|a l Ha N IH]; [contradiction|]. cbn [dot fold_right]. fold (dot (fun a => if term_eq_dec b a then 1 else 0) g l).
  destruct (term_eq_dec b a) as [<-|Nb].
  - assert (Z0 : dot (fun a => if term_eq_dec b a then 1 else 0) g l = 0); [|lia].
    clear - Ha. induction l as [|c l IH]; [reflexivity|]. cbn [dot fold_right]. fold (dot (fun a => if term_eq_dec b a then 1 else 0) g l).
    rewrite IH by (intros K; apply Ha; right; exact K). destruct (term_eq_dec b c) as [->|]; [exfalso; apply Ha; left; reflexivity|lia].
  - destruct H as [->|H]; [congruence|]. rewrite IH by exact H. lia.
Qed.
Lemma msg_diff : forall F e e' t l, NoDup l -> incl (samples t) l ->
  msg F e t - msg F e' t = dot (coef t) (fun a => msg F e a - msg F e' a) l.
Proof.
  intros F e e' t l N. set (g := fun a => msg F e a - msg F e' a).
  assert (One : forall b, In b l -> g b = dot (fun a => if term_eq_dec b a then 1 else 0) g l) by (intros b Hb; symmetry; apply dot_one; assumption).
  induction t as [i|u IHu v IHv|u IHu p|u IHu|u IHu k|acc u IHu]; cbn [samples msg]; intros I.
  - apply (One (TVar i)), I. left. reflexivity.
  - assert (Iu : incl (samples u) l) by (intros a Ha; apply I, in_or_app; auto).
    assert (Iv : incl (samples v) l) by (intros a Ha; apply I, in_or_app; auto).
    replace (msg F e u + msg F e v - (msg F e' u + msg F e' v)) with ((msg F e u - msg F e' u) + (msg F e v - msg F e' v)) by lia.
    rewrite (IHu Iu), (IHv Iv). clear. induction l as [|a l IH]; [reflexivity|]. cbn [dot fold_right coef] in *. unfold dot in IH. lia.
  - replace (msg F e u + p - (msg F e' u + p)) with (msg F e u - msg F e' u) by lia. exact (IHu I).
  - replace (- msg F e u - - msg F e' u) with (- (msg F e u - msg F e' u)) by lia. rewrite (IHu I).
    clear. induction l as [|a l IH]; [reflexivity|]. cbn [dot fold_right coef] in *. unfold dot in IH. lia.
  - replace (k * msg F e u - k * msg F e' u) with (k * (msg F e u - msg F e' u)) by lia. rewrite (IHu I).
    clear. induction l as [|a l IH]; [cbn; lia|]. cbn [dot fold_right coef] in *. unfold dot in IH. lia.
  - apply (One (TLut acc u)), I. left. reflexivity.
Qed.
Lemma sample_form : forall t a, In a (samples t) -> (exists i, a = TVar i) \/
  (exists acc u, a = TLut acc u /\ (S (tdepth u) <= tdepth t)%nat /\ incl (u :: boot_inputs u) (boot_inputs t)).
Proof.
  induction t as [i|u IHu v IHv|u IHu p|u IHu|u IHu k|acc u IHu]; cbn [samples boot_inputs tdepth]; intros a H; auto.
  - destruct H as [<-|[]]. left. eauto.
  - apply in_app_or in H. destruct H as [H|H].
    + destruct (IHu a H) as [K|[acc [b [-> [D I]]]]]; [left; exact K|right]. exists acc, b. split; [reflexivity|]. split; [lia|]. intros c Hc. apply in_or_app. left. apply I, Hc.
    + destruct (IHv a H) as [K|[acc [b [-> [D I]]]]]; [left; exact K|right]. exists acc, b. split; [reflexivity|]. split; [lia|]. intros c Hc. apply in_or_app. right. apply I, Hc.
  - destruct H as [<-|[]]. right. exists acc, u. split; [reflexivity|]. split; [lia|]. apply incl_refl.
Qed.
Definition settles (L : list nat) (a : term) : Prop :=
  forall F e e', (forall i, In i L -> e i = e' i) -> msg F e a = msg F e' a.
Lemma settle_all : forall m S, (forall a, In a S -> exists L, (length L <= m)%nat /\ settles L a) ->
  exists L, (length L <= length S * m)%nat /\ forall a, In a S -> settles L a.
Proof.
  intros m S. induction S as [|b S IH]; intros H; [exists []; split; [cbn; lia|contradiction]|].
  destruct (H b) as [L1 [H1 K1]]; [left; reflexivity|]. destruct IH as [L2 [H2 K2]]; [intros a Ha; apply H; right; exact Ha|].
  exists (L1 ++ L2). split; [rewrite app_length; cbn [length]; lia|]. intros a [<-|Ha] F e e' E.
  - apply K1. intros i Hi. apply E, in_or_app. auto.
  - apply (K2 a Ha). intros i Hi. apply E, in_or_app. auto.
Qed.
Lemma few_inputs : forall d t v w, (1 <= w)%nat -> (tdepth t <= d)%nat -> light w t -> qle (coef t) (Z.of_nat v) ->
  exists L, (length L <= v * w ^ d)%nat /\ settles L t.
Proof.
  induction d as [d IH] using lt_wf_ind. intros t v w Hw Hd Hl Hq.
  set (P := nodup term_eq_dec (samples t)). set (S := filter (fun a => negb (coef t a =? 0)) P).
  assert (NP : NoDup P) by apply NoDup_nodup. assert (NS : NoDup S) by (apply NoDup_filter, NP).
  assert (LS : (length S <= v)%nat).
  { specialize (Hq S NS). assert (K : forall a, In a S -> coef t a <> 0) by (intros a Ha; apply filter_In in Ha; lia).
    assert (Z.of_nat (length S) <= sq_sum (coef t) S); [|lia]. clear - K. induction S as [|a l IH]; [reflexivity|].
    rewrite sq_cons. cbn [length]. specialize (IH ltac:(intros b Hb; apply K; right; exact Hb)). pose proof (K a ltac:(left; reflexivity)). nia. }
  destruct (settle_all (w ^ d) S) as [L [L1 L2]].
  { intros a Ha. apply filter_In in Ha. destruct Ha as [Ha _]. apply nodup_In in Ha. destruct (sample_form t a Ha) as [[i ->]|[acc [u [-> [D I]]]]].
    - exists [i]. split; [cbn [length]; pose proof (Nat.pow_nonzero w d ltac:(lia)); lia|]. intros F e e' E. apply E. left. reflexivity.
    - unfold light in Hl. rewrite Forall_forall in Hl. destruct d as [|d]; [lia|].
      destruct (IH d ltac:(lia) u w w Hw ltac:(lia)) as [L [K1 K2]].
      + apply Forall_forall. intros b Hb. apply Hl, I. right. exact Hb.
      + apply Hl, I. left. reflexivity.
      + exists L. split; [cbn [Nat.pow]; exact K1|]. intros F e e' E. cbn [msg]. f_equal. apply K2, E. }
  exists L. split; [nia|]. intros F e e' E.
  assert (Z0 : msg F e t - msg F e' t = 0); [|lia]. rewrite (msg_diff F e e' t P NP) by (intros a Ha; apply nodup_In, Ha).
  assert (K : forall a, In a P -> coef t a * (msg F e a - msg F e' a) = 0).
  { intros a Ha. destruct (Z.eq_dec (coef t a) 0) as [->|N0]; [lia|].
    rewrite (L2 a ltac:(apply filter_In; split; [exact Ha|lia]) F e e' E). lia. }
  clear - K. induction P as [|a l IH]; [reflexivity|]. specialize (IH ltac:(intros b Hb; apply K; right; exact Hb)).
  unfold dot in *. cbn [fold_right]. rewrite IH, (K a) by (left; reflexivity). reflexivity.
Qed.

(** With at most [d] bootstraps in a row, none heavier than [w], a word that is one sample depends on at most w^d inputs, and
    a sum of squares of coefficients [v] makes it v w^d. Whatever the tables are. *)
Theorem C80_looks : forall d v w n f t, (1 <= w)%nat -> (tdepth t <= d)%nat -> light w t -> qle (coef t) (Z.of_nat v) ->
  computes f t -> looks_at n f -> (n <= v * w ^ d)%nat.
Proof.
  intros d v w n f t Hw Hd Hl Hq [F [out C]] A. destruct (few_inputs d t v w Hw Hd Hl Hq) as [L [H K]].
  assert (I : incl (seq 0 n) L).
  { intros i Hi. apply in_seq in Hi. destruct (in_dec Nat.eq_dec i L) as [Y|N]; [exact Y|]. exfalso.
    destruct (A i ltac:(lia)) as [e [e' [D [D' [E X]]]]]. apply X. rewrite <- (C e D), <- (C e' D'). f_equal. apply K.
    intros j Hj. apply E. intros ->. contradiction. }
  pose proof (NoDup_incl_length (seq_NoDup n 0) I) as G. rewrite seq_length in G. lia.
Qed.
Print Assumptions C80_looks.

(* ------------------------------------------------------------------ *)
(** ** Signs *)

(** the sign of the number of [n] words *)
Definition sign_of (n : nat) (env : nat -> Z) : Z := Z.sgn (value (map env (seq 0 n))).
Lemma value_one : forall n k i, (k <= i < k + n)%nat -> 0 < value (map (fun j => if Nat.eqb j i then 1 else 0) (seq k n)).
Proof.
  induction n as [|n IH]; intros k i H; [lia|]. cbn [seq map value]. destruct (Nat.eqb k i) eqn:E.
  - apply Nat.eqb_eq in E. subst i. assert (Z0 : 0 <= value (map (fun j => if Nat.eqb j k then 1 else 0) (seq (S k) n))); [|lia].
    generalize (S k). clear. induction n as [|n IH]; intros m; cbn [seq map value]; [lia|]. specialize (IH (S m)). destruct (Nat.eqb m k); lia.
  - specialize (IH (S k) i). apply Nat.eqb_neq in E. lia.
Qed.
Lemma sign_looks : forall n, looks_at n (sign_of n).
Proof.
  intros n i Hi. exists (fun _ => 0), (fun j => if Nat.eqb j i then 1 else 0). split; [intros; unfold digit; lia|].
  split; [intros j; destruct (Nat.eqb j i); unfold digit; lia|]. split; [intros j Hj; apply Nat.eqb_neq in Hj; rewrite Hj; reflexivity|].
  unfold sign_of. pose proof (value_one n 0 i ltac:(lia)) as V.
  assert (Z0 : forall k, value (map (fun _ : nat => 0) (seq k n)) = 0) by (clear; induction n as [|n IH]; intros k; cbn [seq map value]; [reflexivity|rewrite IH; reflexivity]).
  rewrite Z0. cbn [Z.sgn]. intros E. symmetry in E. apply Z.sgn_null_iff in E. lia.
Qed.
(** Any circuit for the sign, with whatever tables: its depth grows with the logarithm of the length *)
Theorem C80_sign : forall d w n t, (1 <= w)%nat -> (tdepth t <= d)%nat -> light w t -> qle (coef t) 1 -> computes (sign_of n) t ->
  (n <= w ^ d)%nat.
Proof.
  intros d w n t Hw Hd Hl Hq C. pose proof (C80_looks d 1 w n (sign_of n) t Hw Hd Hl Hq C (sign_looks n)). lia.
Qed.
Print Assumptions C80_sign.
(** So signum is within four times the least possible depth, with the budget as shipped: it has [r] bootstraps in a row where
    any circuit has [d] with r <= 4 d *)
Theorem C80_signum : forall N pc r (x z : ciphertext (sym N)) t d, depth_le 0 x -> (4 ^ r < length x <= 4 ^ S r)%nat ->
  85 <= quad_weight (cparams pc) -> fst (pa_sgn pc x) = Ok z ->
  light 100 t -> qle (coef t) 1 -> computes (sign_of (length x)) t -> (tdepth t <= d)%nat ->
  depth_le (S r) z /\ (S r <= 4 * d)%nat.
Proof.
  intros N pc r x z t d Hx [L1 L2] Hq E Hl Ht C Hd. split.
  - pose proof (C33_sgn N pc 0 (S r) x z Hx L2 E) as H. replace (0 + S r + narrow pc)%nat with (S r) in H; [exact H|].
    unfold narrow. replace (85 <=? quad_weight (cparams pc)) with true by lia. lia.
  - pose proof (C80_sign d 100 (length x) t ltac:(lia) Hd Hl Ht C) as H.
    assert (K : (100 ^ d <= (4 ^ 4) ^ d)%nat) by (apply Nat.pow_le_mono_l; apply Nat.leb_le; reflexivity). rewrite <- Nat.pow_mul_r in K.
    destruct (Nat.le_gt_cases (S r) (4 * d)) as [G|G]; [exact G|]. exfalso.
    assert (4 ^ (4 * d) <= 4 ^ r)%nat by (apply Nat.pow_le_mono_r; lia). lia.
Qed.
Print Assumptions C80_signum.

(* ------------------------------------------------------------------ *)
(** ** Maxima *)

(** the lowest word of the larger of two numbers of [n] words, the first one if they are equal *)
Definition max_low (n : nat) (env : nat -> Z) : Z :=
  if value (map env (seq n n)) <=? value (map env (seq 0 n)) then env 0%nat else env n.
(** a number with word [i] set to [d], and [a] as the lowest word *)
Lemma value_two : forall a d m k i, (k < i < k + S m)%nat ->
  value (map (fun j => if Nat.eqb j i then d else if Nat.eqb j k then a else 0) (seq k (S m))) = a + 2 ^ Z.of_nat (i - k) * d.
Proof.
  intros a d m k i H. cbn [seq map value]. replace (Nat.eqb k i) with false by (symmetry; apply Nat.eqb_neq; lia). rewrite Nat.eqb_refl.
  assert (K : forall m b, (k < b <= i)%nat -> (i < b + m)%nat ->
    value (map (fun j => if Nat.eqb j i then d else if Nat.eqb j k then a else 0) (seq b m)) = 2 ^ Z.of_nat (i - b) * d).
  { clear m H. induction m as [|m IH]; intros b Hb Hm; [lia|]. cbn [seq map value].
    replace (Nat.eqb b k) with false by (symmetry; apply Nat.eqb_neq; lia). destruct (Nat.eqb b i) eqn:E.
    - apply Nat.eqb_eq in E. subst b. rewrite Nat.sub_diag. change (2 ^ Z.of_nat 0) with 1.
      assert (V : forall b, (i < b)%nat -> value (map (fun j => if Nat.eqb j i then d else if Nat.eqb j k then a else 0) (seq b m)) = 0).
      { clear - Hb. induction m as [|m IH]; intros b H; cbn [seq map value]; [reflexivity|]. rewrite IH by lia.
        replace (Nat.eqb b i) with false by (symmetry; apply Nat.eqb_neq; lia). replace (Nat.eqb b k) with false by (symmetry; apply Nat.eqb_neq; lia). reflexivity. }
      rewrite V by lia. lia.
    - apply Nat.eqb_neq in E. rewrite IH by lia. replace (i - b)%nat with (S (i - S b)) by lia. rewrite Nat2Z.inj_succ, Z.pow_succ_r by lia. lia. }
  rewrite K by lia. replace (i - k)%nat with (S (i - S k)) by lia. rewrite Nat2Z.inj_succ, Z.pow_succ_r by lia. lia.
Qed.
Lemma value_ext : forall e e' k m, (forall j, (k <= j < k + m)%nat -> e j = e' j) -> value (map e (seq k m)) = value (map e' (seq k m)).
Proof.
  intros e e' k m. revert k. induction m as [|m IH]; intros k H; [reflexivity|]. cbn [seq map value]. rewrite (H k) by lia.
  rewrite (IH (S k)) by (intros j Hj; apply H; lia). reflexivity.
Qed.
Lemma value_nil : forall k m, value (map (fun _ : nat => 0) (seq k m)) = 0.
Proof. intros k m. revert k. induction m as [|m IH]; intros k; cbn [seq map value]; [reflexivity|rewrite IH; reflexivity]. Qed.
Lemma value_low : forall a k m, value (map (fun j => if Nat.eqb j k then a else 0) (seq k (S m))) = a.
Proof.
  intros a k m. cbn [seq map value]. rewrite Nat.eqb_refl. rewrite (value_ext _ (fun _ => 0)), value_nil; [lia|].
  intros j Hj. replace (Nat.eqb j k) with false by (symmetry; apply Nat.eqb_neq; lia). reflexivity.
Qed.
Lemma max_looks : forall n, looks_at (2 * n) (max_low n).
Proof.
  intros n i Hi. destruct n as [|m]; [lia|]. set (n := S m) in *.
  assert (P2 : forall j, (1 <= j)%nat -> 2 <= 2 ^ Z.of_nat j).
  { intros j Hj. replace j with (S (j - 1)) by lia. rewrite Nat2Z.inj_succ, Z.pow_succ_r by lia. pose proof (Z.pow_pos_nonneg 2 (Z.of_nat (j - 1)) ltac:(lia) ltac:(lia)). lia. }
  (* 1 against 0, and word i changed *)
  assert (K : forall e e' : nat -> Z, (forall j, digit (e j)) -> (forall j, digit (e' j)) -> (forall j, j <> i -> e j = e' j) ->
    max_low n e <> max_low n e' -> exists env env', (forall j, digit (env j)) /\ (forall j, digit (env' j)) /\ (forall j, j <> i -> env j = env' j) /\ max_low n env <> max_low n env').
  { intros e e' H1 H2 H3 H4. exists e, e'. auto. }
  assert (Dg : forall a b c (p q : nat), digit a -> digit b -> digit c -> forall j, digit (if Nat.eqb j p then a else if Nat.eqb j q then b else c))
    by (intros a b c p q Ha Hb Hc j; destruct (Nat.eqb j p); [exact Ha|]; destruct (Nat.eqb j q); assumption).
  assert (D0 : digit 0) by (unfold digit; lia). assert (D1 : digit 1) by (unfold digit; lia). assert (Dm : digit (-1)) by (unfold digit; lia).
  assert (Lo : forall e, max_low n e = if value (map e (seq n n)) <=? value (map e (seq 0 n)) then e 0%nat else e n) by reflexivity.
  assert (Eb : forall p q, p <> q -> Nat.eqb p q = false) by (intros p q; apply Nat.eqb_neq).
  destruct (Nat.eq_dec i 0) as [->|I0]; [|destruct (Nat.eq_dec i n) as [->|In]].
  - apply (K (fun j => if Nat.eqb j 0 then 1 else 0) (fun _ => 0)).
    + intros j; destruct (Nat.eqb j 0); assumption.
    + intros j; exact D0.
    + intros j Hj. rewrite (Eb j 0%nat Hj). reflexivity.
    + rewrite !Lo. rewrite (value_ext _ (fun _ => 0) n n), !value_nil by (intros j Hj; rewrite (Eb j 0%nat) by lia; reflexivity).
      replace (value (map (fun j => if Nat.eqb j 0 then 1 else 0) (seq 0 n))) with 1 by (symmetry; exact (value_low 1 0 m)). cbn. lia.
  - apply (K (fun j => if Nat.eqb j n then 1 else 0) (fun _ => 0)).
    + intros j; destruct (Nat.eqb j n); assumption.
    + intros j; exact D0.
    + intros j Hj. rewrite (Eb j n Hj). reflexivity.
    + rewrite !Lo. rewrite (value_ext (fun j => if Nat.eqb j n then 1 else 0) (fun _ => 0) 0 n), !value_nil by (intros j Hj; rewrite (Eb j n) by lia; reflexivity).
      replace (value (map (fun j => if Nat.eqb j n then 1 else 0) (seq n n))) with 1 by (symmetry; exact (value_low 1 n m)). rewrite Nat.eqb_refl. cbn. lia.
  - destruct (Nat.lt_ge_cases i n) as [Lt|Ge].
    + apply (K (fun j => if Nat.eqb j i then -1 else if Nat.eqb j 0 then 1 else 0) (fun j => if Nat.eqb j i then 0 else if Nat.eqb j 0 then 1 else 0)).
      * apply Dg; assumption.
      * apply Dg; assumption.
      * intros j Hj. rewrite (Eb j i Hj). reflexivity.
      * assert (V : forall d, value (map (fun j => if Nat.eqb j i then d else if Nat.eqb j 0 then 1 else 0) (seq n n)) = 0).
        { intros d. rewrite (value_ext _ (fun _ => 0)), value_nil; [reflexivity|]. intros j Hj. rewrite (Eb j i), (Eb j 0%nat) by lia. reflexivity. }
        rewrite !Lo, !V. unfold n. rewrite !value_two by (unfold n in *; lia). rewrite Nat.sub_0_r. pose proof (P2 i ltac:(lia)) as P.
        replace (0 <=? 1 + 2 ^ Z.of_nat i * -1) with false by lia. replace (0 <=? 1 + 2 ^ Z.of_nat i * 0) with true by lia.
        rewrite (Eb (S m) i), (Eb (S m) 0%nat), (Eb 0%nat i) by (unfold n in *; lia). cbn. lia.
    + apply (K (fun j => if Nat.eqb j i then 1 else if Nat.eqb j 0 then 1 else 0) (fun j => if Nat.eqb j i then 0 else if Nat.eqb j 0 then 1 else 0)).
      * apply Dg; assumption.
      * apply Dg; assumption.
      * intros j Hj. rewrite (Eb j i Hj). reflexivity.
      * assert (V : forall d, value (map (fun j => if Nat.eqb j i then d else if Nat.eqb j 0 then 1 else 0) (seq 0 n)) = 1).
        { intros d. rewrite (value_ext _ (fun j => if Nat.eqb j 0 then 1 else 0)); [apply value_low|]. intros j Hj. rewrite (Eb j i) by lia. reflexivity. }
        assert (U : forall d, value (map (fun j => if Nat.eqb j i then d else if Nat.eqb j 0 then 1 else 0) (seq n n)) = 2 ^ Z.of_nat (i - n) * d).
        { intros d. rewrite (value_ext _ (fun j => if Nat.eqb j i then d else if Nat.eqb j n then 0 else 0)); [unfold n; rewrite value_two by (unfold n in *; lia); lia|].
          intros j Hj. rewrite (Eb j 0%nat) by lia. destruct (Nat.eqb j i), (Nat.eqb j n); reflexivity. }
        rewrite !Lo, !V, !U. pose proof (P2 (i - n)%nat ltac:(lia)) as P.
        replace (2 ^ Z.of_nat (i - n) * 1 <=? 1) with false by lia. replace (2 ^ Z.of_nat (i - n) * 0 <=? 1) with true by lia.
        rewrite (Eb n i), (Eb n 0%nat), (Eb 0%nat i) by (unfold n in *; lia). cbn. lia.
Qed.
(** Even the lowest word of a maximum needs such a depth: it looks at all words of both numbers *)
Theorem C80_maximum : forall d w n t, (1 <= w)%nat -> (tdepth t <= d)%nat -> light w t -> qle (coef t) 1 -> computes (max_low n) t ->
  (2 * n <= w ^ d)%nat.
Proof.
  intros d w n t Hw Hd Hl Hq C. pose proof (C80_looks d 1 w (2 * n) (max_low n) t Hw Hd Hl Hq C (max_looks n)). lia.
Qed.
Print Assumptions C80_maximum.

(* ------------------------------------------------------------------ *)
(** ** Example *)

(** Four words, one lookup of weight 85: 4 is at most 85. The circuit gives the sign (with the table of the sign itself), and
    it is the one that signum builds. *)
Definition four : term := TLut [] (TAdd (TAdd (TAdd (TAddPt (TMul (TVar 3) 8) 0) (TVar 0)) (TMul (TVar 1) 2)) (TMul (TVar 2) 4)).
Example C80_ex : tdepth four = 1%nat /\ light 85 four /\ qle (coef four) 1 /\ computes (sign_of 4) four /\ looks_at 4 (sign_of 4) /\
  exists acc, fst (pa_sgn (cloud_100 true) (sinput 32 0 [None; None; None; None])) = Ok [@Ct (sym 32) (TLut acc (match four with TLut _ u => u | _ => four end))].
Proof.
  split; [reflexivity|]. split.
  { constructor; [|constructor]. apply weight_qle. vm_compute. discriminate. }
  split; [apply (qle_ext (ind four)); [reflexivity|apply qle_ind]|]. split.
  { exists (fun _ => Z.sgn), (fun m => m). intros env _. unfold sign_of, four. cbn [msg seq map value]. f_equal. lia. }
  split; [apply sign_looks|]. eexists. vm_compute. reflexivity.
Qed.
Example C80_signum_ex : exists z, fst (pa_sgn (cloud_100 true) (sinput 32 0 [None; None; None; None])) = Ok z /\ depth_le 1 z /\ (1 <= 4 * tdepth four)%nat.
Proof.
  destruct C80_ex as [_ [H1 [H2 [H3 [_ [acc E]]]]]]. eexists. split; [exact E|].
  apply (C80_signum 32 (cloud_100 true) 0 (sinput 32 0 [None; None; None; None]) _ four (tdepth four)); try assumption.
  - repeat (apply Forall_cons; [cbn; lia|]). apply Forall_nil.
  - cbn. lia.
  - vm_compute. discriminate.
  - eapply Forall_impl; [|exact H1]. intros u Hu. eapply qle_mono; [|exact Hu]. lia.
  - apply le_n.
Qed.
(** the larger of two words by one lookup of 3x + y, of weight 10: 2 is at most 10 *)
Example C80_maximum_ex : let t := TLut [] (TAdd (TMul (TVar 0) 3) (TVar 1)) in
  tdepth t = 1%nat /\ light 10 t /\ qle (coef t) 1 /\ computes (max_low 1) t /\ max_low 2 (fun j => nth j [1; 0; 0; 1] 0) = 0.
Proof.
  cbv zeta. split; [reflexivity|]. split; [constructor; [|constructor]; apply weight_qle; vm_compute; discriminate|].
  split; [apply (qle_ext (ind (TLut [] (TAdd (TMul (TVar 0) 3) (TVar 1))))); [reflexivity|apply qle_ind]|]. split; [|reflexivity].
  exists (fun _ m => Z.max ((m + 4) / 3 - 1) (m - 3 * ((m + 4) / 3 - 1))), (fun m => m). intros env D. pose proof (D 0%nat) as D0. pose proof (D 1%nat) as D1.
  unfold max_low. cbn [msg seq map value]. unfold digit in D0, D1. revert D0 D1. generalize (env 0%nat) (env 1%nat). intros x y Hx Hy.
  assert (Q : (3 * x + y + 4) / 3 = x + 1) by (symmetry; apply (Z.div_unique _ _ _ (y + 1)); lia). rewrite Q. destruct (y + 2 * 0 <=? x + 2 * 0) eqn:E; lia.
Qed.
