(** Properties C51 and C52: how deep the circuits of products, squares and the
    remaining operations are, and how many bootstraps products and squares take *)
From Verif Require Import Base Backend Words Encryption Params Pbs Addition Signum Maximum
  Multiplication Squaring Rounding Naf Asc AscTable ScalarMul Arith
  Spec Symbolic BaseProofs RelProofs ShapeProofs DepthProofs CountProofs CostProofs Instances Expr
  Properties5 Properties9.
From Coq Require Import ZifyBool ZifyNat.

(* ------------------------------------------------------------------ *)
(** ** C51: depth, operands of any shape *)

(** a product: 2n - 1 for up to 17 words (the schoolbook bound, also where
    Karatsuba is used at 16); about n + 10 above *)
Theorem C51_mul_bound : forall N d n (x y z : ciphertext (sym N)), depth_le d x -> depth_le d y ->
  n = Nat.max (length x) (length y) -> (1 <= n)%nat -> fst (pa_mul x y) = Ok z ->
  ((n <= 17)%nat -> depth_le (d + (2 * n - 1)) z) /\
  ((18 <= n)%nat -> depth_le (d + (2 * ((n + 1) / 2) + 9)) z).
Proof.
  intros N d n x y z Hx Hy -> Hn E.
  pose proof (gr_mul (depth_grading N) d x y Hx Hy z E) as H. unfold mul_bound in H.
  set (l := Nat.max (length x) (length y)) in *. clearbody l.
  split; intros Hc.
  - replace (l <=? 17)%nat with true in H by lia. exact H.
  - replace (l <=? 17)%nat with false in H by lia. exact H.
Qed.
(** never deeper than 41 *)
Theorem C51_mul_max : forall N d (x y z : ciphertext (sym N)), depth_le d x -> depth_le d y ->
  fst (pa_mul x y) = Ok z -> depth_le (d + 41) z.
Proof.
  intros N d x y z Hx Hy E.
  pose proof (gr_mul (depth_grading N) d x y Hx Hy z E) as H. unfold mul_bound in H.
  assert (L : (Nat.max (length x) (length y) <= 32)%nat).
  { unfold pa_mul in E. cbn [mul_fuel] in E. rewrite fst_analysed in E. unfold mul_impl in E.
    rewrite app_length in E. unfold ct_triv in E. rewrite !repeat_length in E.
    destruct (_ =? 0)%nat eqn:E0; [lia|]. destruct (_ =? 1)%nat eqn:E1; [lia|].
    destruct (_ || _)%bool eqn:E2; [lia|]. destruct (_ <=? 32)%nat eqn:E3; [lia|discriminate]. }
  eapply (cP_mono (depth_grading N)); [|exact H].
  set (l := Nat.max (length x) (length y)) in *. clearbody l.
  assert (Q1 : (l + 1 = 2 * ((l + 1) / 2) + (l + 1) mod 2)%nat) by (apply Nat.div_mod; lia).
  assert (Q2 : ((l + 1) mod 2 < 2)%nat) by (apply Nat.mod_upper_bound; lia).
  destruct (l <=? 17)%nat eqn:E17; [lia|].
  assert ((l + 1) / 2 <= 16)%nat by lia. lia.
Qed.
Theorem C51_squ_bound : forall N d (x z : ciphertext (sym N)), depth_le d x -> fst (pa_squ x) = Ok z ->
  ((length x <= 3)%nat -> depth_le (d + 1) z) /\
  depth_le (d + (2 * ((length x + 1) / 2) + 3)) z.
Proof.
  intros N d x z Hx E. pose proof (gr_squ (depth_grading N) d x Hx z E) as H. unfold squ_bound in H.
  destruct (length x <=? 3)%nat eqn:E3.
  - split; auto. eapply (cP_mono (depth_grading N)); [|exact H]. lia.
  - split; [lia|exact H].
Qed.
(** multiplication by a known integer, with the shipped chains: 12, whatever
    the integer and the length *)
Theorem C51_scalar_mul : forall N pc d k (x z : ciphertext (sym N)), asc_12 pc = shipped_asc ->
  depth_le d x -> fst (pa_scalar_mul pc k x) = Ok z -> depth_le (d + 12) z.
Proof.
  intros N pc d k x z HT Hx E.
  assert (HB : forallb (fun kc => (length (snd kc) <=? 4)%nat) (asc_12 pc) = true) by (rewrite HT; exact shipped_longest).
  exact (gr_scalar (depth_grading N) pc 4 k d x HB Hx z E).
Qed.
Theorem C51_round : forall N pc d r pos (x z : ciphertext (sym N)), depth_le d x -> (length x <= 4 ^ r)%nat ->
  fst (pa_round_at pc x pos) = Ok z -> depth_le (d + r + 3 + narrow pc) z.
Proof.
  intros N pc d r pos x z Hx Hl E. replace (d + r + 3 + narrow pc)%nat with (r + first_depth pc + 3 + d)%nat
    by (unfold narrow, first_depth; lia).
  exact (gr_round (depth_grading N) r d pc x pos Hl Hx z E).
Qed.
Theorem C51_add_const : forall N pc d k (x z : ciphertext (sym N)), depth_le d x ->
  fst (pa_add_const pc x k) = Ok z -> depth_le (d + 2) z.
Proof. intros N pc d k x z Hx E. exact (gr_add_const (depth_grading N) d pc x k Hx z E). Qed.

(* ------------------------------------------------------------------ *)
(** ** C51: the exact depth for encrypted operands of equal length *)

(** every word encrypted, behind a chain of exactly [d] bootstraps *)
Definition all_at {N} (d : nat) (x : ciphertext (sym N)) : Prop :=
  Forall (fun w : word (sym N) => match w with Ct t => tdepth t = d | Triv _ => False end) x.

(** by the number of words, from 0 to 32 *)
Definition mul_depths : list nat :=
  [0; 1; 3; 5; 7; 9; 11; 13; 15; 17; 19; 21; 23; 25; 27; 29; 23; 33; 25; 27; 27; 29; 29; 31; 31; 33; 33;
   35; 35; 35; 35; 41; 41]%nat.
Definition squ_depths : list nat :=
  [0; 1; 1; 1; 5; 7; 7; 11; 11; 13; 13; 15; 15; 17; 17; 19; 19; 21; 21; 23; 23; 25; 25; 27; 27; 29; 29;
   31; 31; 33; 33; 27; 27]%nat.

Lemma sim_depth : forall N d, simulation (sym N) depths (fun (t : ct (sym N)) (k : ct depths) => tdepth t = (d + k)%nat).
Proof. intros N d. constructor; cbn; intros; lia. Qed.
Lemma at_rel : forall N d (x : ciphertext (sym N)), all_at d x ->
  Forall2 (wrel (fun (t : ct (sym N)) (k : ct depths) => tdepth t = (d + k)%nat)) x (map tw (fresh_dw (length x))).
Proof.
  intros N d x H. induction H as [|w x Hw H IH]; cbn; constructor; auto.
  destruct w as [t|p]; cbn in *; [lia|tauto].
Qed.
Lemma depth_of_rel : forall N d (z : ciphertext (sym N)) z', existsb (fun a : dw => match a with Some _ => true | None => false end) z' = true ->
  Forall2 (wrel (fun (t : ct (sym N)) (k : ct depths) => tdepth t = (d + k)%nat)) z (map tw z') ->
  fold_right (fun (w : word (sym N)) m => match w with Ct t => Nat.max (tdepth t) m | Triv _ => m end) 0%nat z
  = (d + deepest z')%nat.
Proof.
  intros N d z z' He H.
  assert (G0 : forall z z', Forall2 (wrel (fun (t : ct (sym N)) (k : ct depths) => tdepth t = (d + k)%nat)) z (map tw z') ->
    (if existsb (fun a : dw => match a with Some _ => true | None => false end) z'
     then fold_right (fun (w : word (sym N)) m => match w with Ct t => Nat.max (tdepth t) m | Triv _ => m end) 0%nat z = (d + deepest z')%nat
     else fold_right (fun (w : word (sym N)) m => match w with Ct t => Nat.max (tdepth t) m | Triv _ => m end) 0%nat z = 0%nat /\ deepest z' = 0%nat)).
  { clear. intros z z'. revert z. induction z' as [|a z' IH]; intros z H; inversion H as [|w w' zt zt' H1 H2]; subst.
    - cbn. auto.
    - specialize (IH _ H2). destruct a as [a|], w as [t|p]; cbn in H1; try tauto; cbn [existsb orb fold_right deepest].
      destruct (existsb _ z'); [unfold deepest in *; lia|]. destruct IH as [I1 I2]. unfold deepest in *. lia. }
  specialize (G0 z z' H). rewrite He in G0. exact G0.
Qed.

Definition mul_table_ok (n : nat) : bool :=
  let r := snd (mulc (S n) (fresh_dw n) (fresh_dw n)) in
  ((n =? 0) || existsb (fun a => match a with Some _ => true | None => false end) r)%nat &&
  (deepest r =? nth n mul_depths 0)%nat.
Definition squ_table_ok (n : nat) : bool :=
  let r := snd (squc (S n) (fresh_dw n)) in
  ((n =? 0) || existsb (fun a => match a with Some _ => true | None => false end) r)%nat &&
  (deepest r =? nth n squ_depths 0)%nat.
Lemma mul_table : forallb mul_table_ok (seq 0 33) = true.
Proof. vm_compute. reflexivity. Qed.
Lemma squ_table : forallb squ_table_ok (seq 0 33) = true.
Proof. vm_compute. reflexivity. Qed.
Lemma in_table : forall (f : nat -> bool) n, forallb f (seq 0 33) = true -> (n <= 32)%nat -> f n = true.
Proof. intros f n H Hn. rewrite forallb_forall in H. apply H, in_seq. lia. Qed.

Lemma fresh_len : forall n, length (fresh_dw n) = n.
Proof. intros n. apply repeat_length. Qed.
Lemma run_mul : forall n, (n <= 32)%nat ->
  runs (pa_mul (map tw (fresh_dw n)) (map tw (fresh_dw n))) (map tw (snd (mulc (S n) (fresh_dw n) (fresh_dw n))))
       (fst (mulc (S n) (fresh_dw n) (fresh_dw n))).
Proof.
  intros n Hn. unfold pa_mul. rewrite !map_length, !fresh_len, Nat.max_id.
  apply fo_mul; rewrite !fresh_len; lia.
Qed.
Lemma run_squ : forall n, (n <= 32)%nat ->
  runs (pa_squ (map tw (fresh_dw n))) (map tw (snd (squc (S n) (fresh_dw n)))) (fst (squc (S n) (fresh_dw n))).
Proof. intros n Hn. unfold pa_squ. rewrite !map_length, !fresh_len. apply fo_squ; rewrite !fresh_len; lia. Qed.

Lemma mrel_right : forall X S T (R : S -> T -> Prop) m m' b, mrel X R m m' -> fst m' = Ok b ->
  exists a, fst m = Ok a /\ R a b.
Proof.
  intros X S T R [[a|e|e] t] [o t'] b [H _] E; cbn [fst] in *; subst; [eauto|destruct H|destruct H].
Qed.

Theorem C51_mul_exact : forall N d (x y : ciphertext (sym N)), all_at d x -> all_at d y ->
  length x = length y -> (1 <= length x <= 32)%nat ->
  max_depth (pa_mul x y) = Some (d + nth (length x) mul_depths 0)%nat.
Proof.
  intros N d x y Hx Hy El Hl. apply at_rel in Hx. apply at_rel in Hy. rewrite <- El in Hy.
  destruct (mrel_right _ _ _ _ _ _ _ (mr_mul (sim_depth N d) (X := tp_only True) (fun _ => I) _ _ _ _ Hx Hy)
    (proj1 (run_mul _ (proj2 Hl)))) as [z [E R]].
  unfold max_depth.
  replace (fst (pa_mul x y)) with (Ok z) by (symmetry; exact E). f_equal.
  pose proof (in_table _ _ mul_table (proj2 Hl)) as T. unfold mul_table_ok in T.
  apply andb_true_iff in T as [T1 T2]. apply Nat.eqb_eq in T2. rewrite <- T2. clear T2.
  apply depth_of_rel; auto. destruct (length x); [lia|exact T1].
Qed.
Theorem C51_squ_exact : forall N d (x : ciphertext (sym N)), all_at d x -> (1 <= length x <= 32)%nat ->
  max_depth (pa_squ x) = Some (d + nth (length x) squ_depths 0)%nat.
Proof.
  intros N d x Hx Hl. apply at_rel in Hx.
  destruct (mrel_right _ _ _ _ _ _ _ (mr_squ (sim_depth N d) (X := tp_only True) (fun _ => I) _ _ Hx)
    (proj1 (run_squ _ (proj2 Hl)))) as [z [E R]].
  unfold max_depth.
  replace (fst (pa_squ x)) with (Ok z) by (symmetry; exact E). f_equal.
  pose proof (in_table _ _ squ_table (proj2 Hl)) as T. unfold squ_table_ok in T.
  apply andb_true_iff in T as [T1 T2]. apply Nat.eqb_eq in T2. rewrite <- T2. clear T2.
  apply depth_of_rel; auto. destruct (length x); [lia|exact T1].
Qed.
(** longer operands are not always deeper: 15 words take 29, 16 words 23 *)
Theorem C51_monotone_refuted : exists (x y x' y' : ciphertext (sym 32)), all_at 0 x /\ all_at 0 y /\ all_at 0 x' /\ all_at 0 y' /\
  length x = length y /\ length x' = length y' /\ (length x < length x')%nat /\
  max_depth (pa_mul x y) = Some 29%nat /\ max_depth (pa_mul x' y') = Some 23%nat.
Proof.
  exists (sx 15), (sy 15), (sx 16), (sy 16).
  assert (A : forall n k, all_at 0 (sinput 32 k (repeat None n))).
  { intros n. induction n; intros k; cbn; constructor; auto. apply IHn. }
  assert (L : forall n k, length (sinput 32 k (repeat None n)) = n).
  { intros n. induction n; intros k; cbn; auto. }
  unfold sx, sy. repeat (split; [apply A|]). rewrite !L. repeat (split; [lia|]).
  rewrite !(C51_mul_exact 32 0) by (try apply A; rewrite !L; lia). rewrite !L. auto.
Qed.

(* ------------------------------------------------------------------ *)
(** ** C52: bootstraps of products and squares of encrypted words *)

(** by the number of words, from 0 to 32 *)
Definition mul_counts : list Z :=
  [0; 1; 8; 21; 40; 65; 96; 133; 176; 225; 280; 341; 408; 481; 560; 645; 725; 833; 896; 1026; 1085; 1227;
   1292; 1446; 1517; 1683; 1760; 1938; 2021; 2202; 2291; 2531; 2617].
Definition squ_counts : list Z :=
  [0; 1; 3; 5; 24; 38; 47; 93; 122; 160; 183; 221; 240; 320; 377; 445; 488; 570; 621; 693; 730; 822; 875;
   953; 988; 1132; 1229; 1355; 1430; 1572; 1659; 1780; 1837].
Definition pbs {A} (m : M A) : Z := Z.of_nat (npbs (snd m)).

Lemma rel_pbs : forall X S T (R : S -> T -> Prop) m m' c, mrel X R m m' -> Z.of_nat (npbs (snd m')) = c -> pbs m = c.
Proof. intros X S T R m m' c [_ [E _]] <-. unfold pbs. rewrite E. reflexivity. Qed.
Lemma fresh_rel : forall B (x : ciphertext B), fresh x ->
  Forall2 (wrel (fun (_ : ct B) (_ : ct depths) => True)) x (map tw (fresh_dw (length x))).
Proof.
  intros B x H. induction H as [|w x Hw H IH]; cbn; constructor; auto.
  destruct w as [t|p]; cbn in *; [auto|discriminate].
Qed.

Definition mul_count_ok (n : nat) : bool := fst (mulc (S n) (fresh_dw n) (fresh_dw n)) =? nth n mul_counts 0.
Definition squ_count_ok (n : nat) : bool := fst (squc (S n) (fresh_dw n)) =? nth n squ_counts 0.
Lemma mul_count_table : forallb mul_count_ok (seq 0 33) = true.
Proof. vm_compute. reflexivity. Qed.
Lemma squ_count_table : forallb squ_count_ok (seq 0 33) = true.
Proof. vm_compute. reflexivity. Qed.

Theorem C52_mul : forall B (x y : ciphertext B), fresh x -> fresh y -> length x = length y ->
  (length x <= 32)%nat -> pbs (pa_mul x y) = nth (length x) mul_counts 0.
Proof.
  intros B x y Hx Hy El Hl. apply fresh_rel in Hx. apply fresh_rel in Hy. rewrite <- El in Hy.
  etransitivity; [apply (rel_pbs _ _ _ _ _ _ _ (mr_mul (sim_shape B depths) (X := tp_only True) (fun _ => I) _ _ _ _ Hx Hy) (proj2 (run_mul _ Hl)))|].
  apply Z.eqb_eq. exact (in_table _ _ mul_count_table Hl).
Qed.
Theorem C52_squ : forall B (x : ciphertext B), fresh x -> (length x <= 32)%nat ->
  pbs (pa_squ x) = nth (length x) squ_counts 0.
Proof.
  intros B x Hx Hl. apply fresh_rel in Hx.
  etransitivity; [apply (rel_pbs _ _ _ _ _ _ _ (mr_squ (sim_shape B depths) (X := tp_only True) (fun _ => I) _ _ Hx) (proj2 (run_squ _ Hl)))|].
  apply Z.eqb_eq. exact (in_table _ _ squ_count_table Hl).
Qed.
(** a closed form where the schoolbook method is used: n^2 products, and n - 1
    additions of 2n bootstraps *)
Theorem C52_mul_schoolbook : forall B (x y : ciphertext B) n, fresh x -> fresh y -> length x = n -> length y = n ->
  (n < 16)%nat \/ n = 17%nat -> pbs (pa_mul x y) = Z.of_nat n * (3 * Z.of_nat n - 2).
Proof.
  intros B x y n Hx Hy Lx Ly Hn. rewrite (C52_mul B x y); auto; try lia. rewrite Lx. clear - Hn.
  assert (T : forallb (fun n => implb ((n <? 16) || (n =? 17))%nat (nth n mul_counts 0 =? Z.of_nat n * (3 * Z.of_nat n - 2))) (seq 0 33) = true)
    by (vm_compute; reflexivity).
  assert (Hl : (n <= 32)%nat) by lia. pose proof (in_table _ _ T Hl) as H. cbv beta in H.
  apply Z.eqb_eq. rewrite implb_true_iff in H. apply H. lia.
Qed.
(** a square never takes more than the product with itself, and less from two words on *)
Theorem C52_squ_cheaper : forall B (x : ciphertext B), fresh x -> (2 <= length x <= 32)%nat ->
  pbs (pa_squ x) < pbs (pa_mul x x).
Proof.
  intros B x Hx Hl. rewrite (C52_squ B x), (C52_mul B x x) by (auto; lia).
  assert (T : forallb (fun n => implb (2 <=? n)%nat (nth n squ_counts 0 <? nth n mul_counts 0)) (seq 0 33) = true)
    by (vm_compute; reflexivity).
  pose proof (in_table _ _ T (proj2 Hl)) as H. cbv beta in H.
  apply Z.ltb_lt. rewrite implb_true_iff in H. apply H. lia.
Qed.

(** *** the choice between the two methods *)
Lemma mr_school : forall B (x y : ciphertext B) (x' y' : ciphertext depths),
  Forall2 (wrel (fun (_ : ct B) (_ : ct depths) => True)) x x' -> Forall2 (wrel (fun (_ : ct B) (_ : ct depths) => True)) y y' ->
  snd (mul_schoolbook x y) = snd (mul_schoolbook x' y').
Proof.
  intros B x y x' y' Hx Hy.
  assert (H : mrel (tp_only True) (Forall2 (wrel (fun (_ : ct B) (_ : ct depths) => True))) (mul_schoolbook x y) (mul_schoolbook x' y')).
  { apply mrel_measure. eapply mrel_bind.
    - apply (mr_fill (sim_shape B depths) (X := tp_only True) (fun _ => I)); eauto.
    - apply (mr_reduce (sim_shape B depths) (X := tp_only True) (fun _ => I)). }
  apply H.
Qed.
Lemma mr_kara : forall B (x y : ciphertext B) (x' y' : ciphertext depths),
  Forall2 (wrel (fun (_ : ct B) (_ : ct depths) => True)) x x' -> Forall2 (wrel (fun (_ : ct B) (_ : ct depths) => True)) y y' ->
  snd (mul_karatsuba pa_mul x y) = snd (mul_karatsuba pa_mul x' y').
Proof.
  intros B x y x' y' Hx Hy. set (S0 := sim_shape B depths).
  set (A := fun a a' b b' Ha Hb => mr_add S0 (X := tp_only True) (fun _ => I) a a' b b' Ha Hb).
  set (U := fun a a' b b' Ha Hb => mr_mul S0 (X := tp_only True) (fun _ => I) a a' b b' Ha Hb).
  assert (H : mrel (tp_only True) (Forall2 (wrel (fun (_ : ct B) (_ : ct depths) => True))) (mul_karatsuba pa_mul x y) (mul_karatsuba pa_mul x' y')).
  { unfold mul_karatsuba. rewrite <- (F2_length _ _ _ Hx), <- (F2_length _ _ _ Hy).
    destruct (negb _); [apply mrel_panic|]. set (n := ((length x + 1) / 2)%nat). clearbody n.
    apply mrel_measure.
    eapply mrel_bind; [apply U; apply F2_skipn; eauto|]. intros a a' Ha.
    eapply mrel_bind; [apply U; apply F2_firstn; eauto|]. intros b b' Hbb.
    eapply mrel_bind; [apply A; eauto|]. intros s s' Hs.
    eapply mrel_bind; [apply A; eauto using F2_firstn, F2_skipn|]. intros u u' Hu.
    eapply mrel_bind; [apply A; eauto using F2_firstn, F2_skipn|]. intros v v' Hv.
    eapply mrel_bind; [apply U; eauto|]. intros c c' Hc.
    eapply mrel_bind.
    { apply A; apply Forall2_app; eauto using cr_triv. apply (cr_opp S0 s s'); auto. }
    intros d d' Hd. rewrite <- (F2_length _ _ _ Hbb). destruct (_ =? 2 * n)%nat.
    - apply A; auto. apply Forall2_app; auto.
    - eapply mrel_bind; [apply A; eauto|]. intros e e' He. apply A; auto. apply cr_shift; auto. }
  apply H.
Qed.
Definition mulp (x y : list dw) : cost (list dw) := mulc (S (Nat.max (length x) (length y))) x y.
Lemma fo_mulp : forall x y, (Nat.max (length x) (length y) <= 32)%nat -> follows (map tw) (pa_mul (map tw x) (map tw y)) (mulp x y).
Proof. intros x y H. unfold pa_mul, mulp. rewrite !map_length. apply fo_mul; lia. Qed.
Lemma fo_kara : forall x y, length x = length y -> (length x <= 32)%nat ->
  follows (map tw) (mul_karatsuba pa_mul (map tw x) (map tw y)) (karac mulp x y).
Proof.
  intros x y El H32. unfold mul_karatsuba, karac. rewrite !map_length, El, Nat.eqb_refl. cbn [negb]. apply runs_measure.
  set (len0 := ((length y + 1) / 2)%nat). rewrite !td_firstn, !td_skipn.
  assert (Hl0 : (length x <= 2 * len0 <= length x + 1)%nat).
  { assert (length y + 1 = 2 * len0 + (length y + 1) mod 2)%nat by (apply Nat.div_mod; lia).
    assert ((length y + 1) mod 2 < 2)%nat by (apply Nat.mod_upper_bound; lia). lia. }
  assert (L1 := addc_len (firstn len0 x) (skipn len0 x)).
  assert (L2 := addc_len (firstn len0 y) (skipn len0 y)).
  rewrite !firstn_length, !skipn_length in L1, L2.
  apply (fo_bind _ _ _ _ (map tw)); [apply fo_mulp; rewrite !skipn_length; lia|].
  apply (fo_bind _ _ _ _ (map tw)); [apply fo_mulp; rewrite !firstn_length; lia|].
  apply (fo_bind _ _ _ _ (map tw)); [apply fo_add|].
  rewrite td_opp, !td_triv.
  apply (fo_bind _ _ _ _ (map tw)); [apply fo_add|].
  apply (fo_bind _ _ _ _ (map tw)); [apply fo_add|].
  apply (fo_bind _ _ _ _ (map tw)); [apply fo_mulp; lia|].
  rewrite <- !map_app.
  apply (fo_bind _ _ _ _ (map tw)); [apply fo_add|].
  cbv beta. rewrite map_length.
  destruct (length _ =? 2 * len0)%nat.
  - apply fo_add.
  - apply (fo_bind _ _ _ _ (map tw)); [apply fo_add|]. rewrite td_shift. apply fo_add.
Qed.

Lemma school_pbs : forall B (x y : ciphertext B), fresh x -> fresh y -> length x = length y -> (2 <= length x)%nat ->
  pbs (mul_schoolbook x y) = fst (schoolc (fresh_dw (length x)) (fresh_dw (length x))).
Proof.
  intros B x y Hx Hy El Hl. apply fresh_rel in Hx. apply fresh_rel in Hy. rewrite <- El in Hy.
  unfold pbs. rewrite (mr_school _ _ _ _ _ Hx Hy).
  apply (fo_school (fresh_dw (length x)) (fresh_dw (length x))); rewrite ?fresh_len; auto.
Qed.
Lemma kara_pbs : forall B (x y : ciphertext B), fresh x -> fresh y -> length x = length y -> (length x <= 32)%nat ->
  pbs (mul_karatsuba pa_mul x y) = fst (karac mulp (fresh_dw (length x)) (fresh_dw (length x))).
Proof.
  intros B x y Hx Hy El Hl. apply fresh_rel in Hx. apply fresh_rel in Hy. rewrite <- El in Hy.
  unfold pbs. rewrite (mr_kara _ _ _ _ _ Hx Hy).
  apply (fo_kara (fresh_dw (length x)) (fresh_dw (length x))); rewrite ?fresh_len; auto.
Qed.
Definition choice_ok (n : nat) : bool :=
  let s := fst (schoolc (fresh_dw n) (fresh_dw n)) in
  let k := fst (karac mulp (fresh_dw n) (fresh_dw n)) in
  implb (2 <=? n)%nat (if ((n <? 16) || (n =? 17))%nat then s <? k else k <? s) &&
  implb (2 <=? n)%nat (nth n mul_counts 0 =? Z.min s k).
Lemma choice_table : forallb choice_ok (seq 0 33) = true.
Proof. vm_compute. reflexivity. Qed.

(** the method that [mul_impl] takes is always the cheaper one *)
Theorem C52_choice : forall B (x y : ciphertext B), fresh x -> fresh y -> length x = length y ->
  (2 <= length x <= 32)%nat ->
  pbs (pa_mul x y) = Z.min (pbs (mul_schoolbook x y)) (pbs (mul_karatsuba pa_mul x y)) /\
  (pbs (mul_schoolbook x y) < pbs (mul_karatsuba pa_mul x y) <-> (length x < 16)%nat \/ length x = 17%nat) /\
  pbs (mul_schoolbook x y) <> pbs (mul_karatsuba pa_mul x y).
Proof.
  intros B x y Hx Hy El Hl. rewrite (C52_mul B x y), school_pbs, kara_pbs by (auto; lia).
  pose proof (in_table _ _ choice_table (proj2 Hl)) as T. unfold choice_ok in T.
  apply andb_true_iff in T as [T1 T2]. rewrite implb_true_iff in T1, T2.
  assert (H2 : (2 <=? length x)%nat = true) by (apply Nat.leb_le; lia). specialize (T1 H2). specialize (T2 H2).
  apply Z.eqb_eq in T2. split; [exact T2|]. clear T2.
  destruct ((length x <? 16) || (length x =? 17))%nat eqn:E; apply Z.ltb_lt in T1; split; [|lia| |lia].
  - split; [intros _; apply orb_true_iff in E; lia|intros _; exact T1].
  - apply orb_false_iff in E. split; [lia|]. intros H. lia.
Qed.
(** multiplication.rs:36 "Karatsuba for lengths 14 or >= 16, otherwise
    schoolbook": 14 and 17 words are multiplied by the schoolbook method, and
    Karatsuba would take more bootstraps there *)
Theorem C52_documented_choice_refuted : forall B (x y : ciphertext B), fresh x -> fresh y ->
  length x = length y -> length x = 14%nat \/ length x = 17%nat ->
  pa_mul x y = analysed (mul_schoolbook x y) /\
  pbs (pa_mul x y) < pbs (mul_karatsuba pa_mul x y).
Proof.
  intros B x y Hx Hy El Hl. split.
  - unfold pa_mul. cbn [mul_fuel]. unfold mul_impl. rewrite El, Nat.sub_diag. cbn [ct_triv repeat]. rewrite !app_nil_r.
    destruct Hl as [Hl|Hl]; rewrite Hl; reflexivity.
  - destruct (C52_choice B x y Hx Hy El ltac:(lia)) as [H1 [H2 H3]]. apply proj2 in H2. rewrite H1.
    assert (pbs (mul_schoolbook x y) < pbs (mul_karatsuba pa_mul x y)) by (apply H2; lia). lia.
Qed.

(* ------------------------------------------------------------------ *)
(** ** Examples *)

(** the bounds of C51 are reached: a product of 17 and one of 32 words *)
Example C51_example_bound : nth 17 mul_depths 0%nat = (2 * 17 - 1)%nat /\ nth 32 mul_depths 0%nat = (2 * ((32 + 1) / 2) + 9)%nat.
Proof. vm_compute. auto. Qed.
Example C51_example_hyp : all_at 0 (sx 32) /\ depth_le 0 (sx 32) /\ length (sx 32) = 32%nat.
Proof. unfold sx. split; [repeat constructor|]. split; [repeat constructor|reflexivity]. Qed.
(** small products and squares, run on symbols *)
Example C51_example_mul : max_depth (pa_mul (sx 3) (sy 3)) = Some 5%nat /\ max_depth (pa_squ (sx 3)) = Some 1%nat /\
  max_depth (pa_squ (sx 5)) = Some 7%nat.
Proof. vm_compute. auto. Qed.
(** 0x2aaaaaab takes three windows *)
Example C51_example_scalar : max_depth (pa_scalar_mul (cloud_100 false) 1365 (sx 4)) = Some 6%nat /\
  asc_12 (cloud_100 false) = shipped_asc /\
  (exists d, max_depth (pa_scalar_mul (cloud_100 false) 715827883 (sx 2)) = Some d /\ (6 < d <= 12)%nat).
Proof. split; [vm_compute; reflexivity|]. split; [reflexivity|]. eexists. split; [vm_compute; reflexivity|lia]. Qed.
Example C51_example_round : max_depth (pa_round_at (cloud_100 true) (sx 16) 9) = Some 5%nat /\
  max_depth (pa_add_const (cloud_100 true) (sx 16) 9) = Some 2%nat.
Proof. vm_compute. auto. Qed.
(** encrypted words, and the counts on a real run *)
Example C52_example_hyp : fresh (xenc 5 4) /\ length (xenc 5 4) = 4%nat.
Proof. split; [|reflexivity]. repeat constructor. Qed.
Example C52_example_run : pbs (pa_mul (xenc 5 4) (xenc 7 4)) = 40 /\ pbs (pa_squ (xenc 5 4)) = 24 /\
  pbs (pa_mul (xtriv [1; 0; 1; 0]) (xenc 7 4)) <> 40.
Proof. vm_compute. repeat split; discriminate. Qed.

Print Assumptions C51_mul_bound.
Print Assumptions C51_mul_max.
Print Assumptions C51_squ_bound.
Print Assumptions C51_scalar_mul.
Print Assumptions C51_round.
Print Assumptions C51_add_const.
Print Assumptions C51_mul_exact.
Print Assumptions C51_squ_exact.
Print Assumptions C51_monotone_refuted.
Print Assumptions C52_mul.
Print Assumptions C52_squ.
Print Assumptions C52_mul_schoolbook.
Print Assumptions C52_squ_cheaper.
Print Assumptions C52_choice.
Print Assumptions C52_documented_choice_refuted.
