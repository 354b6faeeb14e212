(** The Koyama-Tsuruoka recoding in a build with overflow checks: for which
    scalars it stops, and how many they are (C63) *)
From Verif Require Import Base Encryption Naf Spec BaseProofs ValueProofs BitsProofs EncProofs NafProofs.
From Coq Require Import ZifyBool ZifyNat.

(* ------------------------------------------------------------------ *)
(** ** The two builds side by side *)

(** stops by overflow, or is the same computation *)
Definition same_or_overflow {A} (m m' : M A) : Prop := fst m = Panic P_overflow \/ m = m'.

Section Rec.
Variable k : Z.
Local Notation b := (bitz k).
Local Notation walk := (NafProofs.walk k).

(** a zero bit at one of the positions i, ..., j - 1 *)
Definition hz (i j : nat) : bool := existsb (fun t => b t =? 0) (seq i (j - i)).

Lemma hz_true : forall i j, hz i j = true <-> exists t, (i <= t < j)%nat /\ b t = 0.
Proof.
  intros i j. unfold hz. rewrite existsb_exists. split; intros [t [H1 H2]]; exists t.
  - apply in_seq in H1. split; lia.
  - split; [apply in_seq; lia|lia].
Qed.
Lemma hz_false : forall i j, hz i j = false <-> forall t, (i <= t < j)%nat -> b t = 1.
Proof.
  intros i j. split.
  - intros H t Ht. pose proof (bitz_range k t). destruct (Z.eq_dec (b t) 0) as [E|E]; [|lia].
    assert (hz i j = true) by (apply hz_true; exists t; auto). congruence.
  - intros H. destruct (hz i j) eqn:E; auto. apply hz_true in E. destruct E as [t [H1 H2]]. specialize (H t H1). lia.
Qed.
Lemma hz_here : forall i, hz i i = false.
Proof. intros i. apply hz_false. lia. Qed.
Lemma hz_S : forall i j, (i <= j)%nat -> hz i (S j) = hz i j || (b j =? 0).
Proof.
  intros i j H. unfold hz. rewrite Nat.sub_succ_l by lia. rewrite seq_S, existsb_app. cbn [existsb].
  rewrite orb_false_r. f_equal. do 2 f_equal. lia.
Qed.
Lemma hz_app : forall i j l, (i <= j <= l)%nat -> hz i l = hz i j || hz j l.
Proof.
  intros i j l H. unfold hz. replace (l - i)%nat with ((j - i) + (l - j))%nat by lia.
  rewrite seq_app, existsb_app. do 3 f_equal. lia.
Qed.

Lemma fill_both : forall n j kv, (j + n <= length kv)%nat ->
  if hz j (j + n) then fst (kt_fill n j (kt_bit_m1 true k) kv) = Panic P_overflow
  else kt_fill n j (kt_bit_m1 true k) kv = kt_fill n j (kt_bit_m1 false k) kv.
Proof.
  induction n as [|n IH]; intros j kv HL.
  - rewrite Nat.add_0_r, hz_here. reflexivity.
  - rewrite (hz_app j (S j) (j + S n)) by lia. rewrite hz_S, hz_here, orb_false_l by lia. cbn [kt_fill].
    unfold kt_bit_m1 at 1 3. change (bit k j) with (b j). pose proof (bitz_range k j).
    assert (b j = 0 \/ b j = 1) as [E|E] by lia; rewrite E.
    + reflexivity.
    + change (1 =? 0) with false. cbn [orb].
      replace (kt_bit_m1 false k j) with (kt_bit_m1 true k j).
      2:{ unfold kt_bit_m1. change (bit k j) with (b j). rewrite E. reflexivity. }
      unfold kt_bit_m1 at 1 3. change (bit k j) with (b j). rewrite E.
      change (chk_u32 true (1 - 1)) with (ret 0). rewrite !ret_bind.
      rewrite okP_upd by lia. rewrite !ret_bind. replace (j + S n)%nat with (S j + n)%nat by lia.
      apply IH. rewrite set_nth_length. lia.
Qed.

(** a step stops exactly when a zero lies among the bits it takes one from *)
Definition stops (s : kt_state) : bool :=
  let (j, m, x, y, z, u, v, w, kv) := s in
  m && (walk (S x) + 3 <=? v) && hz j u.
Definition stops_end (s : kt_state) : bool :=
  let (j, m, x, y, z, u, v, w, kv) := s in
  m && (walk x <? v) && hz j u.

Lemma fst_bind_panic : forall A C (m : M A) (f : A -> M C) e, fst m = Panic e -> fst (bind m f) = Panic e.
Proof. intros A C m f e H. rewrite fst_bind, H. reflexivity. Qed.

Lemma step_both : forall L x0 s, kt_inv k L x0 s -> (S (S x0) < L)%nat ->
  if stops s then fst (kt_step true k s) = Panic P_overflow else kt_step true k s = kt_step false k s.
Proof.
  intros L x0 [j m x y z u v w kv] [-> [-> [HL [Hd Hm]]]] Hx. unfold stops, kt_step. rewrite <- walk_step.
  destruct m; cbn [negb andb]; [|reflexivity]. destruct Hm as [Hju [-> [Hmax HD]]].
  destruct (walk (S x0) + 3 <=? walk u) eqn:E; cbn [andb]; [|reflexivity].
  pose proof (fill_both (u - j) j kv ltac:(lia)) as F. replace (j + (u - j))%nat with u in F by lia.
  destruct (hz j u); [apply fst_bind_panic; exact F|]. rewrite F. reflexivity.
Qed.
Lemma end_both : forall L x0 s, kt_inv k L x0 s -> (S x0 < L)%nat ->
  if stops_end s then fst (kt_end true k s) = Panic P_overflow else kt_end true k s = kt_end false k s.
Proof.
  intros L x0 [j m x y z u v w kv] [-> [-> [HL [Hd Hm]]]] Hx. unfold stops_end, kt_end.
  destruct m; cbn [negb andb orb]; [|reflexivity]. destruct Hm as [Hju [-> [Hmax HD]]].
  rewrite Z.ltb_antisym. destruct (walk u <=? walk x0) eqn:E; cbn [andb negb]; [reflexivity|].
  pose proof (fill_both (u - j) j kv ltac:(lia)) as F. replace (j + (u - j))%nat with u in F by lia.
  destruct (hz j u); [apply fst_bind_panic; exact F|]. rewrite F. reflexivity.
Qed.

(* ------------------------------------------------------------------ *)
(** ** A finite automaton that reads the bits from the lowest one on *)

(** [Up d h]: the walk is d above its lowest point, h tells whether there has
    been a zero since then. [Down e f g]: the walk is e below its highest point;
    f tells about the zeros before that point, g about those after it. *)
Inductive st := Up (d : Z) (h : bool) | Down (e : Z) (f g : bool).
Definition next (q : st) (one : bool) : option st :=
  match q with
  | Up d h =>
      if one then Some (if d =? 2 then Down 0 h false else Up (d + 1) h)
      else Some (if d =? 0 then Up 0 false else Up (d - 1) true)
  | Down e f g =>
      if one then Some (if e =? 0 then Down 0 (f || g) false else Down (e - 1) f g)
      else if e =? 2 then (if f then None else Some (Up 0 false)) else Some (Down (e + 1) f true)
  end.
Definition stuck (q : st) : bool :=
  match q with Up _ _ => false | Down e f _ => (0 <? e) && f end.

Definition on (x0 : nat) (s : kt_state) (q : st) : Prop :=
  let (j, m, x, y, z, u, v, w, kv) := s in
  match q with
  | Up d h => m = false /\ d = walk x0 - z /\ 0 <= d <= 2 /\ h = hz w x0
  | Down e f g => m = true /\ e = v - walk x0 /\ 0 <= e <= 2 /\ f = hz j u /\ g = hz u x0
  end.

Lemma step_on : forall L x0 s q, kt_inv k L x0 s -> (S (S x0) < L)%nat -> on x0 s q ->
  match next q (b x0 =? 1) with
  | None => fst (kt_step true k s) = Panic P_overflow
  | Some q' => exists s', fst (kt_step true k s) = Ok s' /\ kt_inv k L (S x0) s' /\ on (S x0) s' q'
  end.
Proof.
  intros L x0 s q I HL O. pose proof (step_both L x0 s I HL) as SB.
  assert (OK : stops s = false -> exists s', fst (kt_step true k s) = Ok s' /\ kt_inv k L (S x0) s' /\ kt_step true k s = kt_step false k s).
  { intros E. rewrite E in SB. rewrite SB. pose proof (kt_step_ok k false L x0 s I HL) as K. apply ovfP_okP in K.
    destruct K as [s' [K1 K2]]. exists s'. auto. }
  destruct s as [j m x y z u v w kv]. destruct I as [-> [-> [HLk [Hd Hm]]]].
  pose proof (bitz_range k x0) as HB. cbn [on] in O. unfold stops in OK, SB.
  assert (W : walk (S x0) = walk x0 + (2 * b x0 - 1)) by reflexivity.
  destruct q as [d h|e f g].
  - destruct O as [-> [-> [D ->]]]. cbn [andb] in OK, SB. destruct (OK eq_refl) as [s' [K1 [K2 K3]]]. clear OK.
    destruct Hm as [Hjw [-> [Hmin HD]]].
    unfold next. assert (E01 : b x0 = 1 \/ b x0 = 0) by lia.
    assert (STEP : fst (kt_step true k {| kt_j := j; kt_m := false; kt_x := x0; kt_y := walk x0; kt_z := walk w; kt_u := u; kt_v := v; kt_w := w; kt_vec := kv |}) = Ok s') by exact K1.
    unfold kt_step in STEP. rewrite <- walk_step in STEP. cbn [negb] in STEP.
    destruct E01 as [E|E]; rewrite E in *.
    + change (1 =? 1) with true. cbv iota.
      destruct (walk x0 - walk w =? 2) eqn:E2.
      * exists s'. split; [exact K1|]. split; [exact K2|].
        replace (walk w + 3 <=? walk (S x0)) with true in STEP by lia.
        rewrite fst_bind in STEP. destruct (fst (kt_fill _ _ _ _)) as [kv1|?|?]; try discriminate.
        rewrite fst_bind in STEP. destruct (fst (upd _ _ _)) as [kv2|?|?]; try discriminate.
        cbn [fst ret] in STEP. injection STEP as <-. cbn [on]. split; [reflexivity|]. split; [lia|]. split; [lia|].
        split; [|rewrite hz_here; reflexivity]. replace (Nat.max j w) with w by lia.
        assert (w <> x0) by (intros ->; lia).
        assert (Bw : b w = 1). { apply (walk_up k). apply Hmin. lia. }
        rewrite hz_S by lia. rewrite E, orb_false_r. rewrite (hz_app w (S w) x0) by lia.
        rewrite hz_S, hz_here, Bw by lia. reflexivity.
      * exists s'. split; [exact K1|]. split; [exact K2|].
        replace (walk w + 3 <=? walk (S x0)) with false in STEP by lia.
        replace (walk (S x0) <? walk w) with false in STEP by lia. cbn [fst ret] in STEP. injection STEP as <-.
        cbn [on]. split; [reflexivity|]. split; [lia|]. split; [lia|]. rewrite hz_S by lia. rewrite E, orb_false_r. reflexivity.
    + change (0 =? 1) with false. cbv iota.
      exists s'. split; [exact K1|]. split; [exact K2|].
      replace (walk w + 3 <=? walk (S x0)) with false in STEP by lia.
      destruct (walk x0 - walk w =? 0) eqn:E0.
      * replace (walk (S x0) <? walk w) with true in STEP by lia. cbn [fst ret] in STEP. injection STEP as <-.
        cbn [on]. split; [reflexivity|]. split; [lia|]. split; [lia|]. rewrite hz_here. reflexivity.
      * replace (walk (S x0) <? walk w) with false in STEP by lia. cbn [fst ret] in STEP. injection STEP as <-.
        cbn [on]. split; [reflexivity|]. split; [lia|]. split; [lia|]. rewrite hz_S by lia. rewrite E.
        change (0 =? 0) with true. rewrite orb_true_r. reflexivity.
  - destruct O as [-> [-> [D [-> ->]]]]. destruct Hm as [Hju [-> [Hmax HD]]]. cbn [andb] in OK, SB.
    unfold next. assert (E01 : b x0 = 1 \/ b x0 = 0) by lia.
    destruct E01 as [E|E]; rewrite E in *.
    + change (1 =? 1) with true. cbv iota.
      replace (walk (S x0) + 3 <=? walk u) with false in OK by lia. destruct (OK eq_refl) as [s' [K1 [K2 K3]]].
      assert (STEP := K1). unfold kt_step in STEP. rewrite <- walk_step in STEP. cbn [negb] in STEP.
      replace (walk (S x0) + 3 <=? walk u) with false in STEP by lia.
      exists s'. split; [exact K1|]. split; [exact K2|].
      destruct (walk u - walk x0 =? 0) eqn:E0.
      * replace (walk u <? walk (S x0)) with true in STEP by lia. cbn [fst ret] in STEP. injection STEP as <-.
        cbn [on]. split; [reflexivity|]. split; [lia|]. split; [lia|]. split; [|rewrite hz_here; reflexivity].
        rewrite hz_S by lia. rewrite E, orb_false_r. rewrite (hz_app j u x0) by lia. reflexivity.
      * replace (walk u <? walk (S x0)) with false in STEP by lia. cbn [fst ret] in STEP. injection STEP as <-.
        cbn [on]. split; [reflexivity|]. split; [lia|]. split; [lia|]. split; [reflexivity|].
        rewrite hz_S by lia. rewrite E, orb_false_r. reflexivity.
    + change (0 =? 1) with false. cbv iota.
      destruct (walk u - walk x0 =? 2) eqn:E2.
      * replace (walk (S x0) + 3 <=? walk u) with true in OK, SB by lia. cbn [andb] in OK, SB.
        destruct (hz j u) eqn:Hz; [exact SB|]. destruct (OK eq_refl) as [s' [K1 [K2 K3]]].
        assert (STEP := K1). unfold kt_step in STEP. rewrite <- walk_step in STEP. cbn [negb] in STEP.
        replace (walk (S x0) + 3 <=? walk u) with true in STEP by lia.
        exists s'. split; [exact K1|]. split; [exact K2|].
        rewrite fst_bind in STEP. destruct (fst (kt_fill _ _ _ _)) as [kv1|?|?]; try discriminate.
        rewrite fst_bind in STEP. destruct (fst (upd _ _ _)) as [kv2|?|?]; try discriminate.
        cbn [fst ret] in STEP. injection STEP as <-. cbn [on]. split; [reflexivity|]. split; [lia|]. split; [lia|].
        rewrite hz_here. reflexivity.
      * replace (walk (S x0) + 3 <=? walk u) with false in OK by lia. destruct (OK eq_refl) as [s' [K1 [K2 K3]]].
        assert (STEP := K1). unfold kt_step in STEP. rewrite <- walk_step in STEP. cbn [negb] in STEP.
        replace (walk (S x0) + 3 <=? walk u) with false in STEP by lia.
        replace (walk u <? walk (S x0)) with false in STEP by lia. cbn [fst ret] in STEP. injection STEP as <-.
        exists {| kt_j := j; kt_m := true; kt_x := S x0; kt_y := walk (S x0); kt_z := z; kt_u := u; kt_v := walk u; kt_w := w; kt_vec := kv |}.
        split; [exact K1|]. split; [exact K2|].
        cbn [on]. split; [reflexivity|]. split; [lia|]. split; [lia|]. split; [reflexivity|].
        rewrite hz_S by lia. rewrite E. change (0 =? 0) with true. rewrite orb_true_r. reflexivity.
Qed.

(** reading the bits x0, ..., x0 + n - 1 *)
Fixpoint reads (n x0 : nat) (q : st) : option st :=
  match n with
  | O => Some q
  | S n' => match next q (b x0 =? 1) with None => None | Some q' => reads n' (S x0) q' end
  end.
Lemma loop_on : forall n L x0 s q, kt_inv k L x0 s -> (S (x0 + n) < L)%nat -> on x0 s q ->
  match reads n x0 q with
  | None => fst (kt_loop n true k s) = Panic P_overflow
  | Some q' => exists s', fst (kt_loop n true k s) = Ok s' /\ kt_inv k L (x0 + n) s' /\ on (x0 + n) s' q'
  end.
Proof.
  induction n as [|n IH]; intros L x0 s q I HL O; cbn [reads kt_loop].
  - exists s. rewrite Nat.add_0_r. auto.
  - pose proof (step_on L x0 s q I ltac:(lia) O) as S1. destruct (next q (b x0 =? 1)) as [q'|].
    + destruct S1 as [s' [K1 [K2 K3]]]. rewrite fst_bind, K1.
      specialize (IH L (S x0) s' q' K2 ltac:(lia) K3). replace (x0 + S n)%nat with (S x0 + n)%nat by lia. exact IH.
    + apply fst_bind_panic. exact S1.
Qed.
Lemma end_on : forall L x0 s q, kt_inv k L x0 s -> L = S (S x0) -> on x0 s q ->
  if stuck q then fst (kt_end true k s) = Panic P_overflow else exists kv, fst (kt_end true k s) = Ok kv.
Proof.
  intros L x0 s q I HL O. pose proof (end_both L x0 s I ltac:(lia)) as EB.
  assert (OK : stops_end s = false -> exists kv, fst (kt_end true k s) = Ok kv).
  { intros E. rewrite E in EB. rewrite EB. pose proof (kt_end_ok k false L x0 s I HL) as K. apply ovfP_okP in K.
    destruct K as [kv [K1 _]]. eauto. }
  destruct s as [j m x y z u v w kv]. destruct I as [-> [-> [HLk [Hd Hm]]]]. cbn [on] in O. unfold stops_end in *.
  destruct q as [d h|e f g].
  - destruct O as [-> _]. apply OK. reflexivity.
  - destruct O as [-> [-> [D [-> ->]]]]. destruct Hm as [Hju [-> [Hmax HD]]]. cbn [andb stuck] in *.
    replace (0 <? walk u - walk x0) with (walk x0 <? walk u) by lia.
    destruct ((walk x0 <? walk u) && hz j u); [exact EB|apply OK; reflexivity].
Qed.
End Rec.

(* ------------------------------------------------------------------ *)
(** ** The recoding as a whole *)

Definition fresh_st : st := Up 0 false.
(** does the recoding stop on the number whose bits below its highest one are
    the n lowest bits of r? *)
Fixpoint fails (n : nat) (r : Z) (q : st) : bool :=
  match n with
  | O => stuck q
  | S n' => match next q (Z.odd r) with None => true | Some q' => fails n' (Z.div2 r) q' end
  end.
Lemma bitz_odd : forall k x, (bitz k x =? 1) = Z.odd (Z.shiftr k (Z.of_nat x)).
Proof.
  intros k x. unfold bitz. rewrite <- Z.bit0_odd, Z.shiftr_spec by lia. rewrite Z.add_0_l.
  destruct (Z.testbit k (Z.of_nat x)); reflexivity.
Qed.
Lemma reads_fails : forall k n x0 q,
  fails n (Z.shiftr k (Z.of_nat x0)) q = match reads k n x0 q with None => true | Some q' => stuck q' end.
Proof.
  intros k. induction n as [|n IH]; intros x0 q; cbn [fails reads]; [reflexivity|].
  rewrite <- bitz_odd. destruct (next q (bitz k x0 =? 1)) as [q'|]; [|reflexivity].
  rewrite <- IH. f_equal. rewrite Z.div2_spec, Z.shiftr_shiftr by lia. f_equal. lia.
Qed.
Lemma fails_add : forall n r t q, fails n (t * 2 ^ Z.of_nat n + r) q = fails n r q.
Proof.
  induction n as [|n IH]; intros r t q; cbn [fails]; [reflexivity|].
  rewrite pow2_S. replace (t * (2 * 2 ^ Z.of_nat n) + r) with (r + 2 * (t * 2 ^ Z.of_nat n)) by ring.
  rewrite Z.odd_add, Z.odd_mul. change (Z.odd 2) with false. rewrite andb_false_l, xorb_false_r.
  destruct (next q (Z.odd r)) as [q'|]; [|reflexivity].
  rewrite !Z.div2_div. rewrite Z.mul_comm, Z.div_add by lia. rewrite Z.add_comm. apply IH.
Qed.

Definition panics {A} (m : M A) : bool := match fst m with Panic _ => true | _ => false end.

Lemma kt_start : forall k L, length (repeat 0 L) = L ->
  kt_inv k L 0 (mkKt 0 false 0 0 0 0 0 0 (repeat 0 L)).
Proof.
  intros k L HL. unfold kt_inv. split; [reflexivity|]. split; [reflexivity|]. split; [exact HL|].
  split; [apply Forall_forall; intros d Hd; apply repeat_spec in Hd; subst d; unfold digit; lia|].
  split; [lia|]. split; [reflexivity|]. split; [|reflexivity].
  intros i Hi. replace i with 0%nat by lia. cbn. lia.
Qed.
Theorem kt_checked : forall n r, (1 <= n <= 31)%nat -> 0 <= r < 2 ^ Z.of_nat n ->
  let k := 2 ^ Z.of_nat n + r in
  if fails n r fresh_st then fst (koyama_tsuruoka_vec true k) = Panic P_overflow
  else exists kv, fst (koyama_tsuruoka_vec true k) = Ok kv.
Proof.
  intros n r Hn Hr k.
  assert (P : 2 ^ 1 <= 2 ^ Z.of_nat n <= 2 ^ 31) by (split; apply Z.pow_le_mono_r; lia).
  assert (Hk : 0 <= k < 2 ^ 32) by lia.
  assert (BL : bit_len_32 k = S n).
  { destruct (bit_len_32_ok k Hk) as [[E _]|[H5 H6]]; [lia|].
    set (l := bit_len_32 k) in *. destruct H6 as [H6 H7].
    assert (Z.of_nat (l - 1) < Z.of_nat n + 1).
    { apply (Z.pow_lt_mono_r_iff 2); [lia|lia|]. rewrite Z.pow_add_r by lia. lia. }
    assert (Z.of_nat n < Z.of_nat l).
    { apply (Z.pow_lt_mono_r_iff 2); [lia|lia|]. lia. }
    lia. }
  unfold koyama_tsuruoka_vec. replace (k =? 0) with false by lia. replace (k =? 1) with false by lia.
  cbv zeta. rewrite BL. replace (S n - 1)%nat with n by lia. replace (S n + 1)%nat with (S (S n)) by lia.
  pose proof (loop_on k n (S (S n)) 0 _ fresh_st (kt_start k (S (S n)) (repeat_length _ _)) ltac:(lia)) as LO.
  assert (ON : on k 0 (mkKt 0 false 0 0 0 0 0 0 (repeat 0 (S (S n)))) fresh_st).
  { unfold on, fresh_st. split; [reflexivity|]. split; [reflexivity|]. split; [lia|]. rewrite hz_here. reflexivity. }
  rewrite <- (fails_add n r 1), Z.mul_1_l. fold k.
  pose proof (reads_fails k n 0 fresh_st) as RF. change (Z.of_nat 0) with 0 in RF. rewrite Z.shiftr_0_r in RF. rewrite RF.
  destruct (reads k n 0 fresh_st) as [q|].
  - destruct LO as [s [K1 [K2 K3]]]; [exact ON|].
    rewrite fst_bind, K1. pose proof (end_on k (S (S n)) (0 + n) s q K2 eq_refl K3) as EO.
    destruct (stuck q); [apply fst_bind_panic; exact EO|]. destruct EO as [kv EO]. rewrite fst_bind, EO. cbn [fst ret]. eauto.
  - apply fst_bind_panic, LO. exact ON.
Qed.

Lemma kt_checked_panics : forall n r, (1 <= n <= 31)%nat -> 0 <= r < 2 ^ Z.of_nat n ->
  panics (koyama_tsuruoka_vec true (2 ^ Z.of_nat n + r)) = fails n r fresh_st.
Proof.
  intros n r Hn Hr. pose proof (kt_checked n r Hn Hr) as K. cbv zeta in K. unfold panics.
  destruct (fails n r fresh_st); [rewrite K; reflexivity|]. destruct K as [kv ->]. reflexivity.
Qed.

(* ------------------------------------------------------------------ *)
(** ** Counting *)

(** how many of 0, ..., N - 1 satisfy P *)
Definition how_many (P : Z -> bool) (N : Z) : Z :=
  Z.of_nat (length (filter P (map Z.of_nat (seq 0 (Z.to_nat N))))).

Definition hm (P : Z -> bool) (n : nat) : Z := how_many P (Z.of_nat n).
Lemma hm_0 : forall P, hm P 0 = 0.
Proof. reflexivity. Qed.
Lemma hm_S : forall P n, hm P (S n) = hm P n + Z.b2z (P (Z.of_nat n)).
Proof.
  intros P n. unfold hm, how_many. rewrite !Nat2Z.id, seq_S, map_app, filter_app, app_length.
  cbn [map filter Nat.add]. destruct (P (Z.of_nat n)); cbn [length Z.b2z]; lia.
Qed.
Lemma hm_ext : forall P Q n, (forall i, 0 <= i < Z.of_nat n -> P i = Q i) -> hm P n = hm Q n.
Proof.
  intros P Q. induction n as [|n IH]; intros H; [reflexivity|]. rewrite !hm_S, IH, H by (try (intros; apply H); lia). reflexivity.
Qed.
Lemma hm_add : forall P n t, hm P (n + t) = hm P n + hm (fun i => P (Z.of_nat n + i)) t.
Proof.
  intros P n. induction t as [|t IH]; [rewrite Nat.add_0_r, hm_0; lia|].
  rewrite Nat.add_succ_r, !hm_S, IH. replace (Z.of_nat (n + t)) with (Z.of_nat n + Z.of_nat t) by lia. lia.
Qed.
Lemma hm_twice : forall P n, hm P (n + n) = hm (fun i => P (2 * i)) n + hm (fun i => P (2 * i + 1)) n.
Proof.
  intros P. induction n as [|n IH]; [reflexivity|].
  replace (S n + S n)%nat with (S (S (n + n))) by lia. rewrite !hm_S, IH.
  replace (Z.of_nat (n + n)) with (2 * Z.of_nat n) by lia.
  replace (Z.of_nat (S (n + n))) with (2 * Z.of_nat n + 1) by lia. lia.
Qed.
Lemma hm_all : forall n, hm (fun _ => true) n = Z.of_nat n.
Proof. induction n as [|n IH]; [reflexivity|]. rewrite hm_S, IH. cbn [Z.b2z]. lia. Qed.
Lemma hm_none : forall n, hm (fun _ => false) n = 0.
Proof. induction n as [|n IH]; [reflexivity|]. rewrite hm_S, IH. reflexivity. Qed.

(** of the 2^n continuations from q *)
Fixpoint cnt (n : nat) (q : st) : Z :=
  match n with
  | O => Z.b2z (stuck q)
  | S n' =>
      let part b := match next q b with None => 2 ^ Z.of_nat n' | Some q' => cnt n' q' end in
      part false + part true
  end.
Lemma two_pow_S : forall n, (2 ^ S n = 2 ^ n + 2 ^ n)%nat.
Proof. intros n. cbn [Nat.pow]. lia. Qed.
Lemma pow_nat : forall n, Z.of_nat (2 ^ n) = 2 ^ Z.of_nat n.
Proof. intros n. rewrite Nat2Z.inj_pow. reflexivity. Qed.
Lemma hm_fails : forall n q, hm (fun r => fails n r q) (2 ^ n) = cnt n q.
Proof.
  induction n as [|n IH]; intros q.
  - cbn [Nat.pow]. rewrite hm_S, hm_0. reflexivity.
  - rewrite two_pow_S, hm_twice. cbn [cnt]. cbv zeta. f_equal.
    + destruct (next q false) as [q'|] eqn:E.
      * rewrite <- IH. apply hm_ext. intros i _. cbn [fails]. rewrite Z.odd_mul. change (Z.odd 2 && Z.odd i) with false.
        rewrite E. f_equal. rewrite Z.div2_div, Z.mul_comm, Z.div_mul by lia. reflexivity.
      * rewrite <- pow_nat, <- hm_all. apply hm_ext. intros i _. cbn [fails]. rewrite Z.odd_mul.
        change (Z.odd 2 && Z.odd i) with false. rewrite E. reflexivity.
    + assert (O : forall i, Z.odd (2 * i + 1) = true).
      { intros i. rewrite Z.odd_add, Z.odd_mul. reflexivity. }
      destruct (next q true) as [q'|] eqn:E.
      * rewrite <- IH. apply hm_ext. intros i _. cbn [fails]. rewrite O, E. f_equal.
        rewrite Z.div2_div, Z.add_comm, Z.mul_comm, Z.div_add by lia. reflexivity.
      * rewrite <- pow_nat, <- hm_all. apply hm_ext. intros i _. cbn [fails]. rewrite O, E. reflexivity.
Qed.

(** the same numbers for all states at once *)
Definition bools := [false; true].
Definition states : list st :=
  flat_map (fun d => map (Up d) bools) [0; 1; 2] ++
  flat_map (fun e => flat_map (fun f => map (Down e f) bools) bools) [0; 1; 2].
Definition rank (q : st) : nat :=
  match q with
  | Up d h => Z.to_nat (2 * d + Z.b2z h)
  | Down e f g => Z.to_nat (6 + 4 * e + 2 * Z.b2z f + Z.b2z g)
  end.
Fixpoint cnts (n : nat) : list Z :=
  match n with
  | O => map (fun q => Z.b2z (stuck q)) states
  | S n' =>
      let l := cnts n' in
      let p := 2 ^ Z.of_nat n' in
      map (fun q => (match next q false with None => p | Some q' => nth (rank q') l 0 end) +
                    (match next q true with None => p | Some q' => nth (rank q') l 0 end)) states
  end.
Definition state_ok (q : st) : bool :=
  (rank q <? length states)%nat &&
  match nth (rank q) states fresh_st, q with
  | Up d h, Up d' h' => (d =? d') && Bool.eqb h h'
  | Down e f g, Down e' f' g' => (e =? e') && Bool.eqb f f' && Bool.eqb g g'
  | _, _ => false
  end.
Definition closed : bool :=
  forallb (fun q => state_ok q && forallb (fun b => match next q b with None => true | Some q' => state_ok q' end) bools) states.
Lemma closed_true : closed = true.
Proof. vm_compute. reflexivity. Qed.
Lemma state_ok_nth : forall q, state_ok q = true -> (rank q < length states)%nat /\ nth (rank q) states fresh_st = q.
Proof.
  intros q H. unfold state_ok in H. apply andb_prop in H. destruct H as [H1 H2]. split; [lia|].
  destruct (nth (rank q) states fresh_st), q; try discriminate.
  - apply andb_prop in H2. destruct H2 as [H2 H3]. apply Bool.eqb_prop in H3. f_equal; [lia|exact H3].
  - apply andb_prop in H2. destruct H2 as [H2 H4]. apply andb_prop in H2. destruct H2 as [H2 H3].
    apply Bool.eqb_prop in H3, H4. f_equal; [lia|exact H3|exact H4].
Qed.
Lemma cnts_cnt : forall n q, state_ok q = true -> nth (rank q) (cnts n) 0 = cnt n q.
Proof.
  induction n as [|n IH]; intros q H; destruct (state_ok_nth q H) as [H1 H2]; cbn [cnts cnt]; cbv zeta.
  - rewrite (nth_indep _ 0 (Z.b2z (stuck fresh_st))) by (rewrite map_length; exact H1).
    rewrite (map_nth (fun q => Z.b2z (stuck q))), H2. reflexivity.
  - set (F := fun q => _ + _).
    rewrite (nth_indep _ 0 (F fresh_st)) by (rewrite map_length; exact H1). rewrite (map_nth F), H2.
    pose proof closed_true as C. unfold closed in C. rewrite forallb_forall in C.
    assert (HI : In q states) by (rewrite <- H2; apply nth_In; exact H1).
    specialize (C q HI). apply andb_prop in C. destruct C as [_ C]. rewrite forallb_forall in C.
    pose proof (C false ltac:(left; reflexivity)) as C0. pose proof (C true ltac:(right; left; reflexivity)) as C1. cbv beta in C0, C1.
    unfold F. f_equal.
    + destruct (next q false) as [q'|]; [apply IH; exact C0|reflexivity].
    + destruct (next q true) as [q'|]; [apply IH; exact C1|reflexivity].
Qed.

(** below 2^(n+1) *)
Definition kt_panics (k : Z) : bool := panics (koyama_tsuruoka_vec true k).
Fixpoint below (n : nat) : Z :=
  match n with O => 0 | S n' => below n' + nth 0 (cnts n) 0 end.
Lemma below_ok : forall n, (n <= 31)%nat -> hm kt_panics (2 ^ S n) = below n.
Proof.
  induction n as [|n IH]; intros Hn; [reflexivity|]. cbn [below]. rewrite two_pow_S, hm_add, IH by lia. f_equal.
  change 0%nat with (rank fresh_st). rewrite cnts_cnt by reflexivity. rewrite <- hm_fails. apply hm_ext. intros i Hi.
  rewrite pow_nat in *. apply kt_checked_panics; lia.
Qed.
Lemma how_many_kt : forall n, (n <= 31)%nat -> how_many kt_panics (2 ^ Z.of_nat (S n)) = below n.
Proof. intros n Hn. rewrite <- pow_nat. apply below_ok. exact Hn. Qed.
Lemma below_11 : below 11 = 665.
Proof. vm_compute. reflexivity. Qed.
Lemma below_30 : below 30 = 1453214493.
Proof. vm_compute. reflexivity. Qed.
Lemma below_31 : below 31 = 2982464061.
Proof. vm_compute. reflexivity. Qed.

(* ------------------------------------------------------------------ *)
(** ** The same condition in terms of the digits *)
Section Digits.
Variable k : Z.
Local Notation b := (bitz k).
Local Notation walk := (NafProofs.walk k).

(** digits below n: a -1 in the place of a zero bit, and later a 1 in the place
    of a zero bit *)
Definition borrowed (n : nat) (kv : list Z) : Prop :=
  exists i j, (i < j < n)%nat /\ b i = 0 /\ fn kv i = -1 /\ b j = 0 /\ fn kv j = 1.
Definition clean (n : nat) (kv : list Z) : Prop := forall i, (i < n)%nat -> b i = 0 -> fn kv i <> -1.

Lemma borrowed_ext : forall n n' kv kv', (n <= n')%nat -> (forall i, (i < n)%nat -> fn kv' i = fn kv i) ->
  borrowed n kv -> borrowed n' kv'.
Proof.
  intros n n' kv kv' H E [i [j [H1 [H2 [H3 [H4 H5]]]]]]. exists i, j. rewrite !E by lia. repeat (split; auto); lia.
Qed.
Lemma clean_no : forall n kv, clean n kv -> ~ borrowed n kv.
Proof. intros n kv H [i [j [H1 [H2 [H3 _]]]]]. apply (H i); auto. lia. Qed.

Definition settled (s : kt_state) (clean_before : bool) : Prop :=
  if clean_before then clean (kt_j s) (kt_vec s) else borrowed (kt_j s) (kt_vec s).

Lemma step_digits : forall L x0 s c, kt_inv k L x0 s -> (S (S x0) < L)%nat -> settled s c ->
  okP (kt_step false k s) (fun s' => kt_inv k L (S x0) s' /\ settled s' (c && negb (stops k s))).
Proof.
  intros L x0 s c I HL0 G. pose proof (kt_step_ok k false L x0 s I HL0) as K. apply ovfP_okP in K.
  destruct K as [s' [K1 K2]]. exists s'. split; [exact K1|]. split; [exact K2|].
  destruct s as [j m x y z u v w kv]. destruct I as [-> [-> [HL [Hd Hm]]]]. unfold stops. unfold kt_step in K1. rewrite <- walk_step in K1.
  assert (ST : walk (S x0) = walk x0 + (2 * b x0 - 1)) by reflexivity. pose proof (bitz_range k x0) as B0.
  unfold settled in G. cbn [kt_j kt_vec] in G.
  destruct m; cbn [negb andb] in *.
  - destruct Hm as [Hju [-> [Hmax HD]]]. destruct (walk (S x0) + 3 <=? walk u) eqn:E.
    + cbn [andb].
      assert (F : okP (kt_fill (u - j) j (kt_bit_m1 false k) kv) (fun kv' => length kv' = length kv /\ digits kv' /\
        (forall i, fn kv' i = if ((j <=? i) && (i <? j + (u - j)))%nat then b i - 1 else fn kv i))).
      { apply ovfP_okP. apply (fill_ok false (u - j) j _ (fun i => b i - 1)); auto; try lia.
        - intros; apply bit_m1_ok.
        - intros; apply b_m1_digit. }
      destruct F as [kv1 [F1 [L1 [D1 F2]]]]. rewrite fst_bind, F1 in K1. cbv zeta in K1. replace (Nat.max j u) with u in K1 by lia.
      assert (Hu : (u < x0)%nat). { assert (u <> x0) by (intros ->; lia). lia. }
      rewrite okP_upd in K1 by lia. rewrite ret_bind in K1. cbn [fst ret] in K1. injection K1 as <-. cbn [kt_j kt_vec].
      assert (FF : forall i, fn (set_nth kv1 u 1) i = if (i =? u)%nat then 1 else if ((j <=? i) && (i <? u))%nat then b i - 1 else fn kv i).
      { intros i. rewrite set_fn by lia. destruct (i =? u)%nat eqn:Ei; [reflexivity|]. rewrite F2. replace (j + (u - j))%nat with u by lia. reflexivity. }
      assert (Bu : b u = 0). { apply (walk_down k). apply Hmax. lia. }
      assert (OLD : forall i, (i < j)%nat -> fn (set_nth kv1 u 1) i = fn kv i).
      { intros i Hi. rewrite FF. replace (i =? u)%nat with false by lia. replace ((j <=? i) && (i <? u))%nat with false by lia. reflexivity. }
      unfold settled. cbn [kt_j kt_vec]. destruct c; cbn [andb].
      * destruct (hz k j u) eqn:Hz; cbn [negb].
        -- apply hz_true in Hz. destruct Hz as [i [Hi Bi]]. exists i, u. split; [lia|]. split; [exact Bi|]. split; [|split; [exact Bu|]].
           ++ rewrite FF. replace (i =? u)%nat with false by lia. replace ((j <=? i) && (i <? u))%nat with true by lia. lia.
           ++ rewrite FF, Nat.eqb_refl. reflexivity.
        -- pose proof (proj1 (hz_false k j u) Hz) as Hz'. intros i Hi Bi. rewrite FF. destruct (i =? u)%nat eqn:Ei; [lia|].
           destruct ((j <=? i) && (i <? u))%nat eqn:Ej; [specialize (Hz' i ltac:(lia)); lia|]. apply G; [lia|exact Bi].
      * apply (borrowed_ext j _ kv); auto. lia.
    + cbn [andb negb]. destruct (walk u <? walk (S x0)); cbn [fst ret] in K1; injection K1 as <-; unfold settled; cbn [kt_j kt_vec];
        rewrite andb_true_r; exact G.
  - rewrite andb_true_r. destruct Hm as [Hjw [-> [Hmin HD]]]. destruct (walk w + 3 <=? walk (S x0)) eqn:E.
    + assert (F : okP (kt_fill (w - j) j (kt_bit k) kv) (fun kv' => length kv' = length kv /\ digits kv' /\
        (forall i, fn kv' i = if ((j <=? i) && (i <? j + (w - j)))%nat then b i else fn kv i))).
      { apply ovfP_okP. apply (fill_ok false (w - j) j _ b); auto; try lia.
        - intros; apply bit_ok.
        - intros; apply b_digit. }
      destruct F as [kv1 [F1 [L1 [D1 F2]]]]. rewrite fst_bind, F1 in K1. cbv zeta in K1. replace (Nat.max j w) with w in K1 by lia.
      assert (Hw : (w < x0)%nat). { assert (w <> x0) by (intros ->; lia). lia. }
      rewrite okP_upd in K1 by lia. rewrite ret_bind in K1. cbn [fst ret] in K1. injection K1 as <-.
      assert (FF : forall i, fn (set_nth kv1 w (-1)) i = if (i =? w)%nat then -1 else if ((j <=? i) && (i <? w))%nat then b i else fn kv i).
      { intros i. rewrite set_fn by lia. destruct (i =? w)%nat eqn:Ei; [reflexivity|]. rewrite F2. replace (j + (w - j))%nat with w by lia. reflexivity. }
      assert (Bw : b w = 1). { apply (walk_up k). apply Hmin. lia. }
      unfold settled. cbn [kt_j kt_vec]. destruct c.
      * intros i Hi Bi. rewrite FF. destruct (i =? w)%nat eqn:Ei; [replace i with w in Bi by lia; lia|].
        destruct ((j <=? i) && (i <? w))%nat eqn:Ej; [lia|]. apply G; [lia|exact Bi].
      * apply (borrowed_ext j _ kv); auto; [lia|]. intros i Hi. rewrite FF. replace (i =? w)%nat with false by lia.
        replace ((j <=? i) && (i <? w))%nat with false by lia. reflexivity.
    + destruct (walk (S x0) <? walk w); cbn [fst ret] in K1; injection K1 as <-; exact G.
Qed.

Lemma loop_digits : forall n L x0 s, kt_inv k L x0 s -> (S (x0 + n) < L)%nat -> 
  forall c, settled s c ->
  exists s' c', fst (kt_loop n false k s) = Ok s' /\ kt_inv k L (x0 + n) s' /\ settled s' c' /\
    (c = false -> c' = false) /\
    (c = true -> fst (kt_loop n true k s) = if c' then Ok s' else Panic P_overflow).
Proof.
  induction n as [|n IH]; intros L x0 s I HL c G; cbn [kt_loop].
  - exists s, c. rewrite Nat.add_0_r. cbn [fst ret]. split; [reflexivity|]. split; [exact I|]. split; [exact G|].
    split; [auto|]. intros ->. reflexivity.
  - destruct (step_digits L x0 s c I ltac:(lia) G) as [s1 [K1 [K2 K3]]]. pose proof (step_both k L x0 s I ltac:(lia)) as SB.
    destruct (IH L (S x0) s1 K2 ltac:(lia) _ K3) as [s' [c' [J1 [J2 [J3 [J4 J5]]]]]].
    exists s', c'. rewrite fst_bind, K1. split; [exact J1|]. replace (x0 + S n)%nat with (S x0 + n)%nat by lia.
    split; [exact J2|]. split; [exact J3|]. split.
    + intros ->. apply J4. reflexivity.
    + intros ->. destruct (stops k s).
      * rewrite (J4 eq_refl). apply fst_bind_panic. exact SB.
      * rewrite SB, fst_bind, K1. apply J5. reflexivity.
Qed.

Lemma end_digits : forall L x0 s c, kt_inv k L x0 s -> L = S (S x0) -> settled s c -> b x0 = 1 ->
  okP (kt_end false k s) (fun l => (c && negb (stops_end k s) = true -> ~ borrowed (S x0) l) /\
    (c && negb (stops_end k s) = false -> borrowed (S x0) l)).
Proof.
  intros L x0 s c I HLx G Bx. 
  destruct s as [j m x y z u v w kv]. destruct I as [-> [-> [HL [Hd Hm]]]]. unfold stops_end, kt_end.
  unfold settled in G. cbn [kt_j kt_vec] in G. rewrite Z.ltb_antisym.
  destruct (negb m || (v <=? walk x0)) eqn:Ec.
  - assert (Hj : (j <= x0)%nat) by (destruct m; [lia|]; destruct Hm as [Hm _]; lia).
    assert (F : okP (kt_fill (x0 - j) j (fun i => ret (bit k i - Z.b2z m)) kv) (fun kv' => length kv' = length kv /\ digits kv' /\
        (forall i, fn kv' i = if ((j <=? i) && (i <? j + (x0 - j)))%nat then b i - Z.b2z m else fn kv i))).
    { apply ovfP_okP. apply (fill_ok false (x0 - j) j _ (fun i => b i - Z.b2z m)); auto; try lia.
      - intros i Hi. apply ovfP_ret. reflexivity.
      - intros i Hi. destruct m; cbn; [apply b_m1_digit|rewrite Z.sub_0_r; apply b_digit]. }
    eapply okP_bind; [exact F|]. intros kv1 [L1 [D1 F1]]. cbv zeta. replace (Nat.max j x0) with x0 by lia. rewrite okP_upd by lia. rewrite ret_bind.
    rewrite okP_upd by (rewrite set_nth_length; lia). apply okP_ret. set (l := set_nth _ _ _).
    assert (Fin : forall i, fn l i = if (i =? S x0)%nat then Z.b2z m else if (i =? x0)%nat then 1 - Z.b2z m else
       if ((j <=? i) && (i <? x0))%nat then b i - Z.b2z m else fn kv i).
    { intros i. unfold l. rewrite set_fn by (rewrite set_nth_length; lia). rewrite set_fn by lia. rewrite F1.
      replace (j + (x0 - j))%nat with x0 by lia. reflexivity. }
    assert (OLD : forall i, (i < j)%nat -> fn l i = fn kv i).
    { intros i Hi. rewrite Fin. replace (i =? S x0)%nat with false by lia. replace (i =? x0)%nat with false by lia.
      replace ((j <=? i) && (i <? x0))%nat with false by lia. reflexivity. }
    assert (ST : m && negb (v <=? walk x0) && hz k j u = false).
    { destruct m; [|reflexivity]. cbn [negb orb] in Ec. rewrite Ec. reflexivity. }
    rewrite ST. cbn [negb]. rewrite andb_true_r. destruct c; (split; [|try discriminate]); try discriminate; intros _.
    + intros [i [i' [H1 [H2 [H3 [H4 H5]]]]]]. rewrite Fin in H3, H5.
      replace (i =? S x0)%nat with false in H3 by lia. replace (i' =? S x0)%nat with false in H5 by lia.
      replace (i =? x0)%nat with false in H3 by lia. destruct (i' =? x0)%nat eqn:Ei.
      { replace i' with x0 in H4 by lia. lia. }
      destruct ((j <=? i) && (i <? x0))%nat eqn:Ej; [|apply (G i); auto; lia].
      replace ((j <=? i') && (i' <? x0))%nat with true in H5 by lia. destruct m; cbn [Z.b2z] in *; lia.
    + apply (borrowed_ext j _ kv); [lia|exact OLD|exact G].
  - destruct m; [|discriminate]. cbn [negb orb] in Ec. rewrite Ec. cbn [negb andb]. destruct Hm as [Hju [-> [Hmax HD]]].
    assert (Hu : (u < x0)%nat) by (assert (u <> x0) by (intros ->; lia); lia).
    assert (Bu : b u = 0). { apply (walk_down k). apply Hmax. lia. }
    assert (F : okP (kt_fill (u - j) j (kt_bit_m1 false k) kv) (fun kv' => length kv' = length kv /\ digits kv' /\
        (forall i, fn kv' i = if ((j <=? i) && (i <? j + (u - j)))%nat then b i - 1 else fn kv i))).
    { apply ovfP_okP. apply (fill_ok false (u - j) j _ (fun i => b i - 1)); auto; try lia.
      - intros; apply bit_m1_ok.
      - intros; apply b_m1_digit. }
    eapply okP_bind; [exact F|]. intros kv1 [L1 [D1 F1]]. cbv zeta. replace (Nat.max j u) with u by lia. rewrite okP_upd by lia. rewrite ret_bind.
    assert (F' : okP (kt_fill (x0 - S u) (S u) (kt_bit k) (set_nth kv1 u 1)) (fun kv' => length kv' = length (set_nth kv1 u 1) /\ digits kv' /\
        (forall i, fn kv' i = if ((S u <=? i) && (i <? S u + (x0 - S u)))%nat then b i else fn (set_nth kv1 u 1) i))).
    { apply ovfP_okP. apply (fill_ok false (x0 - S u) (S u) _ b).
      - intros; apply bit_ok.
      - intros; apply b_digit.
      - rewrite set_nth_length. lia.
      - apply set_digits; auto; [lia|unfold digit; lia]. }
    eapply okP_bind; [exact F'|]. intros kv2 [L2 [D2 F2]]. rewrite set_nth_length in L2. replace (Nat.max (S u) x0) with x0 by lia.
    rewrite okP_upd by lia. rewrite ret_bind. rewrite okP_upd by (rewrite set_nth_length; lia). apply okP_ret. set (l := set_nth _ _ _).
    assert (Fin : forall i, fn l i = if (i =? S x0)%nat then 0 else if (i =? x0)%nat then 1 else
       if ((S u <=? i) && (i <? x0))%nat then b i else if (i =? u)%nat then 1 else
       if ((j <=? i) && (i <? u))%nat then b i - 1 else fn kv i).
    { intros i. unfold l. rewrite set_fn by (rewrite set_nth_length; lia). rewrite set_fn by lia. rewrite F2.
      replace (S u + (x0 - S u))%nat with x0 by lia. rewrite set_fn by lia. rewrite F1. replace (j + (u - j))%nat with u by lia. reflexivity. }
    assert (OLD : forall i, (i < j)%nat -> fn l i = fn kv i).
    { intros i Hi. rewrite Fin. replace (i =? S x0)%nat with false by lia. replace (i =? x0)%nat with false by lia.
      replace ((S u <=? i) && (i <? x0))%nat with false by lia. replace (i =? u)%nat with false by lia.
      replace ((j <=? i) && (i <? u))%nat with false by lia. reflexivity. }
    destruct c; cbn [andb].
    + destruct (hz k j u) eqn:Hz; cbn [negb]; (split; [|try discriminate]); try discriminate; intros _.
      * apply hz_true in Hz. destruct Hz as [i [Hi Bi]]. exists i, u. split; [lia|]. split; [exact Bi|]. split; [|split; [exact Bu|]].
        -- rewrite Fin. replace (i =? S x0)%nat with false by lia. replace (i =? x0)%nat with false by lia.
           replace ((S u <=? i) && (i <? x0))%nat with false by lia. replace (i =? u)%nat with false by lia.
           replace ((j <=? i) && (i <? u))%nat with true by lia. lia.
        -- rewrite Fin. replace (u =? S x0)%nat with false by lia. replace (u =? x0)%nat with false by lia.
           replace ((S u <=? u) && (u <? x0))%nat with false by lia. rewrite Nat.eqb_refl. reflexivity.
      * pose proof (proj1 (hz_false k j u) Hz) as Hz'. apply clean_no. intros i Hi Bi. rewrite Fin.
        replace (i =? S x0)%nat with false by lia. destruct (i =? x0)%nat eqn:Ex; [lia|].
        destruct ((S u <=? i) && (i <? x0))%nat eqn:Es; [lia|]. destruct (i =? u)%nat eqn:Eu; [lia|].
        destruct ((j <=? i) && (i <? u))%nat eqn:Ej; [specialize (Hz' i ltac:(lia)); lia|].
        apply G; [lia|exact Bi].
    + split; [discriminate|]. intros _. apply (borrowed_ext j _ kv); [lia|exact OLD|exact G].
Qed.
End Digits.

Lemma pop_zero_nth : forall l i, fn (pop_zero l) i = fn l i.
Proof.
  intros l i. unfold pop_zero. destruct (rev l) as [|d t] eqn:E; [reflexivity|].
  destruct (d =? 0) eqn:E0; [|reflexivity]. assert (d = 0) by lia. subst d.
  assert (El : l = rev t ++ [0]) by (rewrite <- (rev_involutive l), E; reflexivity).
  rewrite El, removelast_last. unfold fn. destruct (lt_dec i (length (rev t))) as [H|H].
  - rewrite app_nth1 by exact H. reflexivity.
  - rewrite (nth_overflow (rev t)) by lia. destruct (i - length (rev t))%nat eqn:Ei.
    + rewrite app_nth2 by lia. rewrite Ei. reflexivity.
    + rewrite nth_overflow; [reflexivity|]. rewrite app_length. cbn [length]. lia.
Qed.

Theorem kt_checked_digits : forall k kv, 0 <= k < 2 ^ 32 -> fst (koyama_tsuruoka_vec false k) = Ok kv ->
  (fst (koyama_tsuruoka_vec true k) = Panic P_overflow <->
   exists i j, (i < j)%nat /\ 2 ^ Z.of_nat j <= k /\ bitz k i = 0 /\ fn kv i = -1 /\ bitz k j = 0 /\ fn kv j = 1).
Proof.
  intros k kv Hk. unfold koyama_tsuruoka_vec.
  destruct (k =? 0) eqn:E0.
  { cbn [fst ret]. intros E. injection E as <-. split; [discriminate|]. intros [i [j [H1 [H2 [H3 [H4 _]]]]]].
    destruct i as [|[|i]]; cbn in H4; discriminate. }
  destruct (k =? 1) eqn:E1.
  { cbn [fst ret]. intros E. injection E as <-. split; [discriminate|]. intros [i [j [H1 [H2 [H3 [H4 _]]]]]].
    destruct i as [|[|i]]; cbn in H4; discriminate. }
  cbv zeta. pose proof (bit_len_32_ok k Hk) as HB. set (n := bit_len_32 k) in *. clearbody n.
  destruct HB as [[HB _]|[Hn HB]]; [lia|].
  assert (Hn2 : (2 <= n)%nat) by (destruct (Nat.eq_dec n 1); [subst n; cbn in HB; lia|lia]).
  destruct n as [|x]; [lia|]. replace (S x - 1)%nat with x in * by lia. replace (S x + 1)%nat with (S (S x)) by lia.
  assert (Bx : bitz k x = 1).
  { unfold bitz. replace (Z.testbit k (Z.of_nat x)) with true; [reflexivity|]. symmetry. apply Z.testbit_true; [lia|].
    replace (k / 2 ^ Z.of_nat x) with 1; [reflexivity|]. rewrite pow2_S in HB.
    apply (Z.div_unique_pos _ _ _ (k - 2 ^ Z.of_nat x)); lia. }
  destruct (loop_digits k x (S (S x)) 0 _ (kt_start k (S (S x)) (repeat_length _ _)) ltac:(lia) true) as [s [c [J1 [J2 [J3 [_ J5]]]]]].
  { intros i Hi. cbn [kt_j] in Hi. lia. }
  specialize (J5 eq_refl). rewrite fst_bind, J1. cbn [Nat.add] in J2.
  destruct (end_digits k (S (S x)) x s c J2 eq_refl J3 Bx) as [l [Q1 [Q2 Q3]]]. rewrite fst_bind, Q1. cbn [fst ret]. intros E. injection E as <-.
  assert (ME : borrowed k (S x) l <-> exists i j, (i < j)%nat /\ 2 ^ Z.of_nat j <= k /\ bitz k i = 0 /\ fn (pop_zero l) i = -1 /\ bitz k j = 0 /\ fn (pop_zero l) j = 1).
  { split; intros [i [j [H1 H2]]]; exists i, j; rewrite !pop_zero_nth in *.
    - split; [lia|]. split; [|exact H2]. apply (Z.le_trans _ (2 ^ Z.of_nat x)); [apply Z.pow_le_mono_r; lia|lia].
    - destruct H2 as [H2 H3]. split; [|exact H3]. split; [exact H1|].
      assert (Z.of_nat j < Z.of_nat (S x)); [|lia]. apply (Z.pow_lt_mono_r_iff 2); lia. }
  rewrite <- ME. pose proof (end_both k (S (S x)) x s J2 ltac:(lia)) as EB.
  destruct c; cbn [andb] in *.
  - rewrite fst_bind, J5. destruct (stops_end k s); cbn [negb] in *.
    + split; [intros _; apply Q3; reflexivity|]. intros _. apply fst_bind_panic. exact EB.
    + split; [|intros H; exfalso; apply (Q2 eq_refl H)]. rewrite EB, fst_bind, Q1. discriminate.
  - split; [intros _; apply Q3; reflexivity|]. intros _. apply fst_bind_panic. exact J5.
Qed.
