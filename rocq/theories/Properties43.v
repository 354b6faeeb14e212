(** C78: the conditional shift that the notes at the end of src/lib.rs ask for *)
From Verif Require Import Base Backend Words Encryption Params Pbs Maximum Rounding CondShift
  Spec Contract Symbolic Weights Light Instances BaseProofs WordsProofs PbsProofs ValueProofs AddProofs SgnProofs RoundProofs TableProofs
  ShapeProofs DepthProofs WeightProofs WeightAll Arith Expr Properties22 Properties5 Properties8 Properties9 Properties14 Properties36.
From Coq Require Import ZifyBool ZifyNat.
From Coq Require FinFun.

(* ------------------------------------------------------------------ *)
(** ** Specification *)

(** words lowest first: the leading one goes if it is 0, otherwise the lowest *)
Definition shifted (ds : list Z) : list Z := if last ds 0 =? 0 then removelast ds else tl ds.
(** [k] times; how many leading words are 0 *)
Fixpoint shifted_n (k : nat) (ds : list Z) : list Z := match k with O => ds | S k => shifted_n k (shifted ds) end.
Fixpoint zeros (l : list Z) : nat := match l with 0 :: t => S (zeros t) | _ => O end.
Definition leading_zeros (ds : list Z) : nat := zeros (rev ds).
(** [l; x; y]: x if l is not 0, y if it is *)
Definition unless_zero (ds : list Z) : Z := match ds with [l; x; y] => if l =? 0 then y else x | _ => 0 end.

(* ------------------------------------------------------------------ *)
(** ** Numbers *)

(** Without its leading zero a number keeps its value; without its lowest word it is halved, and off by at most a half *)
Theorem C78_number : forall ds, digits ds -> ds <> [] ->
  digits (shifted ds) /\ length (shifted ds) = (length ds - 1)%nat /\
  (last ds 0 = 0 -> value (shifted ds) = value ds) /\
  (last ds 0 <> 0 -> Z.abs (2 * value (shifted ds) - value ds) <= 1).
Proof.
  intros ds H N. unfold shifted. destruct (last ds 0 =? 0) eqn:E.
  - destruct (exists_last N) as [t [a ->]]. rewrite last_last in *. rewrite removelast_last. apply Forall_app in H. destruct H as [H _].
    split; [exact H|]. split; [rewrite app_length; cbn; lia|]. split; [|lia]. intros _.
    rewrite value_app. cbn [value]. replace a with 0 by lia. lia.
  - destruct ds as [|d t]; [contradiction|]. inversion H as [|? ? Hd Ht]; subst. cbn [tl length value].
    split; [exact Ht|]. split; [lia|]. split; [lia|]. intros _. unfold digit in Hd. lia.
Qed.
Print Assumptions C78_number.

(** After [k] shifts the words from the leading one that is not 0 downward are left, or the lowest ones, if there are more than
    [k] leading zeros *)
Theorem C78_normal : forall k ds, (k < length ds)%nat ->
  shifted_n k ds = firstn (length ds - k) (skipn (k - leading_zeros ds) ds).
Proof.
  induction k as [|k IH]; intros ds L.
  - cbn [shifted_n Nat.sub skipn]. rewrite Nat.sub_0_r, firstn_all. reflexivity.
  - cbn [shifted_n]. unfold shifted. destruct (last ds 0 =? 0) eqn:E.
    + destruct ds as [|a t] using rev_ind; [cbn in L; lia|]. clear IHt. rewrite last_last in E. rewrite removelast_last.
      rewrite app_length in *. cbn [length] in *. rewrite IH by lia.
      assert (Z1 : leading_zeros (t ++ [a]) = S (leading_zeros t)).
      { unfold leading_zeros. rewrite rev_app_distr. cbn [rev app zeros]. replace a with 0 by lia. reflexivity. }
      rewrite Z1. cbn [Nat.sub]. set (j := (k - leading_zeros t)%nat). replace (length t + 1 - S k)%nat with (length t - k)%nat by lia.
      rewrite skipn_app. rewrite firstn_app. rewrite skipn_length.
      replace (length t - k - (length t - j))%nat with 0%nat by lia. cbn [firstn]. rewrite app_nil_r. reflexivity.
    + destruct ds as [|d t]; [cbn in L; lia|]. cbn [tl length] in *. rewrite IH by lia.
      assert (Z1 : leading_zeros (d :: t) = O /\ leading_zeros t = O).
      { destruct t as [|a t] using rev_ind; [cbn in L; lia|]. clear IHt. rewrite app_comm_cons, last_last in E.
        unfold leading_zeros. rewrite app_comm_cons, !rev_app_distr. cbn [rev app zeros]. destruct a; [discriminate|split; reflexivity|split; reflexivity]. }
      destruct Z1 as [-> ->]. rewrite !Nat.sub_0_r. cbn [skipn Nat.sub]. reflexivity.
Qed.
Print Assumptions C78_normal.

(** But a leading word that is not 0 does not make a number large: 1 -1 -1 .. -1 is 1, whatever its length, and the
    shift makes 2 of it. So the relative error of a "floating-point" number is not bounded. *)
Theorem C78_precision_refuted : forall n, exists ds, digits ds /\ length ds = S (S n) /\ last ds 0 = 1 /\
  value ds = 1 /\ 2 * value (shifted ds) = 2.
Proof.
  intros n. exists (repeat (-1) (S n) ++ [1]).
  assert (V : forall m, value (repeat (-1) m ++ [1]) = 1).
  { induction m as [|m IH]; [reflexivity|]. cbn [repeat app value]. rewrite IH. reflexivity. }
  split; [|split; [|split; [|split]]].
  - apply Forall_app. split; [|constructor; [unfold digit; lia|constructor]]. apply Forall_forall. intros d Hd.
    apply repeat_spec in Hd. subst d. unfold digit. lia.
  - rewrite app_length, repeat_length. cbn. lia.
  - apply last_last.
  - apply V.
  - unfold shifted. rewrite last_last. cbn [Z.eqb]. cbn [repeat app tl]. rewrite V. reflexivity.
Qed.
Print Assumptions C78_precision_refuted.

(* ------------------------------------------------------------------ *)
(** ** On ciphertexts *)

Section Value.
Context {B : backend} {qw : Z} (C : contract B qw).

Lemma cond_shift_ok : forall pc x ds, quad_weight (cparams pc) = qw -> encrypts C x ds ->
  okP (cond_shift pc x) (fun z => encrypts C z (shifted ds)).
Proof.
  intros pc x ds Hq Hx. unfold cond_shift. pose proof (encrypts_len C x ds Hx) as L. pose proof (proj1 Hx) as D.
  assert (La : forall A (l : list A) d, last l d = nth (length l - 1) l d).
  { clear. intros A l d. destruct l as [|a l] using rev_ind; [reflexivity|]. rewrite last_last, app_length. cbn [length].
    rewrite app_nth2 by lia. replace (length l + 1 - 1 - length l)%nat with 0%nat by lia. reflexivity. }
  set (l := last ds 0). assert (Dl : digit l) by (unfold l; rewrite La; apply digits_nth, D).
  eapply okP_bind with (P := fun s => wmsg C s (if 1 <=? Z.abs l then 1 else 0) 1).
  { apply (lut_fun_okP C a_1_pi_5 (-8) 7 (fun m => if 1 <=? Z.abs m then 1 else 0) _ l 1).
    - apply a_1_ok.
    - pose proof (@l1_need_8 qw). lia.
    - unfold digit in Dl. lia.
    - unfold l. rewrite !La. rewrite L. apply encrypts_nth, Hx. }
  intros s Hs. set (sv := if 1 <=? Z.abs l then 1 else 0) in *.
  eapply okP_conseq.
  { apply (okP_mapM_nth _ _ (max_word pc s) (fun i z => wmsg C z (if sv =? 1 then nth (S i) ds 0 else nth i ds 0) 1)
      (combine (tl x) (removelast x)) (triv0, triv0) triv0).
    assert (Lx : length (tl x) = length (removelast x)).
    { destruct x as [|a x]; [reflexivity|]. cbn [tl]. destruct (exists_last (l := a :: x)) as [t [b Et]]; [discriminate|].
      rewrite Et, removelast_last. apply (f_equal (@length _)) in Et. rewrite app_length in Et. cbn [length] in Et. lia. }
    intros i Hi. rewrite combine_nth by exact Lx. rewrite combine_length, <- Lx, Nat.min_id in Hi.
    assert (E1 : nth i (tl x) triv0 = nth (S i) x triv0) by (destruct x; [destruct i; reflexivity|reflexivity]).
    assert (E2 : nth i (removelast x) triv0 = nth i x triv0).
    { destruct x as [|a x _] using rev_ind; [reflexivity|]. rewrite Lx, removelast_last in Hi. rewrite removelast_last, app_nth1 by exact Hi. reflexivity. }
    rewrite E1, E2. apply (max_word_ok C pc Hq).
    - unfold sv. destruct (1 <=? Z.abs l); lia.
    - apply digits_nth, D.
    - apply digits_nth, D.
    - exact Hs.
    - apply encrypts_nth, Hx.
    - apply encrypts_nth, Hx. }
  cbv beta. intros z [Lz Hz].
  assert (Ln : length z = (length ds - 1)%nat).
  { rewrite Lz, combine_length. destruct x as [|a x]; [cbn in *; lia|].
    destruct (exists_last (l := a :: x)) as [t [b Et]]; [discriminate|]. cbn [tl]. rewrite Et, removelast_last.
    apply (f_equal (@length _)) in Et. rewrite app_length in Et. cbn [length] in *. lia. }
  rewrite <- Lz in Hz.
  assert (Sv : (sv =? 1) = negb (last ds 0 =? 0)) by (unfold sv; fold l; destruct (1 <=? Z.abs l) eqn:E; lia).
  assert (Hd : digits (shifted ds) /\ length (shifted ds) = (length ds - 1)%nat).
  { destruct ds as [|d t]; [split; [constructor|reflexivity]|]. destruct (C78_number (d :: t) D ltac:(discriminate)) as [H1 [H2 _]]. auto. }
  destruct Hd as [Hd Ld]. split; [exact Hd|]. apply (Forall2_of_nth _ _ _ _ _ triv0 0); [congruence|].
  intros i Hi. specialize (Hz i Hi). rewrite Sv in Hz. unfold shifted. destruct (last ds 0 =? 0); cbn [negb] in Hz.
  - destruct ds as [|a t _] using rev_ind; [cbn in *; lia|]. rewrite app_length in Ln. cbn [length] in Ln.
    rewrite app_nth1 in Hz by lia. rewrite removelast_last. exact Hz.
  - destruct ds as [|d t]; [cbn in *; lia|]. exact Hz.
Qed.

(** The conditional shift works, for every ciphertext and any number of times *)
Theorem C78_shift : forall k pc x ds, quad_weight (cparams pc) = qw -> encrypts C x ds ->
  exists z, fst (cond_shifts k pc x) = Ok z /\ encrypts C z (shifted_n k ds).
Proof.
  intros k pc x ds Hq. revert x ds. induction k as [|k IH]; intros x ds Hx.
  - exists x. split; [reflexivity|exact Hx].
  - change (okP (cond_shifts (S k) pc x) (fun z => encrypts C z (shifted_n (S k) ds))). cbn [cond_shifts shifted_n].
    eapply okP_bind; [apply (cond_shift_ok pc x ds Hq Hx)|]. cbv beta. intros y Hy. apply (IH y _ Hy).
Qed.

(** a multiple of 2^p has zeros in its [p] lowest words *)
Lemma low_zeros : forall p ds, digits ds -> (2 ^ Z.of_nat p | value ds) -> 2 ^ Z.of_nat p * value (skipn p ds) = value ds.
Proof.
  induction p as [|p IH]; intros ds D H; [cbn; lia|]. destruct ds as [|d t]; [cbn; lia|].
  rewrite Nat2Z.inj_succ, Z.pow_succ_r in * by lia. inversion D as [|? ? Dd Dt]; subst. cbn [value skipn] in *.
  destruct H as [q H]. unfold digit in Dd. assert (d = 0) by lia. subst d.
  rewrite <- (IH t Dt) by (exists q; lia). lia.
Qed.
(** What the note asks for: the number is rounded, the words below the position are dropped, what is left is shifted *)
Theorem C78_note : forall k p pc x v, quad_weight (cparams pc) = qw -> enc_val C x v ->
  exists z ds, fst (y <- pa_round_at pc x p ;; cond_shifts k pc (skipn p y)) = Ok z /\ digits ds /\
    2 ^ Z.of_nat p * value ds = round_to p v /\ encrypts C z (shifted_n k ds).
Proof.
  intros k p pc x v Hq Hx.
  assert (K : okP (y <- pa_round_at pc x p ;; cond_shifts k pc (skipn p y)) (fun z => exists ds, digits ds /\
    2 ^ Z.of_nat p * value ds = round_to p v /\ encrypts C z (shifted_n k ds))).
  { eapply okP_bind; [apply (pa_round_ok C pc Hq x v p Hx)|]. cbv beta. intros y [[dy [Hy Vy]] _].
    assert (Hs : encrypts C (skipn p y) (skipn p dy)).
    { destruct Hy as [D F]. split; [|clear - F; revert p; induction F; intros [|p]; cbn [skipn]; auto].
      clear - D. unfold digits in *. revert p. induction D; intros [|p]; cbn [skipn]; auto. }
    destruct (C78_shift k pc _ _ Hq Hs) as [z [Ez Hz]]. exists z. split; [exact Ez|]. exists (skipn p dy).
    split; [exact (proj1 Hs)|]. split; [|exact Hz]. rewrite <- Vy. apply low_zeros; [exact (proj1 Hy)|].
    rewrite Vy. unfold round_to. eexists. symmetry. apply Z.mul_comm || reflexivity. }
  destruct K as [z [Ez [ds K]]]. exists z, ds. tauto.
Qed.
End Value.
Print Assumptions C78_shift.
Print Assumptions C78_note.

(* ------------------------------------------------------------------ *)
(** ** What it costs *)

Lemma picks_count : forall B pc (s : ct B) l, 41 <= quad_weight (cparams pc) ->
  Forall (fun p : word B * word B => is_triv (fst p) = false /\ is_triv (snd p) = false) l ->
  npbs (snd (mapM (max_word pc (Ct s)) l)) = length l /\
  exists z, fst (mapM (max_word pc (Ct s)) l) = Ok z /\ Properties9.fresh z /\ length z = length l.
Proof.
  intros B pc s l Hq H. induction H as [|[a b] l [Ha Hb] H [IH1 [z [IH2 [IH3 IH4]]]]].
  - split; [reflexivity|]. exists []. repeat split; constructor.
  - cbn [fst snd] in *. destruct a as [a|]; [|discriminate]. destruct b as [b|]; [|discriminate].
    assert (E : exists c, max_word pc (Ct s) (@Ct B a, @Ct B b) = (Ok (Ct c), [EPbs])).
    { unfold max_word. replace (41 <=? quad_weight (cparams pc)) with true by lia. eexists. reflexivity. }
    destruct E as [c E]. cbn [mapM]. rewrite E. unfold bind. cbn [fst snd].
    destruct (mapM (max_word pc (Ct s)) l) as [o t]. cbn [fst snd] in *. subst o. cbn [fst snd app npbs length].
    unfold ret. cbn [fst snd app npbs]. rewrite app_nil_r. split; [lia|]. exists (Ct c :: z). split; [reflexivity|].
    split; [constructor; [reflexivity|exact IH3]|cbn [length]; lia].
Qed.
(** A number of [n] words takes [n] bootstraps: one for the leading word, and one for each word of the result. *)
Theorem C78_count : forall k B pc (x : ciphertext B), 41 <= quad_weight (cparams pc) -> Properties9.fresh x -> (k <= length x)%nat ->
  2 * pbs (cond_shifts k pc x) = Z.of_nat k * (2 * Z.of_nat (length x) - Z.of_nat k + 1).
Proof.
  intros k B pc x Hq. revert x. induction k as [|k IH]; intros x Hx Hk.
  - reflexivity.
  - destruct (exists_last (l := x)) as [t [w Et]]; [intros ->; cbn in Hk; lia|].
    assert (Hw : exists c, w = Ct c).
    { unfold Properties9.fresh in Hx. rewrite Et in Hx. apply Forall_app in Hx. destruct Hx as [_ Hx]. inversion Hx as [|? ? H1 _]; subst.
      destruct w as [c|]; [eauto|discriminate]. }
    destruct Hw as [c ->]. cbn [cond_shifts]. unfold cond_shift.
    rewrite Et at 1. rewrite last_last. unfold a_1_pi_5.
    assert (Lc : length (combine (tl x) (removelast x)) = (length x - 1)%nat).
    { rewrite combine_length, Et, removelast_last, app_length. cbn [length].
      assert (length (tl (t ++ [@Ct B c])) = length t) by (destruct t; [reflexivity|cbn; rewrite app_length; cbn; lia]). lia. }
    assert (F : Forall (fun p : word B * word B => is_triv (fst p) = false /\ is_triv (snd p) = false) (combine (tl x) (removelast x))).
    { apply Forall_forall. intros [a b] Hab. unfold Properties9.fresh in Hx. rewrite Forall_forall in Hx. cbn [fst snd]. split; apply Hx.
      - apply in_combine_l in Hab. destruct x; [contradiction|right; exact Hab].
      - apply in_combine_r in Hab. rewrite Et in Hab |- *. rewrite removelast_last in Hab. apply in_or_app. auto. }
    change (eval_LUT_5_uint (@Ct B c) lut_a_1) with
      ((Ok (Ct (ct_lut B (gen_no_padding_acc (poly_size B) (map (fun v => 2 * v) lut_a_1)) c)), [EPbs]) : M (word B)).
    set (sc := ct_lut B _ c).
    destruct (picks_count B pc sc _ Hq F) as [P1 [z [P2 [P3 P4]]]]. rewrite Lc in *.
    destruct (mapM (max_word pc (Ct sc)) (combine (tl x) (removelast x))) as [o tr] eqn:Em. cbn [fst snd] in P1, P2. subst o.
    unfold bind. cbn [fst snd app]. rewrite Em. cbn [fst snd].
    specialize (IH z P3 ltac:(lia)). unfold pbs in *. destruct (cond_shifts k pc z) as [o2 t2]. cbn [fst snd] in *.
    cbn [npbs app]. rewrite ?npbs_app. rewrite P4 in IH. destruct o2; cbn [snd]; rewrite ?npbs_app; cbn [npbs]; rewrite ?npbs_app; nia.
Qed.
Print Assumptions C78_count.

(** Below a weight of 41 every word takes two, as in the maximum *)
Lemma picks_narrow : forall B pc (s : ct B) l, quad_weight (cparams pc) < 41 ->
  Forall (fun p : word B * word B => is_triv (fst p) = false /\ is_triv (snd p) = false) l ->
  npbs (snd (mapM (max_word pc (Ct s)) l)) = (2 * length l)%nat /\
  exists z, fst (mapM (max_word pc (Ct s)) l) = Ok z /\ Properties9.fresh z /\ length z = length l.
Proof.
  intros B pc s l Hq H. induction H as [|[a b] l [Ha Hb] H [IH1 [z [IH2 [IH3 IH4]]]]].
  - split; [reflexivity|]. exists []. repeat split; constructor.
  - cbn [fst snd] in *. destruct a as [a|]; [|discriminate]. destruct b as [b|]; [|discriminate].
    assert (E : exists c, max_word pc (Ct s) (@Ct B a, @Ct B b) = (Ok (Ct c), [EPbs; EPbs])).
    { unfold max_word. replace (41 <=? quad_weight (cparams pc)) with false by lia. eexists. reflexivity. }
    destruct E as [c E]. cbn [mapM]. rewrite E. unfold bind. cbn [fst snd].
    destruct (mapM (max_word pc (Ct s)) l) as [o t]. cbn [fst snd] in *. subst o. cbn [fst snd app npbs length].
    unfold ret. cbn [fst snd app npbs]. rewrite app_nil_r. split; [lia|]. exists (Ct c :: z). split; [reflexivity|].
    split; [constructor; [reflexivity|exact IH3]|cbn [length]; lia].
Qed.
Theorem C78_count_narrow : forall k B pc (x : ciphertext B), quad_weight (cparams pc) < 41 -> Properties9.fresh x -> (k <= length x)%nat ->
  pbs (cond_shifts k pc x) = Z.of_nat k * (2 * Z.of_nat (length x) - Z.of_nat k).
Proof.
  intros k B pc x Hq. revert x. induction k as [|k IH]; intros x Hx Hk.
  - reflexivity.
  - destruct (exists_last (l := x)) as [t [w Et]]; [intros ->; cbn in Hk; lia|].
    assert (Hw : exists c, w = Ct c).
    { unfold Properties9.fresh in Hx. rewrite Et in Hx. apply Forall_app in Hx. destruct Hx as [_ Hx]. inversion Hx as [|? ? H1 _]; subst.
      destruct w as [c|]; [eauto|discriminate]. }
    destruct Hw as [c ->]. cbn [cond_shifts]. unfold cond_shift.
    rewrite Et at 1. rewrite last_last. unfold a_1_pi_5.
    assert (Lc : length (combine (tl x) (removelast x)) = (length x - 1)%nat).
    { rewrite combine_length, Et, removelast_last, app_length. cbn [length].
      assert (length (tl (t ++ [@Ct B c])) = length t) by (destruct t; [reflexivity|cbn; rewrite app_length; cbn; lia]). lia. }
    assert (F : Forall (fun p : word B * word B => is_triv (fst p) = false /\ is_triv (snd p) = false) (combine (tl x) (removelast x))).
    { apply Forall_forall. intros [a b] Hab. unfold Properties9.fresh in Hx. rewrite Forall_forall in Hx. cbn [fst snd]. split; apply Hx.
      - apply in_combine_l in Hab. destruct x; [contradiction|right; exact Hab].
      - apply in_combine_r in Hab. rewrite Et in Hab |- *. rewrite removelast_last in Hab. apply in_or_app. auto. }
    change (eval_LUT_5_uint (@Ct B c) lut_a_1) with
      ((Ok (Ct (ct_lut B (gen_no_padding_acc (poly_size B) (map (fun v => 2 * v) lut_a_1)) c)), [EPbs]) : M (word B)).
    set (sc := ct_lut B _ c).
    destruct (picks_narrow B pc sc _ Hq F) as [P1 [z [P2 [P3 P4]]]]. rewrite Lc in *.
    destruct (mapM (max_word pc (Ct sc)) (combine (tl x) (removelast x))) as [o tr] eqn:Em. cbn [fst snd] in P1, P2. subst o.
    unfold bind. cbn [fst snd app]. rewrite Em. cbn [fst snd].
    specialize (IH z P3 ltac:(lia)). unfold pbs in *. destruct (cond_shifts k pc z) as [o2 t2]. cbn [fst snd] in *.
    cbn [npbs app]. rewrite ?npbs_app. rewrite P4 in IH. destruct o2; cbn [snd]; rewrite ?npbs_app; cbn [npbs]; rewrite ?npbs_app; nia.
Qed.
Print Assumptions C78_count_narrow.

(** two bootstraps one after the other *)
Theorem C78_depth : forall k N d pc (x z : ciphertext (sym N)), depth_le d x ->
  fst (cond_shifts k pc x) = Ok z -> depth_le (d + 2 * k) z.
Proof.
  intros k N d pc x z. revert d x. induction k as [|k IH]; intros d x Hx E.
  - injection E as <-. rewrite Nat.add_0_r. exact Hx.
  - revert z IH E. change (forall z, (forall d x, depth_le d x -> fst (cond_shifts k pc x) = Ok z -> depth_le (d + 2 * k) z) ->
      fst (cond_shifts (S k) pc x) = Ok z -> depth_le (d + 2 * S k) z).
    intros z IH E. cbn [cond_shifts] in E.
    assert (A : allP (cond_shift pc x) (depth_le (S (S d)))).
    { unfold cond_shift. pose proof (depth_grading N) as G.
      assert (W : forall w, In w x -> wP (P := fun k (t : ct (sym N)) => (tdepth t <= k)%nat) d w).
      { unfold depth_le in Hx. intros w Hw. rewrite Forall_forall in Hx. apply Hx in Hw. exact Hw. }
      eapply allP_bind; [apply (gr_lut G d)|].
      - destruct x as [|a x0] using rev_ind; [exact I|]. rewrite last_last. apply W. apply in_or_app. right. left. reflexivity.
      - intros s Hs. eapply allP_conseq; [apply allP_mapM with (P := wP (P := fun k (t : ct (sym N)) => (tdepth t <= k)%nat) (S (S d)))|].
        + intros [a b] Hab. unfold max_word.
          assert (Hb : wP (P := fun k (t : ct (sym N)) => (tdepth t <= k)%nat) d b).
          { apply W. apply in_combine_r in Hab. destruct x as [|c x0] using rev_ind; [contradiction|]. rewrite removelast_last in Hab. apply in_or_app. auto. }
          assert (Ha : wP (P := fun k (t : ct (sym N)) => (tdepth t <= k)%nat) d a).
          { apply W. apply in_combine_l in Hab. destruct x; [contradiction|right; exact Hab]. }
          eapply allP_bind with (P := wP (P := fun k (t : ct (sym N)) => (tdepth t <= k)%nat) (S d)).
          { destruct (41 <=? _); [apply allP_ret, (wP_mul G), (wP_mono G d); [lia|exact Hb]|apply (gr_lut G); exact Hb]. }
          intros t Ht. cbv zeta. apply (gr_lut G). apply (wP_add G); [|exact Hs]. apply (wP_add G); [exact Ht|].
          apply (wP_mul G), (wP_mono G d); [lia|exact Ha].
        + intros r [Hr _]. exact Hr. }
    unfold bind in E. destruct (cond_shift pc x) as [[y| |] t] eqn:Ey; try discriminate.
    assert (Hy : depth_le (S (S d)) y) by (apply A; rewrite ?Ey; reflexivity).
    destruct (cond_shifts k pc y) as [o t2] eqn:E2. cbn [fst] in E.
    replace (d + 2 * S k)%nat with (S (S d) + 2 * k)%nat by lia. apply (IH (S (S d)) y Hy). rewrite E2. cbn. destruct o; cbn in E; congruence.
Qed.
Print Assumptions C78_depth.

(* ------------------------------------------------------------------ *)
(** ** How heavy it is *)

Section Weight.
Context {N : nat}.
Notation B := (sym N).

Lemma pairs_in : forall (x : ciphertext B) a b, In (a, b) (combine (tl x) (removelast x)) -> In a x /\ In b x.
Proof.
  intros x a b H. split.
  - apply in_combine_l in H. destruct x; [contradiction|right; exact H].
  - apply in_combine_r in H. destruct x as [|c x0] using rev_ind; [contradiction|]. rewrite removelast_last in H. apply in_or_app. auto.
Qed.
Lemma pairs_at : forall (x : ciphertext B) a b, In (a, b) (combine (tl x) (removelast x)) ->
  exists i, a = nth (S i) x triv0 /\ b = nth i x triv0.
Proof.
  induction x as [|c [|d x] IH]; intros a b H; try contradiction. cbn [tl] in *.
  change (removelast (c :: d :: x)) with (c :: removelast (d :: x)) in H. cbn [combine] in H. destruct H as [H|H].
  - injection H as <- <-. exists 0%nat. split; reflexivity.
  - destruct (IH a b H) as [i [-> ->]]. exists (S i). split; reflexivity.
Qed.
Lemma shift_fine : forall n pc (x : ciphertext B), 81 <= n -> 41 <= quad_weight (cparams pc) -> Forall (fine n) x ->
  allP (cond_shift pc x) (Forall (fine n)).
Proof.
  intros n pc x Hn Hq H. assert (K : forall w, In w x -> fine n w) by (apply Forall_forall; exact H). unfold cond_shift, a_1_pi_5.
  assert (Hl : fine n (last x triv0)).
  { destruct x as [|a x0] using rev_ind; [apply fine_triv0|]. rewrite last_last. apply K. apply in_or_app. right. left. reflexivity. }
  eapply allP_bind; [apply lut_fine; [apply table_a_1|apply Hl|]|].
  { destruct Hl as [_ [Hl _]]. eapply qle_mono; [|exact Hl]. lia. }
  intros s Hs. eapply allP_conseq; [apply allP_mapM with (P := fine n)|intros r [Hr _]; exact Hr].
  intros [a b] Hab. apply pairs_in in Hab. destruct Hab as [Ha Hb]. apply K in Ha, Hb.
  unfold max_word. replace (41 <=? quad_weight (cparams pc)) with true by lia. rewrite ret_bind.
  apply lut_fine; [apply table_max| |].
  - destruct Ha as [Ha _], Hb as [Hb _], Hs as [Hs _]. apply wb_add; [apply wb_add|]; try apply wb_mul; auto.
  - apply qle_mono with (n := (6 * 1 + 2 * 1 + 1) * (6 * 1 + 2 * 1 + 1)); [lia|]. apply ale_qle.
    apply ale_w with (f := fun t => (6 * wcoef b t + 2 * wcoef a t) + wcoef s t).
    { intros t. rewrite !wc_add, !wc_mul by lia. lia. }
    apply ale_add; [apply ale_add|]; [apply (ale_scale _ 1 6)|apply (ale_scale _ 1 2)|]; eapply fine_single; eassumption.
Qed.
End Weight.

(** On inputs the first shift stays within 41. Further ones use words that share samples, and stay within 81 of the 100
    that are shipped. *)
Theorem C78_weight : forall N pc s z, 41 <= quad_weight (cparams pc) -> fst (cond_shift pc (sinput N 0 s)) = Ok z -> within 41 z.
Proof.
  intros N pc s z Hq E. apply within_wb. set (x := sinput N 0 s) in *.
  pose proof (sinput_fresh N s 0) as F. pose proof (sinput_separate N s 0) as D. fold x in F, D.
  revert z E. change (allP (cond_shift pc x) (Forall (wb 41))). unfold cond_shift, a_1_pi_5.
  assert (Fl : WeightProofs.fresh (last x triv0)).
  { clear - F. destruct x as [|a x0] using rev_ind; [exact I|]. rewrite last_last. specialize (F (length x0)). rewrite app_nth2, Nat.sub_diag in F by lia. exact F. }
  eapply allP_bind; [apply lut_shape|]. intros f Hf.
  assert (S1 : wb 41 f) by (eapply lut_wb; [exact Hf|apply fresh_wb; exact Fl|eapply qle_mono; [|apply fresh_single; exact Fl]; lia]).
  assert (S2 : single f) by (eapply lut_single; exact Hf).
  assert (S3 : forall v, wcoef f (TVar v) = 0).
  { intros v. destruct (Z.eq_dec (wcoef f (TVar v)) 0) as [E'|E']; auto. destruct (lut_coef _ _ _ _ Hf E') as [t [_ Et]]. discriminate. }
  eapply allP_conseq; [apply allP_mapM with (P := wb 41)|intros r [Hr _]; exact Hr].
  intros [a b] Hab. apply pairs_at in Hab. destruct Hab as [i [-> ->]].
  pose proof (F i) as Fb. pose proof (F (S i)) as Fa. pose proof (D i (S i) ltac:(lia)) as Dab. cbv beta in Dab.
  set (b := nth i x triv0) in *. set (a := nth (S i) x triv0) in *.
  unfold max_word. replace (41 <=? quad_weight (cparams pc)) with true by lia. rewrite ret_bind.
  eapply allP_conseq; [apply (lut_ok 41)|intros w [Hw _]; exact Hw].
  - apply wb_add; [apply wb_add|]; try apply wb_mul; auto using fresh_wb.
  - apply qle_mono with (n := (6 * 6 * 1 + 2 * 2 * 1) + 1); [lia|].
    apply qle_w with (f := fun t => (6 * wcoef b t + 2 * wcoef a t) + wcoef f t).
    { intros t. rewrite !wc_add, !wc_mul by lia. lia. }
    apply qle_disj; [|apply qle_disj; [|apply qle_scale, fresh_single; auto|apply qle_scale, fresh_single; auto]|auto].
    + intros t. destruct (Z.eq_dec (wcoef f t) 0) as [E'|E']; auto. left.
      destruct (Z.eq_dec (wcoef a t) 0) as [Ea|Ea]; [destruct (Z.eq_dec (wcoef b t) 0) as [Eb|Eb]; [lia|]|].
      * destruct (fresh_coef _ _ Fb Eb) as [v [_ ->]]. rewrite S3 in E'. lia.
      * destruct (fresh_coef _ _ Fa Ea) as [v [_ ->]]. rewrite S3 in E'. lia.
    + intros t. destruct (Dab t) as [E'|E']; lia.
Qed.
Print Assumptions C78_weight.
Theorem C78_weights : forall k N pc s z, 41 <= quad_weight (cparams pc) -> Forall public_digit s ->
  fst (cond_shifts k pc (sinput N 0 s)) = Ok z -> within 81 z.
Proof.
  intros k N pc s z Hq Hs. apply (sinput_fine N 81 s 0) in Hs. revert Hs. generalize (sinput N 0 s).
  assert (A : forall k x, Forall (fine 81) x -> allP (cond_shifts k pc x) (Forall (@fine N 81))).
  { clear - Hq. induction k as [|k IH]; intros x Hx; cbn [cond_shifts]; [apply allP_ret, Hx|].
    eapply allP_bind; [apply (shift_fine 81); [lia|exact Hq|exact Hx]|]. intros y Hy. apply IH, Hy. }
  intros x Hx E. apply within_wb. eapply Forall_impl; [|exact (A k x Hx z E)]. intros w [Hw _]. exact Hw.
Qed.
Print Assumptions C78_weights.

Lemma shift_fine_narrow : forall N n pc (x : ciphertext (sym N)), 16 <= n -> quad_weight (cparams pc) < 41 -> Forall (fine n) x ->
  allP (cond_shift pc x) (Forall (fine n)).
Proof.
  intros N n pc x Hn Hq H. assert (K : forall w, In w x -> fine n w) by (apply Forall_forall; exact H). unfold cond_shift, a_1_pi_5.
  assert (Hl : fine n (last x triv0)).
  { destruct x as [|a x0] using rev_ind; [apply fine_triv0|]. rewrite last_last. apply K. apply in_or_app. right. left. reflexivity. }
  eapply allP_bind; [apply lut_fine; [apply table_a_1|apply Hl|]|].
  { destruct Hl as [_ [Hl _]]. eapply qle_mono; [|exact Hl]. lia. }
  intros s Hs. eapply allP_conseq; [apply allP_mapM with (P := fine n)|intros r [Hr _]; exact Hr].
  intros [a b] Hab. apply pairs_in in Hab. destruct Hab as [Ha Hb]. apply K in Ha, Hb.
  unfold max_word. replace (41 <=? quad_weight (cparams pc)) with false by lia.
  eapply allP_bind; [apply (lut_ok n); [apply Hb|destruct Hb as [_ [Hb _]]; eapply qle_mono; [|exact Hb]; lia]|].
  intros t [Ht Qt]. cbv zeta. apply lut_fine; [apply table_max| |].
  - destruct Ha as [Ha _], Hs as [Hs _]. apply wb_add; [apply wb_add|]; try apply wb_mul; auto.
  - apply qle_mono with (n := (1 + 2 * 1 + 1) * (1 + 2 * 1 + 1)); [lia|]. apply ale_qle.
    apply ale_w with (f := fun u => (wcoef t u + 2 * wcoef a u) + wcoef s u).
    { intros u. rewrite !wc_add, !wc_mul by lia. lia. }
    apply ale_add; [apply ale_add|]; [apply qle_ale, Qt|apply (ale_scale _ 1 2)|]; eapply fine_single; eassumption.
Qed.
Theorem C78_weights_narrow : forall k N pc s z, quad_weight (cparams pc) < 41 -> Forall public_digit s ->
  fst (cond_shifts k pc (sinput N 0 s)) = Ok z -> within 16 z.
Proof.
  intros k N pc s z Hq Hs. apply (sinput_fine N 16 s 0) in Hs. revert Hs. generalize (sinput N 0 s).
  assert (A : forall k x, Forall (fine 16) x -> allP (cond_shifts k pc x) (Forall (@fine N 16))).
  { clear - Hq. induction k as [|k IH]; intros x Hx; cbn [cond_shifts]; [apply allP_ret, Hx|].
    eapply allP_bind; [apply (shift_fine_narrow N 16); [lia|exact Hq|exact Hx]|]. intros y Hy. apply IH, Hy. }
  intros x Hx E. apply within_wb. eapply Forall_impl; [|exact (A k x Hx z E)]. intros w [Hw _]. exact Hw.
Qed.
Print Assumptions C78_weights_narrow.

(** Encrypted inputs keep to 41: no two words ever are the same sample *)
Definition atom (d : nat) (t : term) : Prop := tdepth t = d /\ forall a, coef t a = if term_eq_dec t a then 1 else 0.
Definition distinct {N} (d : nat) (x : ciphertext (sym N)) : Prop :=
  exists ts, x = map (@Ct (sym N)) ts /\ NoDup ts /\ Forall (atom d) ts /\ Forall (@wb N 41) x.
Lemma atom_lut : forall h t, atom (S (tdepth t)) (TLut h t).
Proof. intros h t. split; [reflexivity|]. intros a. reflexivity. Qed.
Lemma qle_atom : forall d t, atom d t -> qle (coef t) 1.
Proof. intros d t [_ H]. apply (qle_ext (ind t)); [|apply qle_ind]. intros a. rewrite H. reflexivity. Qed.
Lemma disj_atom : forall d e t u, atom d t -> atom e u -> t <> u -> disj (coef t) (coef u).
Proof.
  intros d e t u [_ Ht] [_ Hu] N a. rewrite Ht, Hu. destruct (term_eq_dec t a), (term_eq_dec u a); auto. congruence.
Qed.
Lemma tails : forall A (l : list A), map snd (combine (tl l) (removelast l)) = removelast l.
Proof.
  intros A l. induction l as [|a [|b l] IH]; try reflexivity. change (removelast (a :: b :: l)) with (a :: removelast (b :: l)).
  cbn [tl combine map snd] in *. rewrite IH. reflexivity.
Qed.
Lemma neighbours : forall A (l : list A) a b, NoDup l -> In (a, b) (combine (tl l) (removelast l)) -> In a l /\ In b l /\ a <> b.
Proof.
  intros A l a b D. induction l as [|c [|d l] IH]; try contradiction. intros H. inversion D as [|? ? H1 H2]; subst.
  change (removelast (c :: d :: l)) with (c :: removelast (d :: l)) in H. cbn [tl combine] in *. destruct H as [H|H].
  - injection H as <- <-. split; [cbn; auto|]. split; [cbn; auto|]. intros ->. apply H1. left. reflexivity.
  - destruct (IH H2 H) as [K1 [K2 K3]]. split; [right; exact K1|]. split; [right; exact K2|exact K3].
Qed.
Definition next (acc : list Z) (s : term) (p : term * term) : term := TLut acc (TAdd (TAdd (TMul (snd p) 6) (TMul (fst p) 2)) s).
Definition left_of (t : term) : term := match t with TLut _ (TAdd (TAdd (TMul b _) _) _) => b | _ => t end.

Lemma shift_terms : forall N pc s l, 41 <= quad_weight (cparams pc) ->
  fst (mapM (max_word pc (@Ct (sym N) s)) (map (fun p : term * term => (@Ct (sym N) (fst p), @Ct (sym N) (snd p))) l)) =
  Ok (map (@Ct (sym N)) (map (next (lut_acc (N := N) lut_max) s) l)).
Proof.
  intros N pc s l Hq. induction l as [|[a b] l IH]; [reflexivity|]. cbn [map mapM fst snd]. unfold max_word at 1.
  replace (41 <=? quad_weight (cparams pc)) with true by lia. rewrite ret_bind. cbv zeta.
  set (r := max_s_2x_6y_pi_5 _).
  assert (E : r = (Ok (@Ct (sym N) (next (lut_acc (N := N) lut_max) s (a, b))), [EPbs])) by reflexivity.
  rewrite E. unfold bind. destruct (mapM _ _) as [o t]. cbn [fst] in IH. subst o. reflexivity.
Qed.
Lemma combine_map_pair : forall A A' (f : A -> A') l, combine (tl (map f l)) (removelast (map f l)) =
  map (fun p => (f (fst p), f (snd p))) (combine (tl l) (removelast l)).
Proof.
  intros A A' f l. induction l as [|a [|b l] IH]; try reflexivity.
  change (removelast (map f (a :: b :: l))) with (f a :: removelast (map f (b :: l))).
  change (removelast (a :: b :: l)) with (a :: removelast (b :: l)). cbn [map tl combine fst snd] in *. rewrite IH. reflexivity.
Qed.
Lemma shift_distinct : forall N pc d (x : ciphertext (sym N)), 41 <= quad_weight (cparams pc) -> distinct d x ->
  allP (cond_shift pc x) (distinct (S (S d))).
Proof.
  intros N pc d x Hq [ts [-> [D [A W]]]] z E. unfold cond_shift in E.
  destruct ts as [|t0 ts0 _] using rev_ind.
  { cbn [map last tl removelast combine mapM] in E. unfold bind in E. destruct (a_1_pi_5 triv0) as [[s| |] tr]; try discriminate.
    injection E as <-. exists []. repeat split; constructor. }
  set (ts := ts0 ++ [t0]) in *.
  assert (L : last (map (@Ct (sym N)) ts) triv0 = @Ct (sym N) t0) by (unfold ts; rewrite map_app; apply last_last). rewrite L in E.
  set (s := TLut (lut_acc (N := N) lut_a_1) t0).
  assert (Es : a_1_pi_5 (@Ct (sym N) t0) = (Ok (@Ct (sym N) s), [EPbs])) by reflexivity. rewrite Es in E. clear Es L.
  rewrite combine_map_pair in E. set (l := combine (tl ts) (removelast ts)) in *. set (acc := lut_acc (N := N) lut_max).
  pose proof (shift_terms N pc s l Hq) as M. fold acc in M. unfold bind in E. destruct (mapM _ _) as [o tr]. cbn [fst] in M, E. rewrite M in E. injection E as <-.
  rewrite Forall_forall in A, W.
  assert (T0 : In t0 ts) by (unfold ts; apply in_or_app; right; left; reflexivity).
  assert (As : atom (S d) s) by (destruct (A t0 T0) as [<- _]; apply atom_lut).
  assert (P : forall a b, In (a, b) l -> atom d a /\ atom d b /\ a <> b /\ wb (N := N) 41 (Ct a) /\ wb (N := N) 41 (Ct b)).
  { intros a b H. destruct (neighbours _ ts a b D H) as [Ia [Ib Nab]]. split; [apply A, Ia|]. split; [apply A, Ib|]. split; [exact Nab|]. split; apply W, in_map; assumption. }
  assert (Ws : wb (N := N) 41 (@Ct (sym N) s)).
  { cbn. constructor; [eapply qle_mono; [|apply (qle_atom d), A, T0]; lia|]. apply (W (@Ct (sym N) t0)), in_map, T0. }
  exists (map (next acc s) l). split; [reflexivity|]. split; [|split].
  - apply (NoDup_map_inv left_of). rewrite map_map. change (NoDup (map snd l)). unfold l. rewrite tails.
    unfold ts in *. rewrite removelast_last. apply NoDup_remove_1 with (a := t0) in D. rewrite app_nil_r in D. exact D.
  - apply Forall_forall. intros t Ht. apply in_map_iff in Ht. destruct Ht as [[a b] [<- H]]. destruct (P a b H) as [Aa [Ab _]].
    replace (S (S d)) with (S (tdepth (TAdd (TAdd (TMul b 6) (TMul a 2)) s))); [apply atom_lut|].
    cbn [tdepth]. destruct Aa as [-> _], Ab as [-> _], As as [-> _]. lia.
  - apply Forall_forall. intros w Hw. apply in_map_iff in Hw. destruct Hw as [t [<- Ht]]. apply in_map_iff in Ht.
    destruct Ht as [[a b] [<- H]]. destruct (P a b H) as [Aa [Ab [Nab [Wa Wb]]]]. cbn [wb next fst snd boot_inputs] in *.
    constructor; [|apply Forall_app; split; [apply Forall_app; split; assumption|exact Ws]].
    apply qle_mono with (n := (6 * 6 * 1 + 2 * 2 * 1) + 1); [lia|].
    apply (qle_ext (fun t => (6 * coef b t + 2 * coef a t) + coef s t)); [intros t; cbn [coef]; lia|].
    assert (Ns : forall t, atom d t -> t <> s) by (intros t [Ht _] ->; destruct As as [As _]; lia).
    apply qle_disj; [|apply qle_disj; [|apply qle_scale, (qle_atom d), Ab|apply qle_scale, (qle_atom d), Aa]|apply (qle_atom (S d)), As].
    + intros t. destruct (disj_atom _ _ _ _ Aa As (Ns a Aa) t) as [Ea|Ea]; [|right; exact Ea].
      destruct (disj_atom _ _ _ _ Ab As (Ns b Ab) t) as [Eb|Eb]; [|right; exact Eb]. left. rewrite Ea, Eb. reflexivity.
    + intros t. destruct (disj_atom _ _ _ _ Aa Ab Nab t) as [Ea|Ea]; [right|left]; rewrite Ea; reflexivity.
Qed.
Theorem C78_weights_secret : forall k n N pc z, 41 <= quad_weight (cparams pc) ->
  fst (cond_shifts k pc (sinput N 0 (repeat None n))) = Ok z -> within 41 z.
Proof.
  intros k n N pc z Hq.
  assert (I : distinct 0 (sinput N 0 (repeat None n))).
  { assert (E : forall n m, sinput N m (repeat None n) = map (@Ct (sym N)) (map TVar (seq m n))).
    { clear. induction n as [|n IH]; intros m; [reflexivity|]. cbn [repeat sinput seq map]. rewrite IH. reflexivity. }
    rewrite E. eexists. split; [reflexivity|]. split; [|split].
    - apply FinFun.Injective_map_NoDup; [intros a b H; injection H as ->; reflexivity|apply seq_NoDup].
    - apply Forall_forall. intros t Ht. apply in_map_iff in Ht. destruct Ht as [v [<- _]]. split; reflexivity.
    - apply Forall_forall. intros w Hw. rewrite map_map in Hw. apply in_map_iff in Hw. destruct Hw as [v [<- _]]. constructor. }
  assert (A : forall k d x, distinct d x -> allP (cond_shifts k pc x) (Forall (@wb N 41))).
  { clear - Hq. induction k as [|k IH]; intros d x Hx; cbn [cond_shifts].
    - apply allP_ret. destruct Hx as [ts [_ [_ [_ H]]]]. exact H.
    - eapply allP_bind; [apply (shift_distinct N pc d x Hq Hx)|]. intros y Hy. apply (IH _ y Hy). }
  intros E. apply within_wb. exact (A k 0%nat _ I z E).
Qed.
Print Assumptions C78_weights_secret.

(** So shifting encrypted inputs keeps within every budget that the library supports *)
Theorem C78_budget : forall k n N pc z, MIN_QUAD_WEIGHT <= quad_weight (cparams pc) ->
  fst (cond_shifts k pc (sinput N 0 (repeat None n))) = Ok z -> within (quad_weight (cparams pc)) z.
Proof.
  intros k n N pc z Hm E. unfold MIN_QUAD_WEIGHT in Hm. destruct (Z_lt_le_dec (quad_weight (cparams pc)) 41) as [H|H].
  - assert (W : within 16 z).
    { apply (C78_weights_narrow k N pc (repeat None n) z H); [|exact E]. apply Forall_forall. intros o Ho. apply repeat_spec in Ho. subst o. exact I. }
    intros t u Ht Hu. eapply qle_mono; [|exact (W t u Ht Hu)]. lia.
  - pose proof (C78_weights_secret k n N pc z H E) as W. intros t u Ht Hu. eapply qle_mono; [|exact (W t u Ht Hu)]. lia.
Qed.
Print Assumptions C78_budget.

(* ------------------------------------------------------------------ *)
(** ** The lookup of the leading word is needed *)

(** No combination of the leading word, a word and the one below lets one lookup choose: the leading word has a sign.
    With the looked-up word in its place one does, that of the maximum. *)
Theorem C78_direct_refuted : forall cs, length cs = 3%nat -> ~ lookups (words 3) unless_zero cs.
Proof.
  intros cs L H. assert (S : search_digits unless_zero (fun _ => false) 3 = true) by (vm_compute; reflexivity).
  discriminate (search_digits_ok _ _ _ _ S L H).
Qed.
Print Assumptions C78_direct_refuted.

(* ------------------------------------------------------------------ *)
(** ** The example of the note *)

(** 0 1 1 0 1 0 0|1 1, lowest word first *)
Definition note_number : list Z := [1; 1; 0; 0; 1; 0; 1; 1; 0].
(** It reads 1 1 0 1 0 1 afterwards, 53. But the library rounds it to 0 1 -1 1 0 1 0 1, which is 53 with a leading 0 and a
    word more. One shift leaves seven words of 53, a second one six words of 26: the lowest 1 is lost. *)
Theorem C78_example_refuted :
  round_to 2 (value note_number) = 4 * 53 /\ value [1; 0; 1; 0; 1; 1] = 53 /\
  let run k := xdecv (y <- pa_round_at (cloud_100 true) (xencv note_number) 2 ;; cond_shifts k (cloud_100 true) (skipn 2 y)) in
  run 0%nat = Ok [1; 0; 1; 0; 1; -1; 1; 0] /\ run 1%nat = Ok [1; 0; 1; 0; 1; -1; 1] /\ value [1; 0; 1; 0; 1; -1; 1] = 53 /\
  run 2%nat = Ok [0; 1; 0; 1; -1; 1] /\ value [0; 1; 0; 1; -1; 1] = 26.
Proof. vm_compute. repeat split. Qed.
Print Assumptions C78_example_refuted.
(** without the rounding it is as the note says *)
Example C78_shift_ex : shifted [1; 0; 1; 0; 1; 1; 0] = [1; 0; 1; 0; 1; 1] /\
  xdecv (cond_shift (cloud_100 true) (xencv [1; 0; 1; 0; 1; 1; 0])) = Ok [1; 0; 1; 0; 1; 1].
Proof. vm_compute. repeat split. Qed.
(** a leading -1 stays, and the lowest word goes *)
Example C78_number_ex : digits [1; 1; 0; -1] /\ shifted [1; 1; 0; -1] = [1; 0; -1] /\
  2 * value [1; 0; -1] - value [1; 1; 0; -1] = -1 /\ leading_zeros [1; 0; 0] = 2%nat /\ shifted_n 2 [1; 0; 0] = [1].
Proof. split; [|vm_compute; repeat split]. repeat (apply Forall_cons; [unfold digit; lia|]). apply Forall_nil. Qed.
(** five fresh words, three shifts: 5 + 4 + 3 bootstraps, of which 6 are one after the other, none heavier than 41 *)
Example C78_cost_ex : Properties9.fresh (fresh 0 5) /\ depth_le 0 (fresh 0 5) /\ pbs (cond_shifts 3 (cloud_100 true) (fresh 0 5)) = 12 /\
  max_depth (cond_shifts 3 (cloud_100 true) (fresh 0 5)) = Some 6%nat /\ peaks (cond_shifts 3 (cloud_100 true) (fresh 0 5)) 41.
Proof.
  split; [repeat constructor|]. split; [repeat (apply Forall_cons; [cbn; lia|]); apply Forall_nil|].
  split; [vm_compute; reflexivity|]. split; [vm_compute; reflexivity|]. apply heaviest_peaks; [lia|vm_compute; reflexivity].
Qed.
(** public words may make samples coincide: 65 after two shifts, more than 41 *)
Example C78_weights_ex : Forall public_digit [Some 0; Some 0; Some 0; None] /\
  peaks (cond_shifts 2 (cloud_100 true) (sinput 32 0 [Some 0; Some 0; Some 0; None])) 65.
Proof.
  split; [repeat (apply Forall_cons; [try exact I; exists 0; split; [lia|reflexivity]|]); apply Forall_cons; [exact I|apply Forall_nil]|]. apply heaviest_peaks; [lia|vm_compute; reflexivity].
Qed.
(** with the flag of the first lookup one lookup does choose *)
Example C78_direct_ex : negacyclic (signed lut_max) (comb [1; 2; 6] [1; -1; 1]) = -1 /\ negacyclic (signed lut_max) (comb [1; 2; 6] [0; -1; 1]) = 1 /\
  unless_zero [-1; -1; 1] = -1 /\ unless_zero [0; -1; 1] = 1.
Proof. vm_compute. repeat split. Qed.
(** the same with a budget of 22: 9 + 7 + 5 bootstraps, none heavier than 6 *)
Example C78_narrow_ex : MIN_QUAD_WEIGHT <= quad_weight (cparams (cloud_22 true)) < 41 /\
  pbs (cond_shifts 3 (cloud_22 true) (fresh 0 5)) = 21 /\ max_depth (cond_shifts 3 (cloud_22 true) (fresh 0 5)) = Some 6%nat /\
  peaks (cond_shifts 3 (cloud_22 true) (fresh 0 5)) 6.
Proof.
  split; [vm_compute; split; congruence|]. split; [vm_compute; reflexivity|]. split; [vm_compute; reflexivity|].
  apply heaviest_peaks; [lia|vm_compute; reflexivity].
Qed.
