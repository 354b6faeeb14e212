(** Addition chains and scalar multiplication (C24-C26) *)
From Verif Require Import Base Backend Words Encryption Params Addition Naf Asc AscTable ScalarMul Arith
  Spec Contract BaseProofs WordsProofs ValueProofs AddProofs BitsProofs EncProofs MulProofs NafProofs.
From Coq Require Import ZifyBool ZifyNat.

(* ------------------------------------------------------------------ *)
(** ** Meaning of a chain, over the integers *)
Definition sg (pos : bool) : Z := if pos then 1 else -1.
Definition chain_next (vals : list Z) (a : add_shift) : Z :=
  sg (l_pos a) * nth (l_idx a) vals 0 + sg (r_pos a) * (nth (r_idx a) vals 0 * 2 ^ Z.of_nat (r_shift a)).
Fixpoint chain_run (c : asc) (vals : list Z) : list Z :=
  match c with
  | [] => vals
  | a :: c => chain_run c (vals ++ [chain_next vals a])
  end.
Definition chain_value (c : asc) : Z := last (chain_run c [1]) 1.

(** every step refers to earlier elements; n elements are there at the start *)
Fixpoint chain_wf (n : nat) (c : asc) : Prop :=
  match c with
  | [] => True
  | a :: c => (l_idx a < n)%nat /\ (r_idx a < n)%nat /\ chain_wf (S n) c
  end.

(** number of words that evaluating the chain can add *)
Fixpoint chain_grow (c : asc) (g : list nat) : list nat :=
  match c with
  | [] => g
  | a :: c => chain_grow c (g ++ [S (Nat.max (nth (l_idx a) g 0%nat) (r_shift a + nth (r_idx a) g 0%nat))])
  end.
Definition chain_growth (c : asc) : nat := last (chain_grow c [0%nat]) 0%nat.

(** for every odd n below 2^12 the table has a chain of value n *)
Definition table_valid (g : nat) (m : asc_map) : Prop :=
  forall n, 0 < n < 2^12 -> Z.odd n = true ->
  exists c, fst (asc_get m n) = Ok c /\ chain_wf 1 c /\ chain_value c = n /\ (chain_growth c <= g)%nat.

Lemma chain_run_app : forall c vals, exists t, chain_run c vals = vals ++ t.
Proof.
  induction c as [|a c IH]; intros vals; cbn [chain_run].
  - exists []. rewrite app_nil_r. auto.
  - destruct (IH (vals ++ [chain_next vals a])) as [t E]. rewrite E, <- app_assoc. eauto.
Qed.

(* ------------------------------------------------------------------ *)
(** ** Evaluation on ciphertexts *)
Section Ct.
Context {B : backend} {qw : Z} (C : contract B qw).

Definition vals_ok (v : Z) (n : nat) (xs : list (ciphertext B)) (vals : list Z) (g : list nat) : Prop :=
  length vals = length xs /\ length g = length xs /\
  forall i, (i < length xs)%nat ->
    enc_val C (nth i xs []) (nth i vals 0 * v) /\ (length (nth i xs []) <= n + nth i g 0%nat)%nat.

Lemma index_ok : forall A (l : list A) i d, (i < length l)%nat -> index l i = ret (nth i l d).
Proof.
  intros A l i d H. unfold index. destruct (nth_error l i) eqn:E.
  - erewrite (nth_error_nth _ _ _ E). auto.
  - apply nth_error_None in E. lia.
Qed.

Lemma sg_ok : forall (x : ciphertext B) v (p : bool), enc_val C x v ->
  enc_val C (if p then x else pa_opp x) (sg p * v).
Proof.
  intros x v [] H; cbn [sg]; [rewrite Z.mul_1_l; auto|].
  replace (-1 * v) with (- v) by ring. apply pa_opp_ok; auto.
Qed.
Lemma sg_length : forall (x : ciphertext B) (p : bool), length (if p then x else pa_opp x) = length x.
Proof. intros x []; auto. apply map_length. Qed.

Lemma asc_run_ok : forall c v n xs vals g, vals_ok v n xs vals g -> chain_wf (length xs) c ->
  okP (foldM (asc_step (fun x => ret (pa_opp x)) (fun x k => ret (pa_shift x k)) pa_add) c xs)
      (fun xs' => vals_ok v n xs' (chain_run c vals) (chain_grow c g) /\ (length xs <= length xs')%nat).
Proof.
  induction c as [|a c IH]; intros v n xs vals g H Hwf; cbn [foldM chain_run chain_grow].
  - apply okP_ret. auto.
  - destruct Hwf as [W1 [W2 W3]]. destruct H as [L1 [L2 H]].
    destruct (H _ W1) as [E1 N1], (H _ W2) as [E2 N2].
    unfold asc_step at 1.
    rewrite (index_ok _ xs (l_idx a) []), ret_bind by auto. rewrite ret_bind.
    rewrite (index_ok _ xs (r_idx a) []), ret_bind by auto. rewrite !ret_bind.
    set (xl := nth (l_idx a) xs []) in *. set (xr := nth (r_idx a) xs []) in *.
    pose proof (pa_shift_ok C xr (r_shift a) _ E2) as E2s.
    pose proof (sg_ok _ _ (l_pos a) E1) as F1. pose proof (sg_ok _ _ (r_pos a) E2s) as F2.
    eapply okP_bind.
    { eapply okP_bind; [apply (pa_add_ok C _ _ _ _ F1 F2)|].
      intros s Hs. apply okP_ret. 
      refine ((fun H => H) _ : (fun xs1 => exists s, xs1 = xs ++ [s] /\ _) _).
      exists s. split; [reflexivity|exact Hs]. }
    cbv beta. intros xs1 [s [-> [Es [Ls _]]]]. rewrite !sg_length, pa_shift_length in Ls.
    assert (HL : length (xs ++ [s]) = S (length xs)) by (rewrite app_length; cbn [length]; lia).
    eapply okP_conseq; [apply (IH v n (xs ++ [s]) (vals ++ [chain_next vals a]) (g ++ [S (Nat.max (nth (l_idx a) g 0%nat) (r_shift a + nth (r_idx a) g 0%nat))]))|].
    + split; [rewrite !app_length; cbn [length]; lia|]. split; [rewrite !app_length; cbn [length]; lia|].
      intros i Hi. rewrite HL in Hi. destruct (Nat.eq_dec i (length xs)) as [ -> |Hne].
      * rewrite nth_middle. rewrite <- L1 at 1. rewrite nth_middle. rewrite <- L2. rewrite nth_middle.
        split.
        -- replace (chain_next vals a * v) with
             (sg (l_pos a) * (nth (l_idx a) vals 0 * v) +
              sg (r_pos a) * (nth (r_idx a) vals 0 * v * 2 ^ Z.of_nat (r_shift a))); auto.
           unfold chain_next. ring.
        -- lia.
      * rewrite !app_nth1 by lia. apply H. lia.
    + rewrite HL. auto.
    + intros xs' [H1 H2]. split; auto. lia.
Qed.

Lemma last_nth : forall A (l : list A) d, last l d = nth (length l - 1) l d.
Proof.
  intros A l d. induction l as [|a l IH]; auto. destruct l as [|b l]; auto.
  change (last (a :: b :: l) d) with (last (b :: l) d). rewrite IH. cbn [length].
  replace (S (S (length l)) - 1)%nat with (S (S (length l) - 1)) by lia. auto.
Qed.

Theorem asc_eval_ct_ok : forall c x v, enc_val C x v -> chain_wf 1 c ->
  okP (asc_eval_ct c x) (fun z => enc_val C z (chain_value c * v) /\
                                  (length z <= length x + chain_growth c)%nat).
Proof.
  intros c x v Hx Hwf. unfold asc_eval_ct, asc_eval.
  eapply okP_bind; [apply (asc_run_ok c v (length x) [x] [1] [0%nat]); auto|].
  - split; auto. split; auto. intros [|i] Hi; [|cbn in Hi; lia]. cbn [nth].
    rewrite Z.mul_1_l. split; auto. lia.
  - intros xs [[L1 [L2 H]] L3]. apply okP_ret. cbn [length] in L3.
    unfold chain_value, chain_growth.
    rewrite !last_nth, L1, L2. rewrite (nth_indep xs x []) by lia.
    rewrite (nth_indep (chain_run c [1]) 1 0) by lia. apply H. lia.
Qed.

(* ------------------------------------------------------------------ *)
(** ** Scalar multiplication *)
Lemma insert_key_in : forall k l j, In j (insert_key k l) <-> j = k \/ In j l.
Proof.
  intros k l j. induction l as [|h t IH]; cbn [insert_key].
  - cbn. intuition.
  - destruct (k <? h); [cbn; intuition|]. destruct (k =? h) eqn:E.
    + assert (k = h) by lia. subst. cbn. intuition.
    + cbn [In]. rewrite IH. intuition.
Qed.
Lemma window_keys_in : forall (ws : list (Z * nat)) l0 j,
  In j (fold_left (fun l wsh => insert_key (Z.abs (fst wsh)) l) ws l0) <->
  In j l0 \/ exists w, In w ws /\ j = Z.abs (fst w).
Proof.
  induction ws as [|w ws IH]; intros l0 j; cbn [fold_left].
  - split; [auto|]. intros [H|[w [[] _]]]; auto.
  - rewrite IH, insert_key_in. split.
    + intros [[ -> |H]|[w' [H1 H2]]]; auto; right; [exists w|exists w']; cbn; auto.
    + intros [H|[w' [[ <- |H1] H2]]]; auto. right. exists w'. auto.
Qed.

Lemma map_get_ok : forall v g n wm (keys : list Z) k,
  Forall2 (fun key kc => fst kc = key /\ enc_val C (snd kc) (key * v) /\ (length (snd kc) <= n + g)%nat) keys wm ->
  In k keys -> okP (map_get wm k) (fun z => enc_val C z (k * v) /\ (length z <= n + g)%nat).
Proof.
  intros v g n wm keys k H. induction H as [|key [key' c] keys wm [ <- H1] H IH]; intros Hin; [inversion Hin|].
  cbn [map_get fst snd] in *. destruct (k =? key') eqn:E.
  - apply okP_ret. replace k with key' by lia. auto.
  - destruct Hin as [Hin|Hin]; [lia|]. apply IH; auto.
Qed.

Lemma sum_rows_ok : forall rows (ws : list (Z * nat)) v n acc va, 
  Forall2 (fun w z => enc_val C z (fst w * 2 ^ Z.of_nat (snd w) * v) /\ (length z <= n)%nat) ws rows ->
  enc_val C acc va ->
  okP (foldM (fun acc row => pa_add acc row) rows acc)
      (fun z => enc_val C z (va + wsum ws * v) /\
                (length z <= Nat.max n (length acc) + length rows)%nat).
Proof.
  induction rows as [|r rows IH]; intros ws v n acc va H Ha; inversion H; subst; cbn [foldM].
  - apply okP_ret. cbn [wsum length]. replace (va + 0 * v) with va by ring. split; auto. lia.
  - destruct H3 as [H3 H3']. eapply okP_bind; [apply (pa_add_ok C acc r va _ Ha H3)|].
    intros z [Hz [Lz _]]. eapply okP_conseq; [exact (IH l v n z _ ltac:(eassumption) Hz)|].
    intros z' [Hz' Lz']. destruct x as [w s]. cbn [wsum fst snd length] in *.
    replace (va + (w * 2 ^ Z.of_nat s + wsum l) * v) with (va + w * 2 ^ Z.of_nat s * v + wsum l * v) by ring.
    split; auto. lia.
Qed.

Lemma spaced_length : forall d ws lo, (1 <= d)%nat -> spaced d lo ws -> 
  Forall (fun w => (snd w <= 32)%nat) ws -> (length ws <= 1 + (32 - lo) / d)%nat \/ ws = [].
Proof.
  intros d ws. induction ws as [|[w s] ws IH]; intros lo Hd H HF; auto. left.
  destruct H as [H1 H2]. inversion HF; subst. cbn [snd] in *.
  destruct (IH (s + d)%nat Hd H2 H4) as [H| -> ].
  - destruct ws as [|[w' s'] ws]; [cbn [length]; apply le_n_S, Nat.le_0_l|]. destruct H2 as [H2 _].
    inversion H4; subst. cbn [snd] in *.
    assert (E : ((32 - (s + d)) / d + 1 = (32 - (s + d) + 1 * d) / d)%nat).
    { rewrite Nat.div_add; lia. }
    assert (((32 - (s + d) + 1 * d) / d <= (32 - lo) / d)%nat) by (apply Nat.div_le_mono; lia).
    cbn [length] in *. revert H E H0. generalize ((32 - lo) / d)%nat ((32 - (s + d)) / d)%nat ((32 - (s + d) + 1 * d) / d)%nat.
    intros; lia.
  - cbn [length]. apply le_n_S, Nat.le_0_l.
Qed.

Theorem scalar_mul_ok : forall pc g k x v, table_valid g (asc_12 pc) ->
  I32_MIN <= k <= I32_MAX -> enc_val C x v ->
  ovfP (ovf pc) (pa_scalar_mul pc k x)
    (fun z => enc_val C z (k * v) /\ (length z <= length x + g + 34)%nat).
Proof.
  intros pc g k x v HT Hk Hx. unfold pa_scalar_mul. apply ovfP_analysed. unfold scalar_mul_impl.
  set (xp := if 0 <=? k then x else map w_opp x).
  assert (Hxp : enc_val C xp (sg (0 <=? k) * v)).
  { subst xp. rewrite map_opp_pa. apply sg_ok; auto. }
  assert (Lxp : length xp = length x) by (subst xp; rewrite map_opp_pa; apply sg_length).
  clearbody xp. unfold I32_MIN, I32_MAX in Hk.
  apply ovfP_bind with (P := fun a => u32 a = Z.abs k).
  { unfold chk_i32. destruct (in_i32 (Z.abs k)) eqn:E.
    - apply ovfP_ret. unfold u32. rewrite Z.mod_small; lia.
    - destruct (ovf pc); [split; auto|]. apply ovfP_ret.
      unfold in_i32, I32_MIN, I32_MAX in E. assert (k = - 2^31) by lia. subst k. reflexivity. }
  intros ka Eka. rewrite Eka.
  assert (Hsg : sg (0 <=? k) * Z.abs k = k) by (destruct (0 <=? k) eqn:E; cbn [sg]; lia).
  destruct (Z.abs k =? 0) eqn:E0.
  { apply ovfP_ret. assert (k = 0) by lia. subst k. split; [|cbn; lia].
    exists []. split; [split; constructor|reflexivity]. }
  destruct (Z.abs k =? 1) eqn:E1.
  { apply ovfP_ret. split; [|lia]. replace (k * v) with (sg (0 <=? k) * v); auto.
    replace k with (sg (0 <=? k) * Z.abs k) at 2 by auto. replace (Z.abs k) with 1 by lia. ring. }
  unfold ASC_BITLEN.
  eapply ovfP_bind; [apply (wind_shifts_ok (ovf pc) (Z.abs k) 12); lia|].
  intros ws [W1 [W2 [W3 W4]]]. apply okP_ovfP.
  assert (HB : (bit_len_32 (Z.abs k) <= 32)%nat).
  { destruct (bit_len_32_ok (Z.abs k) ltac:(lia)) as [[_ ->]|[H5 H6]]; [lia|].
    destruct (le_lt_dec (bit_len_32 (Z.abs k)) 32) as [|H]; [lia|].
    assert (2 ^ 32 <= 2 ^ Z.of_nat (bit_len_32 (Z.abs k) - 1)) by (apply Z.pow_le_mono_r; lia). lia. }
  set (v1 := sg (0 <=? k) * v) in *.
  eapply okP_bind.
  { apply (okP_mapM _ _ _ (fun key kc => fst kc = key /\ enc_val C (snd kc) (key * v1) /\
                            (length (snd kc) <= length x + g)%nat)).
    intros key Hkey. apply window_keys_in in Hkey. destruct Hkey as [[]|[w [Hw ->]]].
    rewrite Forall_forall in W2. destruct (W2 w Hw) as [O1 [O2 _]].
    change (2 ^ Z.of_nat 12) with (2^12) in O2.
    destruct (HT (Z.abs (fst w))) as [c [T1 [T2 [T3 T4]]]].
    { assert (fst w <> 0) by (intros E; rewrite E in O1; discriminate). lia. }
    { destruct (Z.abs_eq_or_opp (fst w)) as [ -> | -> ]; auto. rewrite Z.odd_opp. auto. }
    apply okP_bind with (P := fun c' => c' = c); [exists c; auto|]. intros c' ->. eapply okP_bind; [apply okP_expect, (asc_eval_ct_ok c xp v1); auto|].
    cbv beta. intros z [Hz Lz]. apply okP_ret. cbn [fst snd]. rewrite T3 in Hz. repeat split; auto. lia. }
  intros wm Hwm.
  eapply okP_bind.
  { apply (okP_mapM _ _ _ (fun w z => enc_val C z (fst w * 2 ^ Z.of_nat (snd w) * v1) /\
                                      (length z <= length x + g + 32)%nat)).
    intros [w s] Hw. unfold mulary_row.
    eapply okP_bind; [apply (map_get_ok v1 g (length x) wm (window_keys ws)); auto|].
    { apply window_keys_in. right. exists (w, s). auto. }
    cbv beta. intros z [Hz Lz]. apply okP_ret. cbn [fst snd].
    rewrite Forall_forall in W2. destruct (W2 _ Hw) as [_ [_ O3]]. cbn [snd] in O3.
    destruct (w <? 0) eqn:Ew.
    - split.
      + replace (w * 2 ^ Z.of_nat s * v1) with (- (Z.abs w * v1) * 2 ^ Z.of_nat s)
          by (replace (Z.abs w) with (- w) by lia; ring).
        apply pa_shift_ok, pa_opp_ok; auto.
      + rewrite pa_shift_length. unfold pa_opp, opposite_impl. rewrite map_length. lia.
    - split.
      + replace (w * 2 ^ Z.of_nat s * v1) with ((Z.abs w * v1) * 2 ^ Z.of_nat s)
          by (replace (Z.abs w) with w by lia; ring).
        apply pa_shift_ok; auto.
      + rewrite pa_shift_length. lia. }
  intros rows Hrows.
  assert (Hk' : k * v = wsum ws * v1).
  { rewrite W1. subst v1. rewrite Z.mul_assoc. rewrite (Z.mul_comm (Z.abs k)), Hsg. auto. }
  rewrite Hk'.
  assert (Hlen : (length ws <= 3)%nat).
  { destruct (spaced_length 12 ws 0) as [H| ->]; [lia|auto| |cbn in *; lia|cbn; lia].
    eapply Forall_impl; [|exact W2]. cbv beta. intros w Hw. lia. }
  pose proof (Forall2_len _ _ _ _ _ Hrows) as HL.
  destruct Hrows as [|[w s] r ws rows Hr Hrows]; [congruence|].
  cbn [length]. destruct (S (length rows) =? 1)%nat eqn:El.
  - apply okP_ret. cbn [index nth_error]. 
    assert (length rows = 0)%nat by lia. destruct rows; [|discriminate]. inversion Hrows; subst.
    cbn [wsum fst snd] in *. replace ((w * 2 ^ Z.of_nat s + 0) * v1) with (w * 2 ^ Z.of_nat s * v1) by ring.
    destruct Hr. split; auto. lia.
  - apply okP_measure. destruct Hrows as [|[w' s'] r' ws rows Hr' Hrows]; [cbn in El; discriminate|].
    cbn [index nth_error]. rewrite ret_bind. cbn [index nth_error]. rewrite ret_bind. cbn [skipn].
    destruct Hr as [Hr Lr], Hr' as [Hr' Lr'].
    eapply okP_bind; [apply (pa_add_ok C r r' _ _ Hr Hr')|]. intros z [Hz [Lz _]].
    eapply okP_conseq; [apply (sum_rows_ok rows ws v1 (length x + g + 32) z _ Hrows Hz)|].
    intros z' [Hz' Lz']. cbn [wsum fst snd length] in *.
    match type of Hz' with enc_val _ _ ?a => match goal with |- enc_val _ _ ?b /\ _ => replace b with a by ring end end.
    split; auto. pose proof (Forall2_len _ _ _ _ _ Hrows). lia.
Qed.

Lemma scalar_mul_min_checked : forall pc (x : ciphertext B), ovf pc = true ->
  fst (pa_scalar_mul pc I32_MIN x) = Panic P_overflow.
Proof.
  intros pc x Ho. unfold pa_scalar_mul, scalar_mul_impl. rewrite fst_analysed, fst_bind, Ho. reflexivity.
Qed.
End Ct.
