(** How many additions a scalar multiplication performs *)
From Coq Require Import Sorting.Sorted.
From Verif Require Import Base Backend Words Encryption Params Pbs Addition Naf Asc AscTable ScalarMul.
From Verif Require Import Spec BaseProofs BitsProofs ValueProofs WordsProofs EncProofs NafProofs ScalarProofs.

(** operations of ParmArithmetics started in a log *)
Definition starts (t : list event) : nat :=
  length (filter (fun e => match e with EStart => true | _ => false end) t).

Lemma starts_app : forall t u, starts (t ++ u) = (starts t + starts u)%nat.
Proof. intros. unfold starts. rewrite filter_app, app_length. reflexivity. Qed.

(** at most [n] operations start, exactly [n] when the run ends normally *)
Definition stP {A} (m : M A) (n : nat) : Prop :=
  (starts (snd m) <= n)%nat /\ forall a, fst m = Ok a -> starts (snd m) = n.

Lemma stP_ret : forall A (a : A), stP (ret a) 0.
Proof. intros. split; auto. Qed.

Lemma stP_stop : forall A (m : M A) n, snd m = [] -> (forall a, fst m <> Ok a) -> stP m n.
Proof. intros A m n H H'. split; [rewrite H; cbn; lia|]. intros a E. destruct (H' a E). Qed.

Lemma stP_bind : forall A C (m : M A) (f : A -> M C) a b,
  stP m a -> (forall z, fst m = Ok z -> stP (f z) b) -> stP (bind m f) (a + b).
Proof.
  intros A C [o t] f a b [H1 H2] Hf. unfold stP. cbn [fst snd] in *. destruct o as [z|e|e]; cbn [bind fst snd].
  - specialize (H2 z eq_refl). destruct (Hf z eq_refl) as [F1 F2]. destruct (f z) as [o' t'] eqn:E.
    cbn [fst snd] in *. rewrite starts_app. split; [lia|]. intros c Ec. rewrite (F2 c Ec). lia.
  - split; [lia|]. discriminate.
  - split; [lia|]. discriminate.
Qed.

Lemma stP_bind0 : forall A C (m : M A) (f : A -> M C) b,
  stP m 0 -> (forall z, fst m = Ok z -> stP (f z) b) -> stP (bind m f) b.
Proof. intros. apply (stP_bind _ _ _ _ 0 b); auto. Qed.

Lemma stP_bind_last : forall A C (m : M A) (f : A -> M C) b,
  stP m b -> (forall z, fst m = Ok z -> stP (f z) 0) -> stP (bind m f) b.
Proof. intros. rewrite <- (Nat.add_0_r b). apply stP_bind; auto. Qed.

Lemma stP_expect : forall A (m : M A) n, stP m n -> stP (expect m) n.
Proof.
  intros A [[z|e|e] t] n [H1 H2]; split; cbn [expect fst snd] in *; auto; discriminate.
Qed.

Lemma stP_measure : forall A (m : M A) n, stP m n -> stP (measure m) n.
Proof.
  intros A m n H. unfold measure. apply stP_bind0; [split; auto|]. intros _ _.
  apply stP_bind_last; auto. intros z _. apply stP_bind0; [split; auto|]. intros; apply stP_ret.
Qed.

Lemma stP_analysed : forall A (m : M A) n, stP m n -> stP (analysed m) (S n).
Proof.
  intros A m n H. unfold analysed. apply (stP_bind _ _ _ _ 1 n); [split; auto|]. intros _ _.
  apply stP_bind_last; [apply stP_expect; auto|]. intros z _.
  apply stP_bind0; [split; auto|]. intros; apply stP_ret.
Qed.

Lemma stP_index : forall A (l : list A) i, stP (index l i) 0.
Proof.
  intros. unfold index. destruct (nth_error l i); [apply stP_ret|].
  apply stP_stop; [reflexivity|discriminate].
Qed.

Lemma stP_mapM : forall A C (f : A -> M C) n l, (forall a, In a l -> stP (f a) (n a)) ->
  stP (mapM f l) (list_sum (map n l)).
Proof.
  intros A C f n l. induction l as [|a l IH]; intros H; [apply stP_ret|].
  cbn [mapM map list_sum fold_right]. apply stP_bind; [apply H; left; auto|]. intros z _.
  apply stP_bind_last; [apply IH; intros; apply H; right; auto|]. intros; apply stP_ret.
Qed.

Lemma stP_mapM0 : forall A C (f : A -> M C) l, (forall a, stP (f a) 0) -> stP (mapM f l) 0.
Proof.
  intros A C f l H. pose proof (stP_mapM A C f (fun _ => 0%nat) l (fun a _ => H a)) as P.
  replace (list_sum (map (fun _ => 0%nat) l)) with 0%nat in P; auto. clear.
  induction l; cbn in *; auto.
Qed.

Lemma stP_foldM1 : forall A S (f : S -> A -> M S) l s, (forall s a, stP (f s a) 1) ->
  stP (foldM f l s) (length l).
Proof.
  intros A S f l. induction l as [|a l IH]; intros s H; [apply stP_ret|].
  cbn [foldM length]. apply (stP_bind _ _ _ _ 1); auto.
Qed.

Section Ct.
Context {B : backend}.

Lemma stP_lut : forall (c : word B) h, stP (eval_LUT_5_half c h) 0.
Proof.
  intros [c|pt] h; cbn [eval_LUT_5_half].
  - apply stP_bind0; [split; auto|]. intros; apply stP_ret.
  - apply stP_bind0.
    + destruct (_ <? 16); [apply stP_ret|]. destruct (_ <? 32); [apply stP_ret|].
      apply stP_stop; [reflexivity|discriminate].
    + intros; apply stP_ret.
Qed.

Lemma stP_add_sub : forall a (x y : ciphertext B) r, stP (add_sub_impl a x y r) 0.
Proof.
  intros a x y r. unfold add_sub_impl.
  destruct (_ =? length x)%nat; [apply stP_ret|]. destruct (_ =? length y)%nat; [apply stP_ret|].
  apply stP_measure. destruct (_ <=? _)%nat; [apply stP_stop; [reflexivity|discriminate]|].
  apply stP_bind0; [apply stP_mapM0; intros; apply stP_lut|]. intros q _.
  apply stP_bind0; [|intros; apply stP_ret].
  destruct r; [apply stP_mapM0; intros; apply stP_lut|apply stP_ret].
Qed.

Lemma stP_add : forall x y : ciphertext B, stP (pa_add x y) 1.
Proof. intros. apply (stP_analysed _ _ 0), stP_add_sub. Qed.

Lemma stP_asc_eval : forall c (x : ciphertext B), stP (asc_eval_ct c x) (length c).
Proof.
  intros c x. unfold asc_eval_ct, asc_eval. apply stP_bind_last; [|intros; apply stP_ret].
  apply stP_foldM1. intros s a. unfold asc_step.
  apply stP_bind0; [apply stP_index|]. intros l _. apply stP_bind0; [apply stP_ret|]. intros nl _.
  apply stP_bind0; [apply stP_index|]. intros r _. apply stP_bind0; [apply stP_ret|]. intros rs _.
  apply stP_bind0; [apply stP_ret|]. intros nrs _.
  apply stP_bind_last; [apply stP_add|]. intros; apply stP_ret.
Qed.

Lemma stP_map_get : forall (m : list (Z * ciphertext B)) k, stP (map_get m k) 0.
Proof.
  induction m as [|[k' c] m IH]; intros k; cbn [map_get].
  - apply stP_stop; [reflexivity|discriminate].
  - destruct (k =? k'); [apply stP_ret|apply IH].
Qed.

End Ct.

(** entries of the chain a table holds for a number *)
Definition chain_len (m : asc_map) (k : Z) : nat :=
  match fst (asc_get m k) with Ok c => length c | _ => 0 end.

Lemma stP_asc_get : forall m k, stP (asc_get m k) 0.
Proof.
  induction m as [|[k' c] m IH]; intros k; cbn [asc_get].
  - apply stP_stop; [reflexivity|discriminate].
  - destruct (k =? k'); [apply stP_ret|apply IH].
Qed.

(* ------------------------------------------------------------------ *)
(** ** The recodings cause no events *)
Definition sil {A} (m : M A) : Prop := snd m = [].
Lemma sil_ret : forall A (a : A), sil (ret a).
Proof. reflexivity. Qed.
Lemma sil_stop : forall A (m : M A), snd m = [] -> sil m.
Proof. auto. Qed.
Lemma sil_bind : forall A C (m : M A) (f : A -> M C), sil m -> (forall z, fst m = Ok z -> sil (f z)) -> sil (bind m f).
Proof.
  intros A C [[z|e|e] t] f H Hf; unfold sil in *; cbn [bind fst snd] in *; auto.
  specialize (Hf z eq_refl). destruct (f z) as [o t']. cbn [snd] in *. subst. reflexivity.
Qed.
Lemma sil_expect : forall A (m : M A), sil m -> sil (expect m).
Proof. intros A [[z|e|e] t] H; exact H. Qed.
Lemma sil_stP : forall A (m : M A), sil m -> stP m 0.
Proof. intros A m H. unfold stP. unfold sil in H. rewrite H. split; auto. Qed.
Lemma sil_chk_i64 : forall o z, sil (chk_i64 o z).
Proof. intros. unfold chk_i64. destruct (in_i64 z), o; (apply sil_ret || (apply sil_stop; reflexivity)). Qed.
Lemma sil_chk_i32 : forall o z, sil (chk_i32 o z).
Proof. intros. unfold chk_i32. destruct (in_i32 z), o; (apply sil_ret || (apply sil_stop; reflexivity)). Qed.
Lemma sil_chk_u32 : forall o z, sil (chk_u32 o z).
Proof. intros. unfold chk_u32. destruct (in_u32 z), o; (apply sil_ret || (apply sil_stop; reflexivity)). Qed.
Lemma sil_shift_amount : forall o w k, sil (shift_amount o w k).
Proof. intros. unfold shift_amount. destruct (_ <? w), o; (apply sil_ret || (apply sil_stop; reflexivity)). Qed.
Lemma sil_upd : forall A (l : list A) i a, sil (upd l i a).
Proof. intros. unfold upd. destruct (_ <? _)%nat; [apply sil_ret|apply sil_stop; reflexivity]. Qed.

Lemma sil_foldM0 : forall A S (f : S -> A -> M S) l s, (forall s a, sil (f s a)) -> sil (foldM f l s).
Proof.
  intros A S f l. induction l as [|a l IH]; intros s H; [apply sil_ret|].
  cbn [foldM]. apply sil_bind; auto.
Qed.

Lemma sil_convert : forall o mv, sil (convert_from_vec o mv).
Proof.
  intros. unfold convert_from_vec. destruct (_ <? _)%nat; [apply sil_stop; reflexivity|].
  apply sil_foldM0. intros s [i d]. unfold from_vec_step.
  repeat match goal with
  | |- sil (ret _) => apply sil_ret
  | |- sil (chk_i64 _ _) => apply sil_chk_i64
  | |- sil (shift_amount _ _ _) => apply sil_shift_amount
  | |- sil (err_ _) => apply sil_stop; reflexivity
  | |- sil (bind _ _) => apply sil_bind; [|intros]
  | |- sil (match ?c with _ => _ end) => destruct c
  end.
Qed.

Lemma sil_fill : forall n j f kv, (forall j, sil (f j)) -> sil (kt_fill n j f kv).
Proof.
  induction n as [|n IH]; intros j f kv H; cbn [kt_fill]; [apply sil_ret|].
  apply sil_bind; auto. intros. apply sil_bind; [apply sil_upd|]. auto.
Qed.

Ltac st0 := repeat match goal with
  | |- sil (ret _) => apply sil_ret
  | |- sil (chk_u32 _ _) => apply sil_chk_u32
  | |- sil (upd _ _ _) => apply sil_upd
  | |- sil (kt_fill _ _ _ _) => apply sil_fill; intros
  | |- sil (kt_bit _ _) => apply sil_ret
  | |- sil (kt_bit_m1 _ _ _) => unfold kt_bit_m1
  | |- sil (bind _ _) => apply sil_bind; [|intros]
  | |- sil (if ?c then _ else _) => destruct c
  end.

Lemma sil_kt : forall o k, sil (koyama_tsuruoka_vec o k).
Proof.
  intros o k. unfold koyama_tsuruoka_vec. destruct (k =? 0); [apply sil_ret|].
  destruct (k =? 1); [apply sil_ret|]. cbv zeta. apply sil_bind.
  - generalize (mkKt 0 false 0 0 0 0 0 0 (repeat 0 (bit_len_32 k + 1))). generalize (bit_len_32 k - 1)%nat.
    induction n as [|n IH]; intros s; cbn [kt_loop]; [apply sil_ret|]. apply sil_bind; auto.
    destruct s as [j m x y z u v w kv]. cbn [kt_step]. st0.
  - intros [j m x y z u v w kv] _. apply sil_bind; [|intros; apply sil_ret]. cbn [kt_end]. st0.
Qed.

Lemma sil_wind_loop : forall f o kv bl sh, sil (wind_loop f o kv bl sh).
Proof.
  induction f as [|f IH]; intros; cbn [wind_loop]; [apply sil_stop; reflexivity|].
  cbv zeta. apply sil_bind; [apply sil_expect, sil_convert|]. intros w _.
  destruct (_ <=? _)%nat; [apply sil_ret|]. apply sil_bind; [apply IH|intros; apply sil_ret].
Qed.

Lemma sil_wind_shifts : forall o k bl, sil (wind_shifts o k bl).
Proof. intros. unfold wind_shifts. apply sil_bind; [apply sil_kt|intros; apply sil_wind_loop]. Qed.

(* ------------------------------------------------------------------ *)
(** ** Additions of a scalar multiplication *)
Lemma mapM_len : forall A C (f : A -> M C) l r, fst (mapM f l) = Ok r -> length r = length l.
Proof.
  intros A C f l. induction l as [|a l IH]; intros r; cbn [mapM]; [cbn; intros E; inversion E; auto|].
  rewrite fst_bind. destruct (fst (f a)) as [b|e|e]; try discriminate. rewrite fst_bind.
  destruct (fst (mapM f l)) as [bs|e|e] eqn:E; try discriminate. cbn. intros H. inversion H; subst.
  cbn. rewrite (IH bs); auto.
Qed.

(** sum over the distinct absolute values of the windows, and one addition
    between neighbouring rows *)
Definition planned_adds (m : asc_map) (ws : list (Z * nat)) : nat :=
  (list_sum (map (chain_len m) (window_keys ws)) + (length ws - 1))%nat.

Section Scalar.
Context {B : backend}.

Lemma stP_scalar : forall pc k (x : ciphertext B) ws, 2 <= Z.abs k <= I32_MAX ->
  fst (wind_shifts (ovf pc) (Z.abs k) ASC_BITLEN) = Ok ws ->
  stP (pa_scalar_mul pc k x) (S (planned_adds (asc_12 pc) ws)).
Proof.
  intros pc k x ws Hk Hws. unfold pa_scalar_mul. apply stP_analysed. unfold scalar_mul_impl.
  set (x' := if 0 <=? k then x else map w_opp x). clearbody x'. cbv zeta.
  assert (Hc : chk_i32 (ovf pc) (Z.abs k) = ret (Z.abs k)).
  { unfold chk_i32, in_i32. unfold I32_MIN, I32_MAX in *.
    replace (_ && _) with true by (symmetry; apply andb_true_iff; split; apply Z.leb_le; lia). reflexivity. }
  rewrite Hc, ret_bind. unfold u32. unfold I32_MAX in Hk. rewrite Z.mod_small by lia.
  replace (Z.abs k =? 0) with false by (symmetry; apply Z.eqb_neq; lia).
  replace (Z.abs k =? 1) with false by (symmetry; apply Z.eqb_neq; lia).
  apply stP_bind0; [apply sil_stP, sil_wind_shifts|]. intros ws' E. rewrite Hws in E. inversion E; subst ws'; clear E.
  unfold planned_adds. apply stP_bind.
  - apply stP_mapM. intros key _. unfold chain_len.
    apply stP_bind0; [apply stP_asc_get|]. intros c Ec. rewrite Ec.
    apply stP_bind_last; [apply stP_expect, stP_asc_eval|]. intros; apply stP_ret.
  - intros wm _. apply stP_bind0.
    + apply stP_mapM0. intros [wi shi]. unfold mulary_row. apply stP_bind0; [apply stP_map_get|intros; apply stP_ret].
    + intros rows Er. apply mapM_len in Er. rewrite <- Er.
      destruct (length rows =? 1)%nat eqn:E1.
      { apply Nat.eqb_eq in E1. rewrite E1. apply stP_index. }
      apply stP_measure. apply stP_bind0; [apply stP_index|]. intros m0 _.
      apply stP_bind0; [apply stP_index|]. intros m1 Hm1.
      assert (2 <= length rows)%nat.
      { unfold index in Hm1. destruct rows as [|? [|? ?]]; cbn in *; try discriminate; lia. }
      replace (length rows - 1)%nat with (1 + (length rows - 2))%nat by lia.
      apply stP_bind; [apply stP_add|]. intros acc _. rewrite <- skipn_length.
      apply stP_foldM1. intros; apply stP_add.
Qed.

End Scalar.

(* ------------------------------------------------------------------ *)
(** ** Least number of non-zero signed digits *)

(** least weights of [p] and of [p + 1] *)
Fixpoint NN (p : positive) : nat * nat :=
  match p with
  | xH => (1, 1)
  | xO q => let (x, y) := NN q in (x, S (Nat.min x y))
  | xI q => let (x, y) := NN q in (S (Nat.min x y), y)
  end%nat.
Definition minw (v : Z) : nat := match v with Zpos p | Zneg p => fst (NN p) | Z0 => 0%nat end.

Lemma NN_succ : forall p, snd (NN p) = fst (NN (Pos.succ p)) /\ 
  (fst (NN p) <= S (snd (NN p)) /\ snd (NN p) <= S (fst (NN p)))%nat.
Proof.
  induction p as [p [I1 [I2 I3]]|p [I1 [I2 I3]]|]; cbn [NN Pos.succ].
  - destruct (NN p) as [x y]. destruct (NN (Pos.succ p)) as [x' y'] eqn:E. cbn [fst snd] in *. lia.
  - destruct (NN p) as [x y]. cbn [fst snd] in *. lia.
  - cbn. lia.
Qed.

Lemma minw_double : forall v, minw (2 * v) = minw v.
Proof.
  intros [|p|p]; auto.
  - change (2 * Z.pos p) with (Z.pos (xO p)). cbn [minw NN]. destruct (NN p). auto.
  - change (2 * Z.neg p) with (Z.neg (xO p)). cbn [minw NN]. destruct (NN p). auto.
Qed.

Lemma minw_opp : forall v, minw (- v) = minw v.
Proof. intros [|p|p]; auto. Qed.

Lemma minw_succ_pos : forall p, minw (Z.pos p + 1) = snd (NN p).
Proof. intros. replace (Z.pos p + 1) with (Z.pos (Pos.succ p)) by lia. cbn [minw]. symmetry. apply NN_succ. Qed.

Lemma minw_odd : forall v, (minw (2 * v + 1)%Z <= S (minw v))%nat.
Proof.
  intros [|p|p]; [apply le_n| |].
  - change (2 * Z.pos p + 1) with (Z.pos (xI p)). cbn [minw NN]. destruct (NN p) as [x y]. cbn [fst]. lia.
  - (* 2v + 1 = -(2p - 1) *)
    destruct (Pos.eq_dec p 1) as [ -> |Hp]; [vm_compute; auto|].
    set (q := Pos.pred p). assert (Hq : p = Pos.succ q) by (unfold q; rewrite Pos.succ_pred; auto).
    replace (2 * Z.neg p + 1) with (Z.neg (xI q)) by lia. cbn [minw NN].
    destruct (NN_succ q) as [E _]. rewrite Hq, <- E. destruct (NN q) as [x y]. cbn [fst snd]. lia.
Qed.

Lemma minw_digit : forall d v, digit d -> (minw (d + 2 * v)%Z <= (if (d =? 0)%Z then 0 else 1) + minw v)%nat.
Proof.
  intros d v Hd. unfold digit in Hd. assert (d = 0 \/ d = 1 \/ d = -1) as [ -> | [ -> | -> ] ] by lia.
  - change (0 + 2 * v) with (2 * v). rewrite minw_double. cbn [Z.eqb]. lia.
  - replace (1 + 2 * v) with (2 * v + 1) by lia. pose proof (minw_odd v). change (1 =? 0) with false. cbv iota. lia.
  - replace (-1 + 2 * v) with (- (2 * (- v) + 1)) by lia. rewrite minw_opp.
    pose proof (minw_odd (- v)). rewrite minw_opp in H. change (-1 =? 0) with false. cbv iota. lia.
Qed.

Theorem minw_least : forall l, digits l -> (minw (value l) <= weight l)%nat.
Proof.
  induction l as [|d l IH]; intros H; [cbn; lia|]. inversion H; subst.
  cbn [value]. pose proof (minw_digit d (value l) H2). specialize (IH H3).
  unfold weight in *. cbn [filter]. destruct (d =? 0); cbn [negb length]; lia.
Qed.

Lemma minw_abs : forall v, minw (Z.abs v) = minw v.
Proof. intros [|p|p]; auto. Qed.

(* ------------------------------------------------------------------ *)
(** ** The windows share out the non-zero digits *)
Lemma weight_app : forall a b, weight (a ++ b) = (weight a + weight b)%nat.
Proof. intros. unfold weight. rewrite filter_app, app_length. auto. Qed.

Lemma weight_skip_zeros : forall kv sh r, (sh <= r <= length kv)%nat ->
  (forall i, (sh <= i < r)%nat -> nth i kv 0 = 0) -> weight (skipn sh kv) = weight (skipn r kv).
Proof.
  intros kv sh r H Hz. remember (r - sh)%nat as n. revert sh H Heqn Hz.
  induction n as [|n IH]; intros sh H Hn Hz; [replace r with sh by lia; auto|].
  rewrite <- (IH (S sh)); try lia; [|intros; apply Hz; lia].
  assert (E : nth sh kv 0 = 0) by (apply Hz; lia).
  replace (S sh) with (1 + sh)%nat by lia. rewrite <- skipn_skipn.
  destruct (skipn sh kv) as [|d t] eqn:Es; auto.
  assert (d = 0). { rewrite <- E. replace (nth sh kv 0) with (nth 0 (skipn sh kv) 0) by (rewrite nth_skipn; f_equal; lia). rewrite Es. auto. }
  subst d. reflexivity.
Qed.

Lemma wind_loop_weight : forall fuel o kv bl sh, digits kv -> (1 <= bl <= 31)%nat ->
  (sh < length kv)%nat -> nth (length kv - 1) kv 0 <> 0 ->
  safeP (wind_loop fuel o kv bl sh) (fun ws =>
    (list_sum (map (fun w => minw (fst w)) ws) <= weight (skipn sh kv))%nat).
Proof.
  induction fuel as [|fuel IH]; intros o kv bl sh Hd Hbl Hsh Hlast ws; cbn [wind_loop]; [discriminate|].
  destruct (next_nonzero_ok (length kv) kv sh) as [Hr [Hnz Hz]]; [lia| |].
  { exists (length kv - 1)%nat. split; auto. lia. }
  set (r := next_nonzero (length kv) kv sh) in *. clearbody r.
  pose proof (firstn_length bl (skipn r kv)) as Hlen. rewrite skipn_length in Hlen.
  assert (Hdw : digits (firstn bl (skipn r kv))) by (apply digits_firstn, digits_skipn; auto).
  rewrite convert_from_vec_ok by (auto; lia).
  set (w := firstn bl (skipn r kv)) in *.
  assert (Hwb : Z.abs (value w) < 2 ^ Z.of_nat bl).
  { pose proof (value_bound w Hdw).
    assert (2 ^ Z.of_nat (length w) <= 2 ^ Z.of_nat bl) by (apply Z.pow_le_mono_r; lia). lia. }
  assert (Hi : i32 (value w) = value w).
  { assert (2 ^ Z.of_nat bl <= 2 ^ 31) by (apply Z.pow_le_mono_r; lia).
    apply i32_in. unfold I32_MIN, I32_MAX. lia. }
  rewrite (weight_skip_zeros kv sh r) by (auto; lia).
  pose proof (minw_least w Hdw) as Hw.
  assert (Hsplit : weight (skipn r kv) = (weight w + weight (skipn (r + bl) kv))%nat).
  { rewrite <- (firstn_skipn bl (skipn r kv)) at 1. rewrite weight_app, skipn_skipn.
    fold w. rewrite (Nat.add_comm bl r). reflexivity. }
  change (expect (ret (value w))) with (ret (value w)). rewrite ret_bind, Hi.
  destruct (length kv <=? r + bl)%nat eqn:El.
  - intros E. inversion E; subst ws. cbn [map fst list_sum fold_right]. lia.
  - apply Nat.leb_gt in El. rewrite fst_bind.
    destruct (fst (wind_loop fuel o kv bl (r + bl))) as [ws'|e|e] eqn:E'; try discriminate.
    specialize (IH o kv bl (r + bl)%nat Hd Hbl El Hlast ws' E').
    intros E. inversion E; subst ws. cbn [map fst list_sum fold_right]. unfold list_sum in IH. lia.
Qed.

Lemma insert_key_sum : forall f k l,
  (list_sum (map f (insert_key k l)) <= f k + list_sum (map f l))%nat.
Proof.
  intros f k l. induction l as [|h l IH]; cbn [insert_key map list_sum fold_right]; [lia|].
  unfold list_sum in *. destruct (k <? h); cbn [map fold_right]; [lia|]. destruct (k =? h); cbn [map fold_right]; lia.
Qed.

Lemma window_keys_sum : forall f ws,
  (list_sum (map f (window_keys ws)) <= list_sum (map (fun w => f (Z.abs (fst w))) ws))%nat.
Proof.
  intros f ws. unfold window_keys.
  assert (H : forall l0, (list_sum (map f (fold_left (fun l wsh => insert_key (Z.abs (fst wsh)) l) ws l0))
    <= list_sum (map f l0) + list_sum (map (fun w => f (Z.abs (fst w))) ws))%nat).
  { induction ws as [|w ws IH]; intros l0; cbn [fold_left]; [cbn; lia|].
    specialize (IH (insert_key (Z.abs (fst w)) l0)). pose proof (insert_key_sum f (Z.abs (fst w)) l0).
    cbn [map list_sum fold_right] in *. unfold list_sum in *. lia. }
  specialize (H []). cbn in H. exact H.
Qed.

Lemma insert_key_nodup : forall k l, StronglySorted Z.lt l -> StronglySorted Z.lt (insert_key k l).
Proof.
  intros k l H. induction H as [|h l Hl IH Hh]; cbn [insert_key].
  - repeat constructor.
  - destruct (k <? h) eqn:E1.
    + apply Z.ltb_lt in E1. constructor; [constructor; auto|]. constructor; auto.
      eapply Forall_impl; [|exact Hh]. intros; lia.
    + apply Z.ltb_ge in E1. destruct (k =? h) eqn:E2; [constructor; auto|]. apply Z.eqb_neq in E2.
      constructor; auto. apply Forall_forall. intros j Hj. apply insert_key_in in Hj.
      destruct Hj as [->|Hj]; [lia|]. rewrite Forall_forall in Hh. auto.
Qed.

Lemma window_keys_nodup : forall ws, NoDup (window_keys ws).
Proof.
  intros ws. assert (H : StronglySorted Z.lt (window_keys ws)).
  { unfold window_keys. assert (H0 : StronglySorted Z.lt (@nil Z)) by constructor. revert H0.
    generalize (@nil Z). induction ws as [|w ws IH]; intros l0 H0; cbn [fold_left]; auto.
    apply IH, insert_key_nodup, H0. }
  induction H as [|h l Hl IH Hh]; constructor; auto. intros Hin.
  rewrite Forall_forall in Hh. specialize (Hh h Hin). lia.
Qed.

(* ------------------------------------------------------------------ *)
(** ** The shipped chains are never worse than a minimal signed-digit form *)
Lemma shipped_below : forallb (fun kc => (length (snd kc) <? minw (fst kc))%nat) shipped_asc = true.
Proof. vm_compute. reflexivity. Qed.

Lemma chain_len_below : forall m k, (forallb (fun kc => length (snd kc) <? minw (fst kc)) m)%nat = true ->
  0 < k -> (S (chain_len m k) <= Nat.max 1 (minw k))%nat.
Proof.
  unfold chain_len. induction m as [|[k' c] m IH]; intros k H Hk; cbn [asc_get forallb fst snd] in *; [apply Nat.le_max_l|].
  apply andb_true_iff in H as [H1 H2]. apply Nat.ltb_lt in H1.
  destruct (k =? k') eqn:E; [|apply IH; auto]. apply Z.eqb_eq in E. subst k'. cbn [fst ret]. lia.
Qed.

Lemma minw_pos : forall k, 0 < k -> (1 <= minw k)%nat.
Proof.
  assert (H : forall p, (1 <= fst (NN p) /\ 1 <= snd (NN p))%nat).
  { induction p as [p IH|p IH|]; cbn [NN]; [destruct (NN p)|destruct (NN p)|]; cbn [fst snd] in *; lia. }
  intros [|p|p] Hk; try lia. cbn [minw]. apply H.
Qed.

Theorem planned_below : forall o k kv ws, 2 <= k < 2^32 ->
  fst (koyama_tsuruoka_vec o k) = Ok kv -> fst (wind_shifts o k ASC_BITLEN) = Ok ws ->
  (S (planned_adds shipped_asc ws) <= weight kv)%nat.
Proof.
  intros o k kv ws Hk Hkv Hws. 
  assert (K : digits kv /\ value kv = k /\ (0 < length kv)%nat /\ nth (length kv - 1) kv 0 <> 0).
  { pose proof (kt_ok o k) as K. unfold ovfP in K. rewrite Hkv in K.
    destruct K as [K1 [K2 [K3 K4]]]; [lia|]. repeat split; auto; try lia. }
  destruct K as [K1 [K2 [K3 K4]]].
  assert (P : Forall (fun w => (1 <= minw (fst w))%nat) ws /\ ws <> []).
  { pose proof (wind_shifts_ok o k ASC_BITLEN) as W. unfold ovfP in W. rewrite Hws in W.
    destruct W as [_ [W [_ W']]]; [lia|unfold ASC_BITLEN; lia|]. split; auto.
    eapply Forall_impl; [|exact W]. intros [w s] [Ho _]. cbn [fst] in *. rewrite <- minw_abs.
    apply minw_pos. destruct w; try discriminate; lia. }
  destruct P as [P P'].
  assert (Hloop : fst (wind_loop (S (length kv)) o kv ASC_BITLEN 0) = Ok ws).
  { unfold wind_shifts in Hws. rewrite fst_bind, Hkv in Hws. exact Hws. }
  pose proof (wind_loop_weight (S (length kv)) o kv ASC_BITLEN 0 K1 ltac:(unfold ASC_BITLEN; lia) K3 K4 ws Hloop) as HW.
  cbn [skipn] in HW. etransitivity; [|exact HW]. clear HW.
  unfold planned_adds. pose proof (window_keys_sum (chain_len shipped_asc) ws) as HS.
  assert (HL : (list_sum (map (fun w => chain_len shipped_asc (Z.abs (fst w))) ws) + length ws
                <= list_sum (map (fun w => minw (fst w)) ws))%nat).
  { clear - P. induction P as [|w ws Hw HF IH]; [cbn; lia|].
    cbn [map list_sum fold_right length]. unfold list_sum in IH.
    assert (0 < Z.abs (fst w)) by (destruct (fst w); cbn in *; lia).
    pose proof (chain_len_below shipped_asc (Z.abs (fst w)) shipped_below H). rewrite minw_abs in H0. lia. }
  destruct ws; [destruct (P' eq_refl)|]. cbn [length] in *. lia.
Qed.

(** at most three windows, so three chains of at most four additions and two more *)
Lemma shipped_longest : forallb (fun kc => (length (snd kc) <=? 4)%nat) shipped_asc = true.
Proof. vm_compute. reflexivity. Qed.

Lemma chain_len_le : forall m k b, (forallb (fun kc => length (snd kc) <=? b) m)%nat = true ->
  (chain_len m k <= b)%nat.
Proof.
  unfold chain_len. induction m as [|[k' c] m IH]; intros k b H; cbn [asc_get forallb fst snd] in *; [cbn; lia|].
  apply andb_true_iff in H as [H1 H2]. apply Nat.leb_le in H1. destruct (k =? k'); [auto|apply IH; auto].
Qed.

Theorem planned_max : forall o k ws, 2 <= k < 2^32 ->
  fst (wind_shifts o k ASC_BITLEN) = Ok ws -> (planned_adds shipped_asc ws <= 14)%nat.
Proof.
  intros o k ws Hk Hws. pose proof (wind_shifts_ok o k ASC_BITLEN) as W. unfold ovfP in W. rewrite Hws in W.
  destruct W as [_ [W [W1 W']]]; [lia|unfold ASC_BITLEN; lia|].
  assert (HF : Forall (fun w => (snd w <= 32)%nat) ws).
  { eapply Forall_impl; [|exact W]. intros w [_ [_ Hw]]. 
    destruct (bit_len_32_ok k ltac:(lia)) as [[_ E]|[H5 H6]]; [lia|].
    destruct (le_lt_dec (bit_len_32 k) 32) as [|H]; [lia|].
    assert (2 ^ 32 <= 2 ^ Z.of_nat (bit_len_32 k - 1)) by (apply Z.pow_le_mono_r; lia). lia. }
  destruct (spaced_length ASC_BITLEN ws 0) as [H|H]; auto; [unfold ASC_BITLEN; lia| |destruct (W' H)].
  change (1 + (32 - 0) / ASC_BITLEN)%nat with 3%nat in H.
  unfold planned_adds. pose proof (window_keys_sum (chain_len shipped_asc) ws) as HS.
  assert (HL : (list_sum (map (fun w => chain_len shipped_asc (Z.abs (fst w))) ws) <= 4 * length ws)%nat).
  { clear. induction ws as [|w ws IH]; [cbn; lia|]. cbn [map list_sum fold_right length]. unfold list_sum in IH.
    pose proof (chain_len_le shipped_asc (Z.abs (fst w)) 4 shipped_longest). lia. }
  lia.
Qed.

(* ------------------------------------------------------------------ *)
(** ** Bootstraps of a scalar multiplication *)
From Verif Require Import ShapeProofs AddProofs.

Section Bootstraps.
Context {B : backend}.

Definition lens (n : nat) (xs : list (ciphertext B)) (g : list nat) : Prop :=
  length g = length xs /\ forall i, (length (nth i xs []) <= n + nth i g 0)%nat.

Lemma add_cnt : forall (x y : ciphertext B) a b m, (length x <= a)%nat -> (length y <= b)%nat ->
  (Nat.max a b <= m)%nat ->
  cntP (pa_add x y) (fun z k => (length z <= S (Nat.max a b) /\ k <= 2 * m)%nat).
Proof.
  intros x y a b m Hx Hy Hm. eapply cntP_conseq; [apply pa_add_shape|]. cbv beta. intros z k H.
  pose proof (as_len _ _ _ _ _ H). pose proof (as_cnt _ _ _ _ _ H) as Hc. cbn iota in Hc.
  assert (active x y <= Nat.max (length x) (length y))%nat.
  { unfold active, add_wlen. pose proof (elen_length x). pose proof (elen_length y). lia. }
  split; lia.
Qed.

Lemma grow_app : forall c g, exists t, chain_grow c g = g ++ t.
Proof.
  induction c as [|a c IH]; intros g; cbn [chain_grow]; [exists []; rewrite app_nil_r; auto|].
  match goal with |- context [chain_grow c (g ++ ?l)] => destruct (IH (g ++ l)) as [t E] end.
  rewrite E, <- app_assoc. eauto.
Qed.

Lemma nth_le_max : forall l i b, (list_max l <= b)%nat -> (nth i l 0%nat <= b)%nat.
Proof.
  intros l i b H. rewrite list_max_le, Forall_forall in H.
  destruct (nth_in_or_default i l 0%nat) as [Hi| -> ]; [auto|lia].
Qed.

Lemma asc_cnt : forall c n b xs g, lens n xs g -> (list_max (chain_grow c g) <= b)%nat ->
  cntP (foldM (asc_step (fun x => ret (pa_opp x)) (fun x k => ret (pa_shift x k)) pa_add) c xs)
    (fun xs' k => lens n xs' (chain_grow c g) /\ (k <= 2 * length c * (n + b))%nat).
Proof.
  induction c as [|a c IH]; intros n b xs g H Hb; cbn [foldM chain_grow length] in *.
  - apply cntP_ret. split; [exact H|lia].
  - destruct H as [L H].
    set (gn := S (Nat.max (nth (l_idx a) g 0%nat) (r_shift a + nth (r_idx a) g 0%nat))) in *.
    assert (Hgn : (gn <= b)%nat).
    { destruct (grow_app c (g ++ [gn])) as [t E]. rewrite E in Hb.
      pose proof (nth_le_max _ (length g) b Hb) as Hx. rewrite <- app_assoc in Hx. cbn [app] in Hx. rewrite nth_middle in Hx. lia. }
    eapply cntP_bind with (P := fun xs1 k => lens n xs1 (g ++ [gn]) /\ (k <= 2 * (n + b))%nat).
    + unfold asc_step.
      eapply cntP_bind; [apply (cntP_index _ xs (l_idx a) [])|]. cbv beta. intros xl k1 [_ [ -> -> ]].
      rewrite ret_bind. eapply cntP_bind; [apply (cntP_index _ xs (r_idx a) [])|].
      cbv beta. intros xr k2 [_ [ -> -> ]]. rewrite !ret_bind.
      eapply cntP_bind; [apply (add_cnt _ _ (n + nth (l_idx a) g 0)%nat (n + (r_shift a + nth (r_idx a) g 0))%nat (n + b)%nat)|].
      * etransitivity; [apply Nat.eq_le_incl, sg_length|]. apply H.
      * etransitivity; [apply Nat.eq_le_incl, sg_length|]. rewrite pa_shift_length. specialize (H (r_idx a)). lia.
      * unfold gn in Hgn. lia.
      * cbv beta. intros s k [Hs Hk]. apply cntP_ret. split; [|lia].
        split; [rewrite !app_length; cbn [length]; lia|]. intros i.
        destruct (Nat.lt_ge_cases i (length xs)) as [Hi|Hi].
        -- rewrite !app_nth1 by lia. apply H.
        -- destruct (Nat.eq_dec i (length xs)) as [ -> |Hne].
           ++ rewrite nth_middle. rewrite <- L. rewrite nth_middle. unfold gn. lia.
           ++ rewrite nth_overflow by (rewrite app_length; cbn [length]; lia). cbn [length]. lia.
    + cbv beta. intros xs1 k [H1 Hk]. eapply cntP_conseq; [apply (IH n b xs1 (g ++ [gn])); auto|].
      cbv beta. intros xs' k' [H2 Hk']. split; auto. lia.
Qed.

Lemma asc_eval_cnt : forall c n b (x : ciphertext B), (length x <= n)%nat ->
  (list_max (chain_grow c [0]) <= b)%nat ->
  cntP (asc_eval_ct c x) (fun z k => (length z <= n + b)%nat /\ (k <= 2 * length c * (n + b))%nat).
Proof.
  intros c n b x Hx Hb. unfold asc_eval_ct, asc_eval.
  eapply cntP_bind; [apply (asc_cnt c n b [x] [0%nat])|]; auto.
  - split; auto. intros i; destruct i as [|[|i]]; cbn [nth length]; lia.
  - cbv beta. intros xs k [[L H] Hk]. apply cntP_ret. split; [|lia].
    destruct xs as [|x0 xs]; [cbn [last]; lia|]. rewrite last_nth, (nth_indep _ x []) by (cbn; lia).
    etransitivity; [apply H|]. pose proof (nth_le_max _ (length (x0 :: xs) - 1) b Hb). lia.
Qed.

Lemma mapM_cnt : forall A C (f : A -> M C) (P : A -> C -> Prop) w l,
  (forall a, In a l -> cntP (f a) (fun c k => P a c /\ (k <= w a)%nat)) ->
  cntP (mapM f l) (fun r k => Forall2 P l r /\ (k <= list_sum (map w l))%nat).
Proof.
  intros A C f P w l. induction l as [|a l IH]; intros H; cbn [mapM].
  - apply cntP_ret. split; [constructor|cbn; lia].
  - eapply cntP_bind; [apply H; left; auto|]. cbv beta. intros c k [H1 H2].
    eapply cntP_bind; [apply IH; intros; apply H; right; auto|]. cbv beta. intros r k' [H3 H4].
    apply cntP_ret. split; [constructor; auto|]. cbn [map list_sum fold_right]. unfold list_sum in H4. lia.
Qed.

Lemma sum_scaled : forall A (f : A -> nat) m l,
  list_sum (map (fun a => m * f a)%nat l) = (m * list_sum (map f l))%nat.
Proof. intros A f m l. induction l as [|a l IH]; cbn [map list_sum fold_right] in *; unfold list_sum in *; lia. Qed.

(** lengths of the partial sums grow by one each *)
Lemma sum_cnt : forall rows (acc : ciphertext B) n m b, (length acc <= n)%nat ->
  Forall (fun r => (length r <= m)%nat) rows -> (Nat.max n m + length rows <= b)%nat ->
  cntP (foldM (fun acc row => pa_add acc row) rows acc) (fun z k => (k <= 2 * length rows * b)%nat).
Proof.
  induction rows as [|r rows IH]; intros acc n m b Ha Hr Hb; cbn [foldM length] in *; [apply cntP_ret; lia|].
  inversion Hr; subst.
  eapply cntP_bind; [apply (add_cnt acc r n m b); auto; lia|]. cbv beta. intros z k [Hz Hk].
  eapply cntP_conseq; [apply (IH z (S (Nat.max n m)) m b); auto; lia|]. cbv beta. intros _ k' Hk'. lia.
Qed.

Theorem scalar_mul_cnt : forall pc k (x : ciphertext B) ws g, 2 <= Z.abs k <= I32_MAX ->
  forallb (fun kc => (list_max (chain_grow (snd kc) [0]) <=? g)%nat) (asc_12 pc) = true ->
  fst (wind_shifts (ovf pc) (Z.abs k) ASC_BITLEN) = Ok ws ->
  cntP (pa_scalar_mul pc k x) (fun _ n =>
    (n <= 2 * planned_adds (asc_12 pc) ws * (length x + g + 34))%nat).
Proof.
  intros pc k x ws g Hk Hg Hws. unfold pa_scalar_mul. apply cntP_analysed. unfold scalar_mul_impl.
  set (x' := if 0 <=? k then x else map w_opp x).
  assert (Lx : length x' = length x) by (unfold x'; destruct (0 <=? k); auto; apply map_length).
  clearbody x'. rewrite <- Lx. cbv zeta.
  assert (Hc : chk_i32 (ovf pc) (Z.abs k) = ret (Z.abs k)).
  { unfold chk_i32, in_i32. unfold I32_MIN, I32_MAX in *.
    replace (_ && _) with true by (symmetry; apply andb_true_iff; split; apply Z.leb_le; lia). reflexivity. }
  rewrite Hc, ret_bind. unfold u32. unfold I32_MAX in Hk. rewrite Z.mod_small by lia.
  replace (Z.abs k =? 0) with false by (symmetry; apply Z.eqb_neq; lia).
  replace (Z.abs k =? 1) with false by (symmetry; apply Z.eqb_neq; lia).
  assert (HW : Forall (fun w => (snd w <= 32)%nat) ws /\ (length ws <= 3)%nat).
  { pose proof (wind_shifts_ok (ovf pc) (Z.abs k) ASC_BITLEN) as W. unfold ovfP in W. rewrite Hws in W.
    destruct W as [_ [W [W1 W']]]; [lia|unfold ASC_BITLEN; lia|].
    assert (HF : Forall (fun w => (snd w <= 32)%nat) ws).
    { eapply Forall_impl; [|exact W]. intros w [_ [_ Hw]].
      destruct (bit_len_32_ok (Z.abs k) ltac:(lia)) as [[_ E]|[H5 H6]]; [lia|].
      destruct (le_lt_dec (bit_len_32 (Z.abs k)) 32) as [|H]; [lia|].
      assert (2 ^ 32 <= 2 ^ Z.of_nat (bit_len_32 (Z.abs k) - 1)) by (apply Z.pow_le_mono_r; lia). lia. }
    split; auto. destruct (spaced_length ASC_BITLEN ws 0) as [H|H]; auto; [unfold ASC_BITLEN; lia|].
    subst ws. cbn; lia. }
  destruct HW as [HW1 HW2].
  eapply cntP_bind with (P := fun ws' n => ws' = ws /\ n = 0%nat).
  { intros ws' E. rewrite Hws in E. inversion E; subst. split; auto.
    rewrite sil_wind_shifts. reflexivity. }
  cbv beta. intros ws' n0 [ -> -> ].
  set (m := (length x' + g)%nat).
  eapply cntP_bind.
  { apply (mapM_cnt _ _ _ (fun key wix => (length (snd wix) <= m)%nat) (fun key => (2 * m) * chain_len (asc_12 pc) key)%nat).
    intros key _.
    eapply cntP_bind with (P := fun c n => n = 0%nat /\ fst (asc_get (asc_12 pc) key) = Ok c /\
                                          (list_max (chain_grow c [0]) <= g)%nat).
    - intros c E. split; [|split; auto].
      + assert (sil (asc_get (asc_12 pc) key)) as H; [|rewrite H; reflexivity]. clear.
        induction (asc_12 pc) as [|[k' c] t IH]; cbn [asc_get]; [reflexivity|].
        destruct (key =? k'); [reflexivity|apply IH].
      + revert E. clear - Hg. induction (asc_12 pc) as [|[k' c'] t IH]; cbn [asc_get forallb snd] in *; [discriminate|].
        apply andb_true_iff in Hg as [H1 H2]. destruct (key =? k'); [|auto].
        cbn [fst ret]. intros E. inversion E; subst. apply Nat.leb_le. auto.
    - cbv beta. intros c n [ -> [Ec Hcg]].
      eapply cntP_bind; [apply cntP_expect, (asc_eval_cnt c (length x') g x'); auto|].
      cbv beta. intros z n [Hz Hn]. apply cntP_ret. cbn [snd]. split; [exact Hz|].
      unfold chain_len. rewrite Ec. unfold m. lia. }
  cbv beta. intros wm n1 [Hwm Hn1]. rewrite sum_scaled in Hn1.
  assert (Hget : forall key, cntP (map_get wm key) (fun z n => (length z <= m)%nat /\ n = 0%nat)).
  { intros key. clear - Hwm. induction Hwm as [|a [k' c] la wm H1 H2 IH]; cbn [map_get]; [apply cntP_panic|].
    destruct (key =? k'); [apply cntP_ret; auto|exact IH]. }
  eapply cntP_bind.
  { apply (mapM_cnt _ _ _ (fun w z => (length z <= m + 32)%nat) (fun _ => 0%nat)).
    intros [wi shi] Hin. unfold mulary_row. eapply cntP_bind; [apply Hget|]. cbv beta. intros z n [Hz -> ].
    apply cntP_ret. split; [|lia]. rewrite Forall_forall in HW1. specialize (HW1 _ Hin). cbn [snd] in HW1.
    destruct (wi <? 0); rewrite pa_shift_length; unfold pa_opp, opposite_impl; rewrite ?map_length; lia. }
  cbv beta. intros rows n2 [Hrows Hn2].
  assert (Hn2' : n2 = 0%nat).
  { revert Hn2. clear. assert (H : list_sum (map (fun _ : Z * nat => 0%nat) ws) = 0%nat); [|lia].
    induction ws; auto. }
  assert (HL : length rows = length ws) by (clear - Hrows; induction Hrows; cbn; auto).
  assert (HF : Forall (fun r => (length r <= m + 32)%nat) rows) by (clear - Hrows; induction Hrows; constructor; auto).
  subst n2. unfold planned_adds. set (S1 := list_sum (map (chain_len (asc_12 pc)) (window_keys ws))) in *.
  clearbody S1. clear Hrows Hget Hwm Hn2.
  destruct (length rows =? 1)%nat eqn:E1.
  { intros z Hz. pose proof (cntP_index _ rows 0 [] z Hz) as [_ [_ ->]].
    fold m. pose proof (Nat.mul_le_mono_l (2 * m * S1) (2 * (S1 + (length ws - 1)) * m)%nat 1).
    nia. }
  apply Nat.eqb_neq in E1. apply cntP_measure.
  eapply cntP_bind; [apply (cntP_index _ rows 0 [])|]. cbv beta. intros m0 k0 [H0 [ -> -> ]].
  eapply cntP_bind; [apply (cntP_index _ rows 1 [])|]. cbv beta. intros m1 k1 [H1 [ -> -> ]].
  assert (Hnth : forall i, (length (nth i rows []) <= m + 32)%nat).
  { intros i. destruct (nth_in_or_default i rows []) as [Hi| -> ]; [|cbn; lia].
    rewrite Forall_forall in HF. auto. }
  eapply cntP_bind; [apply (add_cnt _ _ (m + 32)%nat (m + 32)%nat (m + 34)%nat); auto; lia|].
  cbv beta. intros z k2 [Hz Hk2].
  eapply cntP_conseq; [apply (sum_cnt (skipn 2 rows) z (m + 33)%nat (m + 32)%nat (m + 34)%nat)|]; try lia.
  - apply Forall_forall. intros r Hr. rewrite Forall_forall in HF. apply HF.
    rewrite <- (firstn_skipn 2 rows). apply in_or_app. auto.
  - rewrite skipn_length. lia.
  - cbv beta. intros _ k3 Hk3. rewrite skipn_length in Hk3.
    assert (H2 : (length rows - 2 = length ws - 2)%nat) by lia. rewrite H2 in Hk3.
    assert (H3 : (length ws - 1 = S (length ws - 2))%nat) by lia. rewrite H3.
    set (q := (length ws - 2)%nat) in *. clearbody q. fold m. clear - Hn1 Hk2 Hk3. nia.
Qed.

End Bootstraps.
