(** The shipped addition-chain table *)
From Verif Require Import Base Params Asc AscTable Arith Spec BaseProofs NafProofs ScalarProofs.
From Coq Require Import ZifyBool ZifyNat.

Fixpoint wfb (n : nat) (c : asc) : bool :=
  match c with
  | [] => true
  | a :: c => ((l_idx a <? n) && (r_idx a <? n))%nat && wfb (S n) c
  end.
Lemma wfb_ok : forall c n, wfb n c = true -> chain_wf n c.
Proof.
  induction c as [|a c IH]; intros n H; cbn [wfb chain_wf] in *; auto.
  apply andb_prop in H. destruct H as [H1 H2]. split; [lia|]. split; [lia|auto].
Qed.

(** magnitude of all intermediate values, and all shift amounts *)
Fixpoint small (c : asc) (vals : list Z) : bool :=
  match c with
  | [] => true
  | a :: c => (r_shift a <=? 20)%nat && (Z.abs (chain_next vals a) <=? 2^20) && small c (vals ++ [chain_next vals a])
  end.

Definition entry_ok (g : nat) (e : Z * asc) : bool :=
  wfb 1 (snd e) && (chain_value (snd e) =? fst e) && (chain_growth (snd e) <=? g)%nat && small (snd e) [1].

(** i64 evaluation does not overflow *)
Lemma i64_run_ok : forall o c vals, Forall (fun v => Z.abs v <= 2^20) vals ->
  chain_wf (length vals) c -> small c vals = true ->
  fst (foldM (asc_step (a_opp (arith_i64 o)) (a_shift (arith_i64 o)) (a_add (arith_i64 o))) c vals)
    = Ok (chain_run c vals).
Proof.
  intros o. induction c as [|a c IH]; intros vals HF Hwf Hs; auto.
  cbn [foldM chain_run]. destruct Hwf as [W1 [W2 W3]]. cbn [small] in Hs.
  apply andb_prop in Hs. destruct Hs as [Hs Hs3]. apply andb_prop in Hs. destruct Hs as [Hs1 Hs2].
  assert (HN : forall i, (i < length vals)%nat -> Z.abs (nth i vals 0) <= 2^20).
  { intros i Hi. rewrite Forall_forall in HF. apply HF, nth_In; auto. }
  pose proof (HN _ W1) as N1. pose proof (HN _ W2) as N2.
  set (l := nth (l_idx a) vals 0) in *. set (r := nth (r_idx a) vals 0) in *.
  assert (Hp : 1 <= 2 ^ Z.of_nat (r_shift a) <= 2^20).
  { split; [apply (Z.pow_le_mono_r 2 0); lia|apply Z.pow_le_mono_r; lia]. }
  assert (Hr : Z.abs (r * 2 ^ Z.of_nat (r_shift a)) <= 2 ^ 40) by (rewrite Z.abs_mul; nia).
  assert (E : asc_step (a_opp (arith_i64 o)) (a_shift (arith_i64 o)) (a_add (arith_i64 o)) vals a
              = ret (vals ++ [chain_next vals a])).
  { unfold asc_step. rewrite (index_ok _ vals (l_idx a) 0), ret_bind by auto. fold l.
    cbn [a_opp arith_i64]. rewrite chk_i64_in, ret_bind by (unfold I64_MIN, I64_MAX; lia).
    rewrite (index_ok _ vals (r_idx a) 0), ret_bind by auto. fold r.
    cbn [a_shift arith_i64]. unfold i64_shift, shift_amount.
    replace (Z.of_nat (r_shift a) <? 64) with true by lia. rewrite ret_bind.
    replace (i64 (r * 2 ^ Z.of_nat (r_shift a))) with (r * 2 ^ Z.of_nat (r_shift a)).
    2:{ unfold i64. rewrite Z.mod_small by lia. lia. }
    rewrite ret_bind. rewrite chk_i64_in, ret_bind by (unfold I64_MIN, I64_MAX; lia).
    cbn [a_add arith_i64]. unfold chain_next. fold l r.
    set (t := r * 2 ^ Z.of_nat (r_shift a)) in *. clearbody t.
    rewrite chk_i64_in, ret_bind.
    - f_equal. f_equal. f_equal. destruct (l_pos a), (r_pos a); cbn [sg]; ring.
    - unfold I64_MIN, I64_MAX. destruct (l_pos a), (r_pos a); lia. }
  rewrite E, ret_bind. apply IH; auto.
  - apply Forall_app. split; auto. repeat constructor. lia.
  - rewrite app_length. cbn [length]. rewrite Nat.add_1_r. auto.
Qed.

Lemma entry_value : forall g e o, entry_ok g e = true -> fst (asc_value o (snd e)) = Ok (fst e).
Proof.
  intros g [k c] o H. unfold entry_ok in H. cbn [fst snd] in *.
  apply andb_prop in H. destruct H as [H Hs]. apply andb_prop in H. destruct H as [H _].
  apply andb_prop in H. destruct H as [Hw Hv]. apply wfb_ok in Hw.
  unfold asc_value, asc_eval. rewrite fst_expect, fst_bind, i64_run_ok; auto.
  - cbn [fst ret]. unfold chain_value in Hv. f_equal. lia.
  - repeat constructor. cbn. lia.
Qed.

(* ------------------------------------------------------------------ *)
(** keys are a, a+2, a+4, ... *)
Fixpoint odds_from (a : Z) (m : asc_map) : bool :=
  match m with
  | [] => true
  | (k, c) :: t => (k =? a) && odds_from (a + 2) t
  end.
Lemma odds_get : forall m a n, odds_from a m = true -> a <= n < a + 2 * Z.of_nat (length m) ->
  Z.odd n = Z.odd a -> exists c, In (n, c) m /\ asc_get m n = ret c.
Proof.
  induction m as [|[k c] m IH]; intros a n H Hn Ho; cbn [odds_from length asc_get] in *; [lia|].
  apply andb_prop in H. destruct H as [H1 H2]. assert (k = a) by lia. subst k.
  destruct (n =? a) eqn:E.
  - exists c. replace n with a by lia. split; [left|]; auto.
  - destruct (IH (a + 2) n) as [c' [I1 I2]]; auto.
    + assert (n <> a + 1).
      { intros ->. rewrite Z.odd_add in Ho. destruct (Z.odd a); discriminate. } lia.
    + rewrite Z.odd_add, Ho. cbn. destruct (Z.odd a); auto.
    + exists c'. split; [right|]; auto.
Qed.
Lemma odds_keys : forall m a, odds_from a m = true ->
  map fst m = map (fun i => a + 2 * Z.of_nat i) (seq 0 (length m)).
Proof.
  induction m as [|[k c] m IH]; intros a H; auto. cbn [odds_from] in H.
  apply andb_prop in H. destruct H as [H1 H2]. cbn [map length seq fst].
  f_equal; [lia|]. rewrite (IH _ H2), <- seq_shift, map_map. apply map_ext. intros i. lia.
Qed.

Lemma keys_ok : odds_from 1 shipped_asc = true.
Proof. vm_compute. reflexivity. Qed.
Lemma count_ok : length shipped_asc = 2048%nat.
Proof. vm_compute. reflexivity. Qed.

Definition chunk_ok (m : asc_map) : bool := forallb (entry_ok 16) m.
Lemma chunk_0 : chunk_ok asc_chunk_0 = true. Proof. vm_compute. reflexivity. Qed.
Lemma chunk_1 : chunk_ok asc_chunk_1 = true. Proof. vm_compute. reflexivity. Qed.
Lemma chunk_2 : chunk_ok asc_chunk_2 = true. Proof. vm_compute. reflexivity. Qed.
Lemma chunk_3 : chunk_ok asc_chunk_3 = true. Proof. vm_compute. reflexivity. Qed.
Lemma chunk_4 : chunk_ok asc_chunk_4 = true. Proof. vm_compute. reflexivity. Qed.
Lemma chunk_5 : chunk_ok asc_chunk_5 = true. Proof. vm_compute. reflexivity. Qed.
Lemma chunk_6 : chunk_ok asc_chunk_6 = true. Proof. vm_compute. reflexivity. Qed.
Lemma chunk_7 : chunk_ok asc_chunk_7 = true. Proof. vm_compute. reflexivity. Qed.

Lemma table_ok : forall e, In e shipped_asc -> entry_ok 16 e = true.
Proof.
  assert (H : forall m e, chunk_ok m = true -> In e m -> entry_ok 16 e = true).
  { intros m e H. apply forallb_forall. exact H. }
  intros e He. unfold shipped_asc in He. rewrite !in_app_iff in He.
  destruct He as [He|[He|[He|[He|[He|[He|[He|He]]]]]]].
  - apply (H _ e chunk_0 He).
  - apply (H _ e chunk_1 He).
  - apply (H _ e chunk_2 He).
  - apply (H _ e chunk_3 He).
  - apply (H _ e chunk_4 He).
  - apply (H _ e chunk_5 He).
  - apply (H _ e chunk_6 He).
  - apply (H _ e chunk_7 He).
Qed.

Theorem shipped_valid : table_valid 16 shipped_asc.
Proof.
  intros n Hn Ho. destruct (odds_get shipped_asc 1 n keys_ok) as [c [I1 I2]].
  - rewrite count_ok. change (2 * Z.of_nat 2048) with 4096. lia.
  - auto.
  - exists c. rewrite I2. split; auto. pose proof (table_ok _ I1) as H. unfold entry_ok in H. cbn [fst snd] in H.
    apply andb_prop in H. destruct H as [H _]. apply andb_prop in H. destruct H as [H Hg].
    apply andb_prop in H. destruct H as [Hw Hv]. split; [apply wfb_ok; auto|]. split; lia.
Qed.
