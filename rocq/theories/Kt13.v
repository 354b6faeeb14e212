(** KtWindows.v for windows of 13 digits *)
From Verif Require Import Base Encryption Naf Spec BaseProofs ValueProofs EncProofs NafProofs KtLocal KtWindows.
From Coq Require Import FinFun ZifyBool ZifyNat.

(** ** The first window of a number *)
Definition first13 (k : Z) : option Z :=
  match fst (koyama_tsuruoka_vec false k) with Ok kv => Some (Z.abs (value (firstn 13 kv))) | _ => None end.
Definition own13 (v : Z) : bool := match first13 v with Some w => w =? v | None => false end.
Definition odds13 : list Z := map (fun i => 2 * Z.of_nat i + 1) (seq 0 4096).
Lemma in_odds13 : forall v, In v odds13 <-> (0 < v < 2^13 /\ Z.odd v = true).
Proof.
  intros v. unfold odds13. rewrite in_map_iff. split.
  - intros [i [<- H]]. apply in_seq in H. split; [lia|]. rewrite Z.odd_add, Z.odd_mul. reflexivity.
  - intros [H O]. exists (Z.to_nat (v / 2)). pose proof (Z.div_mod v 2 ltac:(lia)) as D. rewrite Zmod_odd, O in D.
    split; [lia|]. apply in_seq. lia.
Qed.
(** computed once *)
Definition windows13 : list Z := Eval vm_compute in filter own13 odds13.
Lemma windows13_eq : windows13 = filter own13 odds13.
Proof. vm_compute. reflexivity. Qed.
Definition check13 (t : trie) : bool := forallb (covers (fun v => has_z (Z.abs v) t) 12) phases.
Lemma windows13_checked : check13 (fold_right put_z Leaf windows13) = true.
Proof. vm_compute. reflexivity. Qed.
Lemma windows13_count : length windows13 = 3600%nat.
Proof. vm_compute. reflexivity. Qed.

Lemma window13_in_any : forall ws, check13 (fold_right put_z Leaf ws) = true ->
  forall l r, shaped l -> (r < length l)%nat -> nth r l 0 <> 0 ->
  In (Z.abs (value (firstn 13 (skipn r l)))) ws.
Proof.
  intros ws K l r HS Hr NZ. destruct (shaped_suffix l r HS Hr NZ) as [s [P A]].
  unfold check13 in K. pose proof (proj1 (forallb_forall _ _) K s P) as C.
  apply has_windows. apply (covers_ok (fun v => has_z (Z.abs v) (fold_right put_z Leaf ws)) 12 s (skipn r l) C A).
  assert (E : hd 0 (skipn r l) = nth r l 0).
  { clear - Hr. revert l Hr. induction r as [|r IH]; intros [|a l] H; cbn in *; auto; try lia. apply IH. lia. }
  rewrite E. exact NZ.
Qed.
Definition window13_in := window13_in_any windows13 windows13_checked.

(** ** The windows of a scalar *)
Section Loop.
Variable W : Z -> Prop.
Hypothesis W_small : forall v, W v -> 0 < v < 2^13.
Hypothesis W_all : forall l r, shaped l -> (r < length l)%nat -> nth r l 0 <> 0 -> W (Z.abs (value (firstn 13 (skipn r l)))).

Lemma wind_loop_in13 : forall fuel o kv sh, shaped kv -> digits kv -> (sh < length kv)%nat ->
  nth (length kv - 1) kv 0 <> 0 -> (length kv - sh < fuel)%nat ->
  okP (wind_loop fuel o kv 13 sh) (Forall (fun w => W (Z.abs (fst w)))).
Proof.
  induction fuel as [|fuel IH]; intros o kv sh HS Hd Hsh Hlast Hf; [lia|]. cbn [wind_loop].
  destruct (next_nonzero_ok (length kv) kv sh) as [Hr [Hnz Hz]]; [lia| |].
  { exists (length kv - 1)%nat. split; auto. lia. }
  set (r := next_nonzero (length kv) kv sh) in *. clearbody r.
  pose proof (firstn_length 13 (skipn r kv)) as Hlen. rewrite skipn_length in Hlen.
  assert (Hdw : digits (firstn 13 (skipn r kv))) by (apply digits_firstn, digits_skipn; auto).
  rewrite convert_from_vec_ok by (auto; lia).
  pose proof (W_all kv r HS ltac:(lia) Hnz) as Hw. set (w := firstn 13 (skipn r kv)) in *.
  assert (Hi : i32 (value w) = value w).
  { pose proof (W_small _ Hw). apply i32_in. unfold I32_MIN, I32_MAX. lia. }
  change (expect (ret (value w))) with (ret (value w)). rewrite ret_bind, Hi.
  destruct (length kv <=? r + 13)%nat eqn:El.
  - apply okP_ret. apply Forall_cons; [exact Hw|apply Forall_nil].
  - eapply okP_bind; [apply (IH o kv (r + 13)%nat); auto; lia|]. intros ws Hws. apply okP_ret.
    apply Forall_cons; [exact Hw|exact Hws].
Qed.
Lemma wind_shifts_any13 : forall o k, 0 < k < 2^32 ->
  ovfP o (wind_shifts o k 13) (Forall (fun w => W (Z.abs (fst w)))).
Proof.
  intros o k Hk. unfold wind_shifts. eapply ovfP_bind; [apply ovfP_and; [apply kt_ok; lia|apply kt_shaped; lia]|].
  intros kv [[H1 [H2 [H3 H4]]] HS]. apply okP_ovfP, wind_loop_in13; auto; try lia.
Qed.
End Loop.

Lemma windows13_spec : forall v, In v windows13 <-> In v odds13 /\ own13 v = true.
Proof.
  assert (G : forall l v, In v (filter own13 l) <-> In v l /\ own13 v = true) by (intros l v; apply filter_In).
  rewrite windows13_eq. exact (G odds13).
Qed.
Lemma odds13_nodup : NoDup odds13.
Proof. unfold odds13. apply FinFun.Injective_map_NoDup; [|apply seq_NoDup]. intros a b H. lia. Qed.
Lemma windows13_nodup : NoDup windows13.
Proof.
  assert (G : forall l, NoDup l -> NoDup (filter own13 l)) by (intros l H; apply NoDup_filter, H).
  rewrite windows13_eq. exact (G odds13 odds13_nodup).
Qed.
Lemma windows13_small : forall v, In v windows13 -> 0 < v < 2^13.
Proof.
  assert (G : forall l, (forall v, In v l -> 0 < v < 2^13) -> forall v, In v (filter own13 l) -> 0 < v < 2^13).
  { intros l Hl v H. apply filter_In in H. apply Hl, H. }
  rewrite windows13_eq. exact (G odds13 (fun v H => proj1 (proj1 (in_odds13 v) H))).
Qed.
Definition wind_shifts_in13 := wind_shifts_any13 (fun v => In v windows13) windows13_small window13_in.
