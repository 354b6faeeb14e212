(** The windows that occur: finite check over the automaton of KtLocal.v *)
From Verif Require Import Base Encryption Naf Spec BaseProofs ValueProofs EncProofs NafProofs KtLocal.
From Coq Require Import FinFun ZifyBool ZifyNat.

(** ** Sets of positive numbers *)
Inductive trie := Leaf | Node (b : bool) (l r : trie).
Fixpoint put (p : positive) (t : trie) : trie :=
  match p, t with
  | xH, Leaf => Node true Leaf Leaf
  | xH, Node _ l r => Node true l r
  | xO p, Leaf => Node false (put p Leaf) Leaf
  | xO p, Node b l r => Node b (put p l) r
  | xI p, Leaf => Node false Leaf (put p Leaf)
  | xI p, Node b l r => Node b l (put p r)
  end.
Fixpoint has (p : positive) (t : trie) : bool :=
  match t with
  | Leaf => false
  | Node b l r => match p with xH => b | xO p => has p l | xI p => has p r end
  end.
Lemma has_leaf : forall p, has p Leaf = false.
Proof. intros []; reflexivity. Qed.
Lemma has_put : forall p q t, has p (put q t) = true -> p = q \/ has p t = true.
Proof.
  intros p q. revert p. induction q as [q IH|q IH|]; intros [p|p|] [|b l r] H; cbn [put has] in *; auto;
    try (rewrite ?has_leaf in H; discriminate);
    destruct (IH _ _ H) as [->|K]; auto; rewrite ?has_leaf in K; discriminate.
Qed.

(** ** The first window of a number *)
Definition first_window (k : Z) : option Z :=
  match fst (koyama_tsuruoka_vec false k) with Ok kv => Some (Z.abs (value (firstn 12 kv))) | _ => None end.
Definition own (v : Z) : bool := match first_window v with Some w => w =? v | None => false end.
Definition odds : list Z := map (fun i => 2 * Z.of_nat i + 1) (seq 0 2048).
Lemma in_odds : forall v, In v odds <-> (0 < v < 2^12 /\ Z.odd v = true).
Proof.
  intros v. unfold odds. rewrite in_map_iff. split.
  - intros [i [<- H]]. apply in_seq in H. split; [lia|]. rewrite Z.odd_add, Z.odd_mul. reflexivity.
  - intros [H O]. exists (Z.to_nat (v / 2)). pose proof (Z.div_mod v 2 ltac:(lia)) as D. rewrite Zmod_odd, O in D.
    split; [lia|]. apply in_seq. lia.
Qed.
Definition windows : list Z := filter own odds.
Definition put_z (v : Z) (t : trie) : trie := match v with Zpos p => put p t | _ => t end.
Definition has_z (v : Z) (t : trie) : bool := match v with Zpos p => has p t | _ => false end.
Lemma has_windows : forall l v, has_z v (fold_right put_z Leaf l) = true -> In v l.
Proof.
  intros l v. destruct v as [|p|p]; cbn [has_z]; try discriminate.
  induction l as [|[|q|q] l IH]; cbn [fold_right put_z In]; auto.
  - rewrite has_leaf. discriminate.
  - intros H. destruct (has_put _ _ _ H) as [->|K]; auto.
Qed.

Definition check (t : trie) : bool := forallb (covers (fun v => has_z (Z.abs v) t) 11) phases.
Lemma windows_checked : check (fold_right put_z Leaf windows) = true.
Proof. vm_compute. reflexivity. Qed.
Lemma windows_count : length windows = 1792%nat.
Proof. vm_compute. reflexivity. Qed.

Lemma window_in_any : forall ws, check (fold_right put_z Leaf ws) = true ->
  forall l r, shaped l -> (r < length l)%nat -> nth r l 0 <> 0 ->
  In (Z.abs (value (firstn 12 (skipn r l)))) ws.
Proof.
  intros ws K l r HS Hr NZ. destruct (shaped_suffix l r HS Hr NZ) as [s [P A]].
  unfold check in K. pose proof (proj1 (forallb_forall _ _) K s P) as C.
  apply has_windows. apply (covers_ok (fun v => has_z (Z.abs v) (fold_right put_z Leaf ws)) 11 s (skipn r l) C A).
  assert (E : hd 0 (skipn r l) = nth r l 0).
  { clear - Hr. revert l Hr. induction r as [|r IH]; intros [|a l] H; cbn in *; auto; try lia. apply IH. lia. }
  rewrite E. exact NZ.
Qed.
Definition window_in := window_in_any windows windows_checked.

(** ** The windows of a scalar *)
Section Loop.
Variable W : Z -> Prop.
Hypothesis W_small : forall v, W v -> 0 < v < 2^12.
Hypothesis W_all : forall l r, shaped l -> (r < length l)%nat -> nth r l 0 <> 0 -> W (Z.abs (value (firstn 12 (skipn r l)))).

Lemma wind_loop_in : forall fuel o kv sh, shaped kv -> digits kv -> (sh < length kv)%nat ->
  nth (length kv - 1) kv 0 <> 0 -> (length kv - sh < fuel)%nat ->
  okP (wind_loop fuel o kv 12 sh) (Forall (fun w => W (Z.abs (fst w)))).
Proof.
  induction fuel as [|fuel IH]; intros o kv sh HS Hd Hsh Hlast Hf; [lia|]. cbn [wind_loop].
  destruct (next_nonzero_ok (length kv) kv sh) as [Hr [Hnz Hz]]; [lia| |].
  { exists (length kv - 1)%nat. split; auto. lia. }
  set (r := next_nonzero (length kv) kv sh) in *. clearbody r.
  pose proof (firstn_length 12 (skipn r kv)) as Hlen. rewrite skipn_length in Hlen.
  assert (Hdw : digits (firstn 12 (skipn r kv))) by (apply digits_firstn, digits_skipn; auto).
  rewrite convert_from_vec_ok by (auto; lia).
  pose proof (W_all kv r HS ltac:(lia) Hnz) as Hw. set (w := firstn 12 (skipn r kv)) in *.
  assert (Hi : i32 (value w) = value w).
  { pose proof (W_small _ Hw). apply i32_in. unfold I32_MIN, I32_MAX. lia. }
  change (expect (ret (value w))) with (ret (value w)). rewrite ret_bind, Hi.
  destruct (length kv <=? r + 12)%nat eqn:El.
  - apply okP_ret. apply Forall_cons; [exact Hw|apply Forall_nil].
  - eapply okP_bind; [apply (IH o kv (r + 12)%nat); auto; lia|]. intros ws Hws. apply okP_ret.
    apply Forall_cons; [exact Hw|exact Hws].
Qed.
Lemma wind_shifts_any : forall o k, 0 < k < 2^32 ->
  ovfP o (wind_shifts o k 12) (Forall (fun w => W (Z.abs (fst w)))).
Proof.
  intros o k Hk. unfold wind_shifts. eapply ovfP_bind; [apply ovfP_and; [apply kt_ok; lia|apply kt_shaped; lia]|].
  intros kv [[H1 [H2 [H3 H4]]] HS]. apply okP_ovfP, wind_loop_in; auto; try lia.
Qed.
(** the window at the start of an odd number's digits *)
Lemma first_any : forall k, 0 < k < 2^32 -> Z.odd k = true ->
  okP (koyama_tsuruoka_vec false k) (fun kv => digits kv /\ W (Z.abs (value (firstn 12 kv))) /\ nth 0 kv 0 <> 0).
Proof.
  intros k Hk Ho. apply ovfP_okP. eapply ovfP_conseq; [apply ovfP_and; [apply kt_ok; lia|apply kt_shaped; lia]|].
  intros kv [[H1 [H2 [H3 H4]]] HS].
  assert (NZ : nth 0 kv 0 <> 0).
  { intros E. destruct kv as [|d kv]; cbn in E.
    - cbn in H2. subst. discriminate.
    - subst d. cbn [value] in H2. rewrite <- H2, Z.add_0_l, Z.odd_mul in Ho. discriminate. }
  split; [exact H1|]. split; [|exact NZ].
  apply (W_all kv 0); auto. destruct kv; cbn in *; [congruence|lia].
Qed.
End Loop.

(** generic in the list: unfolding [windows] would compute it *)
Lemma windows_spec : forall v, In v windows <-> In v odds /\ own v = true.
Proof.
  assert (G : forall l v, In v (filter own l) <-> In v l /\ own v = true) by (intros l v; apply filter_In).
  exact (G odds).
Qed.
Lemma odds_nodup : NoDup odds.
Proof. unfold odds. apply FinFun.Injective_map_NoDup; [|apply seq_NoDup]. intros a b H. lia. Qed.
Lemma windows_nodup : NoDup windows.
Proof.
  assert (G : forall l, NoDup l -> NoDup (filter own l)) by (intros l H; apply NoDup_filter, H).
  exact (G odds odds_nodup).
Qed.
Lemma windows_small : forall v, In v windows -> 0 < v < 2^12.
Proof.
  assert (G : forall l, (forall v, In v l -> 0 < v < 2^12) -> forall v, In v (filter own l) -> 0 < v < 2^12).
  { intros l Hl v H. apply filter_In in H. apply Hl, H. }
  exact (G odds (fun v H => proj1 (proj1 (in_odds v) H))).
Qed.
Definition wind_shifts_in := wind_shifts_any (fun v => In v windows) windows_small window_in.
Definition first_in := first_any (fun v => In v windows) windows_small window_in.
