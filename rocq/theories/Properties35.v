(** C70: addition is parallel, and the example of the README *)
From Verif Require Import Base Backend Words Encryption Params Pbs Addition Readme Spec BaseProofs ValueProofs WordsProofs EncProofs
  CountProofs Contract AddProofs Instances Properties1 Properties2.
From Coq Require Import ZifyBool ZifyNat.

(* ------------------------------------------------------------------ *)
(** ** Specification *)

(** README.md "using, e.g., an alphabet {-1,0,1} for base-2 integer
    representation, a parallel addition algorithm does exist": every word of the
    result depends on a bounded number of words of the operands *)

(** equal words at positions j - 2, j - 1 and j *)
Definition near {A} (j : nat) (x x' : list A) : Prop :=
  forall i, (i <= j <= i + 2)%nat -> nth_error x i = nth_error x' i.
(** what the cloud sees of the shape: the length, and which words are trivial zeros *)
Definition shape {B} (x x' : ciphertext B) : Prop :=
  Forall2 (fun a b => (a = Triv 0) <-> (b = Triv 0)) x x'.

(** "In the standard integer representation, parallel addition is not possible
    due to the carry": bits j - w, ..., j of a *)
Definition bits_at (a : Z) (j w : nat) : list bool := map (fun i => Z.testbit a (Z.of_nat (j - i))) (seq 0 (S w)).

(* ------------------------------------------------------------------ *)
Section Local.
Context {B : backend}.

Lemma triv_zero_iff : forall a : word B, is_triv_zero a = true <-> a = Triv 0.
Proof.
  intros [c|m]; cbn [is_triv_zero]; split; intros H; try discriminate.
  - f_equal. lia.
  - inversion H. reflexivity.
Qed.
Lemma shape_triv : forall a b : word B, ((a = Triv 0) <-> (b = Triv 0)) -> is_triv_zero a = is_triv_zero b.
Proof.
  intros a b H. rewrite <- !triv_zero_iff in H. destruct (is_triv_zero a), (is_triv_zero b); auto; [symmetry|]; apply H; reflexivity.
Qed.
Lemma shape_zeros : forall x x' : ciphertext B, shape x x' -> count_triv_zeros x = count_triv_zeros x'.
Proof.
  intros x x' H. induction H as [|a b x x' Hab H IH]; [reflexivity|]. cbn [count_triv_zeros].
  rewrite (shape_triv _ _ Hab), IH. reflexivity.
Qed.
Lemma shape_length : forall x x' : ciphertext B, shape x x' -> length x = length x'.
Proof. intros x x' H. induction H; cbn; congruence. Qed.
Lemma shape_rev : forall x x' : ciphertext B, shape x x' -> shape (rev x) (rev x').
Proof.
  intros x x' H. induction H as [|a b x x' Hab H IH]; [constructor|]. cbn [rev]. apply Forall2_app; [exact IH|].
  constructor; [exact Hab|constructor].
Qed.

Lemma zip_nth : forall f (w y : ciphertext B) i, nth_error (zip_inplace f w y) i =
  match nth_error w i, nth_error y i with Some a, Some b => Some (f a b) | r, _ => r end.
Proof.
  intros f. induction w as [|a w IH]; intros [|b y] [|i]; cbn [zip_inplace nth_error]; try reflexivity.
  - destruct (nth_error w i); reflexivity.
  - apply IH.
Qed.
Lemma nth_of_error : forall A (l : list A) i d, nth i l d = match nth_error l i with Some a => a | None => d end.
Proof. induction l as [|a l IH]; intros [|i] d; cbn; auto. Qed.
Lemma nth_error_firstn : forall A n (l : list A) i, nth_error (firstn n l) i = if (i <? n)%nat then nth_error l i else None.
Proof.
  induction n as [|n IH]; intros l i; cbn [firstn]; [destruct i; reflexivity|].
  destruct l as [|a l]; [destruct i as [|i]; cbn [nth_error]; [|destruct (S i <? S n)%nat]; reflexivity|].
  destruct i as [|i]; cbn [nth_error]; [reflexivity|]. rewrite IH. reflexivity.
Qed.
Lemma nth_error_skipn : forall A n (l : list A) i, nth_error (skipn n l) i = nth_error l (n + i).
Proof. induction n as [|n IH]; intros [|a l] i; cbn; auto. destruct i; reflexivity. Qed.

(** a loop, position by position *)
Lemma mapM_point : forall A C (f : A -> M C) l r, fst (mapM f l) = Ok r -> forall i,
  match nth_error l i with
  | Some a => exists c, fst (f a) = Ok c /\ nth_error r i = Some c
  | None => nth_error r i = None
  end.
Proof.
  intros A C f. induction l as [|b l IH]; intros r H i.
  - cbn in H. inversion H. destruct i; reflexivity.
  - cbn [mapM] in H. rewrite fst_bind in H. destruct (fst (f b)) as [c|e|e] eqn:Ef; try discriminate.
    rewrite fst_bind in H. destruct (fst (mapM f l)) as [t|e|e] eqn:Et; try discriminate.
    cbn [fst ret] in H. inversion H. subst r. destruct i as [|i]; cbn [nth_error]; [eauto|]. apply (IH _ eq_refl i).
Qed.
Lemma mapM_same_at : forall A C (f g : A -> M C) l l' r r', fst (mapM f l) = Ok r -> fst (mapM g l') = Ok r' ->
  forall i, match nth_error l i, nth_error l' i with
            | Some a, Some a' => fst (f a) = fst (g a')
            | None, None => True
            | _, _ => False
            end -> nth_error r i = nth_error r' i.
Proof.
  intros A C f g l l' r r' H H' i K. pose proof (mapM_point _ _ f l r H i) as P. pose proof (mapM_point _ _ g l' r' H' i) as P'.
  destruct (nth_error l i) as [a|], (nth_error l' i) as [a'|]; try contradiction.
  - destruct P as [c [P1 P2]], P' as [c' [P1' P2']]. congruence.
  - congruence.
Qed.
Lemma nth_error_seq : forall n s i, nth_error (seq s n) i = if (i <? n)%nat then Some (s + i)%nat else None.
Proof.
  induction n as [|n IH]; intros s i; cbn [seq]; [destruct i; reflexivity|]. destruct i as [|i]; cbn [nth_error].
  - replace (0 <? S n)%nat with true by reflexivity. f_equal. lia.
  - rewrite IH. destruct (i <? n)%nat eqn:E; destruct (S i <? S n)%nat eqn:E'; try lia; auto. f_equal. lia.
Qed.
Lemma nth_error_triv : forall n i, nth_error (@ct_triv B n) i = if (i <? n)%nat then Some triv0 else None.
Proof.
  intros n. unfold ct_triv. induction n as [|n IH]; intros [|i]; cbn [repeat nth_error]; try reflexivity. rewrite IH. reflexivity.
Qed.

Variables (is_add refresh : bool).

(** the parts of the sum, addition.rs:70-129 *)
Let w_of (wlen n : nat) (x y : ciphertext B) : ciphertext B :=
  zip_inplace (if is_add then w_add else w_sub) (firstn wlen x ++ ct_triv (wlen - n)) y.
Let f_of (r : nat) (w : ciphertext B) (i0 : nat) : M (word B) :=
  let i := (i0 + r)%nat in
  let wi_3 := w_mul_const (nth i w triv0) 3 in
  let wi_3 := if (0 <? i0)%nat then w_add wi_3 (nth (i - 1) w triv0) else wi_3 in
  f_4_pi_5 wi_3.
Let s_of (w q : ciphertext B) (i : nat) : word B :=
  let wi := w_sub (nth i w triv0) (w_mul_const (nth i q triv0) 2) in
  if (0 <? i)%nat then w_add wi (nth (i - 1) q triv0) else wi.

Lemma w_at : forall wlen n x x' y y' i, length x = length x' -> nth_error x i = nth_error x' i -> nth_error y i = nth_error y' i ->
  nth_error (w_of wlen n x y) i = nth_error (w_of wlen n x' y') i.
Proof.
  intros wlen n x x' y y' i L Hx Hy. unfold w_of. rewrite !zip_nth.
  assert (E : nth_error (firstn wlen x ++ ct_triv (wlen - n)) i = nth_error (firstn wlen x' ++ ct_triv (wlen - n)) i).
  { destruct (Nat.lt_ge_cases i (length (firstn wlen x))) as [H|H].
    - rewrite !nth_error_app1, !nth_error_firstn, Hx by (rewrite ?firstn_length in *; lia). reflexivity.
    - rewrite !nth_error_app2 by (rewrite ?firstn_length in *; lia). rewrite !firstn_length, L. reflexivity. }
  rewrite E, Hy. reflexivity.
Qed.
Lemma q_at : forall r n w w' q q', fst (mapM (f_of r w) (seq 0 n)) = Ok q -> fst (mapM (f_of r w') (seq 0 n)) = Ok q' ->
  forall i, nth_error w i = nth_error w' i -> nth_error w (i - 1) = nth_error w' (i - 1) ->
  nth_error (ct_triv r ++ q) i = nth_error (ct_triv r ++ q') i.
Proof.
  intros r n w w' q q' H H' i E1 E2.
  assert (Lr : length (@ct_triv B r) = r) by (unfold ct_triv; apply repeat_length).
  destruct (Nat.lt_ge_cases i r) as [Hi|Hi].
  - rewrite !nth_error_app1 by lia. reflexivity.
  - rewrite !nth_error_app2 by lia. rewrite Lr. apply (mapM_same_at _ _ _ _ _ _ _ _ H H').
    rewrite nth_error_seq. destruct (i - r <? n)%nat; [|exact I]. unfold f_of. cbn [Nat.add].
    replace (i - r + r)%nat with i by lia. rewrite !(nth_of_error _ w), !(nth_of_error _ w'), E1, E2. reflexivity.
Qed.
Lemma s_at : forall w w' q q' i, nth_error w i = nth_error w' i -> nth_error q i = nth_error q' i ->
  ((0 < i)%nat -> nth_error q (i - 1) = nth_error q' (i - 1)) -> s_of w q i = s_of w' q' i.
Proof.
  intros w w' q q' i E1 E2 E3. unfold s_of. rewrite (nth_of_error _ w), (nth_of_error _ w'), (nth_of_error _ q i), (nth_of_error _ q' i), E1, E2.
  destruct (0 <? i)%nat eqn:Hi; [|reflexivity]. rewrite (nth_of_error _ q), (nth_of_error _ q'), E3 by lia. reflexivity.
Qed.

Lemma map_seq_at : forall (f : nat -> word B) n i, nth_error (map f (seq 0 n)) i = if (i <? n)%nat then Some (f i) else None.
Proof. intros f n i. rewrite nth_error_map, nth_error_seq. destruct (i <? n)%nat; reflexivity. Qed.
Lemma mapM_length : forall A C (f : A -> M C) l r, fst (mapM f l) = Ok r -> length r = length l.
Proof. intros A C f l r H. exact (CountProofs.mapM_len A C f l r H). Qed.
Lemma last_nth : forall A (l : list A) d, last l d = nth (length l - 1) l d.
Proof.
  intros A l d. destruct l as [|b l]; [reflexivity|]. assert (N : b :: l <> []) by discriminate. revert N. generalize (b :: l). clear b l. intros l N.
  destruct (exists_last N) as [t [a ->]]. rewrite last_last, app_length. cbn [length].
  rewrite app_nth2 by lia. replace (length t + 1 - 1 - length t)%nat with 0%nat by lia. reflexivity.
Qed.

Lemma sum_local : forall (x x' y y' z z' : ciphertext B) j, shape x x' -> shape y y' ->
  fst (add_sub_impl is_add x y refresh) = Ok z -> fst (add_sub_impl is_add x' y' refresh) = Ok z' ->
  near j x x' -> near j y y' -> length z = length z' /\ nth_error z j = nth_error z' j.
Proof.
  intros x x' y y' z z' j Sx Sy H H' Nx Ny. unfold add_sub_impl in H, H'.
  rewrite <- (shape_zeros _ _ Sx), <- (shape_zeros _ _ Sy), <- (shape_zeros _ _ (shape_rev _ _ Sx)),
    <- (shape_zeros _ _ (shape_rev _ _ Sy)), <- (shape_length _ _ Sy) in H'.
  pose proof (shape_length _ _ Sx) as Lx. pose proof (shape_length _ _ Sy) as Ly.
  rewrite <- Lx in H'.
  destruct (count_triv_zeros x =? length x)%nat.
  { cbn [fst ret] in H, H'. inversion H. inversion H'. destruct is_add.
    - split; [exact Ly|]. apply Ny. lia.
    - unfold pa_opp, opposite_impl. rewrite !map_length, !nth_error_map, (Ny j) by lia. split; [exact Ly|reflexivity]. }
  destruct (count_triv_zeros y =? length y)%nat.
  { cbn [fst ret] in H, H'. inversion H. inversion H'. subst. split; [exact Lx|]. apply Nx. lia. }
  set (r := Nat.max (count_triv_zeros x) (count_triv_zeros y)) in *.
  set (wlen := Nat.max (length x - count_triv_zeros (rev x)) (length y - count_triv_zeros (rev y))) in *.
  clearbody r wlen. rewrite fst_measure in H, H'. cbv zeta in H, H'.
  destruct (wlen <=? r)%nat eqn:Er; [discriminate|]. apply Nat.leb_gt in Er.
  fold (w_of wlen (length x) x y) in H. fold (w_of wlen (length x) x' y') in H'.
  assert (W : forall i, (i <= j <= i + 2)%nat -> nth_error (w_of wlen (length x) x y) i = nth_error (w_of wlen (length x) x' y') i).
  { intros i Hi. apply w_at; auto. }
  set (w := w_of wlen (length x) x y) in *. set (w' := w_of wlen (length x) x' y') in *. clearbody w w'.
  rewrite fst_bind in H, H'. fold (f_of r w) in H. fold (f_of r w') in H'.
  destruct (fst (mapM (f_of r w) (seq 0 (wlen - r)))) as [q|e|e] eqn:Eq; try discriminate.
  destruct (fst (mapM (f_of r w') (seq 0 (wlen - r)))) as [q'|e|e] eqn:Eq'; try discriminate.
  assert (Q : forall i, (i <= j <= i + 1)%nat -> nth_error (ct_triv r ++ q) i = nth_error (ct_triv r ++ q') i).
  { intros i Hi. apply (q_at _ _ _ _ _ _ Eq Eq'); apply W; lia. }
  assert (Lr : length (@ct_triv B r) = r) by (unfold ct_triv; apply repeat_length).
  assert (Lq : length (ct_triv r ++ q) = wlen).
  { rewrite app_length, Lr, (mapM_length _ _ _ _ _ Eq), seq_length. lia. }
  assert (Lq' : length (ct_triv r ++ q') = wlen).
  { rewrite app_length, Lr, (mapM_length _ _ _ _ _ Eq'), seq_length. lia. }
  set (qq := ct_triv r ++ q) in *. set (qq' := ct_triv r ++ q') in *. clearbody qq qq'.
  rewrite fst_bind in H, H'. fold (s_of w qq) in H. fold (s_of w' qq') in H'.
  set (s := map (s_of w qq) (seq 0 wlen)) in *. set (s' := map (s_of w' qq') (seq 0 wlen)) in *.
  assert (Ls : length s = wlen) by (unfold s; rewrite map_length, seq_length; reflexivity).
  assert (Ls' : length s' = wlen) by (unfold s'; rewrite map_length, seq_length; reflexivity).
  assert (E : nth_error s j = nth_error s' j).
  { unfold s, s'. rewrite !map_seq_at. destruct (j <? wlen)%nat; [|reflexivity]. f_equal. apply s_at.
    - apply W. lia.
    - apply Q. lia.
    - intros Hj. apply Q. lia. }
  clearbody s s'.
  set (m := if refresh then mapM id_pi_5 (skipn r s) else ret (skipn r s)) in *.
  set (m' := if refresh then mapM id_pi_5 (skipn r s') else ret (skipn r s')) in *.
  destruct (fst m) as [t|e|e] eqn:Em; try discriminate. destruct (fst m') as [t'|e|e] eqn:Em'; try discriminate.
  cbn [fst ret] in H, H'. inversion H. inversion H'. subst z z'. clear H H'.
  assert (Lt : length t = (wlen - r)%nat /\ length t' = (wlen - r)%nat).
  { unfold m, m' in *. destruct refresh.
    - rewrite (mapM_length _ _ _ _ _ Em), (mapM_length _ _ _ _ _ Em'), !skipn_length. lia.
    - cbn [fst ret] in Em, Em'. inversion Em. inversion Em'. rewrite !skipn_length. lia. }
  destruct Lt as [Lt Lt'].
  split; [rewrite !app_length, !firstn_length; cbn [length]; lia|].
  destruct (Nat.lt_ge_cases j r) as [J1|J1].
  { rewrite !nth_error_app1 by (rewrite firstn_length; lia). rewrite !nth_error_firstn. replace (j <? r)%nat with true by lia. exact E. }
  rewrite !(nth_error_app2 (firstn _ _)) by (rewrite firstn_length; lia).
  rewrite !firstn_length, Ls, Ls'. replace (Nat.min r wlen) with r by lia.
  destruct (Nat.lt_ge_cases j wlen) as [J2|J2].
  { rewrite !nth_error_app1 by lia. unfold m, m' in *. destruct refresh.
    - apply (mapM_same_at _ _ _ _ _ _ _ _ Em Em'). rewrite !nth_error_skipn. replace (r + (j - r))%nat with j by lia. rewrite E.
      destruct (nth_error s' j); [reflexivity|exact I].
    - cbn [fst ret] in Em, Em'. inversion Em. inversion Em'. rewrite !nth_error_skipn. replace (r + (j - r))%nat with j by lia. exact E. }
  rewrite !nth_error_app2 by lia. rewrite Lt, Lt'.
  destruct (j - r - (wlen - r))%nat as [|i] eqn:Ei; [|cbn [nth_error]; destruct i; reflexivity].
  cbn [nth_error]. f_equal. rewrite !last_nth, !nth_of_error, Lq, Lq', (Q (wlen - 1)%nat) by lia. reflexivity.
Qed.
End Local.

(* ------------------------------------------------------------------ *)
(** ** C70 *)

(** Any backend, any keys, any words (whatever they encrypt, trivial words among
    them): word j of a sum or difference is determined by the words j - 2, j - 1
    and j of the operands, given which words are trivial zeros. *)
Theorem C70_local : forall (B : backend) op (x x' y y' z z' : ciphertext B) j,
  In op [pa_add; pa_sub; pa_add_noisy; pa_sub_noisy] -> shape x x' -> shape y y' ->
  fst (op x y) = Ok z -> fst (op x' y') = Ok z' ->
  near j x x' -> near j y y' -> length z = length z' /\ nth_error z j = nth_error z' j.
Proof.
  intros B op x x' y y' z z' j Hop Sx Sy H H' Nx Ny.
  assert (G : exists add refresh, op = fun x y => analysed (add_sub_impl add x y refresh)).
  { cbn [In] in Hop. destruct Hop as [<-|[<-|[<-|[<-|[]]]]]; do 2 eexists; reflexivity. }
  destruct G as [add [refresh ->]]. rewrite fst_analysed in H, H'.
  destruct (fst (add_sub_impl add x y refresh)) as [r|e|e] eqn:E; try discriminate.
  destruct (fst (add_sub_impl add x' y' refresh)) as [r'|e|e] eqn:E'; try discriminate.
  inversion H. inversion H'. subst r r'. exact (sum_local add refresh x x' y y' z z' j Sx Sy E E' Nx Ny).
Qed.

(** Two words below are needed: a sum of three words where only the lowest word
    of an operand is changed, and digit 2 of the result changes. *)
Definition xvec (v : list Z) : ciphertext exact := map (encrypt_word exact_client ([], 0)) v.
Definition xdigits (m : M (ciphertext exact)) : outcome (list Z) := fst (c <- m ;; parm_decrypt_to_vec exact_client c).
Theorem C70_two_needed : xdigits (pa_add (xvec [1; 1; 0]) (xvec [0; 0; 0])) = Ok [1; -1; 1; 0] /\
  xdigits (pa_add (xvec [0; 1; 0]) (xvec [0; 0; 0])) = Ok [0; 1; 0; 0].
Proof. split; vm_compute; reflexivity. Qed.

(** In the standard representation no number of digits is enough: no function of
    bits j - w, ..., j of both operands gives bit j of the sum. *)
Theorem C70_standard_refuted : forall w, ~ exists f : list bool -> list bool -> bool,
  forall a b j, 0 <= a -> 0 <= b -> (w <= j)%nat -> Z.testbit (a + b) (Z.of_nat j) = f (bits_at a j w) (bits_at b j w).
Proof.
  intros w [f H]. set (j := S w).
  (* 2^j - 1 plus 1 or 0: bits 1 to j of both pairs are the same *)
  pose proof (H (2 ^ Z.of_nat j - 1) 1 j ltac:(assert (0 < 2 ^ Z.of_nat j) by (apply Z.pow_pos_nonneg; lia); lia) ltac:(lia) ltac:(unfold j; lia)) as H1.
  pose proof (H (2 ^ Z.of_nat j - 1) 0 j ltac:(assert (0 < 2 ^ Z.of_nat j) by (apply Z.pow_pos_nonneg; lia); lia) ltac:(lia) ltac:(unfold j; lia)) as H0.
  assert (E : bits_at 1 j w = bits_at 0 j w).
  { unfold bits_at. apply map_ext_in. intros i Hi. apply in_seq in Hi. rewrite Z.bits_0.
    replace 1 with (2 ^ 0) by reflexivity. apply Z.pow2_bits_false. unfold j. lia. }
  rewrite E, <- H0 in H1. rewrite Z.sub_add, Z.add_0_r in H1. rewrite Z.pow2_bits_true in H1 by lia.
  rewrite Z.testbit_eqb in H1 by lia. rewrite Z.div_small in H1; [discriminate|].
  assert (0 < 2 ^ Z.of_nat j) by (apply Z.pow_pos_nonneg; lia). lia.
Qed.

(** The example of the README passes: for every backend that meets the contract,
    all matching keys, all randomness, and both builds. *)
Theorem C70_readme : forall (B : backend) qw (C : contract B qw) cl, client_ok C cl -> forall o seeds,
  fst (readme cl o seeds) = Ok (mkReadme (-544883923) 1125934951 581051028 true 581051028).
Proof.
  intros B qw C cl K o seeds.
  assert (Da : digits readme_a) by (unfold digits, digit, readme_a; repeat (constructor; [lia|]); constructor).
  assert (Db : digits readme_b) by (unfold digits, digit, readme_b; repeat (constructor; [lia|]); constructor).
  unfold readme.
  destruct (encrypt_from_vec_ok C cl K (seeds 0%nat) readme_a Da) as [ca [Ea [Va _]]].
  destruct (encrypt_from_vec_ok C cl K (seeds 1%nat) readme_b Db) as [cb [Eb [Vb _]]].
  rewrite Ea, Eb, !ret_bind.
  pose proof (encrypts_len C _ _ Va) as La. pose proof (encrypts_len C _ _ Vb) as Lb.
  rewrite !convert_from_vec_ok by (auto; cbn; lia). rewrite !ret_bind.
  change (value readme_a) with (-544883923). change (value readme_b) with 1125934951.
  destruct (C09_add_decrypts C cl K o ca cb (-544883923) 1125934951) as [z [Ez Dz]].
  - exists readme_a. split; [exact Va|reflexivity].
  - exists readme_b. split; [exact Vb|reflexivity].
  - rewrite <- La. cbn. lia.
  - rewrite <- Lb. cbn. lia.
  - rewrite fst_bind, Ez, Dz. fold (@ret Z (-544883923 + 1125934951)). rewrite ret_bind.
    rewrite chk_i64_in, ret_bind by (unfold I64_MIN, I64_MAX; lia). reflexivity.
Qed.

Lemma bind_inv : forall A C (m : M A) (f : A -> M C) c, fst (bind m f) = Ok c -> exists a, fst (f a) = Ok c.
Proof. intros A C m f c H. rewrite fst_bind in H. destruct (fst m) as [a|e|e]; [exists a; exact H|discriminate|discriminate]. Qed.
(** and whatever the backend and the keys do, contract or not: it says PASS only for the right sum *)
Theorem C70_verdict : forall (B : backend) (cl : client B) o seeds r, fst (readme cl o seeds) = Ok r ->
  out_a r = -544883923 /\ out_b r = 1125934951 /\ out_exp r = 581051028 /\ (out_pass r = true <-> out_sum r = 581051028).
Proof.
  intros B cl o seeds r H.
  assert (Da : digits readme_a) by (unfold digits, digit, readme_a; repeat (constructor; [lia|]); constructor).
  assert (Db : digits readme_b) by (unfold digits, digit, readme_b; repeat (constructor; [lia|]); constructor).
  unfold readme in H. apply bind_inv in H as [ca H]. apply bind_inv in H as [cb H].
  rewrite !convert_from_vec_ok in H by (auto; cbn; lia). rewrite !ret_bind in H.
  apply bind_inv in H as [z H]. apply bind_inv in H as [v H].
  change (value readme_a) with (-544883923) in H. change (value readme_b) with 1125934951 in H.
  rewrite chk_i64_in, ret_bind in H by (unfold I64_MIN, I64_MAX; lia). apply (f_equal (fun m => match m with Ok r => r | _ => r end)) in H. cbn [fst ret] in H. subst r.
  cbn [out_a out_b out_exp out_pass out_sum]. repeat split; lia.
Qed.

(* ------------------------------------------------------------------ *)
(** ** Examples *)

(** the hypotheses of C70_local with operands of six words that differ in words 0
    and 5, trivial words among them: words 3 and 4 of the differences are equal *)
Definition ex_x (a b : Z) : ciphertext exact := xvec [a; 1; 1] ++ [Triv 1; Triv 0] ++ xvec [b].
Definition ex_y : ciphertext exact := xvec [1; 0; 1; -1; 1].
Example C70_example : shape (ex_x 1 (-1)) (ex_x (-1) 0) /\ shape ex_y ex_y /\
  near 3 (ex_x 1 (-1)) (ex_x (-1) 0) /\ near 4 (ex_x 1 (-1)) (ex_x (-1) 0) /\ ~ near 2 (ex_x 1 (-1)) (ex_x (-1) 0) /\
  xdigits (pa_sub (ex_x 1 (-1)) ex_y) = Ok [0; 1; 0; 1; -1; 1; -1] /\
  xdigits (pa_sub (ex_x (-1) 0) ex_y) = Ok [0; 0; 0; 1; -1; 0; 0].
Proof.
  split; [|split].
  - unfold shape, ex_x, xvec. cbn [map app encrypt_word]. repeat (constructor; [split; intros H; try discriminate H; exact H|]). constructor.
  - unfold shape, ex_y, xvec. cbn [map]. repeat (constructor; [tauto|]). constructor.
  - split; [|split].
    + intros i Hi. destruct i as [|[|[|[|i]]]]; try lia; reflexivity.
    + intros i Hi. destruct i as [|[|[|[|[|i]]]]]; try lia; reflexivity.
    + split; [|split; vm_compute; reflexivity].
      intros N. specialize (N 0%nat ltac:(lia)).
      apply (f_equal (option_map (fun w => fst (decrypt_mi (Some exact_client) w)))) in N. vm_compute in N. discriminate.
Qed.
Example C70_example_bits : bits_at 12 3 2 = [true; true; false] /\ Z.testbit (12 + 4) 4 = true /\ Z.testbit (11 + 4) 4 = false.
Proof. vm_compute. auto. Qed.
Example C70_example_readme : forall o, fst (readme noisy_client o (fun j i => ([2^62; Z.of_nat (i + j)], 2^49))) =
  Ok (mkReadme (-544883923) 1125934951 581051028 true 581051028).
Proof. intros o. exact (C70_readme _ 100 (noisy_contract 100) noisy_client (noisy_client_ok 100) o _). Qed.

(** noise beyond the contract in the second operand: FAIL *)
Example C70_example_fail : option_map (fun r => (out_sum r, out_pass r))
  (match fst (readme (lwe_client [] 32 (2 ^ 60) (fun _ => []) (fun _ => 0)) true
     (fun j i => ([], if (j =? 1)%nat && (i =? 9)%nat then 2 ^ 59 else 0))) with Ok r => Some r | _ => None end) = Some (581051540, false).
Proof. vm_compute. reflexivity. Qed.

Print Assumptions C70_local.
Print Assumptions C70_two_needed.
Print Assumptions C70_standard_refuted.
Print Assumptions C70_readme.
Print Assumptions C70_verdict.
