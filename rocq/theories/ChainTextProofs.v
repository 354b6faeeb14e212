(** The printed chains can be read back *)
From Coq Require Import String.
From Verif Require Import Base Params Messages ChainScript ScalarProofs.
From Coq Require Import ZifyBool ZifyNat.

(* ------------------------------------------------------------------ *)
(** ** Decimal numbers *)
Definition is_digit (c : Z) : Prop := 48 <= c <= 57.

Lemma read_digits_app : forall ds acc s, Forall is_digit ds ->
  read_digits acc (ds ++ s) = read_digits (read_digits acc ds) s.
Proof.
  induction ds as [|d ds IH]; intros acc s H; auto. inversion H as [|? ? Hd Hds]; subst.
  unfold is_digit in Hd. cbn [app read_digits].
  replace ((48 <=? d) && (d <=? 57)) with true by lia. apply IH; auto.
Qed.

Lemma show_pos_ok : forall f n acc, 0 <= n < 10 ^ Z.of_nat (S f) ->
  exists ds, show_pos (S f) n acc = ds ++ acc /\ ds <> [] /\ Forall is_digit ds /\
    (forall a, read_digits a ds = a * 10 ^ Z.of_nat (length ds) + n).
Proof.
  induction f as [|f IH]; intros n acc Hn.
  - change (10 ^ Z.of_nat 1) with 10 in Hn. exists [48 + n mod 10]. cbn [show_pos].
    destruct (n <? 10) eqn:E; [|lia]. rewrite Z.mod_small by lia.
    split; auto. split; [discriminate|]. split; [constructor; [unfold is_digit; lia|constructor]|].
    intros a. cbn [read_digits length]. replace ((48 <=? 48 + n) && (48 + n <=? 57)) with true by lia.
    change (10 ^ Z.of_nat 1) with 10. lia.
  - remember (S f) as g eqn:Eg. cbn [show_pos]. pose proof (Z.mod_pos_bound n 10 ltac:(lia)) as Hm.
    destruct (n <? 10) eqn:E.
    + exists [48 + n mod 10]. rewrite Z.mod_small by lia.
      split; auto. split; [discriminate|]. split; [constructor; [unfold is_digit; lia|constructor]|].
      intros a. cbn [read_digits length]. replace ((48 <=? 48 + n) && (48 + n <=? 57)) with true by lia.
      change (10 ^ Z.of_nat 1) with 10. lia.
    + assert (Hq : 0 <= n / 10 < 10 ^ Z.of_nat g).
      { split; [apply Z.div_pos; lia|]. apply Z.div_lt_upper_bound; [lia|].
        replace (Z.of_nat (S g)) with (Z.succ (Z.of_nat g)) in Hn by lia. rewrite Z.pow_succ_r in Hn by lia. lia. }
      destruct (IH (n / 10) ((48 + n mod 10) :: acc) Hq) as [ds [E1 [E2 [E3 E4]]]].
      exists (ds ++ [48 + n mod 10]). rewrite E1, <- app_assoc. split; auto.
      split; [destruct ds; discriminate|]. split.
      { apply Forall_app. split; auto. constructor; [unfold is_digit; lia|constructor]. }
      intros a. rewrite read_digits_app, E4 by auto. cbn [read_digits].
      replace ((48 <=? 48 + n mod 10) && (48 + n mod 10 <=? 57)) with true by lia.
      rewrite app_length. cbn [length]. replace (Z.of_nat (length ds + 1)) with (Z.succ (Z.of_nat (length ds))) by lia.
      rewrite Z.pow_succ_r by lia. pose proof (Z.div_mod n 10 ltac:(lia)). lia.
Qed.
Lemma show_ok : forall n, 0 <= n -> show n <> [] /\ Forall is_digit (show n) /\ read_digits 0 (show n) = n.
Proof.
  intros n Hn. unfold show. replace (n <? 0) with false by lia.
  destruct (show_pos_ok (Z.to_nat (Z.log2 n)) n []) as [ds [E [H1 [H2 H3]]]].
  - split; auto. replace (Z.of_nat (S (Z.to_nat (Z.log2 n)))) with (Z.succ (Z.log2 n))
      by (pose proof (Z.log2_nonneg n); lia).
    destruct (Z.eq_dec n 0) as [->|Hz]; [cbn; lia|].
    destruct (Z.log2_spec n) as [_ H]; [lia|]. eapply Z.lt_le_trans; [exact H|].
    apply Z.pow_le_mono_l. lia.
  - rewrite E, app_nil_r. split; auto. split; auto. rewrite H3. lia.
Qed.

Lemma digits_char : forall (P : Z -> Prop) ds, (forall c, is_digit c -> P c) -> Forall is_digit ds -> Forall P ds.
Proof. intros P ds H H1. eapply Forall_impl; eauto. Qed.

Lemma to_i_digits : forall ds, Forall is_digit ds -> to_i ds = read_digits 0 ds.
Proof.
  intros ds H. destruct ds as [|d ds]; auto. inversion H as [|? ? Hd Hds]; subst. unfold is_digit in Hd.
  unfold to_i. destruct d as [|p|p]; auto; try lia.
  do 6 (destruct p as [p|p|]; auto; try lia).
Qed.
Lemma to_i_show : forall n, 0 <= n -> to_i (show n) = n.
Proof. intros n H. destruct (show_ok n H) as [_ [H1 H2]]. rewrite to_i_digits by auto. auto. Qed.
Lemma to_i_neg : forall n, 0 <= n -> to_i (45 :: show n) = - n.
Proof. intros n H. destruct (show_ok n H) as [_ [_ H2]]. cbn [to_i]. congruence. Qed.

(* ------------------------------------------------------------------ *)
(** ** Splitting *)
Lemma pieces_cons : forall sep s, exists h t, pieces sep s = h :: t.
Proof.
  intros sep s. destruct s as [|c s]; cbn [pieces]; eauto.
  destruct (sep c); eauto. destruct (pieces sep s); eauto.
Qed.
Lemma pieces_none : forall sep a, Forall (fun c => sep c = false) a -> pieces sep a = [a].
Proof.
  intros sep a H. induction H as [|c a Hc Ha IH]; auto. cbn [pieces]. rewrite Hc, IH. auto.
Qed.
Lemma pieces_sep : forall sep a c b, Forall (fun c => sep c = false) a -> sep c = true ->
  pieces sep (a ++ c :: b) = a :: pieces sep b.
Proof.
  intros sep a c b H Hc. induction H as [|x a Hx Ha IH]; cbn [app pieces].
  - rewrite Hc. auto.
  - rewrite Hx, IH. auto.
Qed.

Lemma drop_empty_keep : forall l s, empty s = false -> drop_empty (s :: l) = s :: l.
Proof. intros l s H. cbn [drop_empty]. rewrite H. auto. Qed.
Lemma split_at_last : forall sep s l x, pieces sep s = l ++ [x] -> x <> [] -> split_at sep s = l ++ [x].
Proof.
  intros sep s l x E Hx. unfold split_at. rewrite E, rev_unit. rewrite drop_empty_keep by (destruct x; auto; congruence).
  cbn [rev]. rewrite rev_involutive. auto.
Qed.

Lemma white_digit : forall c, is_digit c -> white c = false.
Proof. intros c H. unfold is_digit in H. unfold white. lia. Qed.

Lemma split_white_sp : forall s, split_white (32 :: s) = split_white s.
Proof. intros s. unfold split_white. cbn [pieces]. reflexivity. Qed.
Lemma split_white_tok : forall a s, a <> [] -> Forall (fun c => white c = false) a ->
  split_white (a ++ 32 :: s) = a :: split_white s.
Proof.
  intros a s Ha H. unfold split_white. rewrite pieces_sep by auto. cbn [filter].
  destruct a; [congruence|]. reflexivity.
Qed.
Lemma split_white_one : forall c s, white c = false -> split_white (c :: 32 :: s) = [c] :: split_white s.
Proof. intros c s H. apply (split_white_tok [c]); [discriminate|repeat constructor; auto]. Qed.
Lemma pieces_one : forall sep a c b, sep a = false -> sep c = true -> pieces sep (a :: c :: b) = [a] :: pieces sep b.
Proof. intros sep a c b Ha Hc. apply (pieces_sep sep [a]); [repeat constructor; auto|auto]. Qed.
Lemma split_white_nil : split_white [] = [].
Proof. reflexivity. Qed.

(* ------------------------------------------------------------------ *)
(** ** One step *)

(** the text of a class between the half-circles *)
Definition class_text (c : odd_class) : str :=
  32 :: show (oval c) ++
  match c with
  | Unit => []
  | Node p_pos p q_pos q r =>
      txt " = " ++ (if p_pos then 32 else 45) :: show (oval p) ++
      32 :: (if q_pos then 43 else 45) :: 32 :: show (oval q) ++ DOT :: txt "2^" ++ show (Z.of_nat r)
  end ++ [32].
Lemma show_class_text : forall c, show_class c = LEFT :: class_text c ++ [RIGHT].
Proof.
  intros c. unfold show_class, class_text. cbn [app].
  rewrite <- !app_assoc. reflexivity.
Qed.

(** positive values everywhere *)
Definition pos_class (c : odd_class) : Prop :=
  0 < oval c /\ match c with Unit => True | Node _ p _ q _ => 0 < oval p /\ 0 < oval q end.

Lemma txt_eq : txt " = " = [32; 61; 32]. Proof. reflexivity. Qed.
Lemma txt_2 : txt "2^" = [50; 94]. Proof. reflexivity. Qed.
Lemma txt_comma : txt ", " = [44; 32]. Proof. reflexivity. Qed.

Lemma show_digits : forall n, 0 < n -> Forall is_digit (show n).
Proof. intros n H. apply show_ok. lia. Qed.
Lemma show_ne : forall n, 0 < n -> show n <> [].
Proof. intros n H. apply show_ok. lia. Qed.
Lemma show_nat_digits : forall n, Forall is_digit (show (Z.of_nat n)).
Proof. intros n. apply show_ok. lia. Qed.
Lemma show_nat_ne : forall n, show (Z.of_nat n) <> [].
Proof. intros n. apply show_ok. lia. Qed.

(** no half-circle in the text *)
Lemma class_text_plain : forall c, pos_class c -> Forall (fun x => x < 256) (class_text c).
Proof.
  intros c [H1 H2]. unfold class_text. apply Forall_cons; [lia|].
  assert (D : forall n, 0 <= n -> Forall (fun x => x < 256) (show n)).
  { intros n Hn. eapply digits_char; [|apply show_ok; auto]. unfold is_digit. intros; lia. }
  apply Forall_app. split; [apply D; lia|]. apply Forall_app. split; [|constructor; [lia|constructor]].
  destruct c as [|pp p qp q r]; [constructor|]. destruct H2 as [H2 H3].
  rewrite txt_eq, txt_2. cbn [app]. do 3 (apply Forall_cons; [lia|]).
  apply Forall_cons; [destruct pp; lia|]. apply Forall_app. split; [apply D; lia|].
  apply Forall_cons; [lia|]. apply Forall_cons; [destruct qp; lia|]. apply Forall_cons; [lia|].
  apply Forall_app. split; [apply D; lia|]. apply Forall_cons; [unfold DOT; lia|].
  do 2 (apply Forall_cons; [lia|]). apply D. lia.
Qed.

(** the tokens of a step: the five tokens of the comment at line 15 *)
Lemma class_tokens : forall pp p qp q r, pos_class (Node pp p qp q r) ->
  split_white (class_text (Node pp p qp q r)) =
  [ show (oval (Node pp p qp q r)); [61]; (if pp then show (oval p) else 45 :: show (oval p));
    [if qp then 43 else 45]; show (oval q) ++ DOT :: 50 :: 94 :: show (Z.of_nat r) ].
Proof.
  intros pp p qp q r [H1 [H2 H3]]. set (c := Node pp p qp q r) in *. unfold class_text. fold c.
  change (match c with
    | Unit => []
    | Node p_pos p q_pos q r =>
      txt " = " ++ (if p_pos then 32 else 45) :: show (oval p) ++
      32 :: (if q_pos then 43 else 45) :: 32 :: show (oval q) ++ DOT :: txt "2^" ++ show (Z.of_nat r)
    end) with (txt " = " ++ (if pp then 32 else 45) :: show (oval p) ++
      32 :: (if qp then 43 else 45) :: 32 :: show (oval q) ++ DOT :: txt "2^" ++ show (Z.of_nat r)).
  rewrite txt_eq, txt_2. rewrite split_white_sp. cbn [app].
  assert (W : forall n, 0 <= n -> Forall (fun x => white x = false) (show n)).
  { intros n Hn. eapply digits_char; [|apply show_ok; auto]. apply white_digit. }
  rewrite split_white_tok; [|apply show_ne; auto|apply W; lia]. f_equal.
  rewrite split_white_one by reflexivity. f_equal.
  rewrite <- !app_assoc. cbn [app].
  assert (Hp : forall s, split_white ((if pp then 32 else 45) :: show (oval p) ++ 32 :: s) =
     (if pp then show (oval p) else 45 :: show (oval p)) :: split_white s).
  { intros s. destruct pp.
    - rewrite split_white_sp. apply split_white_tok; [apply show_ne; auto|apply W; lia].
    - apply (split_white_tok (45 :: show (oval p))); [discriminate|].
      apply Forall_cons; [reflexivity|apply W; lia]. }
  rewrite Hp. f_equal.
  assert (Hq : forall s, split_white ((if qp then 43 else 45) :: 32 :: s) = [if qp then 43 else 45] :: split_white s).
  { intros s. destruct qp; apply split_white_one; reflexivity. }
  rewrite Hq. f_equal.
  replace ((show (oval q) ++ DOT :: 50 :: 94 :: show (Z.of_nat r)) ++ [32])
    with ((show (oval q) ++ DOT :: 50 :: 94 :: show (Z.of_nat r)) ++ 32 :: []) by auto.
  rewrite split_white_tok; auto.
  - destruct (show (oval q)); discriminate.
  - apply Forall_app. split; [apply W; lia|].
    repeat (apply Forall_cons; [reflexivity|]). apply W. lia.
Qed.

Lemma right_term : forall v r, 0 < v ->
  split_at (fun c => white c || (c =? 94) || (c =? DOT)) (show v ++ DOT :: 50 :: 94 :: show (Z.of_nat r)) =
  [show v; [50]; show (Z.of_nat r)].
Proof.
  intros v r Hv. set (sep := fun c => white c || (c =? 94) || (c =? DOT)).
  assert (W : forall n, 0 <= n -> Forall (fun x => sep x = false) (show n)).
  { intros n Hn. eapply digits_char; [|apply show_ok; auto]. intros c Hc. unfold sep.
    rewrite white_digit by auto. unfold is_digit in Hc. unfold DOT. lia. }
  apply (split_at_last sep _ [show v; [50]]).
  - rewrite pieces_sep; [|apply W; lia|reflexivity].
    rewrite pieces_one by reflexivity.
    rewrite pieces_none by (apply W; lia). reflexivity.
  - apply show_nat_ne.
Qed.

Lemma find_index_in : forall v l, In v l -> exists i, find_index v l = Some i /\ (i < length l)%nat /\ nth i l 0 = v.
Proof.
  intros v l. induction l as [|x l IH]; intros H; [destruct H|]. cbn [find_index].
  destruct (x =? v) eqn:E.
  - exists 0%nat. assert (x = v) by lia. cbn. split; auto. split; [lia|auto].
  - destruct H as [->|H]; [lia|]. destruct (IH H) as [i [E1 [E2 E3]]]. exists (S i). rewrite E1.
    cbn [option_map length nth]. split; auto. split; [lia|auto].
Qed.
Lemma find_index_app : forall v l l', In v l -> find_index v (l ++ l') = find_index v l.
Proof.
  intros v l l'. induction l as [|x l IH]; intros H; [destruct H|]. cbn [find_index app].
  destruct (x =? v) eqn:E; auto. destruct H as [->|H]; [lia|]. rewrite IH; auto.
Qed.

(** reading the text of a step, whatever plain text follows the right half-circle *)
Lemma parse_step_ok : forall vals pp p qp q r tail, pos_class (Node pp p qp q r) ->
  In (oval p) vals -> In (oval q) vals -> Forall (fun c => c <> RIGHT) tail -> tail <> [] ->
  exists i j, (i < length vals)%nat /\ (j < length vals)%nat /\
    nth i vals 0 = oval p /\ nth j vals 0 = oval q /\
    parse_step vals (class_text (Node pp p qp q r) ++ RIGHT :: tail) =
    Some (vals ++ [oval (Node pp p qp q r)], mkAddShift pp i qp j r).
Proof.
  intros vals pp p qp q r tail Hc Hp Hq Ht Htn. set (c := Node pp p qp q r) in *.
  destruct (find_index_in _ _ Hp) as [i [Ei [Hi Hi2]]].
  destruct (find_index_in _ _ Hq) as [j [Ej [Hj Hj2]]].
  exists i, j. do 4 (split; auto).
  assert (Hpos : 0 < oval c /\ 0 < oval p /\ 0 < oval q) by (destruct Hc as [A [B C]]; auto).
  unfold parse_step.
  rewrite (split_at_last _ _ [class_text c] tail); auto.
  2:{ rewrite pieces_sep; [|eapply Forall_impl; [|apply class_text_plain; exact Hc]|reflexivity].
      - rewrite pieces_none; auto. eapply Forall_impl; [|exact Ht]. cbv beta. intros x Hx. lia.
      - cbv beta. intros x Hx. unfold RIGHT. lia. }
  cbn [app]. pose proof (class_tokens pp p qp q r Hc) as Tk. fold c in Tk. rewrite !Tk. cbn [hd nth last].
  rewrite right_term by tauto. cbn [hd last].
  rewrite !to_i_show by lia.
  assert (El : to_i (if pp then show (oval p) else 45 :: show (oval p)) = if pp then oval p else - oval p).
  { destruct pp; [apply to_i_show; lia|apply to_i_neg; lia]. }
  rewrite El. replace (Z.abs (if pp then oval p else - oval p)) with (oval p) by (destruct pp; lia).
  rewrite !find_index_app by auto. rewrite Ei, Ej. f_equal. f_equal. rewrite Nat2Z.id. f_equal.
  - destruct pp; lia.
  - destruct qp; reflexivity.
Qed.

(* ------------------------------------------------------------------ *)
(** ** A whole line *)

(** a chain all of whose steps refer to values that are there already *)
Fixpoint good (vals : list Z) (c : aschain) : Prop :=
  match c with
  | [] => True
  | Unit :: _ => False
  | Node pp p qp q r :: t =>
      let v := oval (Node pp p qp q r) in
      In (oval p) vals /\ In (oval q) vals /\ (1 <= r)%nat /\ 0 < v /\ good (vals ++ [v]) t
  end.
Definition good_chain (c : aschain) : Prop := exists t, c = Unit :: t /\ good [1] t.

(** the pieces between the left half-circles: the classes with what follows them *)
Fixpoint texts (c : aschain) : list str :=
  match c with
  | [] => []
  | [a] => [class_text a ++ [RIGHT; 93]]
  | a :: t => (class_text a ++ [RIGHT; 44; 32]) :: texts t
  end.

Lemma texts_pieces : forall c a, Forall pos_class (a :: c) ->
  pieces (fun x => x =? LEFT) (join (map show_class (a :: c)) ++ [93]) = [] :: texts (a :: c).
Proof.
  assert (P : forall a, pos_class a -> forall s, Forall (fun x => (x =? LEFT) = false) s ->
     Forall (fun x => (x =? LEFT) = false) (class_text a ++ RIGHT :: s)).
  { intros a Ha s Hs. apply Forall_app. split.
    - eapply Forall_impl; [|apply class_text_plain; auto]. cbv beta. unfold LEFT. intros; lia.
    - apply Forall_cons; [reflexivity|auto]. }
  induction c as [|b c IH]; intros a H; inversion H as [|? ? Ha Hc]; subst.
  - cbn [map join texts]. rewrite show_class_text. cbn [app pieces].
    change (LEFT =? LEFT) with true. cbn [app]. f_equal. rewrite <- app_assoc.
    apply pieces_none. apply P; auto.
  - change (join (map show_class (a :: b :: c))) with (show_class a ++ txt ", " ++ join (map show_class (b :: c))).
    change (texts (a :: b :: c)) with ((class_text a ++ [RIGHT; 44; 32]) :: texts (b :: c)).
    rewrite show_class_text, txt_comma, <- !app_assoc. cbn [app]. cbn [pieces].
    change (LEFT =? LEFT) with true. f_equal.
    specialize (IH b Hc). rewrite <- !app_assoc. cbn [app].
    assert (E : exists s, join (map show_class (b :: c)) ++ [93] = LEFT :: s).
    { destruct c; cbn [map join]; rewrite show_class_text; cbn [app]; eauto. }
    destruct E as [s E]. rewrite E in *. cbn [pieces] in IH. change (LEFT =? LEFT) with true in IH.
    injection IH as IH'.
    replace (class_text a ++ RIGHT :: 44 :: 32 :: LEFT :: s) with
      ((class_text a ++ [RIGHT; 44; 32]) ++ LEFT :: s) by (rewrite <- app_assoc; auto).
    rewrite pieces_sep; [rewrite IH'; reflexivity| |reflexivity]. apply P; auto.
Qed.

Lemma good_pos : forall c vals, Forall (fun v => 0 < v) vals -> good vals c -> Forall pos_class c.
Proof.
  induction c as [|[|pp p qp q r] c IH]; intros vals Hv H; [constructor|destruct H|].
  destruct H as [H1 [H2 [H3 [H4 H5]]]]. rewrite Forall_forall in Hv. constructor.
  - split; auto.
  - eapply IH; [|exact H5]. apply Forall_app. split; [apply Forall_forall; auto|repeat constructor; exact H4].
Qed.

Lemma parse_steps_ok : forall c vals, Forall (fun v => 0 < v) vals -> good vals c ->
  exists a, parse_steps vals (texts c) = Some a /\ length a = length c /\
    chain_wf (length vals) a /\ chain_run a vals = vals ++ to_vals c.
Proof.
  induction c as [|[|pp p qp q r] c IH]; intros vals Hv H.
  - exists []. cbn. rewrite app_nil_r. auto.
  - destruct H.
  - pose proof (good_pos _ _ Hv H) as Hpos. inversion Hpos as [|? ? Hn Hc]; subst.
    destruct H as [H1 [H2 [H3 [H4 H5]]]]. set (n := Node pp p qp q r) in *.
    assert (Hv' : Forall (fun v => 0 < v) (vals ++ [oval n])).
    { apply Forall_app. split; auto. }
    destruct (IH _ Hv' H5) as [a [E1 [E2 [E3 E4]]]].
    assert (T : exists tail, texts (n :: c) = (class_text n ++ RIGHT :: tail) :: texts c /\
                 tail <> [] /\ Forall (fun x => x <> RIGHT) tail).
    { destruct c as [|b c]; [exists [93]|exists [44; 32]]; (split; [reflexivity|]; split; [discriminate|]);
        repeat (apply Forall_cons; [unfold RIGHT; lia|]); constructor. }
    destruct T as [tail [ET [T1 T2]]].
    destruct (parse_step_ok vals pp p qp q r tail Hn H1 H2 T2 T1) as [i [j [I1 [I2 [I3 [I4 I5]]]]]].
    fold n in I5. exists (mkAddShift pp i qp j r :: a). rewrite ET. cbn [parse_steps]. rewrite I5, E1.
    split; auto. split; [cbn [length]; lia|]. split.
    + cbn [chain_wf l_idx r_idx]. split; auto. split; auto. rewrite app_length in E3. cbn [length] in E3.
      replace (length vals + 1)%nat with (S (length vals)) in E3 by lia. auto.
    + cbn [chain_run].
      assert (EN : chain_next vals (mkAddShift pp i qp j r) = oval n).
      { unfold chain_next. cbn [l_pos l_idx r_pos r_idx r_shift]. rewrite I3, I4. unfold n. cbn [oval].
        destruct pp, qp; unfold sg; lia. }
      rewrite EN, E4. rewrite <- app_assoc. reflexivity.
Qed.

Lemma plain_show : forall n, 0 <= n -> Forall (fun x => (x =? LEFT) = false) (show n).
Proof.
  intros n H. eapply digits_char; [|apply show_ok; auto]. unfold is_digit, LEFT. intros; lia.
Qed.

Lemma split_white_pad : forall n s, split_white (repeat 32 n ++ s) = split_white s.
Proof. induction n as [|n IH]; intros s; auto. cbn [repeat app]. rewrite split_white_sp. apply IH. Qed.

Lemma texts_ne : forall c, Forall (fun s => s <> []) (texts c).
Proof.
  induction c as [|a [|b c] IH]; [constructor| |].
  - cbn [texts]. constructor; [|constructor]. discriminate.
  - change (texts (a :: b :: c)) with ((class_text a ++ [RIGHT; 44; 32]) :: texts (b :: c)).
    constructor; [discriminate|auto].
Qed.

(** the line of a good chain is read as a chain of the library with the same values *)
Theorem parse_line_ok : forall v c, 0 < v -> good_chain c ->
  exists a, parse_line (show_entry v c) = Some (v, a) /\ length a = (length c - 1)%nat /\
    chain_wf 1 a /\ chain_run a [1] = to_vals c.
Proof.
  intros v c Hv [t [-> Ht]].
  assert (Hp : Forall pos_class (Unit :: t)).
  { constructor; [split; cbn; auto; lia|]. apply (good_pos t [1]); auto. repeat constructor. }
  destruct (parse_steps_ok t [1]) as [a [E1 [E2 [E3 E4]]]]; auto. { repeat constructor. }
  exists a. split; [|cbn [length] in *; split; [lia|split; auto]].
  set (c := Unit :: t) in *.
  set (pre := repeat 32 (5 - length (show v)) ++ show v ++ txt " /" ++ show (Z.of_nat (length c) - 1) ++ txt "/ [").
  assert (EL : show_entry v c = pre ++ join (map show_class c) ++ [93]).
  { unfold show_entry, pad5, show_chain, pre. rewrite <- !app_assoc. reflexivity. }
  assert (EJ : exists s, join (map show_class c) ++ [93] = LEFT :: s).
  { unfold c. destruct t; cbn [map join]; rewrite show_class_text; cbn [app]; eauto. }
  destruct EJ as [s EJ].
  assert (EP : pieces (fun x => x =? LEFT) (show_entry v c) = pre :: texts c).
  { pose proof (texts_pieces t Unit Hp) as TP. fold c in TP. rewrite EJ in TP. rewrite EL, EJ.
    cbn [pieces] in TP. change (LEFT =? LEFT) with true in TP. injection TP as TP'.
    rewrite pieces_sep; [rewrite TP'; reflexivity| |reflexivity].
    unfold pre. apply Forall_app. split.
    { apply Forall_forall. intros x Hx. apply repeat_spec in Hx. subst x. reflexivity. }
    apply Forall_app. split; [apply plain_show; lia|]. apply Forall_app. split; [repeat constructor|].
    apply Forall_app. split; [apply plain_show; unfold c; cbn [length]; lia|repeat constructor]. }
  assert (EX : exists x y, texts c = x :: texts t /\ (exists l, pre :: texts c = l ++ [y]) /\ y <> []).
  { destruct (exists_last (l := texts c)) as [l [y El]].
    { unfold c. destruct t; discriminate. }
    pose proof (texts_ne c) as TN. rewrite El in TN. apply Forall_app in TN. destruct TN as [_ TN].
    inversion TN as [|? ? Hy _]; subst.
    assert (exists x, texts c = x :: texts t) as [x Ex] by (unfold c; destruct t; cbn [texts]; eauto).
    exists x, y. split; auto. split; auto. exists (pre :: l). rewrite El. auto. }
  destruct EX as [x [y [Ex [[l El] Hy]]]].
  assert (ES : split_at (fun x => x =? LEFT) (show_entry v c) = pre :: x :: texts t).
  { rewrite <- Ex, El. apply split_at_last; auto. rewrite EP. auto. }
  unfold parse_line. rewrite ES, E1.
  cbn [option_map]. f_equal. f_equal.
  unfold show_entry, pad5. rewrite <- app_assoc, split_white_pad.
  change (txt " /" ++ show (Z.of_nat (length c) - 1) ++ txt "/ " ++ show_chain c) with
    (32 :: 47 :: show (Z.of_nat (length c) - 1) ++ txt "/ " ++ show_chain c).
  rewrite split_white_tok; [cbn [hd]; apply to_i_show; lia|apply show_ne; auto|].
  eapply digits_char; [|apply show_ok; lia]. apply white_digit.
Qed.
