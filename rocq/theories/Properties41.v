(** Property C76: what older searches for chains guarantee *)
From Coq Require Import String Ascii.
From Verif Require Import Base Params Asc Asc13 Messages ChainScript ChainSpec ChainLog OldLogs BaseProofs ScalarProofs AscProofs OptProofs
  Properties15 Properties21 Properties27 Properties30.
From Verif Require Opt13 Properties33.
From Coq Require Import ZifyBool ZifyNat.

(** guarantee_11-bit.log, and limit-13_v2.log up to "no guarantee" *)
Definition g11_log : list Z := concat (map txt g11_literals).
Definition v2_log : list Z := concat (map txt v2_literals).
(** what the script prints for a table (variant.rb:195-207) *)
Definition printed (m : asc_map) : list Z := encode (flat_map (fun e => show_entry (fst e) (rebuild (snd e)) ++ [10]) m).

(* ------------------------------------------------------------------ *)
(** ** The tables in the logs *)
Definition read (s : string) : asc_map := match parse_file (txt s) with Some m => m | None => [] end.
Definition g11_tables : list asc_map := Eval vm_compute in map read g11_literals.
Definition v2_tables : list asc_map := Eval vm_compute in map read v2_literals.

Lemma g11_bytes : map (fun m => encode (log_text m)) g11_tables = map txt g11_literals.
Proof. vm_compute. reflexivity. Qed.
Lemma v2_bytes : map (fun m => encode (log_text m)) v2_tables = map txt v2_literals.
Proof. vm_compute. reflexivity. Qed.
Definition table_lines (m : asc_map) : bool := forallb (fun e => plain_b (log_line e) && line_ok e) m.
Lemma g11_lines : forallb table_lines g11_tables = true.
Proof. vm_compute. reflexivity. Qed.
Lemma v2_lines : forallb table_lines v2_tables = true.
Proof. vm_compute. reflexivity. Qed.
Lemma printed_concat : forall ts, concat (map (fun m => encode (log_text m)) ts) = printed (concat ts).
Proof. exact encode_parts. Qed.
Lemma g11_printed : g11_log = printed (concat g11_tables).
Proof. exact (eq_trans (f_equal (@concat Z) (eq_sym g11_bytes)) (printed_concat g11_tables)). Qed.
Lemma v2_printed : v2_log = printed (concat v2_tables).
Proof. exact (eq_trans (f_equal (@concat Z) (eq_sym v2_bytes)) (printed_concat v2_tables)). Qed.
Lemma parsed : forall ts, forallb table_lines ts = true -> parse_file (printed (concat ts)) = Some (concat ts).
Proof.
  intros ts H. assert (G : forall e, In e (concat ts) -> plain_b (log_line e) = true /\ line_ok e = true).
  { intros e I. apply in_concat in I as [m [I1 I2]]. rewrite forallb_forall in H. specialize (H m I1). unfold table_lines in H.
    rewrite forallb_forall in H. specialize (H e I2). apply andb_prop in H. exact H. }
  apply (parse_logged (concat ts)).
  - apply Forall_forall. intros l Hl. apply in_map_iff in Hl. destruct Hl as [e [<- He]]. apply plain_b_ok, G, He.
  - intros n c I. destruct (G _ I) as [_ L]. unfold line_ok in L. cbn [fst snd] in L.
    destruct (parse_line (show_entry n (rebuild c))) as [[n' c']|]; [|discriminate].
    apply andb_prop in L. destruct L as [L1 L2]. apply asc_eqb_eq in L2. f_equal. f_equal; auto. lia.
Qed.

(** the chain evaluates to the number, with one addition too many exactly for the numbers in [xs] *)
Definition eval_ok (e : Z * asc) : bool := match fst (int_eval (snd e)) with Ok v => v =? fst e | _ => false end.
Definition within_extra (xs : list Z) (e : Z * asc) : bool :=
  eval_ok e && (length (snd e) =? Opt13.cost (fst e) + if existsb (Z.eqb (fst e)) xs then 1 else 0)%nat.
Lemma g11_good : forallb (within_extra []) (concat g11_tables) = true.
Proof. vm_compute. reflexivity. Qed.
Lemma g11_keys : odds_from 1 (concat g11_tables) = true /\ length (concat g11_tables) = 1024%nat.
Proof. vm_compute. auto. Qed.
Lemma v2_keys : odds_from 1 (concat v2_tables) = true /\ length (concat v2_tables) = 2048%nat.
Proof. vm_compute. auto. Qed.
Definition late : list Z := [805; 1173; 1209; 1305; 1353; 1377; 1595; 1605; 1695; 1743; 2585; 3129; 3143; 3195; 3205; 3633; 3717; 3813].
Lemma v2_good : forallb (within_extra late) (concat v2_tables) = true.
Proof. vm_compute. reflexivity. Qed.

Lemma eval_needs : forall k c, 0 < k < 2 ^ 13 -> Z.odd k = true -> fst (int_eval c) = Ok k ->
  Properties33.needs k (Opt13.cost k) /\ (Opt13.cost k <= length c)%nat.
Proof.
  intros k c Hk Ho E. destruct (Properties33.table13_has k Hk Ho) as [c0 I]. destruct (Opt13.cost_ok k c0 I) as [-> _].
  pose proof (Properties33.table13_needs k c0 I) as N. split; [exact N|]. unfold int_eval, asc_eval in E. rewrite fst_bind in E.
  destruct (fst (foldM _ c [1])) as [w|e|e] eqn:F; try discriminate. cbn [fst ret] in E. injection E as E.
  apply int_run in F. destruct F as [W ->]. destruct (run_chain c [1] ltac:(cbn; constructor) W) as [R1 R2].
  assert (L : In k (rev (chain_run c [1]))).
  { apply in_rev. rewrite rev_involutive, <- E. destruct (exists_last (l := chain_run c [1])) as [l [b X]].
    { intros X. rewrite X in R2. cbn [length] in R2. lia. }
    rewrite X, last_last. apply in_app_iff. right. left. reflexivity. }
  destruct N as [_ N]. pose proof (N _ R1 (or_introl L)) as K. unfold steps in K. rewrite rev_length, R2 in K. cbn [length] in K. lia.
Qed.
Lemma keys_exactly : forall m n, odds_from 1 m = true -> length m = n ->
  map fst m = map (fun i => 2 * Z.of_nat i + 1) (seq 0 n).
Proof. intros m n H <-. rewrite (odds_keys _ _ H). apply map_ext. intros i. lia. Qed.

Lemma extra_ok : forall xs m n, odds_from 1 m = true -> length m = n -> (n <= 4096)%nat -> forallb (within_extra xs) m = true ->
  forall k c, In (k, c) m -> fst (int_eval c) = Ok k /\
    (In k xs -> exists n, length c = S n /\ Properties33.needs k n) /\ (~ In k xs -> Properties33.needs k (length c)).
Proof.
  intros xs m n K1 K2 Hn G k c I. pose proof (keys_exactly m n K1 K2) as K.
  pose proof (proj1 (forallb_forall _ _) G _ I) as G0. clear G. unfold within_extra in G0. apply andb_prop in G0. destruct G0 as [G1 G2].
  unfold eval_ok in G1. cbn [fst snd] in G1, G2.
  assert (E : fst (int_eval c) = Ok k) by (destruct (fst (int_eval c)) as [v|e|e]; try discriminate; f_equal; clear - G1; lia).
  split; [exact E|]. apply (in_map fst) in I. rewrite K in I. cbn [fst] in I. apply in_map_iff in I. destruct I as [i [Ek Hi]].
  apply in_seq in Hi. assert (O : Z.odd k = true) by (rewrite <- Ek, Z.odd_add, Z.odd_mul; reflexivity).
  assert (Hk : 0 < k < 2 ^ 13) by (clear - Ek Hi Hn; lia). destruct (eval_needs k c Hk O E) as [N L]. clear - N L G2.
  destruct (existsb (Z.eqb k) xs) eqn:X.
  - apply existsb_exists in X. destruct X as [k' [X1 X2]]. assert (k' = k) by (clear - X2; lia). subst k'.
    split; [|intros C; contradiction]. intros _. exists (Opt13.cost k). split; [|exact N].
    apply Nat.eqb_eq in G2. rewrite G2. apply Nat.add_1_r.
  - split.
    + intros C. exfalso. assert (Y : existsb (Z.eqb k) xs = true) by (apply existsb_exists; exists k; split; [exact C|apply Z.eqb_refl]). congruence.
    + intros _. apply Nat.eqb_eq in G2. rewrite Nat.add_0_r in G2. rewrite G2. exact N.
Qed.
Lemma has_key : forall m n i, odds_from 1 m = true -> length m = n -> (i < n)%nat -> exists c, In (2 * Z.of_nat i + 1, c) m.
Proof.
  intros m n i K1 K2 Hi. pose proof (keys_exactly m n K1 K2) as K. assert (J : In (2 * Z.of_nat i + 1) (map fst m)).
  { rewrite K. apply in_map_iff. exists i. split; [reflexivity|]. apply in_seq. lia. }
  apply in_map_iff in J. destruct J as [[k c] [J1 J2]]. cbn [fst] in J1. subst k. exists c. exact J2.
Qed.
Lemma late_nodup : NoDup late.
Proof. unfold late. repeat (constructor; [cbn [In]; intros C; repeat (destruct C as [C|C]; [discriminate|]); exact C|]). constructor. Qed.
Lemma late_key : forall k, In k late -> exists i, (i < 2048)%nat /\ k = 2 * Z.of_nat i + 1.
Proof.
  assert (G : forallb (fun k => (0 <? k) && (k <? 4096) && Z.odd k) late = true) by (vm_compute; reflexivity).
  intros k I. pose proof (proj1 (forallb_forall _ _) G k I) as H. cbv beta in H. exists (Z.to_nat (k / 2)).
  apply andb_prop in H. destruct H as [H O]. pose proof (Zodd_mod k) as M. rewrite O in M. pose proof (Z.div_mod k 2).
  assert (k mod 2 = 1) by (rewrite Zmod_odd, O; reflexivity). lia.
Qed.

(* ------------------------------------------------------------------ *)
(** ** C76 *)

(** guarantee_11-bit.log: the script that makes the table reads from it one chain for each odd number below 2^11, in order;
    the text is the one printed for that table; every chain evaluates to its number and none is longer than necessary. *)
Theorem C76_guarantee : exists m, parse_file g11_log = Some m /\ g11_log = printed m /\
  map fst m = map (fun i => 2 * Z.of_nat i + 1) (seq 0 1024) /\
  forall k c, In (k, c) m -> fst (int_eval c) = Ok k /\ Properties33.needs k (length c).
Proof.
  exists (concat g11_tables). split; [rewrite g11_printed; exact (parsed _ g11_lines)|]. split; [exact g11_printed|]. split; [exact (keys_exactly _ _ (proj1 g11_keys) (proj2 g11_keys))|].
  intros k c I. destruct (extra_ok [] _ _ (proj1 g11_keys) (proj2 g11_keys) (proj1 (Nat.leb_le 1024 4096) eq_refl) g11_good k c I) as [E [_ N]].
  split; [exact E|]. apply N. intros [].
Qed.

(** limit-13_v2.log: the same for the odd numbers below 2^12, but the part above "no guarantee" is not free of chains that
    are too long: 18 of them take one addition more than necessary. *)
Theorem C76_v2 : exists m, parse_file v2_log = Some m /\ v2_log = printed m /\
  map fst m = map (fun i => 2 * Z.of_nat i + 1) (seq 0 2048) /\ NoDup late /\ length late = 18%nat /\
  (forall k, In k late -> exists c, In (k, c) m) /\
  forall k c, In (k, c) m -> fst (int_eval c) = Ok k /\
    (In k late -> exists n, length c = S n /\ Properties33.needs k n) /\ (~ In k late -> Properties33.needs k (length c)).
Proof.
  exists (concat v2_tables). split; [rewrite v2_printed; exact (parsed _ v2_lines)|]. split; [exact v2_printed|]. split; [exact (keys_exactly _ _ (proj1 v2_keys) (proj2 v2_keys))|].
  split; [exact late_nodup|]. split; [reflexivity|]. split.
  - intros k I. destruct (late_key k I) as [i [Hi ->]]. exact (has_key _ _ i (proj1 v2_keys) (proj2 v2_keys) Hi).
  - exact (extra_ok late _ _ (proj1 v2_keys) (proj2 v2_keys) (proj1 (Nat.leb_le 2048 4096) eq_refl) v2_good).
Qed.
(** so that part of the log does not hold only shortest chains *)
Theorem C76_v2_refuted : exists m k c vals, parse_file v2_log = Some m /\ In (k, c) m /\ chain vals /\ In k vals /\ (steps vals < length c)%nat.
Proof.
  destruct C76_v2 as (m & P & _ & _ & _ & _ & H1 & H2). assert (I : In 805 late) by (left; reflexivity).
  destruct (H1 805 I) as [c J]. destruct (H2 805 c J) as [_ [H3 _]]. destruct (H3 I) as [n [Ln [[vals [V1 [V2 V3]]] _]]].
  exists m, 805, c, vals. split; [exact P|]. split; [exact J|]. split; [exact V1|]. split; [exact V2|]. lia.
Qed.
Print Assumptions C76_guarantee.
Print Assumptions C76_v2.
Print Assumptions C76_v2_refuted.

(** the chain for 805 in limit-13_v2.log, and the shorter one of limit-13_v4.log *)
Example C76_example :
  let v2 := [mkAddShift true 0 true 0 1; mkAddShift true 0 true 1 3; mkAddShift true 0 true 2 3; mkAddShift true 0 true 3 2] in
  let v4 := [mkAddShift true 0 true 0 2; mkAddShift true 1 true 1 2; mkAddShift true 1 true 2 5] in
  nth 402 (concat v2_tables) (0, []) = (805, v2) /\ fst (int_eval v2) = Ok 805 /\ fst (int_eval v4) = Ok 805.
Proof. vm_compute. auto. Qed.
