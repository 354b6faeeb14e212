(** Properties C59 and C60: the Ruby scripts that prepared the recoding and the
    table of chains *)
From Coq Require Import String.
From Verif Require Import Base Backend Words Encryption Params Naf Asc AscTable ScalarMul Messages
  KtScript ChainScript Spec ChainSpec Contract BaseProofs BitsProofs NafProofs ScalarProofs
  KtScriptProofs ChainTextProofs ChainSearchProofs.
From Coq Require Import ZifyBool ZifyNat.

(* ------------------------------------------------------------------ *)
(** ** C59: kt.rb *)

(** [L] is the number of binary digits of k *)
Definition bit_length (k : Z) (L : nat) : Prop :=
  (1 <= L)%nat /\ 2 ^ Z.of_nat (L - 1) <= k < 2 ^ Z.of_nat L.

(** Whatever the Rust function returns, in either build profile, are the digits of
    the script. *)
Theorem C59_same_digits : forall o k kv L, 0 <= k < 2^32 -> (k <> 0 -> bit_length k L) ->
  fst (koyama_tsuruoka_vec o k) = Ok kv -> kt_rb L k = kv.
Proof.
  intros o k kv L Hk HL E. pose proof (kt_rb_same o k kv E) as S.
  destruct (Z.eq_dec k 0) as [->|Hn]; [cbn in *; auto|].
  destruct (HL Hn) as [H1 H2]. destruct (bit_len_32_ok k Hk) as [[H3 _]|[H3 H4]]; [congruence|].
  replace L with (bit_len_32 k); auto.
  apply (bits_of_unique k); right; split; auto; lia.
Qed.

(** The script is right for numbers of any size, if it is told their length. *)
Theorem C59_any_size : forall k L, 0 <= k -> (k <> 0 -> bit_length k L) ->
  digits (kt_rb L k) /\ value (kt_rb L k) = k /\ (1 <= length (kt_rb L k) <= L + 1)%nat /\
  (0 < k -> last (kt_rb L k) 0 <> 0).
Proof.
  intros k L Hk HL. destruct (Z.eq_dec k 0) as [->|H0].
  { cbn. split; [repeat constructor; unfold digit; lia|]. split; auto. split; [lia|lia]. }
  destruct (HL H0) as [H1 H2]. destruct (Z.eq_dec k 1) as [->|Hn1].
  { unfold kt_rb. cbn. split; [repeat constructor; unfold digit; lia|]. split; auto. split; [lia|lia]. }
  destruct L as [|x]; [lia|]. replace (S x - 1)%nat with x in H2 by lia.
  destruct (kt_rb_value x k H0 Hn1) as [A [B [C D]]]. split; auto. split.
  - rewrite B. rewrite Nat2Z.inj_succ, Z.pow_succ_r in H2 by lia.
    replace (k mod 2 ^ Z.of_nat x) with (k - 2 ^ Z.of_nat x); [lia|].
    apply (Z.mod_unique k (2 ^ Z.of_nat x) 1); lia.
  - split; [lia|]. intros _.
    destruct (exists_last (l := kt_rb (S x) k)) as [l [d E]]; [intros X; rewrite X in C; cbn in C; lia|].
    rewrite E in *. rewrite last_last. rewrite app_length in D. cbn [length] in D.
    replace (length l + 1 - 1)%nat with (length l) in D by lia. rewrite nth_middle in D. auto.
Qed.

(** The length comes from a floating-point logarithm. Any other length gives the
    digits of another number: the bits below the supposed top bit, and that bit. *)
Theorem C59_any_length : forall k x, 2 <= k ->
  digits (kt_rb (S x) k) /\ value (kt_rb (S x) k) = k mod 2 ^ Z.of_nat x + 2 ^ Z.of_nat x.
Proof.
  intros k x Hk. destruct (kt_rb_value x k ltac:(lia) ltac:(lia)) as [A [B _]]. auto.
Qed.
Theorem C59_length_needed : forall k L, 2 <= k -> (1 <= L)%nat ->
  (value (kt_rb L k) = k <-> bit_length k L).
Proof.
  intros k L Hk HL. split; intros H.
  - destruct L as [|x]; [lia|]. rewrite (proj2 (C59_any_length k x Hk)) in H.
    pose proof (Z.mod_pos_bound k (2 ^ Z.of_nat x) ltac:(apply Z.pow_pos_nonneg; lia)).
    split; [lia|]. replace (S x - 1)%nat with x by lia. rewrite Nat2Z.inj_succ, Z.pow_succ_r by lia. lia.
  - apply C59_any_size; [lia|auto].
Qed.
(** what is printed: the absolute value, and its digits from the highest *)
Theorem C59_printed : forall k_len arg, (forall k, 0 < k -> bit_length k (k_len k)) ->
  let (v, ds) := kt_rb_main k_len arg in
  v = Z.abs arg /\ digits ds /\ fold_left (fun acc d => 2 * acc + d) ds 0 = Z.abs arg.
Proof.
  intros k_len arg HL. unfold kt_rb_main. cbv zeta. split; auto.
  destruct (C59_any_size (Z.abs arg) (k_len (Z.abs arg))) as [A [B _]]; [lia|intros; apply HL; lia|].
  assert (H1 : digits (rev (kt_rb (k_len (Z.abs arg)) (Z.abs arg)))) by (apply Forall_rev; exact A).
  split; auto. rewrite <- B at 3. rewrite fold_left_rev_right || rewrite <- (fold_left_rev_right).
  rewrite rev_involutive. generalize (kt_rb (k_len (Z.abs arg)) (Z.abs arg)). induction l as [|d l IH]; auto.
  cbn [fold_right value]. rewrite IH. lia.
Qed.
Print Assumptions C59_same_digits.
Print Assumptions C59_any_size.
Print Assumptions C59_any_length.
Print Assumptions C59_length_needed.
Print Assumptions C59_printed.

Example C59_example : kt_rb 12 3221 = [1; 0; 1; 0; 1; 0; 0; 1; 0; 0; 1; 1] /\ bit_length 3221 12 /\
  fst (koyama_tsuruoka_vec true 3221) = Ok [1; 0; 1; 0; 1; 0; 0; 1; 0; 0; 1; 1].
Proof. split; [vm_compute; reflexivity|]. split; [|vm_compute; reflexivity]. unfold bit_length. cbn. lia. Qed.
(** 91 is recoded by the script where the checked build panics *)
Example C59_example_91 : value (kt_rb 7 91) = 91 /\ fst (koyama_tsuruoka_vec true 91) = Panic P_overflow.
Proof. split; vm_compute; reflexivity. Qed.
(** more than 32 bits *)
Example C59_example_long : kt_rb 48 (2^48 - 1) = -1 :: repeat 0 47 ++ [1].
Proof. vm_compute. reflexivity. Qed.
(** log2(2^49 - 1) is closer to 49 than to the double before it: with the length
    50 the digits are those of 2^49 + (2^49 - 1) *)
Example C59_example_wrong : value (kt_rb 50 (2^49 - 1)) = 2 * 2^49 - 1.
Proof. vm_compute. reflexivity. Qed.

(* ------------------------------------------------------------------ *)
(** ** C60: variant.rb and parse-asc_log-to-yaml.rb *)

(** The search never raises, for any number of extensions and any width from 2 on:
    the check of the levels passes, no merge fails, no level is empty. *)
Theorem C60_search_returns : forall rounds limit, (2 <= limit)%nat ->
  exists arys db, search rounds limit = Some (arys, db) /\ length arys = S rounds /\
    Forall (fun level => level <> []) arys /\
    forall i c, In c (nth i arys []) -> length c = S i.
Proof.
  intros rounds limit Hl. destruct (search_total rounds limit Hl) as [arys [db [E [H1 [H2 _]]]]].
  exists arys, db. split; auto. split; auto. clear -H2.
  assert (G : forall j l, levels j l -> Forall (fun level => level <> []) l /\
     forall i c, In c (nth i l []) -> length c = S (j + i)).
  { intros j l. revert j. induction l as [|a l IH]; intros j H; [split; [constructor|intros [|i] c []]|].
    destruct H as [A [B D]]. destruct (IH _ D) as [F1 F2]. split; [constructor; auto|].
    intros [|i] c Hc; cbn [nth] in Hc.
    - rewrite Forall_forall in B. destruct (B _ Hc) as [_ ->]. lia.
    - rewrite (F2 _ _ Hc). lia. }
  apply (G 0%nat arys); auto.
Qed.

Lemma good_spec : forall c vals, chain vals -> good (rev vals) c -> chain (rev (to_vals c) ++ vals).
Proof.
  induction c as [|[|pp p qp q r] c IH]; intros vals Hv H; [exact Hv|destruct H|].
  destruct H as [H1 [H2 [H3 [H4 H5]]]]. cbn [to_vals map rev]. rewrite <- app_assoc. cbn [app].
  apply IH; [|cbn [rev]; exact H5].
  replace (oval (Node pp p qp q r)) with ((if pp then 1 else -1) * oval p + (if qp then 1 else -1) * (2 ^ Z.of_nat r * oval q))
    by (cbn [oval]; ring).
  apply ChainSpec.chain_next; auto; try (apply in_rev; auto); try lia; destruct pp, qp; auto.
Qed.

(** Every chain that is found is an addition-subtraction chain, newest value first,
    for the odd number under which it is stored. *)
Theorem C60_chains : forall rounds limit arys db v cs c, (2 <= limit)%nat ->
  search rounds limit = Some (arys, db) -> In (v, cs) db -> In c cs ->
  chain (rev (to_vals c)) /\ hd 0 (rev (to_vals c)) = v /\ 0 < v /\ Z.odd v = true.
Proof.
  intros rounds limit arys db v cs c Hl E Hv Hc.
  destruct (search_total rounds limit Hl) as [arys' [db' [E' [_ [_ [_ [[H1 H2] _]]]]]]].
  rewrite E in E'. injection E' as <- <-. apply db_get_in in Hv; auto.
  destruct (H2 _ _ Hv) as [_ F]. rewrite Forall_forall in F. destruct (F _ Hc) as [G T].
  pose proof (good_ne _ G) as N. pose proof (last_vals _ N) as LV. unfold chain_top in T. rewrite T in LV.
  pose proof (good_top_pos _ G) as P. rewrite Forall_forall in P. destruct G as [t [-> Gt]].
  split; [cbn [to_vals map rev]; apply (good_spec t [1]); [constructor|auto]|]. split; [|split; auto].
  - destruct (exists_last N) as [l [x El]]. rewrite El in *. rewrite last_last in T. rewrite to_vals_app, rev_app_distr.
    cbn. auto.
  - assert (O : Forall (fun v => Z.odd v = true) (to_vals t)) by (apply (good_odd t [1]); auto; repeat constructor).
    rewrite Forall_forall in O. destruct LV as [<-|LV]; [reflexivity|]. apply O. exact LV.
Qed.

(** Printing and reading back: the two scripts together always give a table. Its
    keys increase, they are the values found up to 2^(limit-1), and each chain refers to
    earlier elements only and has the value of its key. *)
Theorem C60_table : forall rounds limit, (2 <= limit)%nat ->
  exists arys db m, search rounds limit = Some (arys, db) /\ generate rounds limit = Some m /\
    increasing (map fst m) /\
    (forall v, In v (map fst m) <-> In v (map fst db) /\ v <= 2 ^ Z.of_nat (limit - 1)) /\
    (forall n c, In (n, c) m -> chain_wf 1 c /\ chain_value c = n /\ fst (asc_get m n) = Ok c /\
       exists oc cs, In (n, oc :: cs) db /\ length c = (length oc - 1)%nat /\ chain_run c [1] = to_vals oc).
Proof.
  intros rounds limit Hl.
  destruct (search_total rounds limit Hl) as [arys [db [E [_ [_ [_ [[H1 H2] _]]]]]]].
  unfold generate. rewrite E. unfold data_lines.
  set (f := fun e : Z * list aschain => fst e <=? 2 ^ Z.of_nat (limit - 1)).
  set (es := filter f (sort_db db)).
  assert (Hes : forall e, In e es <-> In e db /\ f e = true).
  { intros e. unfold es. rewrite filter_In, sort_in. reflexivity. }
  assert (HI : increasing (map fst es)) by (apply filter_increasing, sort_increasing; auto).
  clearbody es.
  assert (HG : forall e, In e db -> exists oc cs, snd e = oc :: cs /\ good_chain oc /\ chain_top oc = fst e).
  { intros [v cs] Hv. apply db_get_in in Hv; auto. destruct (H2 _ _ Hv) as [N F].
    destruct cs as [|oc cs]; [congruence|]. inversion F as [|? ? [G1 G2] _]; subst. exists oc, cs. auto. }
  destruct (parse_lines_ok es) as [m [Em F]].
  { apply Forall_forall. intros e He. apply Hes in He. destruct He as [He _].
    destruct (HG e He) as [oc [cs [E1 [E2 E3]]]]. destruct e as [ev ech]. cbn [fst snd] in *.
    subst ech. cbn [hd]. split; auto.
    pose proof (good_top_pos _ E2) as P. rewrite Forall_forall in P. rewrite <- E3. apply P, last_vals, good_ne; auto. }
  assert (Hk : map fst m = map fst es).
  { clear -F. induction F as [|e a es m [A _] _ IH]; auto. cbn [map]. f_equal; auto. }
  exists arys, db, m. split; auto. split; [exact Em|]. split; [rewrite Hk; auto|]. split.
  { intros v. rewrite Hk. split.
    - intros Hv. apply in_map_iff in Hv. destruct Hv as [e [<- He]]. apply Hes in He. destruct He as [He Hf].
      split; [apply in_map; auto|]. unfold f in Hf. lia.
    - intros [Hv Hb]. apply in_map_iff in Hv. destruct Hv as [e [<- He]]. apply in_map. apply Hes. split; auto.
      unfold f. lia. }
  intros n c Hn.
  assert (Hget : fst (asc_get m n) = Ok c).
  { rewrite <- Hk in HI. clear -HI Hn. induction m as [|[k c'] m IH]; [destruct Hn|]. cbn [map fst] in HI.
    destruct HI as [I1 I2]. cbn [asc_get]. destruct Hn as [[= -> ->]|Hn]; [rewrite Z.eqb_refl; auto|].
    rewrite Forall_forall in I1. assert (k < n) by (apply I1; apply (in_map fst) in Hn; exact Hn).
    replace (n =? k) with false by lia. auto. }
  assert (He : exists e, In e es /\ fst e = n /\ entry_of (hd [] (snd e)) c).
  { clear -F Hn. induction F as [|e a es m [A B] _ IH]; [destruct Hn|]. destruct Hn as [->|Hn].
    - exists e. split; [left; auto|]. auto.
    - destruct (IH Hn) as [e' [P Q]]. exists e'. split; [right; auto|auto]. }
  destruct He as [e [He [Ee [L1 [L2 L3]]]]]. apply Hes in He. destruct He as [He _].
  destruct (HG e He) as [oc [cs [E1 [E2 E3]]]]. destruct e as [ev ech]. cbn [fst snd] in *. subst ech ev. cbn [hd] in *.
  split; auto. split; [|split; auto].
  - unfold chain_value. rewrite L3. pose proof (good_ne _ E2) as N. unfold chain_top in E3.
    destruct (exists_last N) as [l [x El]]. rewrite El in *. rewrite to_vals_app. cbn [to_vals map].
    rewrite last_last in *. congruence.
  - exists oc, cs. auto.
Qed.

(** What is stored under a value: at least one chain, all equally long, no two with
    the same elements. The chains stored are those of the levels. *)
Theorem C60_stored : forall rounds limit arys db, (2 <= limit)%nat -> search rounds limit = Some (arys, db) ->
  (forall v cs, In (v, cs) db -> cs <> [] /\ NoDup (map to_vals cs) /\
     forall c c', In c cs -> In c' cs -> length c = length c') /\
  (forall c, In c (concat arys) <-> exists v cs, In (v, cs) db /\ In c cs).
Proof.
  intros rounds limit arys db Hl E. pose proof (search_stored rounds limit arys db Hl E) as [S1 S2]. cbn [fst snd] in *.
  destruct (search_total rounds limit Hl) as [arys' [db' [E' [_ [_ [_ [[H1 _] _]]]]]]].
  rewrite E in E'. injection E' as <- <-. split.
  - intros v cs Hv. apply db_get_in in Hv; auto. destruct (S1 _ _ Hv) as [A [D [n F]]]. split; auto. split; auto.
    intros c c' Hc Hc'. rewrite Forall_forall in F. rewrite (F _ Hc), (F _ Hc'). reflexivity.
  - intros c. rewrite <- (app_nil_r (concat arys)), S2. split; intros [v [cs [A D]]]; exists v, cs; split; auto; apply db_get_in; auto.
Qed.

(** +-1 and a signed power of two for each of [ts] *)
Definition sum_of (d : Z) (ts : list (Z * nat)) : Z :=
  fold_right (fun t acc => fst t * 2 ^ Z.of_nat (snd t) + acc) d ts.
Definition sign (s : Z) : Prop := s = 1 \/ s = -1.
Lemma sum_of_signed : forall m d ts, sign d -> Forall (fun t => sign (fst t) /\ (1 <= snd t <= m)%nat) ts ->
  signed_sum m (length ts) (sum_of d ts).
Proof.
  intros m d ts Hd H. induction H as [|[s r] ts [Hs Hr] H IH]; cbn [sum_of fold_right length].
  - destruct Hd as [->| ->]; constructor.
  - cbn [fst snd] in *. change (fold_right _ d ts) with (sum_of d ts). destruct Hs as [->| ->].
    + replace (1 * 2 ^ Z.of_nat r + sum_of d ts) with (sum_of d ts + 2 ^ Z.of_nat r) by lia. constructor; auto.
    + replace (-1 * 2 ^ Z.of_nat r + sum_of d ts) with (sum_of d ts - 2 ^ Z.of_nat r) by lia. constructor; auto.
Qed.
(** The search is complete for sums of powers of two: the absolute value of +-1 plus
    k signed powers of two below 2^width is stored after k extensions, and the chain
    that is printed for it has at most k additions. *)
Theorem C60_complete : forall rounds limit arys db d ts, (2 <= limit)%nat ->
  search rounds limit = Some (arys, db) -> sign d ->
  Forall (fun t => sign (fst t) /\ (1 <= snd t < limit)%nat) ts -> (length ts <= rounds)%nat ->
  exists c cs, In (Z.abs (sum_of d ts), c :: cs) db /\ (length c - 1 <= length ts)%nat.
Proof.
  intros rounds limit arys db d ts Hl E Hd Ht Hk.
  destruct (search_complete rounds limit arys db (length ts) (sum_of d ts) Hl E) as [c [cs [Hc Lc]]]; auto.
  { apply sum_of_signed; auto. eapply Forall_impl; [|exact Ht]. cbn beta. intros [a b] [A D]. split; auto. cbn [snd] in *. lia. }
  destruct (search_total rounds limit Hl) as [arys' [db' [E' [_ [_ [_ [[H1 _] _]]]]]]].
  rewrite E in E'. injection E' as <- <-. exists c, cs. split; [apply db_get_in; auto|lia].
Qed.

(** Hence with (width - 1) / 2 extensions or more the table has exactly the odd
    numbers up to 2^(width - 1), each with at most (width - 1) / 2 additions. *)
Theorem C60_all_odd : forall rounds limit m, (2 <= limit)%nat -> ((limit - 1) / 2 <= rounds)%nat ->
  generate rounds limit = Some m ->
  (forall v, In v (map fst m) <-> Z.odd v = true /\ 0 < v <= 2 ^ Z.of_nat (limit - 1)) /\
  (forall v c, In (v, c) m -> (length c <= (limit - 1) / 2)%nat).
Proof.
  intros rounds limit m Hl Hr Em.
  destruct (C60_table rounds limit Hl) as [arys [db [m' [E [E2 [_ [E3 E4]]]]]]]. rewrite Em in E2. injection E2 as <-.
  assert (Odd : forall v, In v (map fst db) -> Z.odd v = true /\ 0 < v).
  { intros v Hv. apply in_map_iff in Hv. destruct Hv as [[v' cs] [<- Hv]]. cbn [fst].
    destruct (C60_stored rounds limit arys db Hl E) as [S _]. destruct (S _ _ Hv) as [N _].
    destruct cs as [|c cs]; [congruence|].
    destruct (C60_chains rounds limit arys db v' (c :: cs) c Hl E Hv (or_introl eq_refl)) as [_ [_ [P O]]]. auto. }
  assert (F : forall v, Z.odd v = true -> 0 < v <= 2 ^ Z.of_nat (limit - 1) ->
    exists c cs, db_get v db = Some (c :: cs) /\ (length c <= S ((limit - 1) / 2))%nat).
  { intros v Ov Hv. destruct (signed_exists (limit - 1) (limit - 1) v (le_n _) Ov ltac:(lia)) as [k [Hk S]].
    destruct (search_complete rounds limit arys db k v Hl E S ltac:(lia)) as [c [cs [Hc Lc]]].
    rewrite Z.abs_eq in Hc by lia. exists c, cs. split; auto. lia. }
  destruct (search_total rounds limit Hl) as [arys' [db' [E' [_ [_ [_ [[H1 _] _]]]]]]].
  rewrite E in E'. injection E' as <- <-. split.
  - intros v. rewrite E3. split.
    + intros [A D]. destruct (Odd v A). auto.
    + intros [A D]. split; [|lia]. destruct (F v A D) as [c [cs [Hc _]]]. apply db_get_in in Hc; auto.
      apply (in_map fst) in Hc. exact Hc.
  - intros v c Hc. assert (Hk : In v (map fst m)) by (apply (in_map fst) in Hc; exact Hc). apply E3 in Hk. destruct Hk as [K1 K2].
    destruct (Odd v K1) as [Ov Pv]. destruct (E4 _ _ Hc) as [_ [_ [_ [oc [cs [Ho [Lc _]]]]]]].
    destruct (F v Ov ltac:(lia)) as [c0 [cs0 [Hc0 L0]]]. apply db_get_in in Ho; auto. rewrite Ho in Hc0.
    injection Hc0 as -> _. lia.
Qed.

Lemma growth_bound : forall m : asc_map, exists g, forall n c, In (n, c) m -> (chain_growth c <= g)%nat.
Proof.
  induction m as [|[n c] m [g IH]]; [exists 0%nat; intros ? ? []|].
  exists (Nat.max g (chain_growth c)). intros n' c' [[= -> ->]|H]; [lia|]. specialize (IH _ _ H). lia.
Qed.

Section Ct.
Context {B : backend} {qw : Z} (C : contract B qw).
(** A table generated by the scripts serves the library: if the search has found
    the odd numbers of 12 bits, multiplication by any i32 scalar with that table is
    right. *)
Theorem C60_usable : forall rounds limit arys db m, (2 <= limit)%nat ->
  search rounds limit = Some (arys, db) -> generate rounds limit = Some m ->
  (forall n, 0 < n < 2^12 -> Z.odd n = true -> n <= 2 ^ Z.of_nat (limit - 1) /\ In n (map fst db)) ->
  forall pc k x v, asc_12 pc = m -> - 2^31 <= k < 2^31 -> enc_val C x v ->
  match fst (pa_scalar_mul pc k x) with
  | Ok z => enc_val C z (k * v)
  | Err _ => False
  | Panic e => ovf pc = true /\ e = P_overflow
  end.
Proof.
  intros rounds limit arys db m Hl E Em Hall pc k x v HT Hk Hx.
  destruct (C60_table rounds limit Hl) as [arys' [db' [m' [E1 [E2 [_ [E3 E4]]]]]]].
  rewrite E in E1. injection E1 as <- <-. rewrite Em in E2. injection E2 as <-.
  destruct (growth_bound m) as [g Hg].
  assert (HV : table_valid g (asc_12 pc)).
  { rewrite HT. intros n Hn Ho. destruct (Hall n Hn Ho) as [A D].
    assert (Hin : In n (map fst m)) by (apply E3; auto).
    apply in_map_iff in Hin. destruct Hin as [[n' c] [<- Hin]]. cbn [fst] in *.
    destruct (E4 _ _ Hin) as [F1 [F2 [F3 _]]]. exists c. split; auto. split; auto. split; auto. eapply Hg; eauto. }
  eapply ovfP_conseq; [apply (scalar_mul_ok C pc g k x v HV); auto; unfold I32_MIN, I32_MAX; lia|].
  intros z [H1 _]. exact H1.
Qed.
(** Without that condition: any run with a width of 13 or more and at least 6
    extensions gives such a table. *)
Theorem C60_enough : forall rounds limit m, (13 <= limit)%nat -> (6 <= rounds)%nat ->
  generate rounds limit = Some m ->
  forall pc k x v, asc_12 pc = m -> - 2^31 <= k < 2^31 -> enc_val C x v ->
  match fst (pa_scalar_mul pc k x) with
  | Ok z => enc_val C z (k * v)
  | Err _ => False
  | Panic e => ovf pc = true /\ e = P_overflow
  end.
Proof.
  intros rounds limit m Hl Hr Em. destruct (search_total rounds limit ltac:(lia)) as [arys [db [E [_ [_ [_ [[H1 _] _]]]]]]].
  apply (C60_usable rounds limit arys db m); auto; [lia|].
  intros n Hn On. split.
  - apply Z.le_trans with (2 ^ 12); [lia|]. apply Z.pow_le_mono_r; lia.
  - destruct (signed_exists 12 12 n (le_n _) On ltac:(change (Z.of_nat 12) with 12; lia)) as [k [Hk S]].
    change (12 / 2)%nat with 6%nat in Hk.
    destruct (search_complete rounds limit arys db k n ltac:(lia) E) as [c [cs [Hc _]]].
    { apply (signed_mono 12); auto. lia. }
    { lia. }
    rewrite Z.abs_eq in Hc by lia. apply db_get_in in Hc; auto. apply (in_map fst) in Hc. exact Hc.
Qed.
End Ct.

(** The width bounds the values: the j-th element of a chain (from 0) is below
    2^(width + j), for every chain of the database, however many extensions. *)
Theorem C60_width : forall rounds limit arys db v cs c j u, (2 <= limit)%nat ->
  search rounds limit = Some (arys, db) -> In (v, cs) db -> In c cs ->
  nth_error (to_vals c) j = Some u -> u < 2 ^ Z.of_nat (limit + j).
Proof.
  intros rounds limit arys db v cs c j u Hl E Hv Hc Hu.
  destruct (search_slim rounds limit arys db Hl E) as [_ S]. cbn [snd] in S.
  rewrite Forall_forall in S. specialize (S _ Hv). cbn [snd] in S. rewrite Forall_forall in S.
  unfold to_vals in Hu. rewrite nth_error_map in Hu. destruct (nth_error c j) as [e|] eqn:En; [|discriminate].
  injection Hu as <-. destruct (S _ Hc j e En) as [W D]. pose proof (oval_bound e) as B.
  apply Z.le_lt_trans with (Z.abs (oval e)); [lia|]. eapply Z.lt_le_trans; [exact B|].
  apply Z.pow_le_mono_r; lia.
Qed.
(** the bound needs the j: 1, 1 + 2, 3 + 3 * 2 with a width of 3, and 9 >= 2^3 *)
Example C60_example_width : exists db arys, search 2 3 = Some (arys, db) /\
  exists cs, db_get 9 db = Some cs /\ In [1; 3; 9] (map to_vals cs).
Proof. eexists _, _. split; [vm_compute; reflexivity|]. eexists. split; [vm_compute; reflexivity|]. vm_compute. auto. Qed.

(** The shipped table: each of its chains, printed in the way of the search, is
    read back as exactly the entry of the table. *)
Definition rebuild (c : asc) : aschain :=
  fold_left (fun acc a => acc ++ [Node (l_pos a) (nth (l_idx a) acc Unit)
                                       (r_pos a) (nth (r_idx a) acc Unit) (r_shift a)]) c [Unit].
Definition step_eqb (a b : add_shift) : bool :=
  Bool.eqb (l_pos a) (l_pos b) && (l_idx a =? l_idx b)%nat && Bool.eqb (r_pos a) (r_pos b) &&
  (r_idx a =? r_idx b)%nat && (r_shift a =? r_shift b)%nat.
Fixpoint asc_eqb (a b : asc) : bool :=
  match a, b with
  | [], [] => true
  | x :: a, y :: b => step_eqb x y && asc_eqb a b
  | _, _ => false
  end.
Lemma asc_eqb_eq : forall a b, asc_eqb a b = true -> a = b.
Proof.
  induction a as [|[l1 l2 l3 l4 l5] a IH]; intros [|[m1 m2 m3 m4 m5] b] H; cbn [asc_eqb] in H; auto; try discriminate.
  unfold step_eqb in H. cbn [l_pos l_idx r_pos r_idx r_shift] in H.
  apply andb_prop in H. destruct H as [H H2]. rewrite (IH _ H2). f_equal.
  repeat (apply andb_prop in H; destruct H as [H ?]).
  apply Bool.eqb_prop in H. apply Nat.eqb_eq in H0, H1, H4. apply Bool.eqb_prop in H3. congruence.
Qed.
Definition line_ok (e : Z * asc) : bool :=
  match parse_line (show_entry (fst e) (rebuild (snd e))) with
  | Some (n, c) => (n =? fst e) && asc_eqb c (snd e)
  | None => false
  end.
Lemma lines_ok : forallb line_ok shipped_asc = true.
Proof. vm_compute. reflexivity. Qed.
Theorem C60_shipped : forall n c, In (n, c) shipped_asc ->
  parse_line (show_entry n (rebuild c)) = Some (n, c).
Proof.
  intros n c H. pose proof (proj1 (forallb_forall _ _) lines_ok _ H) as L. unfold line_ok in L. cbn [fst snd] in L.
  destruct (parse_line (show_entry n (rebuild c))) as [[n' c']|]; [|discriminate].
  apply andb_prop in L. destruct L as [L1 L2]. apply asc_eqb_eq in L2. f_equal. f_equal; auto. lia.
Qed.
Print Assumptions C60_search_returns.
Print Assumptions C60_chains.
Print Assumptions C60_table.
Print Assumptions C60_usable.
Print Assumptions C60_stored.
Print Assumptions C60_complete.
Print Assumptions C60_all_odd.
Print Assumptions C60_enough.
Print Assumptions C60_width.
Print Assumptions C60_shipped.

(** a line of the log, and what becomes of it *)
Example C60_example_line :
  show_entry 43 (rebuild [mkAddShift true 0 true 0 1; mkAddShift false 0 true 1 2; mkAddShift false 0 true 2 2]) =
  txt "   43 /3/ [" ++ [LEFT] ++ txt " 1 " ++ [RIGHT] ++ txt ", " ++
  [LEFT] ++ txt " 3 =  1 + 1" ++ [DOT] ++ txt "2^1 " ++ [RIGHT] ++ txt ", " ++
  [LEFT] ++ txt " 11 = -1 + 3" ++ [DOT] ++ txt "2^2 " ++ [RIGHT] ++ txt ", " ++
  [LEFT] ++ txt " 43 = -1 + 11" ++ [DOT] ++ txt "2^2 " ++ [RIGHT] ++ txt "]".
Proof. vm_compute. reflexivity. Qed.
(** two extensions with width 5 *)
Example C60_example_table :
  option_map (map fst) (generate 2 5) = Some [1; 3; 5; 7; 9; 11; 13; 15] /\
  option_map (fun m => nth 5 m (0, [])) (generate 2 5) =
    Some (11, [mkAddShift true 0 true 0 1; mkAddShift false 0 true 1 2]).
Proof. split; vm_compute; reflexivity. Qed.
(** with two extensions only, 43 has no chain *)
Example C60_example_gap : option_map (fun s => db_get 43 (snd s)) (search 2 7) = Some None.
Proof. vm_compute. reflexivity. Qed.
(** 43 = -1 - 2^2 - 2^4 + 2^6 is stored after three extensions *)
Example C60_example_complete :
  Z.abs (sum_of (-1) [(-1, 2%nat); (-1, 4%nat); (1, 6%nat)]) = 43 /\
  option_map (fun s => match db_get 43 (snd s) with Some (c :: _) => length c | _ => 0%nat end) (search 3 7) = Some 4%nat.
Proof. split; vm_compute; reflexivity. Qed.
(** width 4, two extensions: the chains for 11 *)
Example C60_example_stored : exists arys db, search 2 4 = Some (arys, db) /\
  option_map (map to_vals) (db_get 11 db) = Some [[1; 3; 11]; [1; 5; 11]; [1; 9; 11]; [1; 7; 11]].
Proof. eexists _, _. split; [vm_compute; reflexivity|]. vm_compute. reflexivity. Qed.
