(** What the search of variant.rb maintains *)
From Coq Require Import String.
From Verif Require Import Base Params Messages ChainScript ScalarProofs ChainTextProofs.
From Coq Require Import ZifyBool ZifyNat.

(* ------------------------------------------------------------------ *)
(** ** Good chains *)
Lemma good_mono : forall c vals vals', incl vals vals' -> good vals c -> good vals' c.
Proof.
  induction c as [|[|pp p qp q r] c IH]; intros vals vals' Hi H; auto.
  destruct H as [H1 [H2 [H3 [H4 H5]]]]. cbn [good]. split; [apply Hi; auto|]. split; [apply Hi; auto|].
  split; auto. split; auto. eapply IH; [|exact H5]. apply incl_app; [apply incl_appl; auto|apply incl_appr, incl_refl].
Qed.
Lemma good_app : forall a b vals, good vals (a ++ b) <-> good vals a /\ good (vals ++ to_vals a) b.
Proof.
  induction a as [|[|pp p qp q r] a IH]; intros b vals; cbn [app good to_vals map].
  - rewrite app_nil_r. tauto.
  - tauto.
  - rewrite IH, <- app_assoc. cbn [app]. tauto.
Qed.
Lemma difi_le : forall a b, (difi a b <= length a)%nat /\ (difi a b <= length b)%nat.
Proof.
  induction a as [|x a IH]; intros [|y b]; cbn [difi length]; try lia.
  destruct (oval x =? oval y); [|lia]. specialize (IH b). lia.
Qed.
Lemma difi_vals : forall a b, to_vals (firstn (difi a b) b) = to_vals (firstn (difi a b) a).
Proof.
  induction a as [|x a IH]; intros [|y b]; cbn [difi firstn]; auto.
  destruct (oval x =? oval y) eqn:E; auto. cbn [firstn to_vals map].
  unfold to_vals in IH. rewrite IH. f_equal. lia.
Qed.
Lemma to_vals_app : forall a b, to_vals (a ++ b) = to_vals a ++ to_vals b.
Proof. intros. apply map_app. Qed.

(** merging good chains never raises; the result is good and has all the values of both *)
Lemma merge_good : forall a b, good_chain a -> good_chain b ->
  exists c, merge a b = Some c /\ good_chain c /\ incl (to_vals a) (to_vals c) /\ incl (to_vals b) (to_vals c).
Proof.
  intros a b [a' [-> Ha]] [b' [-> Hb]]. unfold merge. cbn [difi]. change (oval Unit =? oval Unit) with true.
  cbn iota. set (d := difi a' b'). eexists. split; [reflexivity|]. cbn [skipn].
  assert (Hv : to_vals (firstn d b') = to_vals (firstn d a')) by apply difi_vals.
  split; [|split].
  - exists (a' ++ skipn d b'). split; auto. apply good_app. split; auto.
    rewrite <- (firstn_skipn d b') in Hb. apply good_app in Hb. destruct Hb as [_ Hb].
    eapply good_mono; [|exact Hb]. rewrite Hv. apply incl_app; [apply incl_appl, incl_refl|].
    apply incl_appr. rewrite <- (firstn_skipn d a') at 2. rewrite to_vals_app. apply incl_appl, incl_refl.
  - rewrite to_vals_app. apply incl_appl, incl_refl.
  - rewrite to_vals_app. change (to_vals (Unit :: b')) with (1 :: to_vals b').
    intros x [<-|Hx]; [apply in_or_app; left; left; auto|].
    rewrite <- (firstn_skipn d b') in Hx. rewrite to_vals_app, Hv in Hx. apply in_or_app.
    apply in_app_or in Hx. destruct Hx as [Hx|Hx]; auto. left. right.
    rewrite <- (firstn_skipn d a'). rewrite to_vals_app. apply in_or_app. auto.
Qed.
(** merging with a chain of one element gives the longer chain back *)
Lemma merge_unit : forall a, good_chain a -> merge a [Unit] = Some a.
Proof.
  intros a [a' [-> Ha]]. unfold merge. cbn [difi]. change (oval Unit =? oval Unit) with true. cbn iota.
  destruct a'; cbn [difi skipn]; rewrite app_nil_r; auto.
Qed.

Lemma last_in : forall (c : aschain) d, c <> [] -> In (last c d) c.
Proof.
  intros c d H. destruct (exists_last H) as [l [x ->]]. rewrite last_last. apply in_or_app. right. left. auto.
Qed.
Lemma last_vals : forall c, c <> [] -> In (oval (last c Unit)) (to_vals c).
Proof. intros c H. apply in_map. apply last_in; auto. Qed.
Lemma good_ne : forall c, good_chain c -> c <> [].
Proof. intros c [t [-> _]]. discriminate. Qed.

(** value of a chain: that of its last element *)
Definition chain_top (c : aschain) : Z := oval (last c Unit).

Lemma good_top_pos : forall c, good_chain c -> Forall (fun v => 0 < v) (to_vals c).
Proof.
  intros c [t [-> H]]. constructor; [cbn; lia|].
  assert (P : Forall pos_class t) by (apply (good_pos t [1]); auto; repeat constructor).
  apply Forall_map. eapply Forall_impl; [|exact P]. intros x [Hx _]. exact Hx.
Qed.
Lemma good_odd : forall c vals, Forall (fun v => Z.odd v = true) vals -> good vals c ->
  Forall (fun v => Z.odd v = true) (to_vals c).
Proof.
  induction c as [|[|pp p qp q r] c IH]; intros vals Hv H; [constructor|destruct H|].
  destruct H as [H1 [H2 [H3 [H4 H5]]]]. set (n := Node pp p qp q r) in *.
  assert (On : Z.odd (oval n) = true).
  { rewrite Forall_forall in Hv. specialize (Hv _ H1). unfold n. cbn [oval].
    destruct r as [|r]; [lia|]. rewrite Nat2Z.inj_succ, Z.pow_succ_r by lia.
    replace ((if qp then 1 else -1) * oval q * (2 * 2 ^ Z.of_nat r)) with
      (2 * ((if qp then 1 else -1) * oval q * 2 ^ Z.of_nat r)) by ring.
    rewrite Z.odd_add, Z.odd_mul, Z.odd_mul, Hv. destruct pp; reflexivity. }
  cbn [to_vals map]. constructor; auto. eapply IH; [|exact H5]. apply Forall_app. split; auto.
Qed.

(* ------------------------------------------------------------------ *)
(** ** The database *)
Lemma db_push_get : forall db v c w, db_get w (db_push v c db) =
  if w =? v then Some (match db_get v db with Some cs => cs ++ [c] | None => [c] end) else db_get w db.
Proof.
  induction db as [|[v' cs] db IH]; intros v c w; cbn [db_push db_get].
  - destruct (w =? v); auto.
  - destruct (v =? v') eqn:E; cbn [db_get].
    + assert (v = v') by lia. subst v'. destruct (w =? v); auto.
    + rewrite IH. destruct (w =? v') eqn:E2; auto. assert (w = v') by lia. subst w.
      replace (v' =? v) with false by lia. auto.
Qed.
Lemma db_push_keys : forall db v c, map fst (db_push v c db) =
  if existsb (Z.eqb v) (map fst db) then map fst db else map fst db ++ [v].
Proof.
  induction db as [|[v' cs] db IH]; intros v c; cbn [db_push map existsb fst]; auto.
  destruct (v =? v') eqn:E; cbn [map fst orb]; auto. rewrite IH. destruct (existsb (Z.eqb v) (map fst db)); auto.
Qed.
Lemma db_get_in : forall db v cs, NoDup (map fst db) -> (db_get v db = Some cs <-> In (v, cs) db).
Proof.
  induction db as [|[v' cs'] db IH]; intros v cs H; cbn [db_get map fst] in *.
  - split; [discriminate|intros []].
  - inversion H as [|? ? Hn Hd]; subst. destruct (v =? v') eqn:E.
    + assert (v = v') by lia. subst v'. split; [intros [= ->]; left; auto|].
      intros [[= ->]|Hi]; auto. exfalso. apply Hn. apply (in_map fst) in Hi. exact Hi.
    + rewrite IH by auto. split; [right; auto|intros [[= -> _]|Hi]; [lia|auto]].
Qed.

(** every entry: some chains, all good and of the value of the key *)
Definition db_ok (db : database) : Prop :=
  NoDup (map fst db) /\
  forall v cs, db_get v db = Some cs -> cs <> [] /\ Forall (fun c => good_chain c /\ chain_top c = v) cs.

(** the new chains of a level, and all database entries above [top] are among them *)
Definition level_ok (lvl : nat) (top : Z) (s : list aschain * database) : Prop :=
  db_ok (snd s) /\ Forall (fun c => good_chain c /\ length c = S lvl) (fst s) /\
  (forall c, In c (fst s) -> db_get (chain_top c) (snd s) <> None) /\
  (forall v, db_get v (snd s) <> None -> v <= top \/ exists c, In c (fst s) /\ chain_top c = v).

Lemma db_push_ok : forall db v c, db_ok db -> good_chain c -> chain_top c = v -> db_ok (db_push v c db).
Proof.
  intros db v c [H1 H2] Hc Hv. split.
  - rewrite db_push_keys. destruct (existsb (Z.eqb v) (map fst db)) eqn:E; auto.
    apply NoDup_rev in H1. rewrite <- (rev_involutive (map fst db ++ [v])). apply NoDup_rev. rewrite rev_unit.
    constructor; auto. intros Hi. apply in_rev in Hi.
    assert (existsb (Z.eqb v) (map fst db) = true); [|congruence].
    apply existsb_exists. exists v. split; auto. apply Z.eqb_refl.
  - intros w cs Hw. rewrite db_push_get in Hw. destruct (w =? v) eqn:E; [|apply H2; auto].
    assert (w = v) by lia. subst w. injection Hw as <-. destruct (db_get v db) as [cs'|] eqn:Eg.
    + destruct (H2 _ _ Eg) as [A B]. split; [destruct cs'; discriminate|]. apply Forall_app. split; auto.
    + split; [discriminate|]. repeat constructor; auto.
Qed.

Definition grows (db db' : database) : Prop := forall v, db_get v db <> None -> db_get v db' <> None.

Lemma try_node_ok : forall lvl top cpq p q s r pp qp, level_ok lvl top s ->
  good_chain cpq -> length cpq = lvl -> In (oval p) (to_vals cpq) -> In (oval q) (to_vals cpq) -> (1 <= r)%nat ->
  let s' := try_node cpq p q s (r, (pp, qp)) in
  level_ok lvl top s' /\ grows (snd s) (snd s') /\
  (0 < oval (Node pp p qp q r) -> db_get (oval (Node pp p qp q r)) (snd s') <> None).
Proof.
  intros lvl top cpq p q [ecs db] r pp qp [H1 [H2 [H3 H4]]] Hg Hl Hp Hq Hr.
  cbn [try_node fst snd] in *. set (n := Node pp p qp q r). 
  destruct ((0 <? oval n) && acceptable db (oval n) (cpq ++ [n])) eqn:E.
  - assert (Hn : 0 < oval n) by lia.
    assert (Hc : good_chain (cpq ++ [n])).
    { destruct Hg as [t [-> Ht]]. exists (t ++ [n]). split; auto. apply good_app. split; auto.
      cbn [good]. fold n. split; [exact Hp|]. split; [exact Hq|]. split; auto. }
    assert (Ht : chain_top (cpq ++ [n]) = oval n) by (unfold chain_top; rewrite last_last; auto).
    cbn [fst snd]. split; [|split].
    + split; [apply db_push_ok; auto|]. split; [|split]; cbn [fst snd].
      * apply Forall_app. split; auto. repeat constructor; auto. rewrite app_length. cbn [length]. lia.
      * intros c Hi. rewrite db_push_get. destruct (chain_top c =? oval n) eqn:En; [discriminate|].
        apply in_app_or in Hi. destruct Hi as [Hi|[<-|[]]]; [auto|lia].
      * intros v Hv. rewrite db_push_get in Hv. destruct (v =? oval n) eqn:Ev.
        -- right. exists (cpq ++ [n]). split; [apply in_or_app; right; left; auto|lia].
        -- destruct (H4 v Hv) as [|[c [Hc1 Hc2]]]; auto. right. exists c. split; auto. apply in_or_app. auto.
    + intros v Hv. rewrite db_push_get. destruct (v =? oval n); [discriminate|auto].
    + intros _. rewrite db_push_get, Z.eqb_refl. discriminate.
  - cbn [fst snd]. split; [split; auto|]. split; [intros v Hv; auto|].
    intros Hn. replace (0 <? oval n) with true in E by lia. cbn [andb] in E.
    unfold acceptable in E. destruct (db_get (oval n) db); [discriminate|discriminate].
Qed.

Lemma choices_in : forall limit q x, In x (choices limit q) -> (1 <= fst x)%nat.
Proof.
  intros limit q [r [a b]] H. unfold choices in H. apply in_prod_iff in H. destruct H as [H _].
  apply in_seq in H. cbn. lia.
Qed.

Lemma nodes_ok : forall xs lvl top cpq p q s, level_ok lvl top s ->
  good_chain cpq -> length cpq = lvl -> In (oval p) (to_vals cpq) -> In (oval q) (to_vals cpq) ->
  Forall (fun x => (1 <= fst x)%nat) xs ->
  let s' := fold_left (try_node cpq p q) xs s in
  level_ok lvl top s' /\ grows (snd s) (snd s') /\
  (forall r pp qp, In (r, (pp, qp)) xs -> 0 < oval (Node pp p qp q r) ->
     db_get (oval (Node pp p qp q r)) (snd s') <> None).
Proof.
  induction xs as [|[r [pp qp]] xs IH]; intros lvl top cpq p q s Hs Hg Hl Hp Hq Hx; cbn [fold_left].
  - split; auto. split; [intros v Hv; auto|intros ? ? ? []].
  - inversion Hx as [|? ? Hr Hx']; subst.
    destruct (try_node_ok _ top cpq p q s r pp qp Hs Hg eq_refl Hp Hq Hr) as [A [B C]].
    destruct (IH _ top cpq p q _ A Hg eq_refl Hp Hq Hx') as [A' [B' C']].
    split; auto. split; [intros v Hv; apply B', B; auto|].
    intros r' pp' qp' [[= <- <- <-]|Hi] Hn; [apply B', C; auto|apply C'; auto].
Qed.

Lemma try_pair_ok : forall limit lvl top s cp cq, level_ok lvl top s -> good_chain cp -> good_chain cq ->
  exists s', try_pair limit lvl (Some s) (cp, cq) = Some s' /\ level_ok lvl top s' /\ grows (snd s) (snd s') /\
  (cq = [Unit] -> length cp = lvl -> (2 <= limit)%nat -> 
     db_get (chain_top cp + 2 ^ Z.of_nat (limit - 1)) (snd s') <> None).
Proof.
  intros limit lvl top s cp cq Hs Hp Hq. unfold try_pair.
  destruct (merge_good cp cq Hp Hq) as [c [Em [Hc [Ip Iq]]]]. rewrite Em.
  pose proof (good_ne _ Hp) as Np. pose proof (good_ne _ Hq) as Nq.
  destruct (length c =? lvl)%nat eqn:El.
  - eexists. split; [reflexivity|].
    destruct (nodes_ok (choices limit (last cq Unit)) lvl top c (last cp Unit) (last cq Unit) s) as [A [B C]]; auto.
    + lia.
    + apply Ip, last_vals; auto.
    + apply Iq, last_vals; auto.
    + apply Forall_forall. intros x Hx. eapply choices_in; eauto.
    + split; auto. split; auto. intros -> Hlen Hlim.
      pose proof (good_top_pos _ Hp) as Hpos. rewrite Forall_forall in Hpos.
      specialize (Hpos _ (last_vals _ Np)). pose proof (Z.pow_pos_nonneg 2 (Z.of_nat (limit - 1)) ltac:(lia) ltac:(lia)) as H2.
      specialize (C (limit - 1)%nat true true).
      assert (Ev : oval (Node true (last cp Unit) true (last [Unit] Unit) (limit - 1)) =
                   chain_top cp + 2 ^ Z.of_nat (limit - 1)).
      { unfold chain_top. cbn [oval last]. lia. }
      rewrite Ev in C. apply C; [|unfold chain_top; lia].
      unfold choices. apply in_prod; [apply in_seq; cbn; lia|]. apply in_prod; left; auto.
  - eexists. split; [reflexivity|]. split; auto. split; [intros v Hv; auto|].
    intros -> Hlen Hlim. exfalso.
    rewrite merge_unit in Em by auto. injection Em as <-. lia.
Qed.

Lemma pairs_ok : forall ps limit lvl top s, level_ok lvl top s ->
  Forall (fun pr => good_chain (fst pr) /\ good_chain (snd pr)) ps ->
  exists s', fold_left (try_pair limit lvl) ps (Some s) = Some s' /\ level_ok lvl top s' /\ grows (snd s) (snd s') /\
  (forall cp, In (cp, [Unit]) ps -> length cp = lvl -> (2 <= limit)%nat ->
     db_get (chain_top cp + 2 ^ Z.of_nat (limit - 1)) (snd s') <> None).
Proof.
  induction ps as [|[cp cq] ps IH]; intros limit lvl top s Hs Hps; cbn [fold_left].
  - exists s. split; auto. split; auto. split; [intros v Hv; auto|intros ? []].
  - inversion Hps as [|? ? [Hp Hq] Hps']; subst. cbn [fst snd] in *.
    destruct (try_pair_ok limit lvl top s cp cq Hs Hp Hq) as [s1 [-> [A [B C]]]].
    destruct (IH limit lvl top s1 A Hps') as [s2 [-> [A' [B' C']]]].
    exists s2. split; auto. split; auto. split; [intros v Hv; apply B', B; auto|].
    intros cp' [[= <- ->]|Hi] Hl Hlim; [apply B', C; auto|apply C'; auto].
Qed.

(* ------------------------------------------------------------------ *)
(** ** The levels *)

(** level i holds chains of i+1 elements, none is empty, the first is [[Unit]] *)
Fixpoint levels (i : nat) (arys : list (list aschain)) : Prop :=
  match arys with
  | [] => True
  | cary :: t => cary <> [] /\ Forall (fun c => good_chain c /\ length c = S i) cary /\ levels (S i) t
  end.
Lemma levels_structure : forall arys i, levels i arys -> structure_ok i arys = true.
Proof.
  induction arys as [|cary t IH]; intros i H; auto. destruct H as [H1 [H2 H3]]. cbn [structure_ok].
  destruct cary as [|c cary]; [congruence|]. rewrite IH, andb_true_r by auto.
  apply forallb_forall. intros x Hx. rewrite Forall_forall in H2. destruct (H2 x Hx) as [_ E]. rewrite E. apply Nat.eqb_refl.
Qed.
Lemma levels_good : forall arys i, levels i arys -> Forall good_chain (concat arys).
Proof.
  induction arys as [|cary t IH]; intros i H; [constructor|]. destruct H as [_ [H2 H3]]. cbn [concat].
  apply Forall_app. split; [|eapply IH; eauto]. eapply Forall_impl; [|exact H2]. intros a [A _]. exact A.
Qed.
Lemma levels_app : forall arys i ecs, levels i arys -> ecs <> [] ->
  Forall (fun c => good_chain c /\ length c = S (i + length arys)) ecs -> levels i (arys ++ [ecs]).
Proof.
  induction arys as [|cary t IH]; intros i ecs H He Hf; cbn [app levels length] in *.
  - rewrite Nat.add_0_r in Hf. auto.
  - destruct H as [H1 [H2 H3]]. split; auto. split; auto. apply IH; auto.
    replace (S i + length t)%nat with (i + S (length t))%nat by lia. auto.
Qed.
Lemma levels_last : forall arys i, levels i arys -> arys <> [] ->
  length (last (last arys []) []) = (i + length arys)%nat.
Proof.
  induction arys as [|cary t IH]; intros i H Hn; [congruence|]. destruct H as [H1 [H2 H3]].
  destruct t as [|c2 t].
  - cbn [last length]. rewrite Forall_forall in H2.
    assert (Hi : In (last cary []) cary).
    { destruct (exists_last H1) as [l [x ->]]. rewrite last_last. apply in_or_app. right. left. auto. }
    destruct (H2 _ Hi) as [_ ->]. lia.
  - change (last (cary :: c2 :: t) []) with (last (c2 :: t) []). rewrite (IH (S i) H3) by discriminate.
    cbn [length]. lia.
Qed.

(** what holds after any number of extensions: the biggest value is at the last level *)
Definition search_ok (rounds : nat) (arys : list (list aschain)) (db : database) : Prop :=
  length arys = S rounds /\ levels 0 arys /\ In [Unit] (concat arys) /\ db_ok db /\
  (forall c, In c (concat arys) -> db_get (chain_top c) db <> None) /\
  exists c, In c (last arys []) /\ forall v, db_get v db <> None -> v <= chain_top c.

Lemma max_in : forall (l : list aschain), l <> [] -> exists c, In c l /\ forall c', In c' l -> chain_top c' <= chain_top c.
Proof.
  induction l as [|a l IH]; intros H; [congruence|]. destruct l as [|b l].
  - exists a. split; [left; auto|]. intros c' [<-|[]]. lia.
  - destruct IH as [c [H1 H2]]; [discriminate|]. destruct (Z.leb_spec (chain_top c) (chain_top a)).
    + exists a. split; [left; auto|]. intros c' [<-|Hc]; [lia|]. specialize (H2 c' Hc). lia.
    + exists c. split; [right; auto|]. intros c' [<-|Hc]; [lia|auto].
Qed.

Theorem search_total : forall rounds limit, (2 <= limit)%nat ->
  exists arys db, search rounds limit = Some (arys, db) /\ search_ok rounds arys db.
Proof.
  induction rounds as [|n IH]; intros limit Hlim; cbn [search].
  - eexists _, _. split; [reflexivity|]. 
    assert (Hu : good_chain [Unit]) by (exists []; cbn; auto).
    split; auto. split.
    { cbn [levels]. split; [discriminate|]. split; auto. }
    split; [left; auto|]. split.
    { split; [repeat constructor; intros []|]. intros v cs. cbn [db_get]. destruct (v =? 1) eqn:E; [|discriminate].
      intros [= <-]. split; [discriminate|]. repeat constructor; auto. unfold chain_top. cbn. lia. }
    split; [intros c [<-|[]]; discriminate|].
    exists [Unit]. split; [left; auto|]. intros v. cbn [db_get]. destruct (v =? 1) eqn:E; [|congruence].
    intros _. unfold chain_top. cbn. lia.
  - destruct (IH limit Hlim) as [arys [db [-> [HL [Hlev [Hu [Hdb [Hin [cm [Hm1 Hm2]]]]]]]]]].
    unfold extend_chains_ary. destruct arys as [|a0 arys0] eqn:Ea; [discriminate|]. rewrite <- Ea in *. clear Ea a0 arys0.
    rewrite levels_structure by auto.
    assert (Hne : arys <> []) by (intros ->; discriminate).
    rewrite (levels_last arys 0 Hlev Hne). cbn [Nat.add]. rewrite HL.
    set (top := chain_top cm).
    destruct (pairs_ok (list_prod (concat arys) (concat arys)) limit (S n) top ([], db)) as [[ecs db'] [-> [A [B C]]]].
    { split; [exact Hdb|]. split; [constructor|]. split; [intros ? []|]. cbn [fst snd]. intros v Hv. left. apply Hm2; auto. }
    { apply Forall_forall. intros [a b] Hab. apply in_prod_iff in Hab. pose proof (levels_good _ _ Hlev) as G.
      rewrite Forall_forall in G. split; apply G; tauto. }
    cbn [fst snd] in *. destruct A as [A1 [A2 [A3 A4]]]. cbn [fst snd] in *.
    assert (Hcm : In cm (concat arys) /\ length cm = S n).
    { destruct (exists_last Hne) as [l [x El]]. subst arys. rewrite last_last in Hm1. rewrite concat_app. split.
      { apply in_or_app. right. cbn [concat]. rewrite app_nil_r. auto. }
      assert (Hx : forall l i, levels i (l ++ [x]) -> length cm = S (i + length l)).
      { induction l0 as [|y l0 IHl]; intros i Hi; cbn [app levels length] in *.
        - destruct Hi as [_ [Hi _]]. rewrite Forall_forall in Hi. destruct (Hi _ Hm1) as [_ ->]. lia.
        - destruct Hi as [_ [_ Hi]]. rewrite (IHl (S i)) by auto. lia. }
      rewrite app_length in HL. cbn [length] in HL. rewrite (Hx l 0%nat) by auto. lia. }
    destruct Hcm as [Hcm Hcl].
    pose proof (Z.pow_pos_nonneg 2 (Z.of_nat (limit - 1)) ltac:(lia) ltac:(lia)) as Hp2.
    assert (Hnew : db_get (top + 2 ^ Z.of_nat (limit - 1)) db' <> None).
    { apply C; auto. apply in_prod; auto. }
    destruct (A4 _ Hnew) as [Hle|[c1 [Hc1 Hc2]]]; [lia|].
    assert (He : ecs <> []) by (intros ->; destruct Hc1).
    eexists _, _. split; [reflexivity|].
    split; [rewrite app_length; cbn [length]; lia|]. split.
    { apply levels_app; auto. rewrite HL. cbn [Nat.add]. auto. }
    split; [rewrite concat_app; apply in_or_app; auto|]. split; auto. split.
    { intros c Hc. rewrite concat_app in Hc. cbn [concat] in Hc. rewrite app_nil_r in Hc. apply in_app_or in Hc.
      destruct Hc as [Hc|Hc]; [apply B, Hin; auto|apply A3; auto]. }
    rewrite last_last. destruct (max_in ecs He) as [c2 [Hc3 Hc4]]. exists c2. split; auto.
    intros v Hv. destruct (A4 v Hv) as [Hle|[c [Hc Hcv]]].
    + specialize (Hc4 c1 Hc1). lia.
    + specialize (Hc4 c Hc). lia.
Qed.

(* ------------------------------------------------------------------ *)
(** ** How large the values get *)

Fixpoint odepth (c : odd_class) : nat :=
  match c with
  | Unit => 0
  | Node _ p _ q _ => S (Nat.max (odepth p) (odepth q))
  end.
Lemma oval_bound : forall c, Z.abs (oval c) < 2 ^ Z.of_nat (owid c + odepth c).
Proof.
  induction c as [|pp p IHp qp q IHq r]; [reflexivity|]. cbn [oval owid odepth].
  set (n := (Nat.max (owid p) (owid q + r) + S (Nat.max (odepth p) (odepth q)))%nat).
  assert (P : Z.abs (oval p) < 2 ^ Z.of_nat (n - 1)).
  { eapply Z.lt_le_trans; [exact IHp|]. apply Z.pow_le_mono_r; lia. }
  assert (Q : Z.abs (oval q) * 2 ^ Z.of_nat r < 2 ^ Z.of_nat (n - 1)).
  { apply Z.lt_le_trans with (2 ^ Z.of_nat (owid q + odepth q) * 2 ^ Z.of_nat r).
    - apply Z.mul_lt_mono_pos_r; auto. apply Z.pow_pos_nonneg; lia.
    - rewrite <- Z.pow_add_r by lia. apply Z.pow_le_mono_r; lia. }
  replace (2 ^ Z.of_nat n) with (2 * 2 ^ Z.of_nat (n - 1)).
  2:{ rewrite <- Z.pow_succ_r by lia. f_equal. lia. }
  rewrite <- (Z.abs_eq (2 ^ Z.of_nat r)) in Q by (apply Z.pow_nonneg; lia). rewrite <- Z.abs_mul in Q.
  rewrite <- Z.mul_assoc. revert P Q. generalize (oval q * 2 ^ Z.of_nat r) (oval p) (2 ^ Z.of_nat (n - 1)).
  intros a b m P Q. destruct pp, qp; lia.
Qed.

(** the width is kept, and an element is built from earlier ones *)
Definition slim (limit : nat) (c : aschain) : Prop :=
  forall j e, nth_error c j = Some e -> (owid e <= limit)%nat /\ (odepth e <= j)%nat.
Definition all_slim (limit : nat) (s : list aschain * database) : Prop :=
  Forall (slim limit) (fst s) /\ Forall (fun e => Forall (slim limit) (snd e)) (snd s).

Lemma slim_snoc : forall limit c e, slim limit c -> (owid e <= limit)%nat -> (odepth e <= length c)%nat -> slim limit (c ++ [e]).
Proof.
  intros limit c e H H1 H2 j x Hx. destruct (Nat.lt_ge_cases j (length c)) as [L|L].
  - rewrite nth_error_app1 in Hx by auto. apply H; auto.
  - rewrite nth_error_app2 in Hx by auto. destruct (j - length c)%nat as [|i] eqn:E.
    + injection Hx as <-. split; lia.
    + destruct i; discriminate.
Qed.
Lemma slim_merge : forall limit a b c, slim limit a -> slim limit b -> merge a b = Some c -> slim limit c.
Proof.
  intros limit a b c Ha Hb H. unfold merge in H. pose proof (difi_le a b) as L.
  destruct (difi a b) as [|d]; [discriminate|]. injection H as <-. intros j e He.
  destruct (Nat.lt_ge_cases j (length a)) as [Lj|Lj].
  - rewrite nth_error_app1 in He by auto. apply Ha; auto.
  - rewrite nth_error_app2 in He by auto.
    assert (E : nth_error b (S d + (j - length a)) = Some e).
    { rewrite <- He. rewrite <- (firstn_skipn (S d) b) at 1. rewrite nth_error_app2 by (rewrite firstn_length; lia).
      f_equal. rewrite firstn_length. lia. }
    destruct (Hb _ _ E). split; lia.
Qed.
Lemma slim_last : forall limit c, (1 <= limit)%nat -> slim limit c -> (owid (last c Unit) <= limit)%nat /\ (odepth (last c Unit) <= length c - 1)%nat.
Proof.
  intros limit c Hl H. destruct c as [|x c]; [cbn; split; lia|]. apply H.
  destruct (@exists_last _ (x :: c) ltac:(discriminate)) as [l [y E]]. rewrite E, last_last, app_length, nth_error_app2 by (cbn; lia).
  cbn [length]. replace (length l + 1 - 1 - length l)%nat with O by lia. reflexivity.
Qed.
Lemma slim_push : forall limit c v db, slim limit c -> Forall (fun e => Forall (slim limit) (snd e)) db ->
  Forall (fun e : Z * list aschain => Forall (slim limit) (snd e)) (db_push v c db).
Proof.
  intros limit c v db Hc. induction db as [|[v' cs] db IH]; intros H; cbn [db_push]; [constructor; auto; constructor; auto|].
  pose proof (Forall_inv H) as H1. pose proof (Forall_inv_tail H) as H2. cbn [snd] in H1. destruct (v =? v'); constructor; auto. cbn [snd]. apply Forall_app. auto.
Qed.
Lemma slim_nodes : forall limit cpq p q xs s, all_slim limit s -> slim limit cpq ->
  (owid p <= limit)%nat -> (odepth p < length cpq)%nat -> (odepth q < length cpq)%nat ->
  Forall (fun x => (owid q + fst x <= limit)%nat) xs ->
  all_slim limit (fold_left (try_node cpq p q) xs s).
Proof.
  intros limit cpq p q xs s Hs Hc Hp1 Hp2 Hq. revert s Hs. induction xs as [|[r [pp qp]] xs IH]; intros s Hs Hx; [auto|].
  inversion Hx as [|? ? Hr Hx']; subst. cbn [fst] in Hr. cbn [fold_left]. apply IH; auto. clear IH.
  destruct s as [ecs db]. destruct Hs as [H1 H2]. unfold try_node. set (on := Node pp p qp q r).
  destruct ((0 <? oval on) && acceptable db (oval on) (cpq ++ [on])); [|split; auto].
  assert (S : slim limit (cpq ++ [on])).
  { apply slim_snoc; auto; unfold on; cbn [owid odepth]; lia. }
  split; cbn [fst snd] in *; [apply Forall_app; auto|apply slim_push; auto].
Qed.
Lemma slim_pairs : forall limit lvl ps s s', (1 <= limit)%nat -> (1 <= lvl)%nat ->
  Forall (fun pr => (slim limit (fst pr) /\ length (fst pr) <> O) /\ (slim limit (snd pr) /\ length (snd pr) <> O)) ps ->
  all_slim limit s -> fold_left (try_pair limit lvl) ps (Some s) = Some s' -> all_slim limit s'.
Proof.
  intros limit lvl ps s s' Hl Hv H. revert s. induction H as [|[cp cq] ps [[P1 P2] [Q1 Q2]] H IH]; intros s Hs E; cbn [fold_left] in E.
  - injection E as <-. auto.
  - cbn [fst snd] in *. unfold try_pair at 2 in E. pose proof (difi_le cp cq) as L. destruct (merge cp cq) as [c|] eqn:Em.
    2:{ exfalso. clear -E. induction ps as [|[a b] ps IH]; cbn [fold_left] in E; [discriminate|auto]. }
    pose proof (slim_merge _ _ _ _ P1 Q1 Em) as Sc.
    destruct (length c =? lvl)%nat eqn:El; [|apply (IH s); auto]. apply Nat.eqb_eq in El.
    apply (IH (fold_left (try_node c (last cp Unit) (last cq Unit)) (choices limit (last cq Unit)) s)); auto.
    assert (Lc : (length cp <= length c /\ length cq <= length c)%nat).
    { unfold merge in Em. destruct (difi cp cq) as [|d]; [discriminate|].
      assert (Ec : c = cp ++ skipn (S d) cq) by congruence. rewrite Ec.
      pose proof (@skipn_length odd_class (S d) cq) as K. unfold aschain in *. rewrite app_length, K. lia. }
    destruct (slim_last limit cp Hl P1) as [W1 W2]. destruct (slim_last limit cq Hl Q1) as [W3 W4].
    apply slim_nodes; auto; try lia.
    apply Forall_forall. intros [r sg] Hx. unfold choices in Hx. apply in_prod_iff in Hx. destruct Hx as [Hx _].
    apply in_seq in Hx. cbn [fst]. lia.
Qed.
Theorem search_slim : forall rounds limit arys db, (2 <= limit)%nat -> search rounds limit = Some (arys, db) ->
  all_slim limit (concat arys, db).
Proof.
  induction rounds as [|n IH]; intros limit arys db Hl E.
  - cbn [search] in E. injection E as <- <-.
    assert (U : slim limit [Unit]). { intros [|[|j]] e He; try discriminate. injection He as <-. cbn. split; lia. }
    split; cbn [fst snd concat app]; constructor; auto; cbn [snd]; constructor; auto.
  - destruct (search_total n limit Hl) as [arys0 [db0 [E0 [HL [Hlev _]]]]].
    pose proof (IH limit arys0 db0 Hl E0) as [S1 S2]. cbn [fst snd] in *.
    cbn [search] in E. rewrite E0 in E. unfold extend_chains_ary in E.
    destruct arys0 as [|a0 t0] eqn:Ea; [discriminate|]. rewrite <- Ea in *.
    rewrite levels_structure in E by auto.
    assert (Hne : arys0 <> []) by (rewrite Ea; discriminate).
    rewrite (levels_last arys0 0 Hlev Hne) in E. clear Ea.
    destruct (fold_left _ _ _) as [[ecs db']|] eqn:F; [|discriminate]. injection E as <- <-.
    apply slim_pairs in F; try lia.
    + destruct F as [F1 F2]. cbn [fst snd] in *. rewrite concat_app. cbn [concat]. rewrite app_nil_r.
      split; cbn [fst snd]; auto. apply Forall_app. auto.
    + apply Forall_forall. intros [a b] Hab. apply in_prod_iff in Hab. destruct Hab as [Ha Hb].
      pose proof (levels_good _ _ Hlev) as G. rewrite Forall_forall in G, S1.
      destruct (G _ Ha) as [ta [Ta _]]. destruct (G _ Hb) as [tb [Tb _]]. cbn [fst snd].
      split; split; auto; [rewrite Ta|rewrite Tb]; discriminate.
    + split; auto. constructor.
Qed.

(* ------------------------------------------------------------------ *)
(** ** What is stored, and that nothing found is lost *)

Lemma vals_eqb_eq : forall a b, vals_eqb a b = true <-> a = b.
Proof.
  induction a as [|x a IH]; intros [|y b]; cbn [vals_eqb]; split; intros H; try discriminate; auto.
  - apply andb_prop in H. destruct H as [H1 H2]. apply IH in H2. f_equal; auto. lia.
  - injection H as -> ->. rewrite Z.eqb_refl. apply IH. reflexivity.
Qed.

(** every change of the state is an accepted candidate appended to both parts *)
Lemma nodes_inv : forall (Q : list aschain * database -> Prop) cpq p q xs s,
  (forall ecs db c, Q (ecs, db) -> length c = S (length cpq) -> acceptable db (chain_top c) c = true ->
     Q (ecs ++ [c], db_push (chain_top c) c db)) ->
  Q s -> Q (fold_left (try_node cpq p q) xs s).
Proof.
  intros Q cpq p q xs s HQ. revert s. induction xs as [|[r [pp qp]] xs IH]; intros s Hs; cbn [fold_left]; auto.
  apply IH. destruct s as [ecs db]. unfold try_node. set (on := Node pp p qp q r).
  destruct ((0 <? oval on) && acceptable db (oval on) (cpq ++ [on])) eqn:E; auto.
  apply andb_prop in E. destruct E as [_ E].
  assert (T : chain_top (cpq ++ [on]) = oval on) by (unfold chain_top; rewrite last_last; auto).
  rewrite <- T. rewrite <- T in E. apply HQ; auto. rewrite app_length. cbn. lia.
Qed.
Lemma fold_none : forall limit lvl ps, fold_left (try_pair limit lvl) ps None = None.
Proof. induction ps as [|[a b] ps IH]; cbn [fold_left]; auto. Qed.
Lemma pairs_inv : forall (Q : list aschain * database -> Prop) limit lvl ps s s',
  (forall ecs db c, Q (ecs, db) -> length c = S lvl -> acceptable db (chain_top c) c = true ->
     Q (ecs ++ [c], db_push (chain_top c) c db)) ->
  Q s -> fold_left (try_pair limit lvl) ps (Some s) = Some s' -> Q s'.
Proof.
  intros Q limit lvl ps s s' HQ. revert s. induction ps as [|[cp cq] ps IH]; intros s Hs E; cbn [fold_left] in E.
  - injection E as <-. auto.
  - unfold try_pair at 2 in E. destruct (merge cp cq) as [c|]; [|rewrite fold_none in E; discriminate].
    destruct (length c =? lvl)%nat eqn:El; [|eauto]. apply Nat.eqb_eq in El.
    apply IH in E; auto. apply nodes_inv; auto. intros. apply HQ; auto. lia.
Qed.

Lemma NoDup_snoc : forall {T} (l : list T) x, NoDup l -> ~ In x l -> NoDup (l ++ [x]).
Proof.
  intros T l x H Hx. apply NoDup_rev in H. rewrite <- (rev_involutive (l ++ [x])). apply NoDup_rev. rewrite rev_unit.
  constructor; auto. intros Hi. apply Hx. apply in_rev. auto.
Qed.
(** the chains under one value: equally long, no two with the same elements; and
    they are the chains of the levels *)
Definition stored (old : list aschain) (s : list aschain * database) : Prop :=
  (forall v cs, db_get v (snd s) = Some cs ->
     NoDup (map to_vals cs) /\ cs <> [] /\ exists n, Forall (fun c => length c = n) cs) /\
  (forall c, In c (old ++ fst s) <-> exists v cs, db_get v (snd s) = Some cs /\ In c cs).
Lemma stored_step : forall old ecs db c, stored old (ecs, db) -> acceptable db (chain_top c) c = true ->
  stored old (ecs ++ [c], db_push (chain_top c) c db).
Proof.
  intros old ecs db c [H1 H2] A. unfold acceptable in A. cbn [fst snd] in *. set (v := chain_top c) in *. split; cbn [fst snd].
  - intros w cs Hw. rewrite db_push_get in Hw. destruct (w =? v); [|eauto].
    injection Hw as <-. destruct (db_get v db) as [cs|] eqn:E.
    + destruct (H1 _ _ E) as [D [Hn [n F]]]. destruct cs as [|c0 cs]; [discriminate|].
      apply andb_prop in A. destruct A as [A1 A2]. apply Nat.eqb_eq in A1. apply negb_true_iff in A2.
      split; [|split; [discriminate|]].
      * rewrite map_app. apply NoDup_snoc; auto. intros Hi. apply in_map_iff in Hi. destruct Hi as [c' [E' Hc']].
        assert (X : existsb (fun c1 => vals_eqb (to_vals c1) (to_vals c)) (c0 :: cs) = true); [|congruence].
        apply existsb_exists. exists c'. split; auto. apply vals_eqb_eq. auto.
      * exists n. apply Forall_app. split; auto. constructor; auto. rewrite <- A1. apply (Forall_inv F).
    + split; [|split; [discriminate|exists (length c); auto]]. cbn [map]. constructor; [intros []|constructor].
  - intros c'. rewrite app_assoc, in_app_iff, H2. cbn [In]. split.
    + intros [[w [cs [Hw Hc]]]|[<-|[]]].
      * destruct (w =? v) eqn:Ew.
        -- assert (w = v) by lia. subst w. exists v, (cs ++ [c]). rewrite db_push_get, Z.eqb_refl, Hw. split; auto.
           apply in_or_app. auto.
        -- exists w, cs. rewrite db_push_get, Ew. auto.
      * destruct (db_get v db) as [cs|] eqn:E.
        -- exists v, (cs ++ [c]). rewrite db_push_get, Z.eqb_refl, E. split; auto. apply in_or_app. right. left. auto.
        -- exists v, [c]. rewrite db_push_get, Z.eqb_refl, E. split; auto. left. auto.
    + intros [w [cs [Hw Hc]]]. rewrite db_push_get in Hw. destruct (w =? v) eqn:Ew; [|left; eauto].
      assert (w = v) by lia. subst w. injection Hw as <-. destruct (db_get v db) as [cs|] eqn:E.
      * apply in_app_or in Hc. destruct Hc as [Hc|Hc]; [left; eauto|right; auto].
      * right. auto.
Qed.

(** [v] is stored, with a first chain of at most [n] elements *)
Definition found (n : nat) (v : Z) (db : database) : Prop :=
  exists c cs, db_get v db = Some (c :: cs) /\ (length c <= n)%nat.
Lemma found_push : forall n v w c db, found n v db -> found n v (db_push w c db).
Proof.
  intros n v w c db [c0 [cs [E L]]]. unfold found. rewrite db_push_get. destruct (v =? w) eqn:V.
  - assert (v = w) by lia. subst w. rewrite E. exists c0, (cs ++ [c]). auto.
  - exists c0, cs. auto.
Qed.
Definition lengths (n : nat) (db : database) : Prop :=
  forall v cs, db_get v db = Some cs -> cs <> [] /\ Forall (fun c => length c <= n)%nat cs.
Lemma lengths_push : forall n v c db, lengths n db -> (length c <= n)%nat -> lengths n (db_push v c db).
Proof.
  intros n v c db H L w cs Hw. rewrite db_push_get in Hw. destruct (w =? v); [|eauto]. injection Hw as <-.
  destruct (db_get v db) as [cs|] eqn:E.
  - destruct (H _ _ E) as [_ F]. split; [destruct cs; discriminate|apply Forall_app; auto].
  - split; [discriminate|auto].
Qed.
Lemma lengths_found : forall n v db, lengths n db -> db_get v db <> None -> found n v db.
Proof.
  intros n v db H E. destruct (db_get v db) as [cs|] eqn:E'; [|congruence]. destruct (H _ _ E') as [N F].
  destruct cs as [|c cs]; [congruence|]. exists c, cs. split; auto. apply (Forall_inv F).
Qed.

(** trying a candidate: its value is stored afterwards *)
Lemma node_found : forall cpq p q xs s r pp qp, In (r, (pp, qp)) xs -> lengths (S (length cpq)) (snd s) ->
  0 < oval (Node pp p qp q r) ->
  found (S (length cpq)) (oval (Node pp p qp q r)) (snd (fold_left (try_node cpq p q) xs s)).
Proof.
  intros cpq p q xs s r pp qp Hi Hs Hv. apply in_split in Hi. destruct Hi as [l1 [l2 ->]]. rewrite fold_left_app.
  assert (L1 : lengths (S (length cpq)) (snd (fold_left (try_node cpq p q) l1 s))).
  { apply (nodes_inv (fun s => lengths (S (length cpq)) (snd s))); auto. cbn [snd]. intros. apply lengths_push; auto. lia. }
  cbn [fold_left]. set (s1 := fold_left (try_node cpq p q) l1 s) in *. clearbody s1.
  apply (nodes_inv (fun s => found (S (length cpq)) (oval (Node pp p qp q r)) (snd s))).
  { cbn [snd]. intros. apply found_push; auto. }
  destruct s1 as [ecs db]. cbn [snd] in L1. unfold try_node. set (on := Node pp p qp q r) in *.
  replace (0 <? oval on) with true by (symmetry; apply Z.ltb_lt; auto). cbn [andb].
  assert (Lc : (length (cpq ++ [on]) <= S (length cpq))%nat) by (rewrite app_length; cbn; lia).
  destruct (acceptable db (oval on) (cpq ++ [on])) eqn:A; cbn [snd].
  - apply lengths_found; [apply lengths_push; auto|]. rewrite db_push_get, Z.eqb_refl. discriminate.
  - apply lengths_found; auto. intros E. unfold acceptable in A. rewrite E in A. discriminate.
Qed.
Lemma pair_found : forall limit lvl ps s s' cp cq cpq r pp qp,
  fold_left (try_pair limit lvl) ps (Some s) = Some s' -> lengths (S lvl) (snd s) -> In (cp, cq) ps ->
  merge cp cq = Some cpq -> length cpq = lvl -> In (r, (pp, qp)) (choices limit (last cq Unit)) ->
  0 < oval (Node pp (last cp Unit) qp (last cq Unit) r) ->
  found (S lvl) (oval (Node pp (last cp Unit) qp (last cq Unit) r)) (snd s').
Proof.
  intros limit lvl ps s s' cp cq cpq r pp qp E Hs Hi Hm Hl Hr Hv. apply in_split in Hi. destruct Hi as [l1 [l2 ->]].
  rewrite fold_left_app in E. destruct (fold_left (try_pair limit lvl) l1 (Some s)) as [s1|] eqn:E1.
  2:{ rewrite fold_none in E. discriminate. }
  assert (L1 : lengths (S lvl) (snd s1)).
  { apply (pairs_inv (fun s => lengths (S lvl) (snd s)) limit lvl l1 s s1); auto. cbn [snd]. intros. apply lengths_push; auto. lia. }
  cbn [fold_left] in E. unfold try_pair at 2 in E. rewrite Hm, Hl, Nat.eqb_refl in E.
  revert E. apply (pairs_inv (fun s => found (S lvl) _ (snd s))).
  { cbn [snd]. intros. apply found_push; auto. }
  subst lvl. apply node_found; auto.
Qed.

(** one extension *)
Lemma search_step : forall n limit arys db, (2 <= limit)%nat -> search (S n) limit = Some (arys, db) ->
  exists arys0 db0 ecs, search n limit = Some (arys0, db0) /\ search_ok n arys0 db0 /\ arys = arys0 ++ [ecs] /\
    fold_left (try_pair limit (S n)) (list_prod (concat arys0) (concat arys0)) (Some ([], db0)) = Some (ecs, db).
Proof.
  intros n limit arys db Hl E.
  destruct (search_total n limit Hl) as [arys0 [db0 [E0 OK]]]. pose proof OK as [HL [Hlev _]].
  cbn [search] in E. rewrite E0 in E. unfold extend_chains_ary in E.
  destruct arys0 as [|a0 t0] eqn:Ea; [discriminate|]. rewrite <- Ea in *.
  rewrite levels_structure in E by auto.
  assert (Hne : arys0 <> []) by (rewrite Ea; discriminate).
  rewrite (levels_last arys0 0 Hlev Hne), HL in E. cbn [Nat.add] in E. clear Ea.
  destruct (fold_left _ _ _) as [[ecs db']|] eqn:F; [|discriminate]. injection E as <- <-.
  exists arys0, db0, ecs. auto.
Qed.

Theorem search_stored : forall rounds limit arys db, (2 <= limit)%nat -> search rounds limit = Some (arys, db) ->
  stored (concat arys) ([], db).
Proof.
  induction rounds as [|n IH]; intros limit arys db Hl E.
  - cbn [search] in E. injection E as <- <-. split; cbn [fst snd concat app].
    + intros v cs. cbn [db_get]. destruct (v =? 1); [|discriminate]. intros [= <-]. split; [|split; [discriminate|exists 1%nat; auto]].
      cbn [map]. constructor; [intros []|constructor].
    + intros c. split.
      * intros [<-|[]]. exists 1, [[Unit]]. split; auto. left. auto.
      * intros [v [cs [H Hc]]]. cbn [db_get] in H. destruct (v =? 1); [|discriminate]. injection H as <-. exact Hc.
  - destruct (search_step n limit arys db Hl E) as [arys0 [db0 [ecs [E0 [_ [-> F]]]]]].
    specialize (IH limit arys0 db0 Hl E0).
    assert (S : stored (concat arys0) (ecs, db)).
    { revert F. apply (pairs_inv (stored (concat arys0))); auto. intros. apply stored_step; auto. }
    destruct S as [S1 S2]. split; auto. cbn [fst snd] in *. intros c. rewrite app_nil_r, concat_app. cbn [concat].
    rewrite app_nil_r. apply S2.
Qed.
Lemma search_lengths : forall rounds limit arys db, (2 <= limit)%nat -> search rounds limit = Some (arys, db) ->
  lengths (S rounds) db.
Proof.
  induction rounds as [|n IH]; intros limit arys db Hl E.
  - cbn [search] in E. injection E as <- <-. intros v cs. cbn [db_get]. destruct (v =? 1); [|discriminate].
    intros [= <-]. split; [discriminate|auto].
  - destruct (search_step n limit arys db Hl E) as [arys0 [db0 [ecs [E0 [_ [-> F]]]]]].
    specialize (IH limit arys0 db0 Hl E0).
    change (lengths (S (S n)) (snd (ecs, db))). revert F. apply (pairs_inv (fun s => lengths (S (S n)) (snd s))).
    { cbn [snd]. intros. apply lengths_push; auto. lia. }
    intros v cs Hc. destruct (IH v cs Hc) as [A F]. split; auto. eapply Forall_impl; [|exact F]. cbn beta. intros. lia.
Qed.
Lemma levels_member : forall arys i c, levels i arys -> In c (concat arys) -> (S i <= length c <= i + length arys)%nat.
Proof.
  induction arys as [|a arys IH]; intros i c H Hc; [destruct Hc|]. destruct H as [_ [H2 H3]]. cbn [concat length] in *.
  apply in_app_or in Hc. destruct Hc as [Hc|Hc].
  - rewrite Forall_forall in H2. destruct (H2 _ Hc). lia.
  - specialize (IH _ _ H3 Hc). lia.
Qed.

(** a stored chain extended by a power of two *)
Theorem search_extended : forall rounds limit arys db c r pp qp, (2 <= limit)%nat ->
  search rounds limit = Some (arys, db) -> In c (concat arys) -> (length c <= rounds)%nat -> (1 <= r < limit)%nat ->
  let v := (if pp : bool then 1 else -1) * chain_top c + (if qp : bool then 1 else -1) * 2 ^ Z.of_nat r in
  0 < v -> found (S (length c)) v db.
Proof.
  induction rounds as [|n IH]; intros limit arys db c r pp qp Hl E Hc Hn Hr v Hv.
  - destruct (search_total 0 limit Hl) as [a [d [E' [_ [Lev _]]]]]. rewrite E in E'. injection E' as <- <-.
    pose proof (levels_member _ _ _ Lev Hc). lia.
  - destruct (search_step n limit arys db Hl E) as [arys0 [db0 [ecs [E0 [OK [-> F]]]]]].
    destruct OK as [HL [Lev [Hu _]]].
    assert (Hold : In c (concat arys0)).
    { destruct (search_total (S n) limit Hl) as [a [d [E' [HL' [Lev' _]]]]]. rewrite E in E'. injection E' as <- <-.
      rewrite concat_app in Hc. apply in_app_or in Hc. destruct Hc as [Hc|Hc]; auto. exfalso.
      assert (G : forall l i, levels i (l ++ [ecs]) -> (S (i + length l) <= length c)%nat).
      { induction l as [|y l IHl]; intros i Hi; cbn [app levels length] in *.
        - destruct Hi as [_ [Hi _]]. rewrite Forall_forall in Hi. cbn [concat] in Hc. rewrite app_nil_r in Hc.
          destruct (Hi _ Hc). lia.
        - destruct Hi as [_ [_ Hi]]. specialize (IHl _ Hi). lia. }
      specialize (G _ _ Lev'). lia. }
    destruct (Nat.eq_dec (length c) (S n)) as [El|El].
    + pose proof (levels_good _ _ Lev) as G. rewrite Forall_forall in G.
      assert (V : v = oval (Node pp (last c Unit) qp (last [Unit] Unit) r)).
      { unfold v, chain_top. cbn [last oval]. destruct qp; lia. }
      rewrite V in *. change (found (S (length c)) (oval (Node pp (last c Unit) qp (last [Unit] Unit) r)) (snd (ecs, db))).
      rewrite El. eapply pair_found; [exact F| |apply in_prod; [exact Hold|exact Hu]|apply merge_unit; auto|exact El| |exact Hv].
      * cbn [snd]. intros w cs Hw. destruct (search_lengths n limit _ _ Hl E0 w cs Hw) as [A B]. split; auto.
        eapply Forall_impl; [|exact B]. cbn beta. intros. lia.
      * unfold choices. cbn [last owid]. apply in_prod; [apply in_seq; lia|].
        apply in_prod; [destruct pp|destruct qp]; cbn; auto.
    + assert (K : found (S (length c)) v db0) by (apply (IH limit arys0 db0 c r pp qp); auto; lia).
      change (found (S (length c)) v (snd (ecs, db))). revert F. apply (pairs_inv (fun s => found (S (length c)) v (snd s))); auto.
      cbn [snd]. intros. apply found_push; auto.
Qed.

(** ** sums of signed powers of two *)

(** +-1 plus [k] signed powers of two with exponents from 1 to [m] *)
Inductive signed_sum (m : nat) : nat -> Z -> Prop :=
| ss_one : signed_sum m 0 1
| ss_minus : signed_sum m 0 (-1)
| ss_plus_pow : forall k v r, signed_sum m k v -> (1 <= r <= m)%nat -> signed_sum m (S k) (v + 2 ^ Z.of_nat r)
| ss_minus_pow : forall k v r, signed_sum m k v -> (1 <= r <= m)%nat -> signed_sum m (S k) (v - 2 ^ Z.of_nat r).
Lemma signed_odd : forall m k v, signed_sum m k v -> Z.odd v = true.
Proof.
  intros m k v H. induction H as [| |k v r H IH Hr|k v r H IH Hr]; auto.
  - rewrite Z.odd_add, IH. rewrite Z.odd_pow by lia. reflexivity.
  - rewrite Z.odd_sub, IH. rewrite Z.odd_pow by lia. reflexivity.
Qed.
Theorem search_complete : forall rounds limit arys db k v, (2 <= limit)%nat ->
  search rounds limit = Some (arys, db) -> signed_sum (limit - 1) k v -> (k <= rounds)%nat ->
  found (S k) (Z.abs v) db.
Proof.
  intros rounds limit arys db k v Hl E H.
  destruct (search_total rounds limit Hl) as [a [d [E' [_ [Lev [_ [Hdb _]]]]]]]. rewrite E in E'. injection E' as <- <-.
  pose proof (search_stored rounds limit arys db Hl E) as [_ S]. cbn [fst snd] in S.
  assert (One : found 1 1 db).
  { clear -E Hl. revert arys db E. induction rounds as [|n IH]; intros arys db E.
    - cbn [search] in E. injection E as <- <-. exists [Unit], []. auto.
    - destruct (search_step n limit arys db Hl E) as [arys0 [db0 [ecs [E0 [OK [-> F]]]]]]. specialize (IH _ _ E0).
      change (found 1 1 (snd (ecs, db))). revert F. apply (pairs_inv (fun s => found 1 1 (snd s))); auto.
      cbn [snd]. intros. apply found_push; auto. }
  assert (Step : forall k u r (qp : bool), signed_sum (limit - 1) k u -> found (Datatypes.S k) (Z.abs u) db -> (Datatypes.S k <= rounds)%nat ->
    (1 <= r <= limit - 1)%nat -> found (Datatypes.S (Datatypes.S k)) (Z.abs (u + (if qp then 1 else -1) * 2 ^ Z.of_nat r)) db).
  { intros j u r qp Hu [c [cs [Hc Lc]]] Hj Hr.
    pose proof (signed_odd _ _ _ Hu) as Ou.
    assert (Ov : Z.odd (u + (if qp then 1 else -1) * 2 ^ Z.of_nat r) = true).
    { rewrite Z.odd_add, Z.odd_mul, Ou, Z.odd_pow by lia. destruct qp; reflexivity. }
    assert (Nz : u + (if qp then 1 else -1) * 2 ^ Z.of_nat r <> 0) by (intros Ez; rewrite Ez in Ov; discriminate).
    assert (Hi : In c (concat arys)). { rewrite <- (app_nil_r (concat arys)). apply S. exists (Z.abs u), (c :: cs). split; auto. left; auto. }
    destruct Hdb as [_ Hdb]. destruct (Hdb _ _ Hc) as [_ Hf]. destruct (Forall_inv Hf) as [_ Top].
    set (w := u + (if qp then 1 else -1) * 2 ^ Z.of_nat r) in *.
    (* the sign of u against |u|, and of w against |w| *)
    set (sw := 0 <? w). set (su := 0 <? u).
    pose proof (search_extended rounds limit arys db c r (Bool.eqb su sw) (Bool.eqb qp sw) Hl E Hi ltac:(lia) ltac:(lia)) as K.
    cbv zeta in K.
    replace ((if Bool.eqb su sw then 1 else -1) * chain_top c + (if Bool.eqb qp sw then 1 else -1) * 2 ^ Z.of_nat r)
      with (Z.abs w) in K.
    2:{ rewrite Top. unfold su, sw, w in *. clear -Nz. revert Nz. generalize (2 ^ Z.of_nat r). intros p Nz.
        destruct qp; cbn iota in *; destruct (Z.ltb_spec 0 u); [destruct (Z.ltb_spec 0 (u + 1 * p))..|destruct (Z.ltb_spec 0 (u + -1 * p))|destruct (Z.ltb_spec 0 (u + -1 * p))]; cbn [Bool.eqb]; lia. }
    destruct (K ltac:(lia)) as [c' [cs' [Hc' Lc']]]. exists c', cs'. split; auto. lia. }
  induction H as [| |k u r H IH Hr|k u r H IH Hr]; intros Hk; auto.
  - specialize (Step k u r true H (IH ltac:(lia)) Hk Hr). replace (u + 2 ^ Z.of_nat r) with (u + 1 * 2 ^ Z.of_nat r) by lia. exact Step.
  - specialize (Step k u r false H (IH ltac:(lia)) Hk Hr). replace (u - 2 ^ Z.of_nat r) with (u + -1 * 2 ^ Z.of_nat r) by lia. exact Step.
Qed.

(** every odd number up to 2^m in absolute value is such a sum of at most m/2 terms *)
Lemma signed_mono : forall m m' k v, signed_sum m k v -> (m <= m')%nat -> signed_sum m' k v.
Proof.
  intros m m' k v H L. induction H as [| |k v r H IH Hr|k v r H IH Hr]; constructor; auto; lia.
Qed.
(** d + 2^t times a sum *)
Lemma signed_shift : forall m t k v d, (1 <= t)%nat -> d = 1 \/ d = -1 -> signed_sum m k v ->
  signed_sum (m + t) (S k) (d + 2 ^ Z.of_nat t * v).
Proof.
  intros m t k v d Ht Hd H. induction H as [| |k v r H IH Hr|k v r H IH Hr].
  - replace (d + 2 ^ Z.of_nat t * 1) with (d + 2 ^ Z.of_nat t) by lia. constructor; [|lia]. destruct Hd as [->| ->]; constructor.
  - replace (d + 2 ^ Z.of_nat t * -1) with (d - 2 ^ Z.of_nat t) by lia. constructor; [|lia]. destruct Hd as [->| ->]; constructor.
  - replace (d + 2 ^ Z.of_nat t * (v + 2 ^ Z.of_nat r)) with (d + 2 ^ Z.of_nat t * v + 2 ^ Z.of_nat (t + r)).
    2:{ rewrite Nat2Z.inj_add, Z.pow_add_r by lia. lia. }
    constructor; auto. lia.
  - replace (d + 2 ^ Z.of_nat t * (v - 2 ^ Z.of_nat r)) with (d + 2 ^ Z.of_nat t * v - 2 ^ Z.of_nat (t + r)).
    2:{ rewrite Nat2Z.inj_add, Z.pow_add_r by lia. lia. }
    constructor; auto. lia.
Qed.
Lemma odd_part : forall n w, w <> 0 -> Z.abs w <= Z.of_nat n -> exists t u, w = 2 ^ Z.of_nat t * u /\ Z.odd u = true.
Proof.
  induction n as [|n IH]; intros w Hw Hn; [lia|]. destruct (Z.odd w) eqn:O.
  - exists 0%nat, w. split; auto. cbn [Z.of_nat]. rewrite Z.pow_0_r. lia.
  - pose proof (Zdiv2_odd_eqn w) as D. rewrite O in D.
    destruct (IH (Z.div2 w) ltac:(lia) ltac:(lia)) as [t [u [E Ou]]].
    exists (S t), u. split; auto. rewrite Nat2Z.inj_succ, Z.pow_succ_r by lia. lia.
Qed.
Theorem signed_exists : forall n m v, (m <= n)%nat -> Z.odd v = true -> Z.abs v <= 2 ^ Z.of_nat m ->
  exists k, (k <= m / 2)%nat /\ signed_sum m k v.
Proof.
  induction n as [|n IH]; intros m v Hm Ov Hv.
  - assert (m = O) by lia. subst m. cbn [Z.of_nat] in Hv. rewrite Z.pow_0_r in Hv. exists O. split; [lia|].
    destruct (Z.eq_dec v 1) as [->|]; [constructor|]. destruct (Z.eq_dec v (-1)) as [->|]; [constructor|].
    exfalso. assert (v = 0) by lia. subst v. discriminate.
  - pose proof (Zdiv2_odd_eqn v) as D. rewrite Ov in D. set (h := Z.div2 v) in *.
    pose proof (Zdiv2_odd_eqn h) as D2. set (w0 := Z.div2 h) in *.
    (* v = d + 4 w *)
    set (d := if Z.odd h then -1 else 1). set (w := if Z.odd h then w0 + 1 else w0).
    assert (E : v = d + 4 * w) by (unfold d, w; destruct (Z.odd h); lia).
    assert (Hd : d = 1 \/ d = -1) by (unfold d; destruct (Z.odd h); auto).
    clearbody d w. destruct (Z.eq_dec w 0) as [->|Hw].
    + exists O. split; [lia|]. replace v with d by lia. destruct Hd as [->| ->]; constructor.
    + assert (Hm2 : (2 <= m)%nat).
      { destruct m as [|[|m]]; [exfalso|exfalso|lia]; cbn [Z.of_nat Pos.of_succ_nat] in Hv; [rewrite Z.pow_0_r in Hv|rewrite Z.pow_1_r in Hv]; lia. }
      assert (P2 : 2 ^ Z.of_nat m = 4 * 2 ^ Z.of_nat (m - 2)).
      { change 4 with (2 ^ 2). rewrite <- Z.pow_add_r by lia. f_equal. lia. }
      assert (Bw : Z.abs w <= 2 ^ Z.of_nat (m - 2)) by lia.
      destruct (odd_part (Z.to_nat (Z.abs w)) w Hw ltac:(lia)) as [t [u [Ew Ou]]].
      assert (Pt : 0 < 2 ^ Z.of_nat t) by (apply Z.pow_pos_nonneg; lia).
      assert (Au : 1 <= Z.abs u) by (destruct (Z.eq_dec u 0) as [->|]; [discriminate|lia]).
      assert (Ht : (t <= m - 2)%nat).
      { destruct (Nat.le_gt_cases t (m - 2)) as [L|L]; auto. exfalso.
        assert (2 ^ Z.of_nat (m - 2) < 2 ^ Z.of_nat t) by (apply Z.pow_lt_mono_r; lia).
        rewrite Ew, Z.abs_mul, (Z.abs_eq (2 ^ Z.of_nat t)) in Bw by lia. nia. }
      assert (Pm : 2 ^ Z.of_nat (m - 2) = 2 ^ Z.of_nat t * 2 ^ Z.of_nat (m - 2 - t)).
      { rewrite <- Z.pow_add_r by lia. f_equal. lia. }
      assert (Bu : Z.abs u <= 2 ^ Z.of_nat (m - 2 - t)).
      { rewrite Ew, Z.abs_mul, (Z.abs_eq (2 ^ Z.of_nat t)), Pm in Bw by lia. apply (Z.mul_le_mono_pos_l _ _ (2 ^ Z.of_nat t)); auto. }
      destruct (IH (m - 2 - t)%nat u ltac:(lia) Ou Bu) as [k [Hk S]].
      exists (Datatypes.S k). split.
      { replace m with (1 * 2 + (m - 2))%nat by lia. rewrite (Nat.add_comm (1 * 2)), Nat.div_add by lia.
        assert ((m - 2 - t) / 2 <= (m - 2) / 2)%nat by (apply Nat.div_le_mono; lia). lia. }
      replace v with (d + 2 ^ Z.of_nat (t + 2) * u).
      2:{ rewrite E, Ew, Nat2Z.inj_add, Z.pow_add_r by lia. change (2 ^ Z.of_nat 2) with 4. lia. }
      replace m with ((m - 2 - t) + (t + 2))%nat by lia. apply signed_shift; auto. lia.
Qed.

(* ------------------------------------------------------------------ *)
(** ** From the database to the table *)
Lemma insert_in : forall e l x, In x (insert_entry e l) <-> x = e \/ In x l.
Proof.
  intros e l x. induction l as [|h t IH]; cbn [insert_entry].
  - cbn. intuition.
  - destruct (fst e <=? fst h); cbn [In]; [intuition|]. rewrite IH. intuition.
Qed.
Lemma sort_in : forall db x, In x (sort_db db) <-> In x db.
Proof.
  induction db as [|e db IH]; intros x; cbn [sort_db fold_right]; [reflexivity|].
  change (fold_right insert_entry [] db) with (sort_db db). rewrite insert_in, IH. cbn. intuition.
Qed.
(** strictly increasing keys *)
Fixpoint increasing (l : list Z) : Prop :=
  match l with
  | [] => True
  | a :: t => Forall (fun b => a < b) t /\ increasing t
  end.
Lemma insert_increasing : forall e l, ~ In (fst e) (map fst l) -> increasing (map fst l) ->
  increasing (map fst (insert_entry e l)).
Proof.
  intros e l. induction l as [|h t IH]; intros Hn H; cbn [insert_entry].
  - cbn. auto.
  - destruct H as [H1 H2]. destruct (fst e <=? fst h) eqn:E; cbn [map] in *.
    + split; [|split; auto]. assert (fst e <> fst h) by (intros X; apply Hn; left; auto).
      constructor; [lia|]. eapply Forall_impl; [|exact H1]. cbv beta. intros; lia.
    + split; [|apply IH; auto; intros X; apply Hn; right; auto].
      apply Forall_forall. intros x Hx. apply in_map_iff in Hx. destruct Hx as [y [<- Hy]].
      apply insert_in in Hy. destruct Hy as [->|Hy]; [lia|]. rewrite Forall_forall in H1. apply H1. apply in_map; auto.
Qed.
Lemma sort_increasing : forall db, NoDup (map fst db) -> increasing (map fst (sort_db db)).
Proof.
  induction db as [|e db IH]; intros H; cbn [sort_db fold_right]; [exact I|].
  change (fold_right insert_entry [] db) with (sort_db db). cbn [map] in H. inversion H as [|? ? Hn Hd]; subst.
  apply insert_increasing; auto. intros X. apply Hn. apply in_map_iff in X. destruct X as [y [E Hy]].
  rewrite <- E. apply in_map. apply sort_in; auto.
Qed.
Lemma filter_increasing : forall {A} (f : Z * A -> bool) l, increasing (map fst l) -> increasing (map fst (filter f l)).
Proof.
  intros A f l. induction l as [|h t IH]; intros H; auto. destruct H as [H1 H2]. cbn [filter].
  destruct (f h); auto. cbn [map]. split; auto. apply Forall_forall. intros x Hx.
  apply in_map_iff in Hx. destruct Hx as [y [<- Hy]]. apply filter_In in Hy. rewrite Forall_forall in H1.
  apply H1. apply in_map. tauto.
Qed.

(** the table entry of a chain *)
Definition entry_of (c : aschain) (a : asc) : Prop :=
  length a = (length c - 1)%nat /\ chain_wf 1 a /\ chain_run a [1] = to_vals c.

Lemma parse_lines_ok : forall (es : database),
  Forall (fun e => 0 < fst e /\ good_chain (hd [] (snd e))) es ->
  exists m, parse_lines (map (fun e => show_entry (fst e) (hd [] (snd e))) es) = Some m /\
    Forall2 (fun e a => fst a = fst e /\ entry_of (hd [] (snd e)) (snd a)) es m.
Proof.
  induction es as [|e es IH]; intros H; cbn [map parse_lines]; [eauto|].
  inversion H as [|? ? [H1 H2] H3]; subst. destruct (parse_line_ok (fst e) _ H1 H2) as [a [E [A1 [A2 A3]]]].
  match goal with |- context [parse_line ?x] => replace (parse_line x) with (Some (fst e, a)) by (symmetry; exact E) end.
  destruct (IH H3) as [m [-> F]]. exists ((fst e, a) :: m). split; auto. constructor; auto. cbn [fst snd].
  split; auto. split; auto.
Qed.
