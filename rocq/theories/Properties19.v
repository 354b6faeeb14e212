(** C57: what the messages look like *)
From Coq Require Import String.
From Verif Require Import Base Backend Words Params Addition Signum Maximum ScalarMul Arith Messages
  BaseProofs RelProofs TraceProofs Instances Properties6.
From Coq Require Import ZifyBool ZifyNat.

(* ------------------------------------------------------------------ *)
(** ** Specification *)

(** the lines of a text *)
Fixpoint lines (s : str) : list str :=
  match s with
  | [] => [[]]
  | c :: t => if c =? 10 then [] :: lines t
              else match lines t with l :: r => (c :: l) :: r | [] => [[c]] end
  end.
(** [n] bars of four columns *)
Fixpoint bars (c : Z) (n : nat) : str := match n with O => [] | S n => 32 :: 32 :: c :: 32 :: bars c n end.
(** columns of a terminal: escape sequences up to their m take none, pictographs two *)
Definition wide (c : Z) : bool := (127744 <=? c) && (c <=? 129791).
Fixpoint columns_from (esc : bool) (s : str) : Z :=
  match s with
  | [] => 0
  | c :: t => if esc then columns_from (negb (c =? 109)) t
              else if c =? 27 then columns_from true t
              else (if wide c then 2 else 1) + columns_from false t
  end.
Definition columns (s : str) : Z := columns_from false s.
(** UTF-8: the bytes of a character. 7, 11, 16 or 21 bits are split into groups of
    six; the first byte says how many bytes there are. *)
Definition in_utf8 (c : Z) : list Z :=
  if c <? 128 then [c]
  else if c <? 2048 then [192 + c / 64; 128 + c mod 64]
  else if c <? 65536 then [224 + c / 4096; 128 + c / 64 mod 64; 128 + c mod 64]
  else [240 + c / 262144; 128 + c / 4096 mod 64; 128 + c / 64 mod 64; 128 + c mod 64].
(** bytes of a text in UTF-8 *)
Definition bytes (s : str) : Z := Z.of_nat (length (flat_map in_utf8 s)).

(* ------------------------------------------------------------------ *)
(** ** Lines *)

Definition flatl (s : str) : Prop := Forall (fun c => c <> 10) s.
Lemma flatl_b : forall s, forallb (fun c => negb (c =? 10)) s = true -> flatl s.
Proof. intros s H. apply Forall_forall. intros c Hc. pose proof (proj1 (forallb_forall _ _) H c Hc). cbv beta in *. lia. Qed.
Lemma lines_cons : forall s, exists l r, lines s = l :: r.
Proof.
  induction s as [|c s [l [r E]]]; cbn [lines]; [eauto|]. destruct (c =? 10); [eauto|]. rewrite E. eauto.
Qed.
Lemma lines_flat : forall s, flatl s -> lines s = [s].
Proof.
  induction s as [|c s IH]; intros H; [reflexivity|]. inversion H; subst. cbn [lines].
  replace (c =? 10) with false by lia. rewrite IH by auto. reflexivity.
Qed.
Lemma lines_app : forall p s l r, flatl p -> lines s = l :: r -> lines (p ++ s) = (p ++ l) :: r.
Proof.
  induction p as [|c p IH]; intros s l r H E; [exact E|]. inversion H; subst. cbn [lines app].
  replace (c =? 10) with false by lia. rewrite (IH s l r) by auto. reflexivity.
Qed.
Lemma lines_nl : forall s, lines (10 :: s) = [] :: lines s.
Proof. reflexivity. Qed.
Lemma lines_replace : forall q s l r, flatl q -> lines s = l :: r -> lines (replace_nl s (10 :: q)) = l :: map (app q) r.
Proof.
  intros q. induction s as [|c s IH]; intros l r Hq E; cbn [lines] in E.
  - injection E as <- <-. reflexivity.
  - destruct (lines_cons s) as [l' [r' E']]. unfold replace_nl in *. cbn [flat_map]. unfold NL in *. destruct (c =? 10) eqn:C.
    + injection E as <- <-. cbn [app]. rewrite lines_nl, E'. cbn [map]. apply (f_equal (cons [])).
      exact (lines_app q _ l' (map (app q) r') Hq (IH l' r' Hq E')).
    + rewrite E' in E. injection E as <- <-. cbn [app lines]. rewrite C, (IH l' r') by auto. reflexivity.
Qed.
Lemma replace_app : forall a b r, replace_nl (a ++ b) r = replace_nl a r ++ replace_nl b r.
Proof. intros. unfold replace_nl. apply flat_map_app. Qed.
Lemma replace_flat : forall a r, flatl a -> replace_nl a r = a.
Proof.
  induction a as [|c a IH]; intros r H; [reflexivity|]. inversion H; subst. unfold replace_nl in *. cbn [flat_map]. unfold NL.
  replace (c =? 10) with false by lia. cbn [app]. f_equal. auto.
Qed.
Lemma flat_replace : forall s, flatl (replace_nl s (txt " | ")).
Proof.
  induction s as [|c s IH]; [constructor|]. unfold replace_nl in *. cbn [flat_map]. apply Forall_app. split; [|exact IH].
  unfold NL. destruct (c =? 10) eqn:E; [apply flatl_b; reflexivity|]. apply Forall_cons; [lia|apply Forall_nil].
Qed.
Lemma bars_repeat : forall c n, repeat_str [32; 32; c; 32] n = bars c n.
Proof. intros c n. unfold repeat_str. induction n as [|n IH]; [reflexivity|]. cbn [repeat concat bars app]. rewrite IH. reflexivity. Qed.
Lemma bars_flat : forall c n, c <> 10 -> flatl (bars c n).
Proof. intros c n H. induction n as [|n IH]; cbn [bars]; repeat constructor; auto; lia. Qed.
Lemma rep_flat : forall c n, c <> 10 -> flatl (repeat_str [c] n).
Proof. intros c n H. unfold repeat_str. induction n as [|n IH]; cbn [repeat concat app]; constructor; auto. Qed.
Lemma rep_length : forall c n, length (repeat_str [c] n) = n.
Proof. intros c n. unfold repeat_str. induction n as [|n IH]; [reflexivity|]. cbn [repeat concat app length]. rewrite IH. reflexivity. Qed.
Lemma paint_flat : forall on st s, flatl s -> flatl (paint on st s).
Proof.
  intros [] st s H; [|exact H]. unfold paint. repeat (apply Forall_app; split); auto; apply flatl_b; destruct st; reflexivity.
Qed.

Lemma format_lines : forall p q m l r, flatl p -> flatl q -> lines m = l :: r ->
  lines (replace_nl (p ++ m) (NL :: q)) = (p ++ l) :: map (app q) r.
Proof. intros p q m l r Hp Hq E. apply lines_replace; [exact Hq|]. apply lines_app; auto. Qed.

(** Each line of the message becomes one line. The first gets the mark, the others
    the indentation; after that comes the text, unchanged. *)
Theorem C57_info : forall lvl m l r, lines m = l :: r ->
  lines (parm_format_info lvl m) = (bars BAR lvl ++ [32; CHEESE; 32] ++ l) :: map (fun x => bars BAR lvl ++ [32; 32; 32; 32] ++ x) r.
Proof.
  intros lvl m l r E. unfold parm_format_info. cbv zeta. rewrite bars_repeat, app_assoc.
  change ([NL] ++ bars BAR lvl ++ txt "    ") with (NL :: bars BAR lvl ++ txt "    ").
  assert (F : flatl (bars BAR lvl)) by (apply bars_flat; discriminate).
  rewrite (format_lines _ (bars BAR lvl ++ txt "    ") m l r); auto.
  - rewrite <- app_assoc. f_equal. apply map_ext. intros a. rewrite <- app_assoc. reflexivity.
  - apply Forall_app. split; [exact F|]. apply flatl_b. reflexivity.
  - apply Forall_app. split; [exact F|]. apply flatl_b. reflexivity.
Qed.
Theorem C57_dbg : forall on lvl m l r, lines m = l :: r ->
  lines (parm_format_dbg on lvl m) =
    (bars BAR lvl ++ paint on RedBold [68; 66; 71] ++ [32] ++ l) :: map (fun x => bars BAR lvl ++ [32; 32; 32; 32] ++ x) r.
Proof.
  intros on lvl m l r E. unfold parm_format_dbg. cbv zeta. rewrite bars_repeat.
  change ([NL] ++ bars BAR lvl ++ txt "    ") with (NL :: bars BAR lvl ++ txt "    ").
  assert (F : flatl (bars BAR lvl)) by (apply bars_flat; discriminate).
  replace (bars BAR lvl ++ paint on RedBold (txt "DBG") ++ [32] ++ m)
    with ((bars BAR lvl ++ paint on RedBold (txt "DBG") ++ [32]) ++ m) by (rewrite <- !app_assoc; reflexivity).
  rewrite (format_lines _ (bars BAR lvl ++ txt "    ") m l r); auto.
  - rewrite <- !app_assoc. f_equal. apply map_ext. intros a. rewrite <- app_assoc. reflexivity.
  - apply Forall_app. split; [exact F|]. apply Forall_app. split; [|apply flatl_b; reflexivity].
    apply paint_flat, flatl_b. reflexivity.
  - apply Forall_app. split; [exact F|]. apply flatl_b. reflexivity.
Qed.
Theorem C57_err : forall on lvl m l r, lines m = l :: r ->
  lines (parm_format_err on lvl m) =
    (bars SHADE lvl ++ [32; FONDUE; 32; 32] ++ paint on RedBold [69; 82; 82; 32] ++ l) ::
    map (fun x => bars SHADE lvl ++ [32; 32; 32; 32; 32; 32; 32; 32] ++ x) r.
Proof.
  intros on lvl m l r E. unfold parm_format_err. cbv zeta. rewrite bars_repeat.
  change ([NL] ++ bars SHADE lvl ++ txt "        ") with (NL :: bars SHADE lvl ++ txt "        ").
  assert (F : flatl (bars SHADE lvl)) by (apply bars_flat; discriminate).
  replace (bars SHADE lvl ++ [32; FONDUE; 32; 32] ++ paint on RedBold (txt "ERR ") ++ m)
    with ((bars SHADE lvl ++ [32; FONDUE; 32; 32] ++ paint on RedBold (txt "ERR ")) ++ m) by (rewrite <- !app_assoc; reflexivity).
  rewrite (format_lines _ (bars SHADE lvl ++ txt "        ") m l r); auto.
  - rewrite <- !app_assoc. f_equal. apply map_ext. intros a. rewrite <- app_assoc. reflexivity.
  - apply Forall_app. split; [exact F|]. apply Forall_app. split; [apply flatl_b; reflexivity|].
    apply paint_flat, flatl_b. reflexivity.
  - apply Forall_app. split; [exact F|]. apply flatl_b. reflexivity.
Qed.

(* ------------------------------------------------------------------ *)
(** ** Columns *)

Lemma columns_bars : forall c n s, c <> 27 -> wide c = false -> columns (bars c n ++ s) = 4 * Z.of_nat n + columns s.
Proof.
  intros c n s H W. unfold columns. induction n as [|n IH]; [reflexivity|]. cbn [bars app columns_from].
  replace (c =? 27) with false by lia. rewrite W, IH. change (32 =? 27) with false. change (wide 32) with false. cbv iota. lia.
Qed.

(** the columns before the text: [ps] are what stands in front of each line *)
Definition aligned (out m : str) (n : Z) : Prop :=
  exists ps, length ps = length (lines m) /\ lines out = map (fun pl => fst pl ++ snd pl) (combine ps (lines m)) /\
    Forall (fun p => columns p = n) ps.
Lemma aligned_intro : forall out m p q n, (forall l r, lines m = l :: r -> lines out = (p ++ l) :: map (fun x => q ++ x) r) ->
  columns p = n -> columns q = n -> aligned out m n.
Proof.
  intros out m p q n H Hp Hq. destruct (lines_cons m) as [l [r E]]. exists (p :: repeat q (length r)). rewrite E.
  cbn [length combine map fst snd]. rewrite repeat_length. split; [reflexivity|]. split.
  - rewrite (H l r E). f_equal. clear. induction r as [|x r IH]; [reflexivity|]. cbn [map repeat length combine fst snd]. f_equal. exact IH.
  - constructor; [exact Hp|]. apply Forall_forall. intros x Hx. apply repeat_spec in Hx. subst. exact Hq.
Qed.
(** the text of information and debug messages starts in the same column on every
    line, with and without colours *)
Theorem C57_aligned : forall on lvl m, let n := 4 * Z.of_nat lvl + 4 in
  aligned (parm_format_info lvl m) m n /\ aligned (parm_format_dbg on lvl m) m n.
Proof.
  intros on lvl m n. split.
  - apply (aligned_intro _ _ (bars BAR lvl ++ [32; CHEESE; 32]) (bars BAR lvl ++ [32; 32; 32; 32])).
    + intros l r E. rewrite (C57_info lvl m l r E), <- app_assoc. f_equal. apply map_ext. intros a. rewrite <- app_assoc. reflexivity.
    + rewrite columns_bars by (discriminate || reflexivity). reflexivity.
    + rewrite columns_bars by (discriminate || reflexivity). reflexivity.
  - apply (aligned_intro _ _ (bars BAR lvl ++ paint on RedBold [68; 66; 71] ++ [32]) (bars BAR lvl ++ [32; 32; 32; 32])).
    + intros l r E. rewrite (C57_dbg on lvl m l r E), <- !app_assoc. f_equal. apply map_ext. intros a. rewrite <- app_assoc. reflexivity.
    + rewrite columns_bars by (discriminate || reflexivity). destruct on; reflexivity.
    + rewrite columns_bars by (discriminate || reflexivity). reflexivity.
Qed.
(** error messages: the first line starts one column further right *)
Theorem C57_err_refuted : forall on lvl m l l' r, lines m = l :: l' :: r ->
  exists p q o, lines (parm_format_err on lvl m) = (p ++ l) :: (q ++ l') :: o /\
    columns p = 4 * Z.of_nat lvl + 9 /\ columns q = 4 * Z.of_nat lvl + 8.
Proof.
  intros on lvl m l l' r E.
  exists (bars SHADE lvl ++ [32; FONDUE; 32; 32] ++ paint on RedBold [69; 82; 82; 32]), (bars SHADE lvl ++ [32; 32; 32; 32; 32; 32; 32; 32]).
  eexists. rewrite (C57_err on lvl m l (l' :: r) E). split; [|split].
  - rewrite <- !app_assoc. cbn [map]. reflexivity.
  - rewrite columns_bars by (discriminate || reflexivity). destruct on; reflexivity.
  - rewrite columns_bars by (discriminate || reflexivity). reflexivity.
Qed.

(* ------------------------------------------------------------------ *)
(** ** The box *)

Lemma utf8_len_spec : forall c, utf8_len c = Z.of_nat (length (in_utf8 c)).
Proof. intros c. unfold utf8_len, in_utf8. destruct (c <? 128), (c <? 2048), (c <? 65536); reflexivity. Qed.
(** the same, by the model's length of a character *)
Fixpoint mbytes (s : str) : Z := match s with [] => 0 | c :: t => utf8_len c + mbytes t end.
Lemma bytes_eq : forall s, bytes s = mbytes s.
Proof.
  induction s as [|c s IH]; [reflexivity|]. cbn [mbytes]. rewrite <- IH, utf8_len_spec. unfold bytes. cbn [flat_map].
  rewrite app_length. lia.
Qed.
Lemma utf8_pos : forall c, 1 <= utf8_len c <= 4.
Proof. intros c. unfold utf8_len. destruct (c <? 128), (c <? 2048), (c <? 65536); lia. Qed.
Lemma bytes_nonneg : forall s, 0 <= mbytes s.
Proof. induction s as [|c s IH]; cbn [mbytes]; [lia|]. pose proof (utf8_pos c). lia. Qed.
Lemma bytes_app : forall a b, mbytes (a ++ b) = mbytes a + mbytes b.
Proof. induction a as [|c a IH]; intros b; cbn [mbytes app]; [lia|]. rewrite IH. lia. Qed.
Lemma truncate_cases : forall m n, 0 <= n ->
  (exists s r, m = s ++ r /\ mbytes s <= n /\ (r <> [] -> mbytes s = n) /\ truncate n m = ret s) \/
  (exists a c b, m = a ++ c :: b /\ mbytes a < n < mbytes a + utf8_len c /\ fst (truncate n m) = Panic P_assert).
Proof.
  induction m as [|c m IH]; intros n Hn; cbn [truncate].
  - left. exists [], []. cbn [mbytes app]. repeat split; auto; lia || congruence.
  - pose proof (utf8_pos c). destruct (n =? 0) eqn:E0.
    + left. exists [], (c :: m). cbn [mbytes app]. repeat split; auto; lia.
    + destruct (n <? utf8_len c) eqn:E1.
      * right. exists [], c, m. cbn [mbytes app]. repeat split; auto; lia.
      * destruct (IH (n - utf8_len c)) as [[s [r [-> [B [R T]]]]]|[a [d [b [-> [B T]]]]]]; [lia| |].
        -- left. exists (c :: s), r. rewrite T. cbn [mbytes app]. repeat split; auto; [lia|]. intros H1. specialize (R H1). lia.
        -- right. exists (c :: a), d, b. cbn [mbytes app]. repeat split; [lia|lia|].
           destruct (truncate _ _) as [o t]. cbn [fst] in T. subst o. reflexivity.
Qed.
Lemma cut_unique : forall s r a c b n, s ++ r = a ++ c :: b -> mbytes s <= n -> (r <> [] -> mbytes s = n) ->
  mbytes a < n < mbytes a + utf8_len c -> False.
Proof.
  intros s r a c b n E B R H. revert a n E B R H. induction s as [|d s IH]; intros [|e a] n E B R H; cbn [app mbytes] in *.
  - subst r. assert (c :: b <> []) as NE by discriminate. specialize (R NE). lia.
  - subst r. assert (e :: a ++ c :: b <> []) as NE by discriminate. specialize (R NE). pose proof (bytes_nonneg a). pose proof (utf8_pos e). lia.
  - injection E as -> E. pose proof (bytes_nonneg s). lia.
  - injection E as -> E. apply (IH a (n - utf8_len e) E); [lia|intros NE; specialize (R NE); lia|lia].
Qed.

(** The box panics exactly if a character covers byte 100 and starts before it. *)
Theorem C57_box_panics : forall on lvl m,
  fst (parm_format_infobox on lvl m) = Panic P_assert <->
  exists a c b, m = a ++ c :: b /\ bytes a < 100 < bytes (a ++ [c]).
Proof.
  intros on lvl m.
  assert (Q : forall a c, bytes (a ++ [c]) = mbytes a + utf8_len c) by (intros a c; rewrite bytes_eq, bytes_app; cbn [mbytes]; lia).
  unfold parm_format_infobox.
  destruct (truncate_cases m 100 ltac:(lia)) as [[s [r [E [B [R T]]]]]|[a [c [b [E [B T]]]]]].
  - rewrite T, ret_bind. cbn [ret fst]. split; [discriminate|]. intros [a [c [b [E' B']]]].
    exfalso. rewrite E' in E. symmetry in E. rewrite Q, bytes_eq in B'. exact (cut_unique s r a c b 100 E B R B').
  - split; [intros _; exists a, c, b; rewrite Q, bytes_eq; auto|]. intros _. destruct (truncate 100 m) as [o t]. cbn [fst] in T. subst o. reflexivity.
Qed.
(** never for ASCII, such as the messages of the demos *)
Theorem C57_box_ascii : forall on lvl m, (forall c, In c m -> 0 <= c < 128) -> exists out, parm_format_infobox on lvl m = ret out.
Proof.
  intros on lvl m H. unfold parm_format_infobox.
  destruct (truncate_cases m 100 ltac:(lia)) as [[s [r [E [B [R T]]]]]|[a [c [b [E [B T]]]]]].
  - rewrite T, ret_bind. eexists. reflexivity.
  - exfalso. assert (C : 0 <= c < 128) by (apply H; rewrite E; apply in_or_app; right; left; reflexivity).
    unfold utf8_len in B. replace (c <? 128) with true in B by lia. lia.
Qed.
Lemma cut_same : forall s r n s' r', s ++ r = s' ++ r' -> mbytes s <= n -> (r <> [] -> mbytes s = n) -> mbytes s' <= n ->
  (r' <> [] -> mbytes s' = n) -> s' = s.
Proof.
  induction s as [|c s IH]; intros r n [|c' s'] r' E B R B' R'; cbn [app mbytes] in *; auto.
  - exfalso. subst r. assert (c' :: s' ++ r' <> []) as NE by discriminate. specialize (R NE).
    pose proof (bytes_nonneg s'). pose proof (utf8_pos c'). lia.
  - exfalso. subst r'. assert (c :: s ++ r <> []) as NE by discriminate. specialize (R' NE).
    pose proof (bytes_nonneg s). pose proof (utf8_pos c). lia.
  - injection E as <- E. f_equal. apply (IH r (n - utf8_len c) s' r'); auto; lia.
Qed.
Lemma columns_paint : forall on st t s, (forall c, In c t -> c <> 27 /\ wide c = false) ->
  columns (paint on st t ++ s) = Z.of_nat (length t) + columns s.
Proof.
  intros on st t s H.
  assert (G : forall u, columns_from false (t ++ u) = Z.of_nat (length t) + columns_from false u).
  { intros u. induction t as [|c t IH]; [reflexivity|]. destruct (H c (or_introl eq_refl)) as [H1 H2]. cbn [app columns_from length].
    replace (c =? 27) with false by lia. rewrite H2, IH by (intros d Hd; apply H; right; exact Hd). lia. }
  unfold columns, paint. destruct on; [|apply G]. rewrite <- !app_assoc.
  assert (K : forall v, columns_from false ([27] ++ txt (match st with Yellow => "[33m" | RedBold => "[1;31m" end) ++ v) = columns_from false v)
    by (intros v; destruct st; reflexivity).
  rewrite K, G. reflexivity.
Qed.
Lemma columns_plain : forall t s, (forall c, In c t -> c <> 27 /\ wide c = false) ->
  columns (t ++ s) = Z.of_nat (length t) + columns s.
Proof. intros t s H. exact (columns_paint false Yellow t s H). Qed.
Lemma plain_b : forall t, forallb (fun c => negb (c =? 27) && negb (wide c)) t = true -> forall c, In c t -> c <> 27 /\ wide c = false.
Proof. intros t H c Hc. pose proof (proj1 (forallb_forall _ _) H c Hc) as K. cbv beta in K. destruct (wide c); split; auto; lia. Qed.
Lemma plain_rep : forall d n, d <> 27 -> wide d = false -> forall c, In c (repeat_str [d] n) -> c <> 27 /\ wide c = false.
Proof.
  intros d n H1 H2 c Hc. unfold repeat_str in Hc. apply in_concat in Hc as [x [Hx Hc]]. apply repeat_spec in Hx. subst x.
  destruct Hc as [<-|[]]. auto.
Qed.
Lemma plain_text : forall s, (forall c, In c s -> c <> 27 /\ wide c = false) -> forall c, In c (replace_nl s [32; 124; 32]) -> c <> 27 /\ wide c = false.
Proof.
  intros s H c Hc. unfold replace_nl in Hc. apply in_flat_map in Hc as [d [Hd Hc]].
  destruct (d =? NL); [revert c Hc; apply plain_b; reflexivity|]. destruct Hc as [<-|[]]. auto.
Qed.
Lemma edge_columns : forall on a b n, a <> 27 -> wide a = false -> b <> 27 -> wide b = false ->
  columns (paint on Yellow [a] ++ paint on Yellow (repeat_str [9473] (n + 4)) ++ paint on Yellow [b]) = Z.of_nat n + 6.
Proof.
  intros on a b n A1 A2 B1 B2. rewrite columns_paint by (intros c [<-|[]]; auto).
  rewrite columns_paint by (apply plain_rep; reflexivity || discriminate). rewrite rep_length.
  rewrite <- (app_nil_r (paint on Yellow [b])). rewrite columns_paint by (intros c [<-|[]]; auto). cbn. lia.
Qed.
Lemma edge_flat : forall on a b n, a <> 10 -> b <> 10 ->
  flatl (paint on Yellow [a] ++ paint on Yellow (repeat_str [9473] n) ++ paint on Yellow [b]).
Proof.
  intros on a b n A B. repeat (apply Forall_app; split); apply paint_flat; try (repeat constructor; assumption). apply rep_flat. discriminate.
Qed.

(** Otherwise it shows the first 100 bytes, newlines as " | ", in three lines. The
    edges are as wide as the middle if the message has neither escape sequences
    nor wide characters. *)
Theorem C57_box : forall on lvl s r, bytes s <= 100 -> (r <> [] -> bytes s = 100) ->
  let text := replace_nl s [32; 124; 32] in
  let edge := paint on Yellow [9475] in
  let mid := edge ++ [32; 32] ++ text ++ [32; 32] ++ edge in
  exists out top bot, parm_format_infobox on lvl (s ++ r) = ret out /\
    lines out = map (fun x => bars BAR lvl ++ [32; 32; 32; 32] ++ x) [top; mid; bot] /\
    columns top = Z.of_nat (length text) + 6 /\ columns bot = Z.of_nat (length text) + 6 /\
    ((forall c, In c s -> c <> 27 /\ wide c = false) -> columns mid = Z.of_nat (length text) + 6).
Proof.
  intros on lvl s r B R text edge mid. rewrite bytes_eq in B, R. unfold parm_format_infobox.
  destruct (truncate_cases (s ++ r) 100 ltac:(lia)) as [[s' [r' [E [B' [R' T]]]]]|[a [c [b [E [B' T]]]]]].
  2: { exfalso. exact (cut_unique s r a c b 100 E B R B'). }
  assert (s' = s) by exact (cut_same s r 100 s' r' E B R B' R'). subst s'. rewrite T, ret_bind. cbv zeta.
  change (replace_nl s (txt " | ")) with text.
  set (top := paint on Yellow [9487] ++ paint on Yellow (repeat_str [9473] (length text + 4)) ++ paint on Yellow [9491]).
  set (bot := paint on Yellow [9495] ++ paint on Yellow (repeat_str [9473] (length text + 4)) ++ paint on Yellow [9499]).
  eexists _, top, bot. split; [reflexivity|]. split; [|split; [|split]].
  - rewrite bars_repeat.
    assert (F : flatl (bars BAR lvl)) by (apply bars_flat; discriminate).
    assert (Fm : flatl mid).
    { unfold mid, edge. repeat (apply Forall_app; split); try (apply paint_flat; repeat constructor; discriminate);
        try (repeat constructor; discriminate). apply flat_replace. }
    change ([NL] ++ bars BAR lvl ++ txt "    ") with (NL :: bars BAR lvl ++ txt "    ").
    assert (Q : flatl (bars BAR lvl ++ txt "    ")) by (apply Forall_app; split; [exact F|apply flatl_b; reflexivity]).
    assert (Ft : flatl top) by (apply edge_flat; discriminate). assert (Fb : flatl bot) by (apply edge_flat; discriminate).
    change (paint on Yellow [9475]) with edge.
    replace (bars BAR lvl ++ txt "    " ++ top ++ [NL] ++ edge ++ txt "  " ++ text ++ txt "  " ++ edge ++ [NL] ++ bot)
      with ((bars BAR lvl ++ txt "    " ++ top) ++ (NL :: mid ++ (NL :: bot))).
    2: { unfold mid. change (txt "  ") with [32; 32]. rewrite <- !app_assoc. reflexivity. }
    rewrite (format_lines _ (bars BAR lvl ++ txt "    ") _ [] [mid; bot]).
    + cbn [map]. rewrite app_nil_r, <- !app_assoc. reflexivity.
    + apply Forall_app. split; [exact F|]. apply Forall_app. split; [apply flatl_b; reflexivity|exact Ft].
    + exact Q.
    + unfold NL. rewrite lines_nl. rewrite (lines_app mid (10 :: bot) [] [bot] Fm); [rewrite app_nil_r; reflexivity|].
      rewrite lines_nl, (lines_flat bot Fb). reflexivity.
  - apply edge_columns; discriminate || reflexivity.
  - apply edge_columns; discriminate || reflexivity.
  - intros H. unfold mid, edge. rewrite columns_paint by (apply plain_b; reflexivity).
    rewrite columns_plain by (apply plain_b; reflexivity). rewrite columns_plain by (apply plain_text; exact H).
    rewrite columns_plain by (apply plain_b; reflexivity). rewrite <- (app_nil_r (paint on Yellow [9475])).
    rewrite columns_paint by (apply plain_b; reflexivity). unfold text. cbn [length columns columns_from]. lia.
Qed.
(** with a wide character the right edge stands out *)
Theorem C57_box_wide_refuted : forall on, exists out a b c, parm_format_infobox on 0 [CHEESE] = ret out /\
  lines out = [a; b; c] /\ columns b = columns a + 1 /\ columns c = columns a.
Proof.
  intros [|];
    match goal with |- context [parm_format_infobox ?on 0 ?m] =>
      let r := eval vm_compute in (fst (parm_format_infobox on 0 m)) in
      match r with Ok ?o =>
        let l := eval vm_compute in (lines o) in
        match l with [?a; ?b; ?c] => exists o, a, b, c end end end;
    repeat split; vm_compute; reflexivity.
Qed.

(* ------------------------------------------------------------------ *)
(** ** The picture of a measured run *)

Lemma bars_nth : forall n s i, nth (4 * n + i) (bars BAR n ++ s) 0 = nth i s 0.
Proof.
  induction n as [|n IH]; intros s i; [reflexivity|]. replace (4 * S n + i)%nat with (S (S (S (S (4 * n + i))))) by lia.
  cbn [bars app nth]. apply IH.
Qed.
Lemma print_app : forall an t1 t2 lvl, print_run an lvl (t1 ++ t2) =
  let (l1, o1) := print_run an lvl t1 in let (l2, o2) := print_run an l1 t2 in (l2, o1 ++ o2).
Proof.
  intros an. induction t1 as [|e t1 IH]; intros t2 lvl; cbn [app print_run].
  - destruct (print_run an lvl t2). reflexivity.
  - destruct (print_event an lvl e) as [l0 o0]. rewrite IH. destruct (print_run an l0 t1) as [l1 o1].
    destruct (print_run an l1 t2) as [l2 o2]. rewrite app_assoc. reflexivity.
Qed.
(** every line printed by a run inside [lvl] blocks starts with [lvl] bars *)
Lemma print_forest : forall an f lvl, Z.of_nat lvl + nesting f <= 255 ->
  exists out, print_run an lvl (flat f) = (lvl, out) /\ Forall (fun l => exists s, l = bars BAR lvl ++ s) out.
Proof.
  intros an. induction f as [|r IH|b IHb r IHr|b IHb r IHr]; intros lvl H; cbn [flat nesting print_run print_event] in *.
  - exists []. split; [reflexivity|constructor].
  - destruct (IH lvl H) as [out [E F]]. rewrite E. exists out. split; [reflexivity|exact F].
  - destruct (IHb lvl ltac:(lia)) as [o1 [E1 F1]]. destruct (IHr lvl ltac:(lia)) as [o2 [E2 F2]].
    rewrite print_app, E1. cbn [print_run print_event]. rewrite E2. eexists. split; [reflexivity|].
    cbn [app]. apply Forall_app. split; [exact F1|]. apply Forall_app. split; [|exact F2]. destruct an; constructor; [|constructor].
    eexists. unfold boots_line. rewrite bars_repeat. reflexivity.
  - assert (N : 0 <= nesting b) by (clear; induction b; cbn [nesting]; lia).
    replace (lvl <? 255)%nat with true by lia.
    destruct (IHb (S lvl) ltac:(lia)) as [o1 [E1 F1]]. destruct (IHr lvl ltac:(lia)) as [o2 [E2 F2]].
    rewrite print_app, E1. cbn [print_run print_event pred]. rewrite E2. eexists. split; [reflexivity|].
    cbn [app]. constructor; [|apply Forall_app; split; [|constructor; [|exact F2]]].
    + unfold title_line. assert (L : lines [] = [[]]) by reflexivity.
      pose proof (C57_info lvl [] [] [] L) as K. cbn [map] in K. rewrite lines_flat in K; [injection K as ->; eexists; reflexivity|].
      unfold parm_format_info. cbv zeta. rewrite replace_flat; rewrite bars_repeat; (apply Forall_app; split; [apply bars_flat; discriminate|apply flatl_b; reflexivity]).
    + revert F1. apply Forall_impl. intros l [s ->]. exists ([32; 32; BAR; 32] ++ s). clear.
      induction lvl as [|n IH]; [reflexivity|]. cbn [bars app] in *. rewrite <- IH. reflexivity.
    + unfold done_line. rewrite bars_repeat. eexists. reflexivity.
Qed.

(** A block at level [lvl] prints its title, then lines that all carry a bar in
    the column of that level, then the closing line with a corner in that column
    (a junction if the number of bootstraps is to follow). Runs that end have
    this form (C38_programs, C38_networks). *)
Theorem C57_block : forall an lvl body, Z.of_nat lvl + nesting (FMeas body FNil) <= 255 ->
  exists title inner last, print_run an lvl (flat (FMeas body FNil)) = (lvl, title :: inner ++ [last]) /\
    nth (4 * lvl + 1) title 0 = CHEESE /\
    Forall (fun l => nth (4 * lvl + 2) l 0 = BAR) inner /\
    nth (4 * lvl + 2) last 0 = (if an then JOIN else CORNER).
Proof.
  intros an lvl body H. cbn [nesting] in H.
  assert (N : 0 <= nesting body) by (clear; induction body; cbn [nesting]; lia).
  destruct (print_forest an body (S lvl) ltac:(lia)) as [o [E F]].
  exists (title_line lvl), o, (done_line an lvl). cbn [flat print_run print_event].
  replace (lvl <? 255)%nat with true by lia. rewrite print_app, E. cbn [print_run print_event pred app].
  split; [reflexivity|]. split; [|split].
  - unfold title_line, parm_format_info. cbv zeta. rewrite app_nil_r, replace_flat, bars_repeat;
      [rewrite bars_nth; reflexivity|]. rewrite bars_repeat. apply Forall_app. split; [apply bars_flat; discriminate|apply flatl_b; reflexivity].
  - revert F. apply Forall_impl. intros l [s ->].
    assert (K : bars BAR (S lvl) ++ s = bars BAR lvl ++ [32; 32; BAR; 32] ++ s).
    { clear. induction lvl as [|n IH]; [reflexivity|]. cbn [bars app] in *. rewrite <- IH. reflexivity. }
    rewrite K, bars_nth. reflexivity.
  - unfold done_line. rewrite bars_repeat, bars_nth. destruct an; reflexivity.
Qed.

(** Junctions that nothing continues: in the maximum of two 2-word numbers, the
    closing line of the sign at level 1 has a junction, and the next line is the
    closing line at level 0. And multiplication by 0 prints a corner with nothing
    above it. *)
Theorem C57_joins_refuted :
  (let out := snd (print_run true 0 (snd (pa_max (cloud_100 true) (xencv [1; 0]) (xencv [0; 1])))) in
   nth_error out 5 = Some (bars BAR 1 ++ [32; 32; JOIN; 32]) /\ nth_error out 6 = Some [32; 32; JOIN; 32]) /\
  (forall B pc (x : ciphertext B), snd (print_run true 0 (snd (pa_scalar_mul pc 0 x))) = [[32; 32; CORNER; 32]]).
Proof. split; [vm_compute; split; reflexivity|reflexivity]. Qed.

(** every ciphertext is shown as "[[]]" *)
Example C57_to_str : forall A (x y : list A), to_str x = to_str y /\ to_str x = [91; 91; 93; 93].
Proof. intros A x y. split; reflexivity. Qed.

(* ------------------------------------------------------------------ *)
(** ** Examples *)

(** two lines at level 1 *)
Example C57_example_info : lines (parm_format_info 1 (txt "ab" ++ [10] ++ txt "c")) =
  [[32; 32; BAR; 32; 32; CHEESE; 32; 97; 98]; [32; 32; BAR; 32; 32; 32; 32; 32; 99]].
Proof. reflexivity. Qed.
Example C57_example_err : exists l l', lines (parm_format_err true 0 (txt "ab" ++ [10] ++ txt "c")) = [l; l'] /\
  columns l = 11 /\ columns l' = 9.
Proof. eexists _, _. split; [reflexivity|]. split; reflexivity. Qed.
(** 99 letters and the Greek letter of the durations; 98 of them fit *)
Example C57_example_panic : fst (parm_format_infobox false 0 (repeat 97 99 ++ [956])) = Panic P_assert /\
  exists out, parm_format_infobox false 0 (repeat 97 98 ++ [956]) = ret out.
Proof. split; [vm_compute; reflexivity|]. eexists. reflexivity. Qed.
(** demos.rs:15 *)
Example C57_example_box : exists a b c out, parm_format_infobox true 2 (txt "Sequential Arithmetics DEMO") = ret out /\
  lines out = [a; b; c] /\ columns a = 8 + 4 + 27 + 6 /\ columns b = columns a /\ columns c = columns a.
Proof.
  match goal with |- context [parm_format_infobox ?on ?v ?m] =>
    let r := eval vm_compute in (fst (parm_format_infobox on v m)) in
    match r with Ok ?o =>
      let l := eval vm_compute in (lines o) in
      match l with [?a; ?b; ?c] => exists a, b, c, o end end end.
  repeat split; vm_compute; reflexivity.
Qed.
Example C57_example_block : Z.of_nat 3 + nesting (FMeas (FBoot (FMeas FNil FNil)) FNil) <= 255 /\
  print_run false 3 (flat (FMeas (FBoot (FMeas FNil FNil)) FNil)) =
    (3%nat, [bars BAR 3 ++ [32; CHEESE; 32]; bars BAR 4 ++ [32; CHEESE; 32];
             bars BAR 4 ++ [32; 32; CORNER; 32]; bars BAR 3 ++ [32; 32; CORNER; 32]]).
Proof. split; [vm_compute; discriminate|reflexivity]. Qed.

Print Assumptions C57_info.
Print Assumptions C57_dbg.
Print Assumptions C57_err.
Print Assumptions C57_aligned.
Print Assumptions C57_err_refuted.
Print Assumptions C57_box_panics.
Print Assumptions C57_box_ascii.
Print Assumptions C57_box.
Print Assumptions C57_box_wide_refuted.
Print Assumptions C57_block.
Print Assumptions C57_joins_refuted.
