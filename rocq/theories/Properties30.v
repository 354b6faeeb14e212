(** Property C66: from the log of the search to the file of chains *)
From Coq Require Import String Ascii.
From Verif Require Import Base Params Asc AscTable Messages ChainScript Yaml YamlProofs AscText ChainLog LogText
  BaseProofs ChainTextProofs Properties21 Properties27.
From Verif Require Properties11.
From Coq Require Import ZifyBool ZifyNat.

(** ** Spec *)
(** UTF-8 *)
Definition utf8 (c : Z) : list Z :=
  if c <? 128 then [c]
  else if c <? 2048 then [192 + c / 64; 128 + c mod 64]
  else [224 + c / 4096; 128 + c / 64 mod 64; 128 + c mod 64].
Definition encode (s : str) : list Z := flat_map utf8 s.
(** the guaranteed part of limit-13_v4.log *)
Definition guaranteed_log : list Z := concat (map (fun g => concat (map txt g)) log_literals).
(** the file without the colons in front of the names of fields *)
Definition letter (s : string) : bool :=
  match s with String c _ => Ascii.eqb c "l" || Ascii.eqb c "r" | EmptyString => false end.
Fixpoint drop_colons (s : string) : string :=
  match s with
  | EmptyString => EmptyString
  | String c t => if Ascii.eqb c colon && letter t then drop_colons t else String c (drop_colons t)
  end.

(** ** UTF-8 *)
(** code points below 65536 that are not surrogates *)
Definition code_point (c : Z) : Prop := 0 <= c < 55296 \/ 57344 <= c < 65536.
Lemma decode_utf8 : forall c t, code_point c -> decode (utf8 c ++ t) = option_map (cons c) (decode t).
Proof.
  intros c t H. unfold code_point in H. unfold utf8. destruct (c <? 128) eqn:E1; [|destruct (c <? 2048) eqn:E2].
  - cbn [app decode]. rewrite E1. replace (0 <=? c) with true by lia. reflexivity.
  - assert (A : 2 <= c / 64 < 32) by (split; [apply Z.div_le_lower_bound|apply Z.div_lt_upper_bound]; lia).
    pose proof (Z.mod_pos_bound c 64 ltac:(lia)) as M. pose proof (Z.div_mod c 64 ltac:(lia)) as D.
    cbn [app decode]. unfold continuation.
    replace ((0 <=? 192 + c / 64) && (192 + c / 64 <? 128)) with false by lia.
    replace ((194 <=? 192 + c / 64) && (192 + c / 64 <? 224)) with true by lia.
    replace ((128 <=? 128 + c mod 64) && (128 + c mod 64 <? 192)) with true by lia.
    replace ((192 + c / 64 - 192) * 64 + (128 + c mod 64 - 128)) with c by lia. reflexivity.
  - assert (A : 0 <= c / 4096 < 16) by (split; [apply Z.div_pos|apply Z.div_lt_upper_bound]; lia).
    pose proof (Z.mod_pos_bound c 64 ltac:(lia)) as M. pose proof (Z.div_mod c 64 ltac:(lia)) as D.
    pose proof (Z.mod_pos_bound (c / 64) 64 ltac:(lia)) as M'. pose proof (Z.div_mod (c / 64) 64 ltac:(lia)) as D'.
    rewrite Z.div_div in D' by lia. change (64 * 64) with 4096 in D'.
    cbn [app decode]. unfold continuation.
    replace ((0 <=? 224 + c / 4096) && (224 + c / 4096 <? 128)) with false by lia.
    replace ((194 <=? 224 + c / 4096) && (224 + c / 4096 <? 224)) with false by lia.
    replace ((224 <=? 224 + c / 4096) && (224 + c / 4096 <? 240)) with true by lia.
    replace (((224 + c / 4096 - 224) * 64 + (128 + c / 64 mod 64 - 128)) * 64 + (128 + c mod 64 - 128)) with c by lia. cbv zeta.
    replace ((128 <=? 128 + c / 64 mod 64) && (128 + c / 64 mod 64 <? 192) && ((128 <=? 128 + c mod 64) && (128 + c mod 64 <? 192)) &&
      (2048 <=? c) && negb ((55296 <=? c) && (c <? 57344))) with true by lia. reflexivity.
Qed.
(** Every text of the Basic Multilingual Plane is read back from its bytes. *)
Theorem C66_utf8 : forall s, Forall code_point s -> decode (encode s) = Some s.
Proof.
  intros s H. induction H as [|c s Hc _ IH]; [reflexivity|]. unfold encode. cbn [flat_map]. rewrite decode_utf8 by exact Hc.
  fold (encode s). rewrite IH. reflexivity.
Qed.

(** ** lines *)
Definition log_line (e : Z * asc) : str := show_entry (fst e) (rebuild (snd e)).
Definition log_text (m : asc_map) : str := flat_map (fun e => log_line e ++ [10]) m.
Definition plain_line (l : str) : Prop := l <> [] /\ Forall (fun c => c <> 10 /\ code_point c) l.
Lemma pieces_one : forall l t, Forall (fun c => c <> 10 /\ code_point c) l ->
  ChainScript.pieces (fun c => c =? 10) (l ++ 10 :: t) = l :: ChainScript.pieces (fun c => c =? 10) t.
Proof.
  intros l t H. induction H as [|c l [Hc _] _ IH]; cbn [app ChainScript.pieces]; [reflexivity|].
  replace (c =? 10) with false by lia. rewrite IH. reflexivity.
Qed.
Lemma pieces_lines : forall ls, Forall plain_line ls ->
  ChainScript.pieces (fun c => c =? 10) (flat_map (fun l => l ++ [10]) ls) = ls ++ [[]].
Proof.
  intros ls H. induction H as [|l ls [_ Hl] _ IH]; [reflexivity|]. cbn [flat_map app]. rewrite <- app_assoc. cbn [app].
  rewrite pieces_one by exact Hl. rewrite IH. reflexivity.
Qed.
Lemma split_lines : forall ls, Forall plain_line ls ->
  split_at (fun c => c =? 10) (flat_map (fun l => l ++ [10]) ls) = ls.
Proof.
  intros ls H. unfold split_at. rewrite pieces_lines by exact H. rewrite rev_app_distr. cbn [rev app drop_empty empty].
  apply Forall_rev in H. rewrite <- (rev_involutive ls) at 2. f_equal. destruct H as [|l r [Hl _] _]; [reflexivity|].
  cbn [drop_empty]. destruct l; [congruence|]. reflexivity.
Qed.
Definition plain_b (l : str) : bool := negb (empty l) && forallb (fun c => negb (c =? 10) && (0 <=? c) && (c <? 55296)) l.
Lemma plain_b_ok : forall l, plain_b l = true -> plain_line l.
Proof.
  intros l H. unfold plain_b in H. apply andb_prop in H. destruct H as [H1 H2]. split; [intros ->; discriminate|].
  rewrite forallb_forall in H2. apply Forall_forall. intros c Hc. specialize (H2 c Hc). unfold code_point. lia.
Qed.
Lemma shipped_plain : forallb (fun e => plain_b (log_line e)) shipped_asc = true.
Proof. vm_compute. reflexivity. Qed.
Lemma plain_shipped : Forall plain_line (map log_line shipped_asc).
Proof.
  pose proof shipped_plain as H. rewrite forallb_forall in H. apply Forall_forall. intros l Hl. apply in_map_iff in Hl.
  destruct Hl as [e [<- He]]. apply plain_b_ok, H, He.
Qed.

(** ** the literals *)
Lemma part_0 : map (fun m => encode (log_text m)) (pieces 8 asc_chunk_0) = map txt logs_0.
Proof. vm_compute. reflexivity. Qed.
Lemma part_1 : map (fun m => encode (log_text m)) (pieces 8 asc_chunk_1) = map txt logs_1.
Proof. vm_compute. reflexivity. Qed.
Lemma part_2 : map (fun m => encode (log_text m)) (pieces 8 asc_chunk_2) = map txt logs_2.
Proof. vm_compute. reflexivity. Qed.
Lemma part_3 : map (fun m => encode (log_text m)) (pieces 8 asc_chunk_3) = map txt logs_3.
Proof. vm_compute. reflexivity. Qed.
Lemma part_4 : map (fun m => encode (log_text m)) (pieces 8 asc_chunk_4) = map txt logs_4.
Proof. vm_compute. reflexivity. Qed.
Lemma part_5 : map (fun m => encode (log_text m)) (pieces 8 asc_chunk_5) = map txt logs_5.
Proof. vm_compute. reflexivity. Qed.
Lemma part_6 : map (fun m => encode (log_text m)) (pieces 8 asc_chunk_6) = map txt logs_6.
Proof. vm_compute. reflexivity. Qed.
Lemma part_7 : map (fun m => encode (log_text m)) (pieces 8 asc_chunk_7) = map txt logs_7.
Proof. vm_compute. reflexivity. Qed.

Definition parts : list (list asc_map) := map (pieces 8) chunks.
Lemma literals : map (map (fun m => encode (log_text m))) parts = map (map txt) log_literals.
Proof.
  unfold parts, chunks, log_literals. cbn [map]. apply (f_equal2 cons part_0). apply (f_equal2 cons part_1).
  apply (f_equal2 cons part_2). apply (f_equal2 cons part_3). apply (f_equal2 cons part_4). apply (f_equal2 cons part_5).
  apply (f_equal2 cons part_6). apply (f_equal2 cons part_7). exact eq_refl.
Qed.
Lemma encode_app : forall a b, encode (a ++ b) = encode a ++ encode b.
Proof. intros. apply flat_map_app. Qed.
Lemma log_text_app : forall a b, log_text (a ++ b) = log_text a ++ log_text b.
Proof. intros. apply flat_map_app. Qed.
Lemma encode_parts : forall g, concat (map (fun m => encode (log_text m)) g) = encode (log_text (concat g)).
Proof. induction g as [|m g IH]; [reflexivity|]. cbn [map concat]. rewrite log_text_app, encode_app, IH. reflexivity. Qed.
Lemma encode_groups : forall gs, concat (map (fun g => concat (map (fun m => encode (log_text m)) g)) gs) =
  encode (log_text (concat (map (@concat _) gs))).
Proof. induction gs as [|g gs IH]; [reflexivity|]. cbn [map concat]. rewrite log_text_app, encode_app, IH, encode_parts. reflexivity. Qed.

(** The guaranteed part of the log is the line printed for each entry of the shipped table,
    one after the other, byte for byte. *)
Theorem C66_log : guaranteed_log = encode (flat_map (fun e => show_entry (fst e) (rebuild (snd e)) ++ [10]) shipped_asc).
Proof.
  change (guaranteed_log = encode (log_text shipped_asc)).
  assert (E : forall (T : list (list string)), concat (map (fun g => concat (map txt g)) T) = concat (map (@concat _) (map (map txt) T))).
  { intros T. rewrite map_map. reflexivity. }
  unfold guaranteed_log. rewrite E, <- literals, map_map, encode_groups. unfold parts. rewrite chunk_tables, shipped_chunks. reflexivity.
Qed.

(** So the script reads it as exactly this table, *)
Lemma log_text_lines : forall m, log_text m = flat_map (fun l => l ++ [10]) (map log_line m).
Proof. intros m. unfold log_text. induction m as [|e m IH]; [reflexivity|]. cbn [flat_map map]. rewrite IH. reflexivity. Qed.
Lemma parse_logged : forall m, Forall plain_line (map log_line m) ->
  (forall n c, In (n, c) m -> parse_line (show_entry n (rebuild c)) = Some (n, c)) ->
  parse_file (encode (log_text m)) = Some m.
Proof.
  intros m H P. unfold parse_file. rewrite log_text_lines, C66_utf8.
  - rewrite split_lines by exact H. clear H. induction m as [|[n c] m IH]; [reflexivity|]. cbn [map parse_lines].
    change (log_line (n, c)) with (show_entry n (rebuild c)). rewrite P by (left; reflexivity).
    rewrite IH; [reflexivity|]. intros n' c' Hin. apply P. right. exact Hin.
  - apply Forall_forall. intros c Hc. apply in_flat_map in Hc. destruct Hc as [l [He Hc]].
    apply in_app_or in Hc. destruct Hc as [Hc|[<-|[]]]; [|left; lia].
    rewrite Forall_forall in H. destruct (H _ He) as [_ F]. rewrite Forall_forall in F. apply (F c Hc).
Qed.
Theorem C66_parse : parse_file guaranteed_log = Some shipped_asc.
Proof.
  rewrite C66_log. change (flat_map _ shipped_asc) with (log_text shipped_asc).
  apply (parse_logged shipped_asc plain_shipped). exact C60_shipped.
Qed.

(** ** what the script writes *)
Local Open Scope string_scope.
Lemma drop_line : forall s t, drop_colons (line s ++ t) = line (drop_colons s) ++ drop_colons t.
Proof.
  intros s t. unfold line. rewrite !app_ass. cbn [append].
  assert (L : forall s, letter (s ++ String newline t) = letter s) by (intros [|? ?]; reflexivity).
  induction s as [|c s IH]; cbn [append drop_colons]; [reflexivity|]. rewrite L, IH. destruct (Ascii.eqb c colon && letter s); reflexivity.
Qed.
Lemma drop_free : forall s t, free colon s = true -> drop_colons (s ++ t) = s ++ drop_colons t.
Proof.
  induction s as [|c s IH]; intros t H; [reflexivity|]. cbn [append drop_colons]. cbn [free] in H. apply andb_prop in H.
  destruct H as [H1 H2]. rewrite IH by exact H2. destruct (Ascii.eqb c colon); [discriminate|]. reflexivity.
Qed.
Lemma drop_num : forall n, drop_colons (num_text n) = num_text n.
Proof. intros n. rewrite <- (app_nil (num_text n)) at 1. rewrite drop_free by apply num_free. apply app_nil. Qed.
Lemma drop_bool : forall b, drop_colons (bool_text b) = bool_text b.
Proof. intros []; reflexivity. Qed.
Lemma drop_step : forall a t, drop_colons (step_dump a ++ t) = step_text a ++ drop_colons t.
Proof.
  intros a t. unfold step_dump, step_text. rewrite !app_ass, !drop_line.
  assert (L1 : forall s, drop_colons ("- :l_pos: " ++ s) = "- l_pos: " ++ drop_colons s) by reflexivity.
  assert (L2 : forall s, drop_colons ("  :l_idx: " ++ s) = "  l_idx: " ++ drop_colons s) by reflexivity.
  assert (L3 : forall s, drop_colons ("  :r_pos: " ++ s) = "  r_pos: " ++ drop_colons s) by reflexivity.
  assert (L4 : forall s, drop_colons ("  :r_idx: " ++ s) = "  r_idx: " ++ drop_colons s) by reflexivity.
  assert (L5 : forall s, drop_colons ("  :r_shift: " ++ s) = "  r_shift: " ++ drop_colons s) by reflexivity.
  rewrite L1, L2, L3, L4, L5, !drop_bool, !drop_num. reflexivity.
Qed.
Lemma drop_steps : forall c t, drop_colons (steps_dump c ++ t) = steps_text c ++ drop_colons t.
Proof.
  induction c as [|a c IH]; intros t; [reflexivity|]. cbn [steps_dump steps_text fold_right].
  fold (steps_dump c). fold (steps_text c). rewrite !app_ass, drop_step, IH. reflexivity.
Qed.
Lemma drop_entries : forall m, drop_colons (entries_dump m) = entries_text m.
Proof.
  induction m as [|[k c] m IH]; [reflexivity|]. cbn [entries_dump entries_text fold_right]. fold (entries_dump m). fold (entries_text m).
  unfold entry_dump, entry_text. cbn [fst snd]. destruct c as [|a c].
  - rewrite drop_line, drop_free by apply num_free. rewrite IH. reflexivity.
  - rewrite !app_ass, drop_line, drop_free by apply num_free. rewrite drop_steps, IH. reflexivity.
Qed.
Lemma drop_dump : forall m, drop_colons (dump_yaml m) = write_yaml m.
Proof. intros m. unfold dump_yaml, write_yaml. rewrite drop_line, drop_entries. reflexivity. Qed.

(** and what it writes, with the colons of the symbols taken out, is the file that is shipped. *)
Theorem C66_file : option_map drop_colons (parse_script guaranteed_log) = Some asc_12_yaml.
Proof. unfold parse_script. rewrite C66_parse. cbn [option_map]. rewrite drop_dump, C65_text. reflexivity. Qed.

(** The colons have to go: with them no table that has a chain with a step can be read. *)
Lemma dump_first : forall a t, read_body (lines (step_dump a ++ t)) = None.
Proof.
  intros a t. unfold step_dump. rewrite !app_ass. rewrite lines_line by (apply free_label; [reflexivity|apply bool_free]).
  cbn [read_body]. assert (K : read_key ("- :l_pos: " ++ bool_text (l_pos a)) = None) by (destruct (l_pos a); reflexivity).
  rewrite K. rewrite !lines_line by (apply free_label; [reflexivity|first [apply bool_free|apply num_free]]). reflexivity.
Qed.
Lemma dump_unread : forall m, Forall small_entry m -> (exists k c, In (k, c) m /\ c <> []) -> read_body (lines (entries_dump m)) = None.
Proof.
  induction m as [|[k c] m IH]; intros H [k' [c' [Hin Hc]]]; [contradiction|]. inversion H as [|? ? [Hk _] Hm]; subst. cbn [fst] in Hk.
  cbn [entries_dump fold_right]. fold (entries_dump m). unfold entry_dump. cbn [fst snd]. destruct c as [|a c].
  - rewrite lines_line by (rewrite free_app, (proj1 (num_free _)); reflexivity). cbn [read_body].
    rewrite (read_key_text k true Hk). rewrite IH; [reflexivity|exact Hm|]. destruct Hin as [E|Hin]; [injection E as <- <-; congruence|eauto].
  - rewrite app_ass, lines_line by (rewrite free_app, (proj1 (num_free _)); reflexivity). cbn [read_body].
    rewrite (read_key_text k false Hk). cbn [steps_dump fold_right]. rewrite app_ass, dump_first. reflexivity.
Qed.
Theorem C66_colons_refuted : forall m, fits m -> (exists k c, In (k, c) m /\ c <> []) -> read_yaml (dump_yaml m) = None.
Proof.
  intros m H E. unfold read_yaml, dump_yaml. rewrite lines_line by reflexivity. change (String.eqb "---" "---") with true. cbn iota.
  rewrite dump_unread; [reflexivity|exact H|exact E].
Qed.
(** The library fails to load what the script writes as it stands. *)
Theorem C66_as_written : exists text, parse_script guaranteed_log = Some text /\
  fst (map_from_yaml 12 (Some (read_yaml text))) = Err E_decode.
Proof.
  exists (dump_yaml shipped_asc). unfold parse_script. rewrite C66_parse. split; [reflexivity|].
  rewrite C66_colons_refuted; [reflexivity|apply shipped_fits|]. exists 3, [mkAddShift true 0 true 0 1]. split; [|discriminate].
  apply Properties11.asc_get_in. vm_compute. reflexivity.
Qed.
Print Assumptions C66_utf8.
Print Assumptions C66_log.
Print Assumptions C66_parse.
Print Assumptions C66_file.
Print Assumptions C66_colons_refuted.
Print Assumptions C66_as_written.

(** bytes of a line of the log, and back *)
Example C66_example_line :
  parse_file (txt "   11 /2/ [◖ 1 ◗, ◖ 3 =  1 + 1·2^1 ◗, ◖ 11 = -1 + 3·2^2 ◗]") =
  Some [(11, [mkAddShift true 0 true 0 1; mkAddShift false 0 true 1 2])] /\
  decode (txt "1·2 ◖") = Some [49; DOT; 50; 32; LEFT].
Proof. split; vm_compute; reflexivity. Qed.
(** what the script writes for it *)
Example C66_example_dump : let m := [(3, [mkAddShift true 0 true 0 1])] in
  dump_yaml m = line "---" ++ line "3:" ++ line "- :l_pos: true" ++ line "  :l_idx: 0" ++
    line "  :r_pos: true" ++ line "  :r_idx: 0" ++ line "  :r_shift: 1" /\
  read_yaml (dump_yaml m) = None /\ read_yaml (drop_colons (dump_yaml m)) = Some m.
Proof. split; [|split]; vm_compute; reflexivity. Qed.
