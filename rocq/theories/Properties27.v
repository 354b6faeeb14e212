(** Property C65: the file of chains, as text *)
From Coq Require Import String.
From Verif Require Import Base Params Asc AscTable Yaml YamlProofs AscText.
From Coq Require Import ZifyBool ZifyNat.

(** a table whose numbers fit usize *)
Definition in_usize (n : nat) : Prop := Z.of_nat n < 2 ^ 64.
Definition fits (m : asc_map) : Prop :=
  Forall (fun kc => 0 <= fst kc < 2 ^ 64 /\
    Forall (fun a => in_usize (l_idx a) /\ in_usize (r_idx a) /\ in_usize (r_shift a)) (snd kc)) m.

(** What the writer writes for a table, the reader reads back. *)
Theorem C65_round_trip : forall m, fits m -> read_yaml (write_yaml m) = Some m.
Proof. exact read_write. Qed.
(** So two tables never give the same file. *)
Theorem C65_injective : forall m m', fits m -> fits m' -> write_yaml m = write_yaml m' -> m = m'.
Proof. intros m m' H H' E. apply C65_round_trip in H, H'. congruence. Qed.

(** The file of the repository is what the writer writes for the table that all the other
    theorems are about. *)
Fixpoint pieces (n : nat) (m : asc_map) : list asc_map :=
  match n with O => [] | S n' => firstn 32 m :: pieces n' (skipn 32 m) end.
Lemma chunk_0 : map entries_text (pieces 8 asc_chunk_0) = texts_0 /\ concat (pieces 8 asc_chunk_0) = asc_chunk_0.
Proof. split; vm_compute; reflexivity. Qed.
Lemma chunk_1 : map entries_text (pieces 8 asc_chunk_1) = texts_1 /\ concat (pieces 8 asc_chunk_1) = asc_chunk_1.
Proof. split; vm_compute; reflexivity. Qed.
Lemma chunk_2 : map entries_text (pieces 8 asc_chunk_2) = texts_2 /\ concat (pieces 8 asc_chunk_2) = asc_chunk_2.
Proof. split; vm_compute; reflexivity. Qed.
Lemma chunk_3 : map entries_text (pieces 8 asc_chunk_3) = texts_3 /\ concat (pieces 8 asc_chunk_3) = asc_chunk_3.
Proof. split; vm_compute; reflexivity. Qed.
Lemma chunk_4 : map entries_text (pieces 8 asc_chunk_4) = texts_4 /\ concat (pieces 8 asc_chunk_4) = asc_chunk_4.
Proof. split; vm_compute; reflexivity. Qed.
Lemma chunk_5 : map entries_text (pieces 8 asc_chunk_5) = texts_5 /\ concat (pieces 8 asc_chunk_5) = asc_chunk_5.
Proof. split; vm_compute; reflexivity. Qed.
Lemma chunk_6 : map entries_text (pieces 8 asc_chunk_6) = texts_6 /\ concat (pieces 8 asc_chunk_6) = asc_chunk_6.
Proof. split; vm_compute; reflexivity. Qed.
Lemma chunk_7 : map entries_text (pieces 8 asc_chunk_7) = texts_7 /\ concat (pieces 8 asc_chunk_7) = asc_chunk_7.
Proof. split; vm_compute; reflexivity. Qed.
Lemma entries_app : forall m m', entries_text (m ++ m') = (entries_text m ++ entries_text m')%string.
Proof.
  induction m as [|e m IH]; intros m'; [reflexivity|]. cbn [entries_text fold_right List.app].
  fold (entries_text (m ++ m')). fold (entries_text m). rewrite IH, app_ass. reflexivity.
Qed.
Lemma concat_cons : forall s l, String.concat "" (s :: l) = (s ++ String.concat "" l)%string.
Proof. intros s [|t l]; cbn [String.concat]; [symmetry; apply app_nil|reflexivity]. Qed.
Lemma entries_concat : forall ms, entries_text (concat ms) = String.concat "" (map entries_text ms).
Proof.
  induction ms as [|m ms IH]; [reflexivity|]. cbn [concat map]. rewrite entries_app, concat_cons, IH. reflexivity.
Qed.
Lemma assemble : forall h css tss, map (map entries_text) css = tss ->
  String.concat "" (h :: concat tss) = (h ++ entries_text (concat (map (@concat _) css)))%string.
Proof.
  intros h css tss <-. rewrite concat_cons. f_equal.
  induction css as [|c css IH]; [reflexivity|]. cbn [map concat]. rewrite entries_app, <- IH, entries_concat. clear IH.
  induction (map entries_text c) as [|t l IH]; [reflexivity|]. cbn [List.app]. rewrite !concat_cons, IH, app_ass. reflexivity.
Qed.
Definition chunks : list asc_map :=
  [asc_chunk_0; asc_chunk_1; asc_chunk_2; asc_chunk_3; asc_chunk_4; asc_chunk_5; asc_chunk_6; asc_chunk_7].
Lemma chunk_texts : map (map entries_text) (map (pieces 8) chunks) =
  [texts_0; texts_1; texts_2; texts_3; texts_4; texts_5; texts_6; texts_7].
Proof.
  unfold chunks. cbn [map]. apply (f_equal2 cons (proj1 chunk_0)). apply (f_equal2 cons (proj1 chunk_1)).
  apply (f_equal2 cons (proj1 chunk_2)). apply (f_equal2 cons (proj1 chunk_3)). apply (f_equal2 cons (proj1 chunk_4)).
  apply (f_equal2 cons (proj1 chunk_5)). apply (f_equal2 cons (proj1 chunk_6)). apply (f_equal2 cons (proj1 chunk_7)). exact eq_refl.
Qed.
Lemma chunk_tables : map (@concat _) (map (pieces 8) chunks) = chunks.
Proof.
  unfold chunks. cbn [map]. apply (f_equal2 cons (proj2 chunk_0)). apply (f_equal2 cons (proj2 chunk_1)).
  apply (f_equal2 cons (proj2 chunk_2)). apply (f_equal2 cons (proj2 chunk_3)). apply (f_equal2 cons (proj2 chunk_4)).
  apply (f_equal2 cons (proj2 chunk_5)). apply (f_equal2 cons (proj2 chunk_6)). apply (f_equal2 cons (proj2 chunk_7)). exact eq_refl.
Qed.
Lemma shipped_chunks : concat chunks = shipped_asc.
Proof. vm_compute. reflexivity. Qed.
Theorem C65_text : asc_12_yaml = write_yaml shipped_asc.
Proof.
  rewrite <- shipped_chunks, <- chunk_tables. exact (assemble text_0 _ _ chunk_texts).
Qed.

Definition fits_b (m : asc_map) : bool :=
  forallb (fun kc => (0 <=? fst kc) && (fst kc <? 4096) &&
    forallb (fun a => (l_idx a <? 12) && (r_idx a <? 12) && (r_shift a <? 16))%nat (snd kc)) m.
Lemma shipped_fits : fits shipped_asc.
Proof.
  assert (T : fits_b shipped_asc = true) by (vm_compute; reflexivity). unfold fits_b in T. rewrite forallb_forall in T.
  apply Forall_forall. intros [k c] H. specialize (T _ H). cbn [fst snd] in *. apply andb_prop in T. destruct T as [T1 T2].
  split; [lia|]. rewrite forallb_forall in T2. apply Forall_forall. intros a Ha. specialize (T2 a Ha). unfold in_usize. lia.
Qed.
(** Hence loading the file of the repository gives this table (asc.rs:96-128, lib.rs:79-82). *)
Theorem C65_loads : read_yaml asc_12_yaml = Some shipped_asc /\
  fst (map_from_yaml 12 (Some (read_yaml asc_12_yaml))) = Ok shipped_asc.
Proof.
  assert (R : read_yaml asc_12_yaml = Some shipped_asc) by (rewrite C65_text; apply C65_round_trip, shipped_fits).
  split; [exact R|]. rewrite R. unfold map_from_yaml.
  assert (L : length shipped_asc = 2048%nat) by (vm_compute; reflexivity). rewrite L. reflexivity.
Qed.
Print Assumptions C65_round_trip.
Print Assumptions C65_injective.
Print Assumptions C65_text.
Print Assumptions C65_loads.

Local Open Scope string_scope.
(** the first two entries *)
Example C65_example_entries : write_yaml [(1, []); (3, [mkAddShift true 0 true 0 1])] =
"---
1: []
3:
- l_pos: true
  l_idx: 0
  r_pos: true
  r_idx: 0
  r_shift: 1
" /\ fits [(1, []); (3, [mkAddShift true 0 true 0 1])].
Proof.
  split; [reflexivity|]. repeat (apply Forall_cons || apply Forall_nil || split); unfold in_usize; cbn; lia.
Qed.
(** a missing field and a key without steps are refused *)
Example C65_example_refused :
  read_yaml "---
3:
- l_pos: true
  l_idx: 0
  r_pos: true
  r_idx: 0
" = None /\
  read_yaml "---
3:
" = None.
Proof. split; vm_compute; reflexivity. Qed.
