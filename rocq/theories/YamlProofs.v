(** Reading back what was written *)
From Coq Require Import NArith String Ascii Decimal DecimalString DecimalN DecimalFacts.
From Verif Require Import Base Params Yaml.
From Coq Require Import ZifyBool ZifyNat ZifyN.
Local Open Scope string_scope.

Fixpoint free (c : ascii) (s : string) : bool :=
  match s with "" => true | String a r => negb (Ascii.eqb a c) && free c r end.
Lemma free_app : forall c s t, free c (s ++ t) = free c s && free c t.
Proof. induction s as [|a s IH]; intros t; cbn [append free]; [reflexivity|]. rewrite IH. apply andb_assoc. Qed.
Lemma app_nil : forall s, s ++ "" = s.
Proof. induction s as [|a s IH]; cbn [append]; [reflexivity|]. rewrite IH. reflexivity. Qed.
Lemma app_ass : forall a b c, (a ++ b) ++ c = a ++ (b ++ c).
Proof. induction a as [|x a IH]; intros b c; cbn [append]; [reflexivity|]. rewrite IH. reflexivity. Qed.

Lemma lines_line : forall l r, free newline l = true -> lines (line l ++ r) = l :: lines r.
Proof.
  intros l r H. unfold line. rewrite app_ass. cbn [append].
  induction l as [|c l IH]; cbn [append lines].
  - rewrite Ascii.eqb_refl. reflexivity.
  - cbn [free] in H. apply andb_prop in H. destruct H as [H1 H2]. rewrite IH by exact H2.
    destruct (Ascii.eqb c newline); [discriminate|reflexivity].
Qed.
Lemma after_app : forall p s, after p (p ++ s) = Some s.
Proof. induction p as [|a p IH]; intros s; cbn [append after]; [reflexivity|]. rewrite Ascii.eqb_refl. apply IH. Qed.
Lemma cut_app : forall s r, free colon s = true -> cut (s ++ String colon r) = Some (s, r).
Proof.
  induction s as [|c s IH]; intros r H; cbn [append cut]; [rewrite Ascii.eqb_refl; reflexivity|].
  cbn [free] in H. apply andb_prop in H. destruct H as [H1 H2]. rewrite IH by exact H2.
  destruct (Ascii.eqb c colon); [discriminate|reflexivity].
Qed.

(** numbers *)
Lemma digits_free : forall d, free newline (NilEmpty.string_of_uint d) = true /\ free colon (NilEmpty.string_of_uint d) = true.
Proof. induction d as [|d [IH1 IH2]|d [IH1 IH2]|d [IH1 IH2]|d [IH1 IH2]|d [IH1 IH2]|d [IH1 IH2]|d [IH1 IH2]|d [IH1 IH2]|d [IH1 IH2]|d [IH1 IH2]];
  cbn [NilEmpty.string_of_uint free]; rewrite ?IH1, ?IH2; split; reflexivity. Qed.
Lemma num_free : forall n, free newline (num_text n) = true /\ free colon (num_text n) = true.
Proof. intros n. apply digits_free. Qed.
Lemma to_uint_nonnil : forall n, N.to_uint n <> Nil.
Proof. intros n H. pose proof (DecimalN.Unsigned.of_to n) as E. destruct n as [|p]; [discriminate|]. rewrite H in E. discriminate. Qed.
Lemma read_num_text : forall n, (n < 2 ^ 64)%N -> read_num (num_text n) = Some n.
Proof.
  intros n Hn. unfold read_num, num_text. pose proof (to_uint_nonnil n) as N0. rewrite NilEmpty.usu, DecimalN.Unsigned.of_to.
  replace (n <? 2 ^ 64)%N with true by (symmetry; apply N.ltb_lt; exact Hn).
  destruct (N.to_uint n); cbn [NilEmpty.string_of_uint]; try reflexivity. congruence.
Qed.
Lemma read_bool_text : forall b, read_bool (bool_text b) = Some b.
Proof. intros []; reflexivity. Qed.

Definition small (n : nat) : Prop := Z.of_nat n < 2 ^ 64.
Definition small_step (a : add_shift) : Prop := small (l_idx a) /\ small (r_idx a) /\ small (r_shift a).
Lemma field_num : forall name n, small n -> field name read_num (name ++ num_text (N.of_nat n)) = Some (N.of_nat n).
Proof. intros name n H. unfold field. rewrite after_app. cbn [opt_bind]. apply read_num_text. unfold small in H. lia. Qed.
Lemma field_bool : forall name b, field name read_bool (name ++ bool_text b) = Some b.
Proof. intros name b. unfold field. rewrite after_app. cbn [opt_bind]. apply read_bool_text. Qed.

Lemma free_label : forall p s, free newline p = true -> free newline s = true -> free newline (p ++ s) = true.
Proof. intros p s H1 H2. rewrite free_app, H1, H2. reflexivity. Qed.
Lemma bool_free : forall b, free newline (bool_text b) = true.
Proof. intros []; reflexivity. Qed.

Lemma read_step_text : forall a r, small_step a ->
  read_body (lines (step_text a ++ r)) = opt_bind (read_body (lines r)) (fun x => Some (a :: fst x, snd x)).
Proof.
  intros [lp li rp ri rs] r [H1 [H2 H3]]. cbn [Params.l_idx Params.r_idx Params.r_shift] in *.
  unfold step_text. cbn [Params.l_pos Params.l_idx Params.r_pos Params.r_idx Params.r_shift]. rewrite !app_ass.
  rewrite !lines_line by (apply free_label; [reflexivity|apply bool_free || apply num_free]).
  cbn [read_body].
  assert (K : read_key ("- l_pos: " ++ bool_text lp) = None) by (destruct lp; reflexivity).
  rewrite K. unfold read_step. rewrite !field_bool, !field_num by assumption. cbn [opt_bind]. rewrite !Nat2N.id. reflexivity.
Qed.
Lemma read_steps_text : forall c r, Forall small_step c ->
  read_body (lines (steps_text c ++ r)) = opt_bind (read_body (lines r)) (fun x => Some ((c ++ fst x)%list, snd x)).
Proof.
  induction c as [|a c IH]; intros r H; cbn [steps_text fold_right append].
  - destruct (read_body (lines r)) as [[x y]|]; reflexivity.
  - fold (steps_text c). inversion H as [|? ? Ha Hc]; subst. rewrite app_ass, read_step_text, IH by assumption.
    destruct (read_body (lines r)); reflexivity.
Qed.
Lemma read_key_text : forall k b, 0 <= k < 2 ^ 64 ->
  read_key (num_text (Z.to_N k) ++ (if b : bool then ": []" else ":")) = Some (k, b).
Proof.
  intros k b Hk. unfold read_key.
  replace (if b then ": []" else ":") with (String colon (if b then " []" else "")) by (destruct b; reflexivity).
  rewrite cut_app by apply num_free. cbn [opt_bind fst snd]. rewrite read_num_text by lia. cbn [opt_bind].
  replace (Z.of_N (Z.to_N k)) with k by lia. destruct b; reflexivity.
Qed.
Definition small_entry (e : Z * asc) : Prop := 0 <= fst e < 2 ^ 64 /\ Forall small_step (snd e).
Lemma read_entries : forall m, Forall small_entry m -> read_body (lines (entries_text m)) = Some ([], m).
Proof.
  induction m as [|[k c] m IH]; intros H; [reflexivity|]. inversion H as [|? ? [Hk Hc] Hm]; subst. cbn [fst snd] in *.
  cbn [entries_text fold_right]. fold (entries_text m). unfold entry_text. cbn [fst snd].
  assert (F : forall b : bool, free newline (num_text (Z.to_N k) ++ (if b then ": []" else ":")) = true).
  { intros b. apply free_label; [apply num_free|destruct b; reflexivity]. }
  destruct c as [|a c].
  - rewrite (lines_line _ _ (F true)). cbn [read_body]. rewrite (read_key_text k true Hk), IH by assumption. reflexivity.
  - rewrite app_ass, (lines_line _ _ (F false)). cbn [read_body]. rewrite (read_key_text k false Hk).
    rewrite read_steps_text, IH by assumption. cbn [opt_bind fst snd app]. rewrite List.app_nil_r. reflexivity.
Qed.
Lemma read_write : forall m, Forall small_entry m -> read_yaml (write_yaml m) = Some m.
Proof.
  intros m H. unfold read_yaml, write_yaml. rewrite lines_line by reflexivity. rewrite read_entries by exact H. reflexivity.
Qed.
