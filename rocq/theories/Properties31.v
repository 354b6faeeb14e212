(** Property C67: the networks of the demo, read as source text *)
From Coq Require Import String Ascii Decimal DecimalString.
From Coq Require DecimalN.
From Verif Require Import Base NeuralNetwork DemoNets RustLit NetsText YamlProofs.
From Coq Require Import ZifyBool ZifyNat.

(** ** Spec: a network written down as a Rust function *)
Definition digits (n : N) : string := NilEmpty.string_of_uint (N.to_uint n).
Definition int_tokens (z : Z) : list token :=
  if z <? 0 then [Sym "-"; Word (digits (Z.to_N (- z)))] else [Word (digits (Z.to_N z))].
Definition vec_tokens (els : list (list token)) : list token :=
  Word "vec" :: Sym "!" :: Sym "[" :: flat_map (fun e => e ++ [Sym ","]) els ++ [Sym "]"].
Definition type_name (t : perc_type) : string := match t with MAX => "MAX" | LIN => "LIN" | ACT => "ACT" end.
Definition perceptron_tokens (p : perceptron) : list token :=
  [Word "Perceptron"; Sym "{"; Word "t"; Sym ":"; Word "PercType"; Sym ":"; Sym ":"; Word (type_name (p_t p)); Sym ","; Word "w"; Sym ":"] ++
  vec_tokens (map int_tokens (p_w p)) ++ [Sym ","; Word "b"; Sym ":"] ++ int_tokens (p_b p) ++ [Sym ","; Sym "}"].
Definition layer_tokens (l : layer) : list token := vec_tokens (map perceptron_tokens l).
Definition function_tokens (name : string) (nn : neural_network) : list token :=
  [Word "pub"; Word "fn"; Word name; Sym "("; Sym ")"; Sym "-"; Sym ">"; Word "NeuralNetwork"; Sym "{";
   Word "NeuralNetwork"; Sym "{"; Word "layers"; Sym ":"] ++ vec_tokens (map layer_tokens (nn_layers nn)) ++
  [Sym ","; Word "n_inputs"; Sym ":"] ++ int_tokens (Z.of_nat (nn_inputs nn)) ++ [Sym ","; Sym "}"; Sym "}"].
Definition render (ts : list token) : string :=
  fold_right (fun t s => (match t with Word w => w | Sym c => String c "" end ++ " " ++ s)%string) EmptyString ts.
Definition write_function (name : string) (nn : neural_network) : string := render (function_tokens name nn).

(** a name, and a network with weights of type i32, biases of type i64 and a usize *)
Fixpoint all_chars (P : ascii -> bool) (s : string) : bool :=
  match s with EmptyString => true | String c r => P c && all_chars P r end.
Definition name_ok (s : string) : Prop := s <> EmptyString /\ all_chars word_char s = true.
Definition nn_typed (nn : neural_network) : Prop :=
  Forall (Forall (fun p => Forall (fun w => - 2 ^ 31 <= w < 2 ^ 31) (p_w p) /\ - 2 ^ 63 <= p_b p < 2 ^ 63)) (nn_layers nn) /\
  Z.of_nat (nn_inputs nn) < 2 ^ 64.

(** ** tokens *)
Definition token_ok (t : token) : Prop :=
  match t with Word w => name_ok w | Sym c => word_char c = false /\ space c = false end.
Lemma lex_space : forall s, lex (String " " s) = (EmptyString, tokens s).
Proof. intros s. unfold tokens. cbn [lex]. destruct (lex s) as [w ts]. reflexivity. Qed.
Lemma lex_word : forall w s, all_chars word_char w = true -> lex (w ++ String " " s) = (w, tokens s).
Proof.
  induction w as [|c w IH]; intros s H; [apply lex_space|]. cbn [all_chars] in H. apply andb_prop in H. destruct H as [H1 H2].
  cbn [append lex]. rewrite IH by exact H2. rewrite H1. reflexivity.
Qed.
Lemma tokens_render : forall ts, Forall token_ok ts -> tokens (render ts) = ts.
Proof.
  intros ts H. induction H as [|t ts Ht _ IH]; [reflexivity|]. cbn [render fold_right]. fold (render ts). destruct t as [w|c].
  - destruct Ht as [Hn Hw]. change (w ++ " " ++ render ts)%string with (w ++ String " " (render ts))%string.
    unfold tokens. rewrite lex_word by exact Hw. rewrite IH. destruct w; [congruence|reflexivity].
  - destruct Ht as [H1 H2]. unfold tokens. change (String c "" ++ " " ++ render ts)%string with (String c (String " " (render ts))).
    remember (String " " (render ts)) as r. cbn [lex]. subst r. rewrite lex_space, H1, H2, IH. reflexivity.
Qed.
Lemma digits_word : forall d, all_chars word_char (NilEmpty.string_of_uint d) = true.
Proof. induction d; cbn [NilEmpty.string_of_uint all_chars]; [reflexivity|..]; rewrite IHd; reflexivity. Qed.
Lemma digits_ok : forall n, name_ok (digits n).
Proof.
  intros n. split; [|apply digits_word]. unfold digits. pose proof (to_uint_nonnil n) as H. destruct (N.to_uint n); [congruence|discriminate..].
Qed.
Lemma number_digits : forall n, number (digits n) = Some (Z.of_N n).
Proof.
  intros n. unfold number. destruct (digits_ok n) as [H _]. destruct (digits n) eqn:E; [congruence|]. rewrite <- E.
  unfold digits. rewrite NilEmpty.usu. cbn [option_map]. rewrite DecimalN.Unsigned.of_to. reflexivity.
Qed.

(** ** reading what is written *)
Lemma expect_app : forall p r, expect p (p ++ r) = Some r.
Proof.
  induction p as [|t p IH]; intros r; [reflexivity|]. cbn [app expect]. replace (tok_eqb t t) with true; [apply IH|].
  destruct t; cbn [tok_eqb]; [rewrite String.eqb_refl|rewrite Ascii.eqb_refl]; reflexivity.
Qed.
Lemma read_int_tokens : forall lo hi z r, lo <= z <= hi -> read_int lo hi (int_tokens z ++ r) = Some (z, r).
Proof.
  intros lo hi z r H. unfold int_tokens. destruct (z <? 0) eqn:E; cbn [app read_int]; rewrite number_digits; cbn [opt_bind];
    unfold within.
  - replace (- Z.of_N (Z.to_N (- z))) with z by lia. replace ((lo <=? z) && (z <=? hi)) with true by lia. reflexivity.
  - replace (Z.of_N (Z.to_N z)) with z by lia. replace ((lo <=? z) && (z <=? hi)) with true by lia. reflexivity.
Qed.
Definition starts (e : list token) : Prop := match e with [] => False | Sym c :: _ => c <> "]"%char | Word _ :: _ => True end.
Lemma sequence_write : forall A (elem : list token -> option (A * list token)) (w : A -> list token) l fuel r,
  (forall a, In a l -> starts (w a) /\ forall r, elem (w a ++ r) = Some (a, r)) -> (length l < fuel)%nat ->
  sequence fuel elem (flat_map (fun e => e ++ [Sym ","]) (map w l) ++ Sym "]" :: r) = Some (l, r).
Proof.
  intros A elem w l. induction l as [|a l IH]; intros fuel r H Hf; (destruct fuel as [|fuel]; [cbn in Hf; lia|]); [reflexivity|].
  destruct (H a (or_introl eq_refl)) as [Hs He].
  cbn [map flat_map]. rewrite <- !app_assoc. cbn [app].
  assert (X : forall s, starts s -> forall q, sequence (S fuel) elem (s ++ q) =
    opt_bind (elem (s ++ q)) (fun x => match snd x with
      | Sym "," :: r => option_map (fun y => (fst x :: fst y, snd y)) (sequence fuel elem r)
      | Sym "]" :: r => Some ([fst x], r)
      | _ => None end)).
  { intros s S q. destruct s as [|[v|c] s]; [contradiction|reflexivity|]. cbn [app]. cbn [starts] in S.
    cbn [sequence]. destruct (Ascii.ascii_dec c "]"%char); [contradiction|].
    destruct c as [[] [] [] [] [] [] [] []]; try reflexivity. congruence. }
  rewrite X by exact Hs. rewrite He. cbn [opt_bind snd fst]. rewrite IH; [reflexivity|intros b Hb; apply H; right; exact Hb|cbn in Hf; lia].
Qed.
Lemma vec_write : forall A (elem : list token -> option (A * list token)) (w : A -> list token) l r,
  (forall a, In a l -> starts (w a) /\ forall r, elem (w a ++ r) = Some (a, r)) ->
  vec_ elem (vec_tokens (map w l) ++ r) = Some (l, r).
Proof.
  intros A elem w l r H. unfold vec_, vec_tokens. cbn [app expect tok_eqb]. rewrite String.eqb_refl, !Ascii.eqb_refl. cbn [opt_bind].
  rewrite <- app_assoc. cbn [app]. apply sequence_write; [exact H|]. rewrite app_length. cbn [length].
  assert (L : (length l <= length (flat_map (fun e => e ++ [Sym ","]) (map w l)))%nat); [|lia].
  clear. induction l as [|a l IH]; cbn [map flat_map length]; [lia|]. rewrite !app_length. cbn [length]. lia.
Qed.
Lemma starts_int : forall z, starts (int_tokens z).
Proof. intros z. unfold int_tokens. destruct (z <? 0); cbn; [discriminate|exact I]. Qed.
Lemma read_perceptron_tokens : forall p r, Forall (fun w => - 2 ^ 31 <= w < 2 ^ 31) (p_w p) -> - 2 ^ 63 <= p_b p < 2 ^ 63 ->
  read_perceptron (perceptron_tokens p ++ r) = Some (p, r).
Proof.
  intros [t w b] r Hw Hb. cbn [p_t p_w p_b] in *. unfold read_perceptron, perceptron_tokens. cbn [p_t p_w p_b].
  rewrite <- !app_assoc. cbn [app expect tok_eqb]. rewrite !String.eqb_refl, !Ascii.eqb_refl. cbn [opt_bind].
  assert (T : forall q, read_type (Word "PercType" :: Sym ":" :: Sym ":" :: Word (type_name t) :: q) = Some (t, q)) by (intros q; destruct t; reflexivity).
  rewrite T. cbn [opt_bind snd expect tok_eqb]. rewrite !String.eqb_refl, !Ascii.eqb_refl. cbn [opt_bind].
  rewrite vec_write.
  2:{ intros z Hz. split; [apply starts_int|]. intros q. apply read_int_tokens. rewrite Forall_forall in Hw. specialize (Hw z Hz). lia. }
  cbn [opt_bind snd fst expect tok_eqb]. rewrite !String.eqb_refl, !Ascii.eqb_refl. cbn [opt_bind].
  rewrite read_int_tokens by lia. reflexivity.
Qed.

(** ** Theorems *)
(** A network written as a function is read back, whatever its shape and numbers. *)
Theorem C67_round_trip : forall name nn, name_ok name -> nn_typed nn ->
  read_function name (write_function name nn) = Some nn.
Proof.
  intros name [ls n] Hname [Hl Hn]. cbn [nn_layers nn_inputs] in *. unfold read_function, write_function. rewrite tokens_render.
  - unfold function_tokens. cbn [nn_layers nn_inputs].
    assert (E : forall q, expect [Word "pub"; Word "fn"; Word name; Sym "("; Sym ")"; Sym "-"; Sym ">"; Word "NeuralNetwork"; Sym "{"]
      ([Word "pub"; Word "fn"; Word name; Sym "("; Sym ")"; Sym "-"; Sym ">"; Word "NeuralNetwork"; Sym "{";
        Word "NeuralNetwork"; Sym "{"; Word "layers"; Sym ":"] ++ q) = Some ([Word "NeuralNetwork"; Sym "{"; Word "layers"; Sym ":"] ++ q)).
    { intros q. exact (expect_app [Word "pub"; Word "fn"; Word name; Sym "("; Sym ")"; Sym "-"; Sym ">"; Word "NeuralNetwork"; Sym "{"] _). }
    rewrite E. cbn [opt_bind]. unfold read_network. rewrite expect_app. cbn [opt_bind].
    rewrite vec_write.
    2:{ intros l Hin. split; [exact I|]. intros q. unfold layer_tokens. apply vec_write. intros p Hp. split; [exact I|]. intros q'.
        rewrite Forall_forall in Hl. specialize (Hl l Hin). rewrite Forall_forall in Hl. destruct (Hl p Hp). apply read_perceptron_tokens; assumption. }
    cbn [opt_bind snd fst]. rewrite expect_app. cbn [opt_bind]. rewrite read_int_tokens by lia. cbn [opt_bind fst snd].
    rewrite Nat2Z.id. reflexivity.
  - (* all tokens are proper *)
    assert (W : forall s, all_chars word_char s = true -> s <> EmptyString -> token_ok (Word s)) by (intros s H1 H2; split; assumption).
    assert (S : forall c, word_char c = false -> space c = false -> token_ok (Sym c)) by (intros c H1 H2; split; assumption).
    assert (I : forall z, Forall token_ok (int_tokens z)).
    { intros z. unfold int_tokens. destruct (z <? 0); repeat constructor; try apply digits_ok. }
    assert (V : forall els, Forall (Forall token_ok) els -> Forall token_ok (vec_tokens els)).
    { intros els H. unfold vec_tokens. repeat (constructor; [first [apply W; [reflexivity|discriminate]|apply S; reflexivity]|]).
      apply Forall_app. split; [|constructor; [apply S; reflexivity|constructor]].
      induction H as [|e els He _ IH]; [constructor|]. cbn [flat_map]. rewrite !Forall_app. split; [|exact IH]. split; [exact He|].
      constructor; [apply S; reflexivity|constructor]. }
    assert (P : forall p, Forall token_ok (perceptron_tokens p)).
    { intros p. unfold perceptron_tokens. rewrite !Forall_app. repeat split.
      - destruct (p_t p); repeat (constructor; [first [apply W; [reflexivity|discriminate]|apply S; reflexivity]|]); constructor.
      - apply V. apply Forall_map, Forall_forall. intros z _. apply I.
      - repeat (constructor; [first [apply W; [reflexivity|discriminate]|apply S; reflexivity]|]); constructor.
      - apply I.
      - repeat (constructor; [first [apply W; [reflexivity|discriminate]|apply S; reflexivity]|]); constructor. }
    unfold function_tokens. rewrite !Forall_app. repeat split.
    + repeat (constructor; [first [exact Hname|apply W; [reflexivity|discriminate]|apply S; reflexivity]|]); constructor.
    + apply V, Forall_map, Forall_forall. intros l _. unfold layer_tokens. apply V, Forall_map, Forall_forall. intros p _. apply P.
    + repeat (constructor; [first [apply W; [reflexivity|discriminate]|apply S; reflexivity]|]); constructor.
    + apply I.
    + repeat (constructor; [first [apply W; [reflexivity|discriminate]|apply S; reflexivity]|]); constructor.
Qed.
(** So the text of a function determines the network. *)
Theorem C67_injective : forall name nn nn', name_ok name -> nn_typed nn -> nn_typed nn' ->
  write_function name nn = write_function name nn' -> nn = nn'.
Proof. intros name nn nn' Hn H H' E. apply (C67_round_trip name) in H, H'; auto. congruence. Qed.

(** The text of demos.rs gives the two networks that the other theorems are about. *)
Theorem C67_text :
  read_function "demo_nn" demo_nn_text = Some demo_nn /\
  read_function "arrhythmia_nn" arrhythmia_nn_text = Some arrhythmia_nn.
Proof. split; vm_compute; reflexivity. Qed.
Print Assumptions C67_round_trip.
Print Assumptions C67_injective.
Print Assumptions C67_text.

(** the hypotheses of the round trip, and source text that is not accepted: a missing comma, a
    weight that is not an i32, a further token *)
Example C67_example_typed : nn_typed demo_nn /\ name_ok "demo_nn".
Proof. split; [split; [repeat constructor; cbn; lia|cbn; lia]|split; [discriminate|reflexivity]]. Qed.
Example C67_example_refused :
  read_perceptron (tokens "Perceptron { t: PercType::MAX, w: vec![1,-2], b: 2 }") = Some (mkPerceptron MAX [1; -2] 2, []) /\
  read_perceptron (tokens "Perceptron { t: PercType::MAX, w: vec![1 -2], b: 2 }") = None /\
  read_perceptron (tokens "Perceptron { t: PercType::MAX, w: vec![2147483648], b: 2 }") = None /\
  read_function "f" "pub fn f() -> NeuralNetwork { NeuralNetwork { layers: vec![], n_inputs: 1 } } }" = None.
Proof. repeat split; vm_compute; reflexivity. Qed.
