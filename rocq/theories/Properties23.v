(** Property C62: what the script predicts about products and squares, and what they take *)
From Verif Require Import Base Backend Words Multiplication Squaring CostScript CostProofs Properties9 Properties14 Instances.
From Coq Require Import ZifyBool.

(** the numbers that the script arrives at *)
Definition predicted_mul (n : nat) : option Z :=
  match cost_script with Some ((jm, _), _) => fetch jm (Z.of_nat n) | None => None end.
Definition predicted_squ (n : nat) : option Z :=
  match cost_script with Some (_, (js, _)) => fetch js (Z.of_nat n) | None => None end.
(** the lines that it prints *)
Definition printed_mul : list line :=
  match cost_script with Some ((_, out), _) => out | None => [] end.
Definition printed_squ : list line :=
  match cost_script with Some (_, (_, out)) => out | None => [] end.

Lemma upto32 : forall (f : nat -> bool) n, forallb f (seq 0 33) = true -> (n <= 32)%nat -> f n = true.
Proof. intros f n H Hn. rewrite forallb_forall in H. apply H, in_seq. lia. Qed.

(** The script ends without an exception and prints one line for each of 4 .. 33 words. *)
Theorem C62_printed :
  map (fun l => fst (fst (fst l))) printed_mul = map Z.of_nat (seq 4 30) /\
  map (fun l => fst (fst (fst l))) printed_squ = map Z.of_nat (seq 4 30).
Proof. split; vm_compute; reflexivity. Qed.

(** Products: right up to 28 words, too low from 29 on, where a factor of a
    Karatsuba step is itself multiplied by Karatsuba. *)
Definition mul_ok (n : nat) : bool :=
  match predicted_mul n with
  | Some p => if (n <=? 28)%nat then p =? nth n mul_counts 0 else p <? nth n mul_counts 0
  | None => (n =? 0)%nat
  end.
Theorem C62_mul : forall B (x y : ciphertext B), fresh x -> fresh y -> length x = length y ->
  (1 <= length x <= 32)%nat ->
  exists p, predicted_mul (length x) = Some p /\ p <= pbs (pa_mul x y) /\
    (p = pbs (pa_mul x y) <-> (length x <= 28)%nat).
Proof.
  intros B x y Hx Hy El Hl. rewrite (C52_mul B x y Hx Hy El (proj2 Hl)).
  assert (T : forallb mul_ok (seq 0 33) = true) by (vm_compute; reflexivity).
  pose proof (upto32 _ _ T (proj2 Hl)) as H. unfold mul_ok in H.
  destruct (predicted_mul (length x)) as [p|]; [|lia]. exists p. split; [reflexivity|].
  destruct (length x <=? 28)%nat eqn:E; lia.
Qed.

(** The method it prints is the one that takes fewer bootstraps, and the one that
    [mul_impl] uses. *)
Definition line_of (out : list line) (n : nat) : option (Z * method) :=
  match find (fun l => fst (fst (fst l)) =? Z.of_nat n) out with
  | Some (_, c, m, _) => Some (c, m)
  | None => None
  end.
Definition method_ok (n : nat) : bool :=
  implb (4 <=? n)%nat
  match line_of printed_mul n, predicted_mul n with
  | Some (c, m), Some p =>
      (c =? p) && match m with Schoolbook => (n <? 16) || (n =? 17) | Divide => negb ((n <? 16) || (n =? 17)) end%nat
  | _, _ => false
  end.
Theorem C62_method : forall B (x y : ciphertext B), fresh x -> fresh y -> length x = length y ->
  (4 <= length x <= 32)%nat ->
  exists c m, line_of printed_mul (length x) = Some (c, m) /\ predicted_mul (length x) = Some c /\
    (m = Divide <-> pbs (mul_karatsuba pa_mul x y) < pbs (mul_schoolbook x y)) /\
    pa_mul x y = analysed (match m with
                           | Divide => mul_karatsuba (mul_fuel (length x)) x y
                           | Schoolbook => mul_schoolbook x y
                           end).
Proof.
  intros B x y Hx Hy El Hl.
  assert (T : forallb method_ok (seq 0 33) = true) by (vm_compute; reflexivity).
  pose proof (upto32 _ _ T (proj2 Hl)) as H. unfold method_ok in H.
  replace (4 <=? length x)%nat with true in H by lia. cbn [implb] in H.
  destruct (line_of printed_mul (length x)) as [[c m]|]; [|discriminate].
  destruct (predicted_mul (length x)) as [p|]; [|discriminate].
  apply andb_prop in H. destruct H as [H1 H2]. exists c, m.
  split; [reflexivity|]. split; [f_equal; lia|].
  destruct (C52_choice B x y Hx Hy El ltac:(lia)) as [_ [C2 C3]].
  split.
  - destruct m; split; intros K.
    + discriminate.
    + exfalso. assert (pbs (mul_schoolbook x y) < pbs (mul_karatsuba pa_mul x y)) by (apply C2; lia). lia.
    + destruct (Z.lt_trichotomy (pbs (mul_schoolbook x y)) (pbs (mul_karatsuba pa_mul x y))) as [L|[L|L]]; auto; [|congruence].
      apply C2 in L. lia.
    + reflexivity.
  - unfold pa_mul. rewrite <- El, Nat.max_id. cbn [mul_fuel]. unfold mul_impl. rewrite <- El, Nat.sub_diag. cbn [ct_triv repeat].
    rewrite !app_nil_r. replace (length x =? 0)%nat with false by lia. replace (length x =? 1)%nat with false by lia.
    destruct m.
    + rewrite H2. reflexivity.
    + replace ((length x <? 16) || (length x =? 17))%nat with false by lia. replace (length x <=? 32)%nat with true by lia. reflexivity.
Qed.

(** Both numbers of each line, the price of the method taken and the price of the
    other. The schoolbook price is always the right one. The Karatsuba price is right
    except for 4, 5, 7 and 29 or more words, where it is too low. *)
Definition prices (n : nat) : option (Z * Z) :=
  match find (fun l => fst (fst (fst l)) =? Z.of_nat n) printed_mul with
  | Some (_, c, Schoolbook, o) => Some (c, o)
  | Some (_, c, Divide, o) => Some (o, c)
  | None => None
  end.
Definition prices_ok (n : nat) : bool :=
  implb (4 <=? n)%nat
  match prices n with
  | Some (s, k) =>
      let k' := fst (karac mulp (fresh_dw n) (fresh_dw n)) in
      (s =? fst (schoolc (fresh_dw n) (fresh_dw n))) &&
      if ((n <=? 5) || (n =? 7) || (29 <=? n))%nat then k <? k' else k =? k'
  | None => false
  end.
Theorem C62_prices : forall B (x y : ciphertext B), fresh x -> fresh y -> length x = length y ->
  (4 <= length x <= 32)%nat ->
  exists s k, prices (length x) = Some (s, k) /\ s = pbs (mul_schoolbook x y) /\
    k <= pbs (mul_karatsuba pa_mul x y) /\
    (k = pbs (mul_karatsuba pa_mul x y) <-> length x = 6%nat \/ (8 <= length x <= 28)%nat).
Proof.
  intros B x y Hx Hy El Hl. rewrite school_pbs, kara_pbs by (auto; lia).
  assert (T : forallb prices_ok (seq 0 33) = true) by (vm_compute; reflexivity).
  pose proof (upto32 _ _ T (proj2 Hl)) as H. unfold prices_ok in H.
  replace (4 <=? length x)%nat with true in H by lia. cbn [implb] in H.
  destruct (prices (length x)) as [[s k]|]; [|discriminate]. apply andb_prop in H. destruct H as [H1 H2].
  exists s, k. split; [reflexivity|]. split; [lia|].
  destruct ((length x <=? 5) || (length x =? 7) || (29 <=? length x))%nat eqn:E; lia.
Qed.

(** Squares: right for 1, 2, 3, 4, 6, 8 and 12 words only; too high for 5, 10 and 20,
    too low for all others. *)
Definition squ_ok (n : nat) : bool :=
  match predicted_squ n with
  | Some p =>
      if existsb (Nat.eqb n) [1; 2; 3; 4; 6; 8; 12]%nat then p =? nth n squ_counts 0
      else if existsb (Nat.eqb n) [5; 10; 20]%nat then nth n squ_counts 0 <? p
      else p <? nth n squ_counts 0
  | None => (n =? 0)%nat
  end.
Theorem C62_squ : forall B (x : ciphertext B), fresh x -> (1 <= length x <= 32)%nat ->
  exists p, predicted_squ (length x) = Some p /\
    (p = pbs (pa_squ x) <-> In (length x) [1; 2; 3; 4; 6; 8; 12]%nat) /\
    (pbs (pa_squ x) < p <-> In (length x) [5; 10; 20]%nat).
Proof.
  intros B x Hx Hl. rewrite (C52_squ B x Hx (proj2 Hl)).
  assert (T : forallb squ_ok (seq 0 33) = true) by (vm_compute; reflexivity).
  pose proof (upto32 _ _ T (proj2 Hl)) as H. unfold squ_ok in H.
  destruct (predicted_squ (length x)) as [p|]; [|lia]. exists p. split; [reflexivity|].
  assert (X : forall l, existsb (Nat.eqb (length x)) l = true <-> In (length x) l).
  { intros l. rewrite existsb_exists. split; [intros [a [A E]]; apply Nat.eqb_eq in E; congruence|].
    intros A. exists (length x). split; auto. apply Nat.eqb_refl. }
  rewrite <- !X. destruct (existsb _ [1; 2; 3; 4; 6; 8; 12]%nat) eqn:E1.
  - split; [split; [reflexivity|lia]|]. split; [lia|]. intros E2. apply X in E1, E2. cbn in E1, E2. lia.
  - destruct (existsb _ [5; 10; 20]%nat); lia.
Qed.

(** By how much: the bootstraps that the Karatsuba price and the square price lack (a
    negative number is an excess), for 0 .. 32 words. *)
Definition kara_gap (n : nat) : Z :=
  if existsb (Nat.eqb n) [4; 7; 29; 30]%nat then 2 else if (n =? 5)%nat then 4
  else if (n =? 31)%nat then 40 else if (n =? 32)%nat then 42 else 0.
Definition squ_gap : list Z :=
  [0; 0; 0; 0; 0; -3; 0; 6; 0; 6; -6; 7; 0; 17; 12; 18; 2; 21; 14; 16; -10; 18; 16; 25; 2; 36; 36; 49; 26; 51; 38; 52; 10].
Definition gap_ok (n : nat) : bool :=
  implb (4 <=? n)%nat
  match prices n, predicted_squ n with
  | Some (s, k), Some p =>
      (k + kara_gap n =? fst (karac mulp (fresh_dw n) (fresh_dw n))) && (p + nth n squ_gap 0 =? nth n squ_counts 0)
  | _, _ => false
  end.
Theorem C62_gaps : forall B (x y : ciphertext B), fresh x -> fresh y -> length x = length y ->
  (4 <= length x <= 32)%nat ->
  exists s k p, prices (length x) = Some (s, k) /\ predicted_squ (length x) = Some p /\
    pbs (mul_karatsuba pa_mul x y) = k + kara_gap (length x) /\
    pbs (pa_squ x) = p + nth (length x) squ_gap 0.
Proof.
  intros B x y Hx Hy El Hl. rewrite kara_pbs by (auto; lia). rewrite (C52_squ B x Hx (proj2 Hl)).
  assert (T : forallb gap_ok (seq 0 33) = true) by (vm_compute; reflexivity).
  pose proof (upto32 _ _ T (proj2 Hl)) as H. unfold gap_ok in H.
  replace (4 <=? length x)%nat with true in H by lia. cbn [implb] in H.
  destruct (prices (length x)) as [[s k]|]; [|discriminate]. destruct (predicted_squ (length x)) as [p|]; [|discriminate].
  apply andb_prop in H. destruct H as [H1 H2]. exists s, k, p. repeat split; lia.
Qed.

(** Of the two methods for squares it always finds divide and conquer the cheaper one.
    The other number is that of n(n-1)/2 products, n squares and 2n(n-1) for additions; the
    library has no such square. *)
Definition squ_prices_ok (l : line) : bool :=
  match l with
  | (n, c, Divide, o) => (2 * o =? n * (n - 1) + 2 * n + 4 * n * (n - 1)) && (c <? o)
  | _ => false
  end.
Theorem C62_squ_prices : forall n c m o, In (n, c, m, o) printed_squ ->
  m = Divide /\ c < o /\ 2 * o = n * (n - 1) + 2 * n + 4 * n * (n - 1).
Proof.
  intros n c m o H. assert (T : forallb squ_prices_ok printed_squ = true) by (vm_compute; reflexivity).
  rewrite forallb_forall in T. specialize (T _ H). unfold squ_prices_ok in T. destruct m; [discriminate|].
  apply andb_prop in T. split; [reflexivity|]. split; lia.
Qed.

Print Assumptions C62_printed.
Print Assumptions C62_prices.
Print Assumptions C62_gaps.
Print Assumptions C62_squ_prices.
Print Assumptions C62_mul.
Print Assumptions C62_method.
Print Assumptions C62_squ.

(* ------------------------------------------------------------------ *)
Example C62_example_numbers :
  map predicted_mul [15; 16; 28; 29; 32]%nat = [Some 645; Some 725; Some 2021; Some 2200; Some 2575] /\
  map (fun n => nth n mul_counts 0) [15; 16; 28; 29; 32]%nat = [645; 725; 2021; 2202; 2617] /\
  map predicted_squ [4; 5; 7; 32]%nat = [Some 24; Some 41; Some 87; Some 1827] /\
  map (fun n => nth n squ_counts 0) [4; 5; 7; 32]%nat = [24; 38; 93; 1837].
Proof. vm_compute. repeat split. Qed.
Example C62_example_lines :
  line_of printed_mul 14 = Some (560, Schoolbook) /\ line_of printed_mul 16 = Some (725, Divide) /\
  line_of printed_mul 33 = Some (2760, Divide) /\ line_of printed_squ 4 = Some (24, Divide).
Proof. vm_compute. repeat split. Qed.
Example C62_example_prices :
  map prices [4; 14; 16; 32]%nat = [Some (40, 77); Some (560, 572); Some (736, 725); Some (3008, 2575)] /\
  In (5, 41, Divide, 55) printed_squ.
Proof. split; vm_compute; [reflexivity|tauto]. Qed.
(** 5 words: the Karatsuba price is 4 short, the square 3 too dear *)
Example C62_example_gaps : forall x y : ciphertext exact, fresh x -> fresh y -> length x = 5%nat -> length y = 5%nat ->
  prices 5 = Some (65, 123) /\ pbs (mul_karatsuba pa_mul x y) = 127 /\
  predicted_squ 5 = Some 41 /\ pbs (pa_squ x) = 38.
Proof.
  intros x y Hx Hy El El'. destruct (C62_gaps exact x y Hx Hy ltac:(congruence) ltac:(lia)) as [s [k [p [H1 [H2 [H3 H4]]]]]].
  rewrite El in *. vm_compute in H1, H2. injection H1 as <- <-. injection H2 as <-.
  rewrite H3, H4. repeat split; vm_compute; reflexivity.
Qed.
