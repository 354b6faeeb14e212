(** C71: the linear combinations that the library feeds to its lookups *)
From Verif Require Import Base Backend Words Params Pbs Addition Signum Maximum Multiplication Squaring Rounding
  Spec Light Symbolic Weights Instances Properties8.
From Coq Require Import ZifyBool ZifyNat.

(* ------------------------------------------------------------------ *)
(** ** Specification: what is to be looked up *)

(** product of a number of [a] words and another one, square, sign *)
Definition product (a : nat) (ds : list Z) : Z := value (firstn a ds) * value (skipn a ds).
Definition square (ds : list Z) : Z := value ds * value ds.
Definition sign (ds : list Z) : Z := Z.sgn (value ds).
(** [s; x; y]: x if s is 1, y if s is 0 *)
Definition selector (ds : list Z) : Prop := exists s x y, ds = [s; x; y] /\ (s = 0 \/ s = 1) /\ digit x /\ digit y.
Definition select (ds : list Z) : Z := match ds with [s; x; y] => if s =? 1 then x else y | _ => 0 end.
(** [s; y]: what rounding carries, y being the highest word that is dropped and s the sign of the others *)
Definition carried (ds : list Z) : Z := match ds with [s; y] => (2 * y + s + 2) / 4 | _ => 0 end.

(** a table of words modulo 32 *)
Definition signed (lut : list Z) : list Z := map (fun v => if v <? 16 then v else v - 32) lut.

(* ------------------------------------------------------------------ *)
(** ** The combinations of the library *)

(** On fresh samples with the shipped parameters: all bootstraps stay within [k], and one reaches it *)
Definition peaks {N} (m : M (ciphertext (sym N))) (k : Z) : Prop :=
  exists z, fst m = Ok z /\ within k z /\ beyond (k - 1) z.

Lemma coef_outside : forall t a, ~ In a (samples t) -> coef t a = 0.
Proof.
  intros t a. induction t as [i|u IHu v IHv|u IHu p|u IHu|u IHu k|h u IHu]; cbn [samples coef]; intros H.
  - destruct (term_eq_dec _ a) as [E|E]; [exfalso; apply H; left; exact E|reflexivity].
  - rewrite IHu, IHv; [reflexivity| |]; intros K; apply H, in_or_app; auto.
  - apply IHu. exact H.
  - rewrite IHu by exact H. reflexivity.
  - rewrite IHu by exact H. apply Z.mul_0_r.
  - destruct (term_eq_dec _ a) as [E|E]; [exfalso; apply H; left; exact E|reflexivity].
Qed.
Lemma sq_sum_nonneg : forall f l, 0 <= sq_sum f l.
Proof. intros f. induction l as [|a l IH]; cbn; [lia|]. unfold sq_sum in IH. nia. Qed.
Lemma sq_sum_remove : forall f a l, In a l -> NoDup l -> sq_sum f l = f a * f a + sq_sum f (remove term_eq_dec a l).
Proof.
  intros f a. induction l as [|b l IH]; intros H N; [contradiction|]. inversion N as [|x y Hb Nl]; subst. cbn [remove].
  destruct (term_eq_dec a b) as [->|C].
  - rewrite notin_remove by exact Hb. reflexivity.
  - destruct H as [->|H]; [contradiction|]. cbn [sq_sum fold_right]. fold (sq_sum f l). rewrite (IH H Nl).
    change (fold_right (fun a0 s => f a0 * f a0 + s) 0 (remove term_eq_dec a l)) with (sq_sum f (remove term_eq_dec a l)). lia.
Qed.
Lemma NoDup_remove' : forall a (l : list term), NoDup l -> NoDup (remove term_eq_dec a l).
Proof.
  intros a. induction l as [|b l IH]; intros N; [constructor|]. inversion N as [|x y Hb Nl]; subst. cbn [remove].
  destruct (term_eq_dec a b); [apply IH, Nl|]. constructor; [|apply IH, Nl]. intros K. apply in_remove in K. tauto.
Qed.
Lemma sq_sum_le : forall f l s, NoDup l -> NoDup s -> (forall a, In a l -> ~ In a s -> f a = 0) -> sq_sum f l <= sq_sum f s.
Proof.
  intros f. induction l as [|a l IH]; intros s N Ns H; [apply sq_sum_nonneg|]. inversion N as [|x y Ha Nl]; subst.
  cbn [sq_sum fold_right]. fold (sq_sum f l). destruct (in_dec term_eq_dec a s) as [I|I].
  - rewrite (sq_sum_remove f a s I Ns). specialize (IH (remove term_eq_dec a s) Nl (NoDup_remove' a s Ns)).
    enough (sq_sum f l <= sq_sum f (remove term_eq_dec a s)) by lia. apply IH.
    intros b Hb K. apply H; [right; exact Hb|]. intros K'. apply K. apply in_in_remove; [|exact K']. intros ->. contradiction.
  - rewrite (H a (or_introl eq_refl) I). specialize (IH s Nl Ns). enough (sq_sum f l <= sq_sum f s) by lia.
    apply IH. intros b Hb. apply H. right. exact Hb.
Qed.
Lemma weight_qle : forall t n, Properties8.weight t <= n -> qle (coef t) n.
Proof.
  intros t n H l N. eapply Z.le_trans; [|exact H]. unfold Properties8.weight. apply sq_sum_le; [exact N|apply NoDup_nodup|].
  intros a _ K. apply coef_outside. intros I. apply K, nodup_In, I.
Qed.
Lemma heaviest_peaks : forall k N (m : M (ciphertext (sym N))), 0 < k -> heaviest m = Some k -> peaks m k.
Proof.
  intros k N m Hk H. destruct (heaviest_beyond (k - 1) k N m ltac:(lia) H) as [z [E Hb]]. exists z. split; [exact E|].
  split; [|exact Hb]. unfold heaviest in H. rewrite E in H. injection H as H. intros t u Ht Hu. apply weight_qle.
  assert (I : In u (flat_map boot_inputs (secrets z))) by (apply in_flat_map; exists t; auto). revert I H.
  generalize (flat_map boot_inputs (secrets z)). clear. induction l as [|a l IH]; intros I H; [contradiction|].
  cbn [map fold_right] in H. destruct I as [->|I]; [lia|].
  assert (fold_right Z.max 0 (map Properties8.weight l) <= k) by lia. clear H.
  revert H0. generalize I. clear. induction l as [|a l IH]; intros I H; [contradiction|]. cbn [map fold_right] in H.
  destruct I as [->|I]; [lia|]. apply IH; [exact I|lia].
Qed.

Lemma all_words : forall n (P : list Z -> bool), forallb P (vectors n) = true -> forall ds, words n ds -> P ds = true.
Proof. intros n P H ds Hd. rewrite forallb_forall in H. apply H, vectors_words, Hd. Qed.
Lemma equal_words : forall n f g, forallb (fun ds => f ds =? g ds) (vectors n) = true -> forall ds, words n ds -> f ds = g ds.
Proof. intros n f g H ds Hd. apply Z.eqb_eq, (all_words n (fun ds => f ds =? g ds) H ds Hd). Qed.

(** fresh samples *)
Definition fresh (from n : nat) : ciphertext (sym 32) := sinput 32 from (repeat None n).

(** The tables of the library give, from its combinations: products of words, squares of two and three
    words, signs of up to four, what rounding carries, and the choice of the maximum. *)
Theorem C71_tables :
  (forall ds, words 2 ds -> negacyclic (signed lut_mul_bit) (comb [3; 1] ds) = product 1 ds) /\
  (forall ds, words 2 ds ->
     value [negacyclic (signed lut_squ_0) (comb [1; 2] ds); 0; negacyclic (signed lut_squ_2) (comb [1; 2] ds);
            negacyclic (signed lut_squ_3) (comb [1; 2] ds)] = square ds) /\
  (forall ds, words 3 ds ->
     value [negacyclic (signed lut_squ_0) (comb [1; 2; 4] ds); 0; negacyclic (signed lut_squ_2) (comb [1; 2; 4] ds);
            negacyclic (signed lut_squ_3) (comb [1; 2; 4] ds); negacyclic (signed lut_squ_4) (comb [1; 2; 4] ds);
            negacyclic (signed lut_squ_5) (comb [1; 2; 4] ds)] = square ds) /\
  (forall ds, words 4 ds -> negacyclic (signed (lut_f_1 1)) (comb [1; 2; 4; 8] ds) = sign ds) /\
  (forall ds, words 2 ds -> negacyclic (signed lut_round) (comb [1; 2] ds) = carried ds) /\
  (forall ds, selector ds -> negacyclic (signed lut_max) (comb [1; 2; 6] ds) = select ds) /\
  adds [3; 3; 1; 1] (negacyclic (signed lut_f_4)).
Proof.
  repeat split; try (intros ds Hd; revert ds Hd; apply equal_words; vm_compute; reflexivity).
  - intros ds [s [x [y [-> [Hs [Hx Hy]]]]]]. unfold digit in *.
    assert (Kx : x = -1 \/ x = 0 \/ x = 1) by lia. assert (Ky : y = -1 \/ y = 0 \/ y = 1) by lia.
    destruct Hs as [-> | ->], Kx as [->|[-> | ->]], Ky as [->|[-> | ->]]; vm_compute; reflexivity.
  - apply negacyclic_table.
  - apply local_adds; [apply negacyclic_table|reflexivity| |].
    + intros ds Hd. pose proof (all_words 4 (fun ds => Z.abs (negacyclic (signed lut_f_4) (comb [3; 3; 1; 1] ds)) <=? 1)
        ltac:(vm_compute; reflexivity) ds Hd) as K. cbv beta in K. unfold digit. lia.
    + intros v Hv.
      pose proof (all_words 6 (fun v => match v with
        | [x2; y2; x1; y1; x0; y0] => Z.abs (x2 + y2 - 2 * negacyclic (signed lut_f_4) (comb [3; 3; 1; 1] [x2; y2; x1; y1])
            + negacyclic (signed lut_f_4) (comb [3; 3; 1; 1] [x1; y1; x0; y0])) <=? 1
        | _ => true end) ltac:(vm_compute; reflexivity) v Hv) as K.
      destruct v as [|x2 [|y2 [|x1 [|y1 [|x0 [|y0 [|]]]]]]]; try exact I. unfold local, digit. cbv beta iota in K. lia.
Qed.
Print Assumptions C71_tables.

(** and these are the heaviest combinations of the operations on fresh words, with the parameters as shipped *)
Theorem C71_weights :
  peaks (pa_mul (fresh 0 1) (fresh 1 1)) (quad [3; 1]) /\
  peaks (pa_squ (fresh 0 2)) (quad [1; 2]) /\ peaks (pa_squ (fresh 0 3)) (quad [1; 2; 4]) /\
  peaks (pa_sgn (cloud_100 true) (fresh 0 4)) (quad [1; 2; 4; 8]) /\
  peaks (pa_max (cloud_100 true) (fresh 0 1) (fresh 1 1)) (quad [1; 2; 6]) /\
  peaks (pa_add (fresh 0 2) (fresh 2 2)) (quad [3; 3; 1; 1]).
Proof. repeat split; (apply heaviest_peaks; [cbn; lia|vm_compute; reflexivity]). Qed.
Print Assumptions C71_weights.

(* ------------------------------------------------------------------ *)
(** ** No combination is lighter, but for addition *)

Fixpoint leasts (cs : list Z) : Z := match cs with [] => 0 | c :: cs => least c + leasts cs end.
Lemma leasts_le : forall cs, leasts (low cs) <= quad cs.
Proof. induction cs as [|c cs IH]; [apply Z.le_refl|]. cbn [low map leasts quad]. fold (low cs). pose proof (least_le c). lia. Qed.
Lemma least_digits : forall f k n, search_digits f (fun cs => k <=? leasts cs) n = true ->
  forall cs, length cs = n -> lookups (words n) f cs -> k <= quad cs.
Proof.
  intros f k n S cs L H. pose proof (search_digits_ok _ _ _ _ S L H) as K. cbv beta in K. pose proof (leasts_le cs). lia.
Qed.

(** the choice of the maximum *)
Definition selectors (k : nat) : list (list Z) :=
  match k with
  | 2%nat => flat_map (fun s => map (fun x => [s; x; 0]) [1; -1; 0]) [1; 0]
  | 3%nat => flat_map (fun s => flat_map (fun x => map (fun y => [s; x; y]) [1; -1; 0]) [1; -1; 0]) [1; 0]
  | _ => []
  end.
Lemma selectors_ok : forall k v, In v (selectors k) -> selector v.
Proof.
  intros [|[|[|[|k]]]] v H; try contradiction; cbn in H; unfold selector, digit;
  repeat (destruct H as [<-|H]; [eexists _, _, _; split; [reflexivity|]; lia|]); contradiction.
Qed.
Lemma selectors_k : forall k v cs, In v (selectors k) -> comb cs v = comb (firstn k cs) v.
Proof.
  intros [|[|[|[|k]]]] v cs H; try contradiction; cbn in H;
  destruct cs as [|c0 [|c1 [|c2 cs]]]; cbn [firstn];
  repeat (destruct H as [<-|H]; [cbn [comb]; try destruct cs; cbn [comb]; lia|]); contradiction.
Qed.

(** combinations that are multiples of 1, 2, 4, 8 .. by an odd number, modulo 32 *)
Definition doubling (cs : list Z) : bool :=
  match cs with
  | c :: t => Z.odd c && forallb (fun p : Z * Z => fst p =? (snd p * c) mod 32) (combine t [2; 4; 8; 16])
  | [] => false
  end.
Lemma squ_3_search : search_digits square doubling 3 = true.
Proof. vm_compute. reflexivity. Qed.
Lemma sign_4_search : search_digits sign doubling 4 = true.
Proof. vm_compute. reflexivity. Qed.
Lemma sign_3_search : search_digits sign (fun cs => 21 <=? leasts cs) 3 = true.
Proof. vm_compute. reflexivity. Qed.
Definition one_two (cs : list Z) : bool :=
  match cs with [a; b; c] => (a mod 16 =? 8) && Z.odd b && (c =? (2 * b) mod 32) | _ => false end.
Lemma mul_1_2_search : search_digits (product 1) one_two 3 = true.
Proof. vm_compute. reflexivity. Qed.
Lemma select_search : search select selectors (fun cs => 41 <=? leasts cs) 3 [] = true.
Proof. vm_compute. reflexivity. Qed.
Lemma small_searches : search_digits (product 1) (fun cs => 10 <=? leasts cs) 2 = true /\
  search_digits square (fun cs => 5 <=? leasts cs) 2 = true /\ search_digits sign (fun cs => 5 <=? leasts cs) 2 = true /\
  search_digits carried (fun cs => 5 <=? leasts cs) 2 = true.
Proof. vm_compute. repeat split. Qed.

Lemma odd_low : forall c, Z.odd (c mod 32) = Z.odd c.
Proof.
  intros c. rewrite (Z.div_mod c 32) at 2 by lia. rewrite Z.odd_add, Z.odd_mul. cbn [Z.odd]. rewrite andb_false_l, xorb_false_l. reflexivity.
Qed.
Lemma doubling_square : forall c x k r, Z.odd c = true -> x mod 32 = (k * (c mod 32)) mod 32 -> (k, r) = (2, 4) \/ (k, r) = (4, 8) \/ (k, r) = (8, 16) ->
  k * k <= x * x.
Proof.
  intros c x k r O E K. rewrite Zmult_mod_idemp_r in E.
  assert (O' : exists j, c = 2 * j + 1) by (apply Z.odd_spec in O; destruct O as [j ->]; exists j; lia). destruct O' as [j ->].
  assert (Q : exists q, x = k * (2 * j + 1) + 32 * q).
  { exists (x / 32 - k * (2 * j + 1) / 32). pose proof (Z.div_mod x 32 ltac:(lia)). pose proof (Z.div_mod (k * (2 * j + 1)) 32 ltac:(lia)). lia. }
  destruct Q as [q ->]. assert (T : exists i, k * (2 * j + 1) + 32 * q = k * (2 * i + 1)).
  { destruct K as [K|[K|K]]; injection K as -> ->; [exists (j + 8 * q)|exists (j + 4 * q)|exists (j + 2 * q)]; lia. }
  destruct T as [i ->]. assert (P : 1 <= (2 * i + 1) * (2 * i + 1)) by (clear; nia).
  replace (k * (2 * i + 1) * (k * (2 * i + 1))) with (k * k * ((2 * i + 1) * (2 * i + 1))) by ring.
  destruct K as [K|[K|K]]; injection K as -> ->; lia.
Qed.

Lemma two_of : forall cs : list Z, length cs = 2%nat -> exists a b, cs = [a; b].
Proof. intros [|a [|b [|]]] L; try discriminate. eauto. Qed.
Lemma three_of : forall cs : list Z, length cs = 3%nat -> exists a b c, cs = [a; b; c].
Proof. intros [|a [|b [|c [|]]]] L; try discriminate. eauto. Qed.
Lemma four_of : forall cs : list Z, length cs = 4%nat -> exists a b c d, cs = [a; b; c; d].
Proof. intros [|a [|b [|c [|d [|]]]]] L; try discriminate. eauto 6. Qed.
Lemma odd_square : forall a, Z.odd a = true -> 1 <= a * a.
Proof. intros a H. assert (a <> 0) by (intros ->; discriminate). nia. Qed.
Lemma doubling_3 : forall a b c, doubling (low [a; b; c]) = true -> Z.odd a = true /\ 4 <= b * b /\ 16 <= c * c.
Proof.
  intros a b c K. cbn [low map doubling combine forallb fst snd] in K. rewrite odd_low in K.
  apply andb_prop in K. destruct K as [Ka K]. apply andb_prop in K. destruct K as [Kb K]. apply andb_prop in K. destruct K as [Kc _].
  apply Z.eqb_eq in Kb, Kc. split; [exact Ka|]. split; [apply (doubling_square a b 2 4)|apply (doubling_square a c 4 8)]; auto.
Qed.
Lemma doubling_4 : forall a b c d, doubling (low [a; b; c; d]) = true -> Z.odd a = true /\ 4 <= b * b /\ 16 <= c * c /\ 64 <= d * d.
Proof.
  intros a b c d K. cbn [low map doubling combine forallb fst snd] in K. rewrite odd_low in K.
  apply andb_prop in K. destruct K as [Ka K]. apply andb_prop in K. destruct K as [Kb K]. apply andb_prop in K. destruct K as [Kc K].
  apply andb_prop in K. destruct K as [Kd _]. apply Z.eqb_eq in Kb, Kc, Kd. split; [exact Ka|].
  split; [apply (doubling_square a b 2 4)|split; [apply (doubling_square a c 4 8)|apply (doubling_square a d 8 16)]]; auto.
Qed.

(** One word by one word takes weight 10, two words squared 5, three words squared 21, a sign 5, 21 and 85 (of
    two, three and four words), rounding 5, choosing 41: the combinations above are lightest. *)
Theorem C71_lightest : forall cs,
  (length cs = 2%nat -> lookups (words 2) (product 1) cs -> quad [3; 1] <= quad cs) /\
  (length cs = 2%nat -> lookups (words 2) square cs -> quad [1; 2] <= quad cs) /\
  (length cs = 3%nat -> lookups (words 3) square cs -> quad [1; 2; 4] <= quad cs) /\
  (length cs = 2%nat -> lookups (words 2) sign cs -> quad [1; 2] <= quad cs) /\
  (length cs = 3%nat -> lookups (words 3) sign cs -> quad [1; 2; 4] <= quad cs) /\
  (length cs = 4%nat -> lookups (words 4) sign cs -> quad [1; 2; 4; 8] <= quad cs) /\
  (length cs = 2%nat -> lookups (words 2) carried cs -> quad [1; 2] <= quad cs) /\
  (length cs = 3%nat -> lookups selector select cs -> quad [1; 2; 6] <= quad cs).
Proof.
  intros cs. split; [|split; [|split; [|split; [|split; [|split; [|split]]]]]]; intros L H.
  - apply (least_digits _ 10 2 (proj1 small_searches) cs L H).
  - apply (least_digits _ 5 2 (proj1 (proj2 small_searches)) cs L H).
  - pose proof (search_digits_ok _ _ _ _ squ_3_search L H) as K. destruct (three_of cs L) as [a [b [c ->]]].
    destruct (doubling_3 a b c K) as [Ka [Kb Kc]]. apply odd_square in Ka. clear - Ka Kb Kc. cbn [quad]. lia.
  - apply (least_digits _ 5 2 (proj1 (proj2 (proj2 small_searches))) cs L H).
  - apply (least_digits _ 21 3 sign_3_search cs L H).
  - pose proof (search_digits_ok _ _ _ _ sign_4_search L H) as K. destruct (four_of cs L) as [a [b [c [d ->]]]].
    destruct (doubling_4 a b c d K) as [Ka [Kb [Kc Kd]]]. apply odd_square in Ka. clear - Ka Kb Kc Kd. cbn [quad]. lia.
  - apply (least_digits _ 5 2 (proj2 (proj2 (proj2 small_searches))) cs L H).
  - pose proof (search_ok selector select selectors selectors_ok selectors_k (fun cs => 41 <=? leasts cs) 3 cs 0 H L select_search) as K.
    cbv beta in K. pose proof (leasts_le cs) as Q. clear - K Q. change (quad [1; 2; 6]) with 41. lia.
Qed.
Print Assumptions C71_lightest.

(* ------------------------------------------------------------------ *)
(** ** lib.rs:185-187 "mul_lwe .. for more than 1x1 bit? let say 1x2 bit? what about squaring?" *)

(** The same words, with zeros around them *)
Lemma lookups_sub : forall (D D' : list Z -> Prop) f f' cs cs' (e : list Z -> list Z),
  (forall ds, D' ds -> D (e ds) /\ comb cs (e ds) = comb cs' ds /\ f (e ds) = f' ds) -> lookups D f cs -> lookups D' f' cs'.
Proof.
  intros D D' f f' cs cs' e He [gs [Hg H]]. exists gs. split; [exact Hg|]. intros ds Hd. destruct (He ds Hd) as [H1 [H2 H3]].
  rewrite <- H3, <- H2. apply H, H1.
Qed.
Lemma words_app : forall a b u v, words a u -> words b v -> words (a + b) (u ++ v).
Proof. intros a b u v [L F] [M G]. split; [rewrite app_length; lia|]. apply Forall_app. split; assumption. Qed.
Lemma words_zeros : forall n, words n (repeat 0 n).
Proof.
  intros n. split; [apply repeat_length|]. apply Forall_forall. intros x H. apply repeat_spec in H. subst x. unfold digit. lia.
Qed.
Lemma words_cons : forall d n v, digit d -> words n v -> words (S n) (d :: v).
Proof. intros d n v H [L F]. split; [cbn; lia|constructor; assumption]. Qed.
Lemma value_zeros : forall n, value (repeat 0 n) = 0.
Proof. induction n as [|n IH]; cbn [repeat value]; [reflexivity|rewrite IH; reflexivity]. Qed.
Lemma value_pad : forall v n, value (v ++ repeat 0 n) = value v.
Proof. induction v as [|d v IH]; intros n; cbn [app value]; [apply value_zeros|rewrite IH; reflexivity]. Qed.
Lemma comb_app : forall cs cs' u v, length cs = length u -> comb (cs ++ cs') (u ++ v) = comb cs u + comb cs' v.
Proof.
  induction cs as [|c cs IH]; intros cs' [|d u] v L; try discriminate; [reflexivity|]. cbn [app comb]. rewrite IH by (cbn in L; lia). lia.
Qed.
Lemma comb_pad0 : forall cs v n, (length v <= length cs)%nat -> comb cs (v ++ repeat 0 n) = comb (firstn (length v) cs) v.
Proof.
  intros cs v n L. rewrite <- (firstn_skipn (length v) cs) at 1. rewrite comb_app by (rewrite firstn_length; lia). rewrite comb_zeros. lia.
Qed.

(** One word by two: the tables of both words of the product, for the combination 8, 1, 2 *)
Definition low_1_2 : list Z := [0; 0; 0; 0; 0; -1; 0; -1; 0; 1; 0; 1; 0; 0; 0; 0].
Definition high_1_2 : list Z := [0; 0; 0; 0; 0; -1; -1; 0; 0; 0; 1; 1; 0; 0; 0; 0].
Lemma tables_1_2 : forall ds, words 3 ds ->
  value [negacyclic low_1_2 (comb [8; 1; 2] ds); negacyclic high_1_2 (comb [8; 1; 2] ds)] = product 1 ds.
Proof. apply equal_words. vm_compute. reflexivity. Qed.

Definition inverse (b : Z) : Z := (b mod 32) ^ 7.
Lemma inverse_ok : forall b, Z.odd b = true -> (b * inverse b) mod 32 = 1.
Proof.
  intros b H. unfold inverse. rewrite <- Zmult_mod_idemp_l.
  assert (K : forallb (fun r => if Z.odd r then (r * r ^ 7) mod 32 =? 1 else true) residues = true) by (vm_compute; reflexivity).
  rewrite forallb_forall in K. specialize (K _ (residue_in b)). cbv beta in K. rewrite odd_low, H in K. apply Z.eqb_eq, K.
Qed.
Lemma odd_inverse : forall b, Z.odd b = true -> Z.odd (inverse b) = true.
Proof. intros b H. unfold inverse. rewrite Z.odd_pow by lia. rewrite odd_low. exact H. Qed.
Lemma table_scaled : forall g s u, table g -> Z.odd u = true -> table (fun m => s * g (u * m)).
Proof.
  intros g s u Hg Hu m. apply Z.odd_spec in Hu. destruct Hu as [j ->].
  replace ((2 * j + 1) * (m + 16)) with ((2 * j + 1) * m + 16 + 32 * j) by ring. rewrite table_k, Hg by exact Hg. ring.
Qed.

(** the only combinations, modulo 32 *)
Theorem C71_mul_1_2 : forall a b c, lookups (words 3) (product 1) [a; b; c] <->
  a mod 16 = 8 /\ Z.odd b = true /\ (c - 2 * b) mod 32 = 0.
Proof.
  intros a b c. split.
  - intros H. pose proof (search_digits_ok _ _ _ _ mul_1_2_search (eq_refl : length [a; b; c] = 3%nat) H) as K. cbn [low map one_two] in K.
    rewrite odd_low in K. apply andb_prop in K. destruct K as [K Kc]. apply andb_prop in K. destruct K as [Ka Kb].
    split; [|split; [exact Kb|]].
    + apply Z.eqb_eq in Ka. rewrite <- Ka. pose proof (Z.div_mod a 32 ltac:(lia)) as E. rewrite E at 1.
      replace (32 * (a / 32) + a mod 32) with (a mod 32 + 2 * (a / 32) * 16) by ring. apply Z_mod_plus_full.
    + apply Z.eqb_eq in Kc. rewrite Zmult_mod_idemp_r in Kc. rewrite Zminus_mod, Kc, <- Zminus_mod, Z.sub_diag. reflexivity.
  - intros [Ha [Hb Hc]]. set (u := inverse b). pose proof (odd_inverse b Hb) as Hu. fold u in Hu.
    assert (Eb : exists k, b * u = 1 + 32 * k).
    { exists (b * u / 32). pose proof (Z.div_mod (b * u) 32 ltac:(lia)). pose proof (inverse_ok b Hb). fold u in H0. lia. }
    assert (Ec : exists k, c = 2 * b + 32 * k).
    { exists ((c - 2 * b) / 32). pose proof (Z.div_mod (c - 2 * b) 32 ltac:(lia)). lia. }
    assert (Ea : exists k, a * u = 8 + 16 * k).
    { apply Z.odd_spec in Hu. destruct Hu as [j ->]. exists (a / 16 * (2 * j + 1) + j).
      pose proof (Z.div_mod a 16 ltac:(lia)) as E. rewrite Ha in E. rewrite E at 1. ring. }
    destruct Eb as [kb Eb], Ec as [kc Ec], Ea as [ka Ea].
    set (sg := if Z.even ka then 1 else -1).
    exists [fun m => sg * negacyclic low_1_2 (u * m); fun m => sg * negacyclic high_1_2 (u * m)]. split.
    + repeat constructor; (apply table_scaled; [apply negacyclic_table|exact Hu]).
    + intros ds Hd. rewrite <- (tables_1_2 ds Hd). destruct Hd as [L F]. destruct (three_of ds L) as [x [y [z ->]]].
      assert (Hx : x = -1 \/ x = 0 \/ x = 1) by (inversion F as [|q w D]; unfold digit in D; lia).
      cbn [comb map value].
      assert (G : forall t,
        negacyclic t (u * (a * x + (b * y + (c * z + 0)))) = negacyclic t (8 * x + (1 * y + (2 * z + 0)) + 16 * (ka * x))).
      { intros t. rewrite <- (table_k _ (kb * y + (2 * kb + kc * u) * z) (8 * x + (1 * y + (2 * z + 0)) + 16 * (ka * x)) (negacyclic_table t)).
        f_equal. replace (u * (a * x + (b * y + (c * z + 0)))) with (a * u * x + b * u * y + c * u * z) by ring.
        rewrite Ea, Eb, Ec. replace ((2 * b + 32 * kc) * u * z) with (2 * (b * u) * z + 32 * (kc * u) * z) by ring. rewrite Eb. ring. }
      rewrite !G. clear G.
      assert (Sg : forall t k m, negacyclic t (m + 16 * k) = (if Z.even k then 1 else -1) * negacyclic t m).
      { intros t k m. destruct (Z.even k) eqn:E.
        - apply Z.even_spec in E. destruct E as [j ->]. replace (m + 16 * (2 * j)) with (m + 32 * j) by ring.
          rewrite table_k by apply negacyclic_table. ring.
        - assert (O : Z.odd k = true) by (rewrite <- Z.negb_even, E; reflexivity). apply Z.odd_spec in O. destruct O as [j ->].
          replace (m + 16 * (2 * j + 1)) with (m + 32 * j + 16) by ring. rewrite (negacyclic_table t), table_k by apply negacyclic_table. ring. }
      rewrite !Sg. unfold sg. destruct Hx as [->|[->| ->]].
      * rewrite Z.even_mul. cbn [Z.even]. rewrite orb_false_r. destruct (Z.even ka); ring.
      * rewrite Z.mul_0_r. cbn [Z.even].
        assert (Z0 : forall t, t = low_1_2 \/ t = high_1_2 -> negacyclic t (8 * 0 + (1 * y + (2 * z + 0))) = 0).
        { intros t Ht. inversion F as [|q w D F1]; subst. inversion F1 as [|q w D1 F2]; subst. inversion F2 as [|q w D2 F3]; subst.
          unfold digit in D1, D2. assert (Ky : y = -1 \/ y = 0 \/ y = 1) by lia. assert (Kz : z = -1 \/ z = 0 \/ z = 1) by lia.
          destruct Ht as [->| ->], Ky as [->|[->| ->]], Kz as [->|[->| ->]]; vm_compute; reflexivity. }
        rewrite !Z0 by auto. ring.
      * rewrite Z.mul_1_r. destruct (Z.even ka); ring.
Qed.
Print Assumptions C71_mul_1_2.

(** The lightest, 8, 1, 2, weighs 69: more than the smallest setting allows, and less than the shipped one. It takes two
    lookups, as many as for the two products of words. *)
Theorem C71_mul_1_2_weight : lookups (words 3) (product 1) [8; 1; 2] /\ MIN_QUAD_WEIGHT < quad [8; 1; 2] <= 100 /\
  (forall a b c, lookups (words 3) (product 1) [a; b; c] -> quad [8; 1; 2] <= quad [a; b; c]) /\
  (forall cs gs, Forall table gs -> length cs = 3%nat ->
     (forall ds, words 3 ds -> value (map (fun g => g (comb cs ds)) gs) = product 1 ds /\ digits (map (fun g => g (comb cs ds)) gs)) ->
     (2 <= length gs)%nat).
Proof.
  split; [apply C71_mul_1_2; repeat split; reflexivity|]. split; [unfold MIN_QUAD_WEIGHT; cbn; lia|]. split.
  - intros a b c H. apply C71_mul_1_2 in H. destruct H as [Ha [Hb Hc]]. apply odd_square in Hb as Hb'.
    assert (Qa : 64 <= a * a).
    { pose proof (Z.div_mod a 16 ltac:(lia)) as E. rewrite Ha in E. set (k := a / 16) in *. clearbody k. subst a. clear. nia. }
    assert (Qc : 4 <= c * c).
    { apply (doubling_square b c 2 4 Hb); [|auto]. rewrite Zmult_mod_idemp_r. pose proof (Z.div_mod (c - 2 * b) 32 ltac:(lia)) as E.
      rewrite Hc in E. replace c with (2 * b + (c - 2 * b) / 32 * 32) at 1 by lia. apply Z_mod_plus_full. }
    cbn [quad]. lia.
  - intros cs gs Hg L H. assert (W : words 3 [1; 1; 1]) by (split; [reflexivity|repeat constructor; unfold digit; lia]).
    destruct (H _ W) as [Hv Hd]. change (product 1 [1; 1; 1]) with 3 in Hv. destruct gs as [|g [|h gs]]; cbn [map value length] in *; try lia.
    exfalso. inversion Hd as [|q w D]; subst. unfold digit in D. lia.
Qed.
Print Assumptions C71_mul_1_2_weight.

(** zeros in front, behind and in between *)
Lemma comb_front : forall j cs v, comb cs (repeat 0 j ++ v) = comb (skipn j cs) v.
Proof. induction j as [|j IH]; intros [|c cs] v; cbn [repeat app comb skipn]; try reflexivity. rewrite IH. destruct j; cbn [skipn]; lia. Qed.
Lemma value_front : forall j v, value (repeat 0 j ++ v) = 2 ^ Z.of_nat j * value v.
Proof.
  induction j as [|j IH]; intros v; [cbn [repeat app]; rewrite Z.mul_1_l; reflexivity|]. cbn [repeat app value]. rewrite IH.
  rewrite Nat2Z.inj_succ, Z.pow_succ_r by lia. ring.
Qed.
Lemma lookups_scale : forall (D : list Z -> Prop) f k cs, k <> 0 -> lookups D (fun ds => k * f ds) cs -> lookups D f cs.
Proof.
  intros D f k cs Hk H. destruct (lookups_one _ _ _ H) as [g [Hg K]]. exists [fun m => Z.quot (g m) k]. split.
  - repeat constructor. intros m. rewrite Hg. apply Z.quot_opp_l. exact Hk.
  - intros ds Hd. cbn [map value]. rewrite (K ds Hd), Z.mul_comm, Z.quot_mul by exact Hk. lia.
Qed.
Lemma lookups_ext : forall (D : list Z -> Prop) (f f' : list Z -> Z) cs, (forall ds, D ds -> f ds = f' ds) -> lookups D f cs -> lookups D f' cs.
Proof. intros D f f' cs E [gs [H K]]. exists gs. split; [exact H|]. intros ds Hd. rewrite <- E by exact Hd. apply K, Hd. Qed.

(** A function of the value, of some words in a row *)
Lemma lookups_row : forall (F : Z -> Z) n cs j k, length cs = n -> (j + k <= n)%nat ->
  lookups (words n) (fun ds => F (value ds)) cs ->
  lookups (words k) (fun ds => F (2 ^ Z.of_nat j * value ds)) (firstn k (skipn j cs)).
Proof.
  intros F n cs j k L H. apply (lookups_sub _ _ _ _ _ _ (fun ds => repeat 0 j ++ ds ++ repeat 0 (n - j - k))).
  intros ds Hd. pose proof Hd as [Ld _]. split; [|split].
  - replace n with (j + (k + (n - j - k)))%nat at 1 by lia. apply words_app; [apply words_zeros|].
    apply words_app; [exact Hd|apply words_zeros].
  - rewrite comb_front, comb_pad0 by (rewrite skipn_length; lia). rewrite Ld. reflexivity.
  - rewrite value_front, value_pad. reflexivity.
Qed.

Lemma doubling_low : forall a b t, doubling (low (a :: b :: t)) = true -> Z.odd a = true /\ Z.odd b = false.
Proof.
  intros a b t K. cbn [low map doubling combine forallb fst snd] in K. rewrite odd_low in K.
  apply andb_prop in K. destruct K as [Ka K]. apply andb_prop in K. destruct K as [Kb _]. apply Z.eqb_eq in Kb. split; [exact Ka|].
  rewrite <- (odd_low b), Kb, odd_low, Z.odd_mul. reflexivity.
Qed.

(** Four words cannot be squared with lookups of one combination, and no combination gives the sign of five words *)
Theorem C71_square_limit : forall n cs, length cs = n -> lookups (words n) square cs -> (n <= 3)%nat.
Proof.
  intros n cs L H. destruct (Nat.le_gt_cases n 3) as [C|C]; [exact C|exfalso].
  pose proof (lookups_row (fun v => v * v) n cs 0 3 L ltac:(lia) H) as H0.
  pose proof (lookups_row (fun v => v * v) n cs 1 3 L ltac:(lia) H) as H1.
  destruct cs as [|a [|b [|c [|d t]]]]; cbn [length] in L; try lia. cbn [skipn firstn] in H0, H1.
  apply (lookups_ext _ _ square) in H0; [|intros ds _; unfold square; change (2 ^ Z.of_nat 0) with 1; ring].
  apply (lookups_ext _ _ (fun ds => 4 * square ds)) in H1; [|intros ds _; unfold square; change (2 ^ Z.of_nat 1) with 2; ring].
  apply lookups_scale in H1; [|lia].
  pose proof (search_digits_ok _ _ _ _ squ_3_search (eq_refl : length [a; b; c] = 3%nat) H0) as K0.
  pose proof (search_digits_ok _ _ _ _ squ_3_search (eq_refl : length [b; c; d] = 3%nat) H1) as K1.
  apply doubling_low in K0, K1. destruct K0 as [_ K0], K1 as [K1 _]. congruence.
Qed.
Print Assumptions C71_square_limit.
Theorem C71_sign_limit : forall n cs, length cs = n -> lookups (words n) sign cs -> (n <= GAMMA)%nat.
Proof.
  intros n cs L H. unfold GAMMA. destruct (Nat.le_gt_cases n 4) as [C|C]; [exact C|exfalso].
  pose proof (lookups_row Z.sgn n cs 0 4 L ltac:(lia) H) as H0.
  pose proof (lookups_row Z.sgn n cs 1 4 L ltac:(lia) H) as H1.
  destruct cs as [|a [|b [|c [|d [|e t]]]]]; cbn [length] in L; try lia. cbn [skipn firstn] in H0, H1.
  apply (lookups_ext _ _ sign) in H0; [|intros ds _; unfold sign; change (2 ^ Z.of_nat 0) with 1; f_equal; ring].
  apply (lookups_ext _ _ sign) in H1; [|intros ds _; unfold sign; change (2 ^ Z.of_nat 1) with 2; destruct (value ds); reflexivity].
  pose proof (search_digits_ok _ _ _ _ sign_4_search (eq_refl : length [a; b; c; d] = 4%nat) H0) as K0.
  pose proof (search_digits_ok _ _ _ _ sign_4_search (eq_refl : length [b; c; d; e] = 4%nat) H1) as K1.
  apply doubling_low in K0, K1. destruct K0 as [_ K0], K1 as [K1 _]. congruence.
Qed.
Print Assumptions C71_sign_limit.

(** products *)
Lemma lookups_swap : forall a b us vs, length us = a -> length vs = b ->
  lookups (words (a + b)) (product a) (us ++ vs) -> lookups (words (b + a)) (product b) (vs ++ us).
Proof.
  intros a b us vs Lu Lv. apply (lookups_sub _ _ _ _ _ _ (fun ds => skipn b ds ++ firstn b ds)).
  intros ds [L F]. assert (Lf : length (firstn b ds) = b) by (rewrite firstn_length; lia).
  assert (Ls : length (skipn b ds) = a) by (rewrite skipn_length; lia). split; [|split].
  - split; [rewrite app_length; lia|]. unfold digits in *. rewrite <- (firstn_skipn b ds) in F. apply Forall_app in F.
    apply Forall_app. tauto.
  - rewrite comb_app by lia. rewrite <- (firstn_skipn b ds) at 3. rewrite comb_app by lia. lia.
  - unfold product. rewrite firstn_app, skipn_app, Ls, Nat.sub_diag, (firstn_all2 (skipn b ds)), (skipn_all2 (skipn b ds)) by lia.
    cbn [firstn skipn]. rewrite app_nil_r. cbn [app]. ring.
Qed.
Lemma lookups_pick : forall a b us vs j, length us = S a -> length vs = b -> (j + 2 <= b)%nat ->
  lookups (words (S a + b)) (product (S a)) (us ++ vs) ->
  exists u v w t, us = u :: t /\ nth j vs 0 = v /\ nth (S j) vs 0 = w /\
    u mod 16 = 8 /\ Z.odd v = true /\ (w - 2 * v) mod 32 = 0.
Proof.
  intros a b us vs j Lu Lv Hj H. destruct us as [|u t]; [discriminate|]. exists u, (nth j vs 0), (nth (S j) vs 0), t.
  split; [reflexivity|]. split; [reflexivity|]. split; [reflexivity|]. apply C71_mul_1_2.
  apply (lookups_scale _ _ (2 ^ Z.of_nat j)); [pose proof (Z.pow_pos_nonneg 2 (Z.of_nat j) ltac:(lia) ltac:(lia)); lia|].
  revert H. apply (lookups_sub _ _ _ _ _ _
    (fun ds => (firstn 1 ds ++ repeat 0 a) ++ (repeat 0 j ++ skipn 1 ds ++ repeat 0 (b - j - 2)))).
  intros ds [L F]. destruct (three_of ds L) as [x [y [z ->]]]. cbn [firstn skipn].
  assert (Hx : words (S a) ([x] ++ repeat 0 a)).
  { apply (words_app 1); [|apply words_zeros]. split; [reflexivity|]. inversion F; subst. constructor; auto. }
  assert (Hy : words 2 [y; z]) by (split; [reflexivity|]; inversion F; subst; assumption).
  split; [|split].
  - apply words_app; [exact Hx|]. replace b with (j + (2 + (b - j - 2)))%nat at 1 by lia. apply words_app; [apply words_zeros|].
    apply words_app; [exact Hy|apply words_zeros].
  - rewrite comb_app by (destruct Hx; lia). rewrite comb_pad0 by (cbn; lia). rewrite comb_front, comb_pad0 by (rewrite skipn_length; cbn; lia).
    change (length [y; z]) with 2%nat. change (length [x]) with 1%nat.
    assert (E : firstn 2 (skipn j vs) = [nth j vs 0; nth (S j) vs 0]).
    { clear - Lv Hj. revert vs Lv. revert b Hj. induction j as [|j IH]; intros b Hj vs Lv.
      - destruct vs as [|p [|q vs]]; cbn [length] in Lv; try lia. reflexivity.
      - destruct vs as [|p vs]; cbn [length] in Lv; [lia|]. cbn [skipn nth]. apply (IH (b - 1)%nat); lia. }
    rewrite E. cbn [firstn comb]. ring.
  - unfold product. destruct Hx as [Lx _]. rewrite firstn_app, skipn_app, Lx, Nat.sub_diag.
    rewrite (firstn_all2 ([x] ++ repeat 0 a)), (skipn_all2 ([x] ++ repeat 0 a)) by lia. cbn [firstn skipn].
    rewrite app_nil_r. change ([] ++ repeat 0 j ++ [y; z] ++ repeat 0 (b - j - 2)) with (repeat 0 j ++ [y; z] ++ repeat 0 (b - j - 2)).
    rewrite value_front, !value_pad. cbn [value]. ring.
Qed.
(** Beyond one word by two, no combination gives a product of words *)
Theorem C71_product_limit : forall a b cs, length cs = (a + b)%nat -> (1 <= a)%nat -> (1 <= b)%nat ->
  lookups (words (a + b)) (product a) cs -> (a + b <= 3)%nat.
Proof.
  intros a b cs L Ha Hb H. destruct (Nat.le_gt_cases (a + b) 3) as [C|C]; [exact C|exfalso].
  rewrite <- (firstn_skipn a cs) in H. set (us := firstn a cs) in *. set (vs := skipn a cs) in *.
  assert (Lu : length us = a) by (unfold us; rewrite firstn_length; lia).
  assert (Lv : length vs = b) by (unfold vs; rewrite skipn_length; lia). clearbody us vs. clear L cs.
  assert (T : forall a b us vs, length us = a -> length vs = b -> (1 <= a)%nat -> (3 <= b)%nat ->
    lookups (words (a + b)) (product a) (us ++ vs) -> False).
  { clear. intros a b us vs Lu Lv Ha Hb H. destruct a as [|a]; [lia|].
    destruct (lookups_pick a b us vs 0 Lu Lv ltac:(lia) H) as [u [v [w [t [_ [_ [E1 [_ [_ E]]]]]]]]].
    destruct (lookups_pick a b us vs 1 Lu Lv ltac:(lia) H) as [u' [v' [w' [t' [_ [E2 [_ [_ [O _]]]]]]]]].
    rewrite E1 in E2. subst v'. pose proof (Z.div_mod (w - 2 * v) 32 ltac:(lia)) as D. rewrite E in D.
    replace w with (2 * (v + 16 * ((w - 2 * v) / 32))) in O by lia. rewrite Z.odd_mul in O. discriminate. }
  destruct (Nat.le_gt_cases 3 b) as [Cb|Cb]; [apply (T a b us vs); assumption|].
  destruct (Nat.le_gt_cases 3 a) as [Ca|Ca]; [apply (T b a vs us); auto; apply lookups_swap; assumption|].
  assert (a = 2%nat) as -> by lia. assert (b = 2%nat) as -> by lia.
  destruct (lookups_pick 1 2 us vs 0 Lu Lv ltac:(lia) H) as [u [v [w [t [_ [E1 [_ [_ [O _]]]]]]]]].
  destruct (lookups_pick 1 2 vs us 0 Lv Lu ltac:(lia) (lookups_swap 2 2 us vs Lu Lv H)) as [u' [v' [w' [t' [E2 [_ [_ [M _]]]]]]]].
  subst vs. cbn [nth] in E1. subst v. pose proof (Z.div_mod u' 16 ltac:(lia)) as D. rewrite M in D.
  replace u' with (2 * (8 * (u' / 16) + 4)) in O by lia. rewrite Z.odd_mul in O. discriminate.
Qed.
Print Assumptions C71_product_limit.

(* ------------------------------------------------------------------ *)
(** ** Addition: half the weight is enough *)

(** The carry can be looked up from twice the sum of the words of a position, plus the sum of the words below: *)
Definition lighter : list Z := [0; 0; 0; 1; 1; 1; 1; 1; 1; 1; 1; 1; 1; 1; 1; 0].
Definition adder_core : list (list Z) :=
  [[0; 1; -1; -1; -1; -1]; [-1; 0; 0; -1; -1; -1]; [-1; 1; -1; 1; 1; -1]; [-1; 0; 0; 1; 1; -1];
   [-1; -1; 1; -1; -1; -1]; [-1; 0; -1; 0; -1; -1]; [-1; 1; 1; -1; -1; 0]; [0; 1; 1; 1; -1; 0];
   [-1; 0; 1; 0; -1; 1]; [1; 1; -1; 0; -1; 1]; [-1; -1; -1; 1; -1; -1]; [-1; 1; 0; 1; -1; -1];
   [1; 1; -1; 1; -1; -1]; [-1; 0; -1; 1; 1; 1]; [-1; -1; 0; 1; -1; -1]; [-1; 0; 1; 0; -1; -1];
   [-1; 0; 1; 1; -1; 1]; [-1; 1; 0; -1; -1; 1]; [0; 0; 0; 0; -1; 1]; [0; -1; 0; 1; -1; 1]].
Definition threes : list Z := [-3; -2; -1; 0; 1; 2; 3].
Lemma adder_search : forallb (fun a => forallb (fun b => forallb (fun c => forallb (fun d =>
  if a * a + (b * b + (c * c + (d * d + 0))) <? 10 then negb (sat [a; b; c; d] adder_core []) else true)
  threes) threes) threes) threes = true.
Proof. vm_compute. reflexivity. Qed.
Lemma in_threes : forall c, c * c < 10 -> In c threes.
Proof.
  intros c H. assert (K : -3 <= c <= 3) by nia.
  assert (E : c = -3 \/ c = -2 \/ c = -1 \/ c = 0 \/ c = 1 \/ c = 2 \/ c = 3) by lia. unfold threes, In.
  intuition congruence.
Qed.
Lemma adder_core_words : Forall (words 6) adder_core.
Proof.
  unfold adder_core. repeat (apply Forall_cons; [split; [reflexivity|];
    repeat (apply Forall_cons; [unfold digit; lia|]); apply Forall_nil|]). apply Forall_nil.
Qed.

(** the result keeps the value whatever the combination *)
Theorem C71_adder_value : forall cs g ws, value (adder cs g ws) = value (map (fun w => fst w + snd w) ws).
Proof. intros cs g ws. unfold adder. rewrite settle_value by apply carries_length. lia. Qed.
Print Assumptions C71_adder_value.

(** The combination of parallel addition is not the lightest there is *)
Theorem C71_adder_refuted :
  ~ (forall cs g, length cs = 4%nat -> adds cs g -> quad [3; 3; 1; 1] <= quad cs) /\
  adds [2; 2; 1; 1] (negacyclic lighter) /\ 2 * quad [2; 2; 1; 1] = quad [3; 3; 1; 1].
Proof.
  assert (A : adds [2; 2; 1; 1] (negacyclic lighter)).
  { apply local_adds; [apply negacyclic_table|reflexivity| |].
    + intros ds Hd. pose proof (all_words 4 (fun ds => Z.abs (negacyclic lighter (comb [2; 2; 1; 1] ds)) <=? 1)
        ltac:(vm_compute; reflexivity) ds Hd) as K. cbv beta in K. unfold digit. lia.
    + intros v Hv.
      pose proof (all_words 6 (fun v => match v with
        | [x2; y2; x1; y1; x0; y0] => Z.abs (x2 + y2 - 2 * negacyclic lighter (comb [2; 2; 1; 1] [x2; y2; x1; y1])
            + negacyclic lighter (comb [2; 2; 1; 1] [x1; y1; x0; y0])) <=? 1
        | _ => true end) ltac:(vm_compute; reflexivity) v Hv) as K.
      destruct v as [|x2 [|y2 [|x1 [|y1 [|x0 [|y0 [|]]]]]]]; try exact I. unfold local, digit. cbv beta iota in K. lia. }
  split; [|split; [exact A|reflexivity]].
  intros H. specialize (H [2; 2; 1; 1] _ eq_refl A). cbn in H. lia.
Qed.
Print Assumptions C71_adder_refuted.

(** and nothing is lighter than that *)
Theorem C71_adder_lightest : forall cs g, length cs = 4%nat -> adds cs g -> quad [2; 2; 1; 1] <= quad cs.
Proof.
  intros cs g L H. destruct (four_of cs L) as [a [b [c [d ->]]]]. change (quad [2; 2; 1; 1]) with 10. cbn [quad].
  destruct (Z_lt_le_dec (a * a + (b * b + (c * c + (d * d + 0)))) 10) as [C|C]; [exfalso|exact C].
  pose proof (sat_any [a; b; c; d] g (proj1 H) (fun v Hv => adds_carry _ _ v H Hv) (fun v Hv => adds_local _ _ v H Hv)
    adder_core [] adder_core_words ltac:(intros m p [])) as S.
  pose proof adder_search as K.
  rewrite forallb_forall in K. specialize (K a (in_threes a ltac:(clear - C; nia))). cbv beta in K.
  rewrite forallb_forall in K. specialize (K b (in_threes b ltac:(clear - C; nia))). cbv beta in K.
  rewrite forallb_forall in K. specialize (K c (in_threes c ltac:(clear - C; nia))). cbv beta in K.
  rewrite forallb_forall in K. specialize (K d (in_threes d ltac:(clear - C; nia))). cbv beta in K.
  apply Z.ltb_lt in C. rewrite C, S in K. discriminate.
Qed.
Print Assumptions C71_adder_lightest.

(* ------------------------------------------------------------------ *)
(** ** Examples *)

Example C71_product_ex : words 2 [-1; 1] /\ negacyclic (signed lut_mul_bit) (comb [3; 1] [-1; 1]) = -1 /\ product 1 [-1; 1] = -1.
Proof. repeat split; try reflexivity. repeat (apply Forall_cons; [unfold digit; lia|]). apply Forall_nil. Qed.
(** the combination of one word by two: the value of -1 times 3 *)
Example C71_product_1_2_ex : lookups (words 3) (product 1) [8; 1; 2] /\ product 1 [-1; 1; 1] = -3.
Proof. split; [|reflexivity]. apply C71_mul_1_2. repeat split. Qed.
(** 3 + 3 and 7 - 1 with the lighter table *)
Example C71_adder_ex :
  adder [2; 2; 1; 1] (negacyclic lighter) [(1, 1); (1, 1)] = [0; 1; 1] /\
  adder [2; 2; 1; 1] (negacyclic lighter) [(1, -1); (1, 0); (1, 0)] = [0; 1; -1; 1] /\
  adder [3; 3; 1; 1] (negacyclic (signed lut_f_4)) [(1, -1); (1, 0); (1, 0)] = [0; 1; -1; 1].
Proof. vm_compute. repeat split. Qed.
(** the limits are met: three words are squared, four words have a sign *)
Example C71_limits_ex : lookups (words 3) square [1; 2; 4] /\ lookups (words 4) sign [1; 2; 4; 8].
Proof.
  split.
  - exists (map (fun t => negacyclic (signed t)) [lut_squ_0; []; lut_squ_2; lut_squ_3; lut_squ_4; lut_squ_5]).
    split; [repeat (apply Forall_cons; [apply negacyclic_table|]); apply Forall_nil|].
    apply equal_words. vm_compute. reflexivity.
  - exists [negacyclic (signed (lut_f_1 1))]. split; [apply Forall_cons; [apply negacyclic_table|apply Forall_nil]|].
    apply equal_words. vm_compute. reflexivity.
Qed.
