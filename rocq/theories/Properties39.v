(** C74: the times in the log and on the screen *)
From Coq Require Import String Ascii.
From Verif Require Import Base Messages ChainScript ChainTextProofs Timing.
From Coq Require Import ZifyBool ZifyNat.
Close Scope string_scope. Open Scope Z_scope.

(** ** Specification: reading the text *)

(** the number at the head of a text, how many digits it has, and what follows *)
Fixpoint number (acc : Z) (k : nat) (s : str) : Z * nat * str :=
  match s with
  | c :: t => if (48 <=? c) && (c <=? 57) then number (10 * acc + (c - 48)) (S k) t else (acc, k, s)
  | [] => (acc, k, [])
  end.
Fixpoint after (p s : str) : option str :=
  match p, s with
  | [], _ => Some s
  | a :: p', c :: s' => if a =? c then after p' s' else None
  | _, [] => None
  end.
(** minutes and seconds of two digits each, the seconds with a decimal fraction, as milliseconds *)
Definition read_stamp (s : str) : option (Z * str) :=
  let '(m, km, s) := number 0 0 s in
  match after (txt " ") s with
  | Some s =>
      let '(sec, ks, s) := number 0 0 s in
      match after (txt ".") s with
      | Some s =>
          let '(f, k, s) := number 0 0 s in
          if (km =? 2)%nat && (ks =? 2)%nat then Some ((m * 60 + sec) * 1000 + f * 1000 / 10 ^ Z.of_nat k, s) else None
      | None => None
      end
  | None => None
  end.
Fixpoint no_blanks (s : str) : str := match s with 32 :: t => no_blanks t | _ => s end.
(** level, start, end, message *)
Definition read_line (s : str) : option (Z * Z * Z * str) :=
  let '(lvl, _, s) := number 0 0 (no_blanks s) in
  match after (txt "  ") s with
  | Some s =>
    match read_stamp s with
    | Some (a, s) =>
      match after (txt "   ") s with
      | Some s =>
        match read_stamp s with
        | Some (b, s) =>
          match after (txt "   " ++ [34]) s with
          | Some s => if last s 0 =? 34 then Some (lvl, a, b, removelast s) else None
          | None => None
          end
        | None => None
        end
      | None => None
      end
    | None => None
    end
  | None => None
  end.
(** a decimal number with a unit, in microseconds *)
Definition read_text (s : str) : option Z :=
  let '(a, _, s) := number 0 0 s in
  let '(b, k, s) := match after (txt ".") s with Some s' => number a 0 s' | None => (a, O, s) end in
  match after (txt " s") s, after (txt " ms") s, after ([32; MICRO] ++ txt "s") s with
  | Some [], _, _ => Some (b * 1000000 / 10 ^ Z.of_nat k)
  | _, Some [], _ => Some (b * 1000 / 10 ^ Z.of_nat k)
  | _, _, Some [] => Some (b / 10 ^ Z.of_nat k)
  | _, _, _ => None
  end.

(** ** Proofs *)

Definition stops (s : str) : Prop := match s with [] => True | c :: _ => ~ is_digit c end.
Lemma number_digits : forall ds acc k s, Forall is_digit ds -> stops s ->
  number acc k (ds ++ s) = (read_digits acc ds, (k + length ds)%nat, s).
Proof.
  induction ds as [|d ds IH]; intros acc k s H S.
  - cbn [app read_digits length]. replace (k + 0)%nat with k by lia. destruct s as [|c s]; [reflexivity|]. cbn [number].
    cbn [stops] in S. unfold is_digit in S. replace ((48 <=? c) && (c <=? 57)) with false by lia. reflexivity.
  - inversion H as [|? ? Hd Hds]; subst. unfold is_digit in Hd. cbn [app number read_digits length].
    replace ((48 <=? d) && (d <=? 57)) with true by lia. rewrite IH by auto. f_equal. f_equal. lia.
Qed.
Lemma zeros_ok : forall z, Forall is_digit (repeat 48 z) /\ read_digits 0 (repeat 48 z) = 0.
Proof.
  induction z as [|z [H1 H2]]; [split; [constructor|reflexivity]|].
  split; [constructor; [unfold is_digit; lia|exact H1]|exact H2].
Qed.
Lemma pad0_ok : forall w n, 0 <= n -> Forall is_digit (pad0 w n) /\ read_digits 0 (pad0 w n) = n.
Proof.
  intros w n Hn. destruct (show_ok n Hn) as [_ [H1 H2]]. destruct (zeros_ok (w - length (show n))) as [Z1 Z2]. unfold pad0.
  split; [apply Forall_app; auto|]. rewrite read_digits_app, Z2 by exact Z1. exact H2.
Qed.
Lemma number_pad0 : forall w n s, 0 <= n -> stops s -> number 0 0 (pad0 w n ++ s) = (n, length (pad0 w n), s).
Proof. intros w n s Hn S. destruct (pad0_ok w n Hn) as [H1 H2]. rewrite (number_digits _ _ _ _ H1 S), H2. reflexivity. Qed.
Lemma widths : forallb (fun f => ((100 <=? f) || (length (pad0 2 f) =? 2)%nat && (length (pad 2 f) =? 2)%nat) && (length (pad0 3 f) =? 3)%nat)
  (map Z.of_nat (seq 0 1000)) = true.
Proof. vm_compute. reflexivity. Qed.
Lemma width_all : forall f, 0 <= f < 1000 ->
  (f < 100 -> length (pad0 2 f) = 2%nat /\ length (pad 2 f) = 2%nat) /\ length (pad0 3 f) = 3%nat.
Proof.
  intros f H. pose proof widths as T. rewrite forallb_forall in T. specialize (T f).
  assert (I : In f (map Z.of_nat (seq 0 1000))) by (apply in_map_iff; exists (Z.to_nat f); split; [lia|]; apply in_seq; lia).
  specialize (T I). apply andb_prop in T. destruct T as [T1 T2]. apply Nat.eqb_eq in T2. split; [|exact T2]. intros L.
  replace (100 <=? f) with false in T1 by lia. cbn [orb] in T1. apply andb_prop in T1. destruct T1 as [A B].
  apply Nat.eqb_eq in A. apply Nat.eqb_eq in B. auto.
Qed.
Lemma after_app : forall p s, after p (p ++ s) = Some s.
Proof. induction p as [|a p IH]; intros s; [reflexivity|]. cbn [app after]. rewrite Z.eqb_refl. apply IH. Qed.

Definition in_hour (t : Z) : Z := t / 1000 mod 3600000.
Lemma in_hour_parts : forall t, (minute t * 60 + second t) * 1000 + millis t = in_hour t.
Proof.
  intros t. unfold minute, second, millis, in_hour.
  replace 1000000 with (1000 * 1000) by lia. replace 60000000 with (1000 * 60000) by lia. rewrite <- !Z.div_div by lia.
  set (u := t / 1000). replace 60000 with (1000 * 60) by lia. rewrite <- !Z.div_div by lia.
  replace 3600000 with (1000 * (60 * 60)) by lia. rewrite (Z.rem_mul_r u 1000 (60 * 60)) by lia.
  rewrite (Z.rem_mul_r (u / 1000) 60 60) by lia. lia.
Qed.
Lemma parts : forall t, 0 <= minute t < 60 /\ 0 <= second t < 60 /\ 0 <= millis t < 1000.
Proof. intros t. unfold minute, second, millis. repeat split; apply Z.mod_pos_bound; lia. Qed.
Lemma read_stamp_ok : forall t s, stops s -> read_stamp (stamp t ++ s) = Some (in_hour t, s).
Proof.
  intros t s S. unfold read_stamp, stamp. rewrite <- !app_assoc. destruct (parts t) as [P1 [P2 P3]].
  rewrite (number_pad0 2 (minute t)) by (try lia; cbn; unfold is_digit; lia).
  change (txt " ") with [32]. rewrite after_app.
  rewrite (number_pad0 2 (second t)) by (try lia; cbn; unfold is_digit; lia).
  change (txt ".") with [46]. rewrite after_app.
  rewrite (number_pad0 3 (millis t)) by (try lia; exact S).
  destruct (width_all (minute t) ltac:(lia)) as [W1 _]. destruct (W1 ltac:(lia)) as [-> _].
  destruct (width_all (second t) ltac:(lia)) as [W2 _]. destruct (W2 ltac:(lia)) as [-> _].
  destruct (width_all (millis t) ltac:(lia)) as [_ ->]. cbn [Nat.eqb andb]. change (10 ^ Z.of_nat 3) with 1000.
  rewrite Z.div_mul by lia. rewrite in_hour_parts. reflexivity.
Qed.
Lemma no_blanks_ok : forall w n s, 0 <= n -> no_blanks (pad w n ++ s) = show n ++ s.
Proof.
  intros w n s Hn. unfold pad. rewrite <- app_assoc. induction (w - length (show n))%nat as [|z IH]; [|exact IH].
  cbn [repeat app]. destruct (show_ok n Hn) as [H0 [H1 _]]. destruct (show n) as [|d ds]; [contradiction|].
  inversion H1 as [|? ? Hd _]; subst. unfold is_digit in Hd. cbn [app no_blanks].
  destruct d as [|p|p]; try lia. do 6 (destruct p as [p|p|]; try reflexivity; try lia).
Qed.

(** The line can be read: level and message come back, start and end modulo an hour, in milliseconds *)
Theorem C74_read : forall lvl a b m, 0 <= lvl -> read_line (log_line lvl a b m) = Some (lvl, a / 1000 mod 3600000, b / 1000 mod 3600000, m).
Proof.
  intros lvl a b m Hl. unfold read_line, log_line. rewrite no_blanks_ok by exact Hl.
  destruct (show_ok lvl Hl) as [_ [H1 H2]]. rewrite number_digits by (auto; cbn; unfold is_digit; lia). rewrite H2.
  rewrite after_app, read_stamp_ok by (cbn; unfold is_digit; lia). rewrite after_app, read_stamp_ok by (cbn; unfold is_digit; lia).
  rewrite app_assoc, after_app. rewrite last_last, removelast_last. reflexivity.
Qed.
Print Assumptions C74_read.

(** The columns of the log: up to level 99 the message begins at the same place in every line *)
Theorem C74_columns : forall lvl a b m, 0 <= lvl < 100 ->
  nth 28 (log_line lvl a b m) 0 = 34 /\ skipn 29 (log_line lvl a b m) = m ++ [34].
Proof.
  intros lvl a b m Hl. unfold log_line, stamp.
  destruct (parts a) as [A1 [A2 A3]]. destruct (parts b) as [B1 [B2 B3]].
  destruct (width_all lvl ltac:(lia)) as [L _]. destruct (L ltac:(lia)) as [_ L0].
  destruct (width_all (minute a) ltac:(lia)) as [L1 _]. destruct (L1 ltac:(lia)) as [L1' _].
  destruct (width_all (second a) ltac:(lia)) as [L2 _]. destruct (L2 ltac:(lia)) as [L2' _].
  destruct (width_all (millis a) ltac:(lia)) as [_ L3'].
  destruct (width_all (minute b) ltac:(lia)) as [L4 _]. destruct (L4 ltac:(lia)) as [L4' _].
  destruct (width_all (second b) ltac:(lia)) as [L5 _]. destruct (L5 ltac:(lia)) as [L5' _].
  destruct (width_all (millis b) ltac:(lia)) as [_ L6']. clear - L0 L1' L2' L3' L4' L5' L6'.
  change (txt "  ") with [32; 32]. change (txt "   ") with [32; 32; 32].
  destruct (pad 2 lvl) as [|x0 [|x1 [|? ?]]]; try discriminate.
  destruct (pad0 2 (minute a)) as [|y0 [|y1 [|? ?]]]; try discriminate.
  destruct (pad0 2 (second a)) as [|z0 [|z1 [|? ?]]]; try discriminate.
  destruct (pad0 3 (millis a)) as [|u0 [|u1 [|u2 [|? ?]]]]; try discriminate.
  destruct (pad0 2 (minute b)) as [|v0 [|v1 [|? ?]]]; try discriminate.
  destruct (pad0 2 (second b)) as [|w0 [|w1 [|? ?]]]; try discriminate.
  destruct (pad0 3 (millis b)) as [|t0 [|t1 [|t2 [|? ?]]]]; try discriminate.
  split; reflexivity.
Qed.
Print Assumptions C74_columns.

(** so two lines are the same exactly if level, message and both times in the hour are *)
Theorem C74_same : forall l1 a1 b1 m1 l2 a2 b2 m2, 0 <= l1 -> 0 <= l2 ->
  (log_line l1 a1 b1 m1 = log_line l2 a2 b2 m2 <->
   l1 = l2 /\ m1 = m2 /\ a1 / 1000 mod 3600000 = a2 / 1000 mod 3600000 /\ b1 / 1000 mod 3600000 = b2 / 1000 mod 3600000).
Proof.
  intros l1 a1 b1 m1 l2 a2 b2 m2 H1 H2. split.
  - intros E. apply (f_equal read_line) in E. rewrite !C74_read in E by assumption. injection E as -> -> -> ->. auto.
  - intros [-> [-> [Ea Eb]]]. unfold log_line.
    assert (S : forall a b, in_hour a = in_hour b -> stamp a = stamp b).
    { intros a b E. pose proof (in_hour_parts a) as Pa. pose proof (in_hour_parts b) as Pb.
      assert (R : forall t, 0 <= minute t < 60 /\ 0 <= second t < 60 /\ 0 <= millis t < 1000)
        by (intros t; unfold minute, second, millis; repeat split; apply Z.mod_pos_bound; lia).
      pose proof (R a). pose proof (R b). unfold stamp.
      replace (minute a) with (minute b) by lia. replace (second a) with (second b) by lia. replace (millis a) with (millis b) by lia. reflexivity. }
    rewrite (S a1 a2 Ea), (S b1 b2 Eb). reflexivity.
Qed.
Print Assumptions C74_same.

(** The difference of the two times, modulo an hour, is the time that passed, to a millisecond, if that is less than
    an hour but a millisecond *)
Theorem C74_elapsed : forall lvl a b m, 0 <= lvl -> a <= b < a + 3599999000 -> exists x y,
  read_line (log_line lvl a b m) = Some (lvl, x, y, m) /\ Z.abs (1000 * ((y - x) mod 3600000) - (b - a)) < 1000.
Proof.
  intros lvl a b m Hl H. exists (a / 1000 mod 3600000), (b / 1000 mod 3600000). split; [apply C74_read; exact Hl|].
  rewrite <- Zminus_mod. pose proof (Z.div_mod a 1000 ltac:(lia)). pose proof (Z.div_mod b 1000 ltac:(lia)).
  pose proof (Z.mod_pos_bound a 1000 ltac:(lia)). pose proof (Z.mod_pos_bound b 1000 ltac:(lia)).
  rewrite Z.mod_small by lia. lia.
Qed.
Print Assumptions C74_elapsed.

(** It is not if it took longer: an hour more is not seen, and just under an hour can look like nothing *)
Theorem C74_hour_refuted : forall lvl a b m,
  log_line lvl a (b + 3600000000) m = log_line lvl a b m /\
  log_line lvl (a + 3600000000) (b + 3600000000) m = log_line lvl a b m /\
  exists s, log_line lvl s (s + 3599999500) m = log_line lvl s s m.
Proof.
  assert (S : forall t, stamp (t + 3600000000) = stamp t).
  { intros t. unfold stamp, minute, second, millis.
    replace (t + 3600000000) with (t + 60 * 60000000) at 1 by lia. replace (t + 3600000000) with (t + 3600 * 1000000) at 1 by lia.
    replace (t + 3600000000) with (t + 3600000 * 1000) by lia. rewrite !Z.div_add by lia.
    replace (t / 60000000 + 60) with (t / 60000000 + 1 * 60) by lia. replace (t / 1000000 + 3600) with (t / 1000000 + 60 * 60) by lia.
    replace (t / 1000 + 3600000) with (t / 1000 + 3600 * 1000) by lia. rewrite !Z.mod_add by lia. reflexivity. }
  intros lvl a b m. unfold log_line. rewrite !S. split; [reflexivity|]. split; [reflexivity|].
  exists 500. replace (500 + 3599999500) with (0 + 3600000000) by lia. rewrite S. reflexivity.
Qed.
Print Assumptions C74_hour_refuted.

(** *** durations *)

Lemma mod3 : forall n, 0 <= n mod 1000 < 1000.
Proof. intros n. apply Z.mod_pos_bound. lia. Qed.
Definition frac_ok (f : Z) : bool :=
  let s := strip0 (pad0 3 f) in
  forallb (fun c => (48 <=? c) && (c <=? 57)) s && (read_digits 0 s * 10 ^ (3 - Z.of_nat (length s)) =? f) && (length s <=? 3)%nat &&
  (length (pad0 3 f) =? 3)%nat.
Lemma frac_table : forallb frac_ok (map Z.of_nat (seq 0 1000)) = true.
Proof. vm_compute. reflexivity. Qed.
Lemma frac_all : forall f, 0 <= f < 1000 -> frac_ok f = true.
Proof.
  intros f H. pose proof frac_table as T. rewrite forallb_forall in T. apply T. apply in_map_iff. exists (Z.to_nat f). split; [lia|]. apply in_seq. lia.
Qed.
Lemma read_digits_lin : forall s a, Forall is_digit s -> read_digits a s = a * 10 ^ Z.of_nat (length s) + read_digits 0 s.
Proof.
  induction s as [|c s IH]; intros a H; [cbn; lia|]. inversion H as [|? ? Hc Hs]; subst. unfold is_digit in Hc. cbn [read_digits length].
  replace ((48 <=? c) && (c <=? 57)) with true by lia. rewrite (IH (10 * a + (c - 48)) Hs), (IH (10 * 0 + (c - 48)) Hs).
  rewrite Nat2Z.inj_succ, Z.pow_succ_r by lia. lia.
Qed.
Lemma forallb_digits : forall s, forallb (fun c => (48 <=? c) && (c <=? 57)) s = true -> Forall is_digit s.
Proof. intros s H. rewrite forallb_forall in H. apply Forall_forall. intros c I. specialize (H c I). unfold is_digit. lia. Qed.

(** Below a second the text gives the duration exactly *)
Theorem C74_exact : forall up n, 0 <= n < 1000000 -> read_text (duration_text up n) = Some n.
Proof.
  intros up n H. unfold duration_text. destruct (n <? 1000) eqn:E.
  - unfold read_text. destruct (show_ok n ltac:(lia)) as [_ [H1 H2]].
    rewrite number_digits by (auto; cbn; unfold is_digit; lia). rewrite H2. cbn. rewrite Z.div_1_r. reflexivity.
  - replace (n <? 1000000) with true by lia. unfold display_ms, read_text. rewrite <- app_assoc.
    assert (P : 0 <= n / 1000) by (apply Z.div_pos; lia). destruct (show_ok _ P) as [_ [H1 H2]].
    pose proof (Z.div_mod n 1000 ltac:(lia)) as D. pose proof (mod3 n) as B. destruct (n mod 1000 =? 0) eqn:F.
    + rewrite number_digits by (auto; cbn; unfold is_digit; lia). rewrite H2. cbn. rewrite Z.div_1_r. f_equal. lia.
    + rewrite number_digits by (auto; cbn; unfold is_digit; lia). rewrite H2. rewrite <- app_assoc. change (txt ".") with [46]. rewrite after_app.
      pose proof (frac_all (n mod 1000) B) as T. unfold frac_ok in T. set (s := strip0 (pad0 3 (n mod 1000))) in *. cbv zeta in T.
      repeat (apply andb_prop in T; destruct T as [T ?K]). apply forallb_digits in T. apply Z.eqb_eq in K1. apply Nat.leb_le in K0. clearbody s.
      rewrite (number_digits s (n / 1000) 0 (txt " ms")) by (auto; cbn; unfold is_digit; lia). cbn [after txt list_ascii_of_string List.map]. cbn.
      rewrite (read_digits_lin s _ T). f_equal.
      assert (Q : 1000 = 10 ^ Z.of_nat (length s) * 10 ^ (3 - Z.of_nat (length s))) by (rewrite <- Z.pow_add_r by lia; replace (Z.of_nat (length s) + (3 - Z.of_nat (length s))) with 3 by lia; reflexivity).
      assert (W : 0 < 10 ^ Z.of_nat (length s)) by (apply Z.pow_pos_nonneg; lia).
      symmetry. apply Z.div_unique_exact; [lia|].
      set (A := 10 ^ Z.of_nat (length s)) in *. set (C := 10 ^ (3 - Z.of_nat (length s))) in *. set (v := read_digits 0 s) in *.
      set (q := n / 1000) in *. assert (N : A * n = A * (1000 * q) + v * (A * C)) by (rewrite D, <- K1; ring). rewrite N, <- Q. ring.
Qed.
Print Assumptions C74_exact.

(** and from a second on to half a millisecond *)
Theorem C74_rounded : forall up n, 1000000 <= n -> exists r, read_text (duration_text up n) = Some r /\ Z.abs (r - n) <= 500.
Proof.
  intros up n H. unfold duration_text. replace (n <? 1000) with false by lia. replace (n <? 1000000) with false by lia.
  unfold display_s. set (c := if (500 <? n mod 1000) || ((n mod 1000 =? 500) && up n) then 1 else 0). set (r := n / 1000 + c). exists (1000 * r).
  pose proof (Z.div_mod n 1000 ltac:(lia)) as D. pose proof (mod3 n) as B.
  assert (C : (c = 0 /\ n mod 1000 <= 500) \/ (c = 1 /\ 500 <= n mod 1000)).
  { unfold c. destruct (500 <? n mod 1000) eqn:E; cbn [orb]; [lia|]. destruct (n mod 1000 =? 500) eqn:E2; cbn [andb]; [destruct (up n); lia|lia]. }
  split; [|unfold r; lia]. assert (P : 0 <= r) by (unfold r; assert (0 <= n / 1000) by (apply Z.div_pos; lia); lia). clearbody r. clear C c.
  assert (P' : 0 <= r / 1000) by (apply Z.div_pos; lia). destruct (show_ok _ P') as [_ [H1 H2]].
  unfold read_text. rewrite <- app_assoc. rewrite number_digits by (auto; cbn; unfold is_digit; lia). rewrite H2.
  rewrite <- app_assoc. change (txt ".") with [46]. rewrite after_app.
  destruct (pad0_ok 3 (r mod 1000) ltac:(apply mod3)) as [Q1 Q2]. pose proof (frac_all (r mod 1000) (mod3 r)) as T. unfold frac_ok in T. cbv zeta in T.
  apply andb_prop in T. destruct T as [_ T]. apply Nat.eqb_eq in T.
  rewrite number_digits by (auto; cbn; unfold is_digit; lia). rewrite (read_digits_lin _ _ Q1), Q2, T.
  change (0 + 3)%nat with 3%nat. change (10 ^ Z.of_nat 3) with 1000. rewrite (Z.mul_comm (r / 1000)), <- Z.div_mod by lia.
  change (Some (r * 1000000 / 1000) = Some (1000 * r)). f_equal. symmetry. apply Z.div_unique_exact; lia.
Qed.
Print Assumptions C74_rounded.

(** The unit is the largest one of which the duration holds at least one, and the unit is where the text ends *)
Theorem C74_unit : forall up n, 0 <= n -> exists digits unit,
  duration_text up n = digits ++ [32] ++ unit /\ Forall (fun c => 48 <= c <= 57 \/ c = 46) digits /\
  unit = (if n <? 1000 then [MICRO; 115] else if n <? 1000 * 1000 then [109; 115] else [115]).
Proof.
  assert (W : forall s, Forall is_digit s -> Forall (fun c => 48 <= c <= 57 \/ c = 46) s)
    by (intros s; apply Forall_impl; intros c; unfold is_digit; lia).
  assert (K : forall n, 0 <= n -> Forall (fun c => 48 <= c <= 57 \/ c = 46) (show n)) by (intros n Hn; apply W; apply (show_ok n Hn)).
  intros up n Hn. unfold duration_text. change (1000 * 1000) with 1000000. assert (P : 0 <= n / 1000) by (apply Z.div_pos; lia).
  destruct (n <? 1000); [|destruct (n <? 1000000)].
  - exists (show n), [MICRO; 115]. split; [|split; [apply K; exact Hn|reflexivity]]. reflexivity.
  - exists (display_ms n), [109; 115]. split; [reflexivity|]. split; [|reflexivity]. unfold display_ms.
    apply Forall_app. split; [apply K; exact P|]. destruct (n mod 1000 =? 0); [constructor|]. constructor; [lia|].
    pose proof (frac_all (n mod 1000) (mod3 n)) as T. unfold frac_ok in T. cbv zeta in T.
    repeat (apply andb_prop in T; destruct T as [T ?T]). apply W. apply forallb_digits. exact T.
  - exists (display_s up n), [115]. split; [reflexivity|]. split; [|reflexivity]. unfold display_s.
    set (r := n / 1000 + _). assert (R : 0 <= r) by (unfold r; destruct (_ || _); lia). clearbody r.
    apply Forall_app. split; [apply K; apply Z.div_pos; lia|]. constructor; [lia|]. apply W. apply (pad0_ok 3 (r mod 1000)). apply mod3.
Qed.
Print Assumptions C74_unit.

(** ** Examples *)

Definition some_time : Z := 1700000000 * 1000000 + 605123456.
Example C74_read_ex : log_line 3 some_time (some_time + 2500) (txt "Maximum") = txt " 3  23 25.123   23 25.125   " ++ [34] ++ txt "Maximum" ++ [34].
Proof. vm_compute. reflexivity. Qed.
(** levels of three digits are not cut off *)
Example C74_level_ex : log_line 255 0 59999999 [] = txt "255  00 00.000   00 59.999   " ++ [34; 34].
Proof. vm_compute. reflexivity. Qed.
Example C74_text_ex : forall up, map (duration_text up) [7; 999; 1000; 1500; 20010; 999999; 1000499; 61234567] =
  [txt "7 " ++ [MICRO] ++ txt "s"; txt "999 " ++ [MICRO] ++ txt "s"; txt "1 ms"; txt "1.5 ms"; txt "20.01 ms"; txt "999.999 ms"; txt "1.000 s"; txt "61.235 s"].
Proof. intros up. vm_compute. reflexivity. Qed.
Example C74_tie_ex : forall up, duration_text up 1000500 = if up 1000500 then txt "1.001 s" else txt "1.000 s".
Proof. intros up. unfold duration_text, display_s. change (1000500 mod 1000) with 500. destruct (up 1000500); vm_compute; reflexivity. Qed.
