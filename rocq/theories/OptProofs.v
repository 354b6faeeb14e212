(** The shipped addition chains are shortest: a search over chains with shifts
    below 13, and the reduction of all chains to it *)
From Verif Require Import Base Params AscTable ChainSpec BaseProofs.
From Coq Require Import ZifyBool ZifyNat.

(** a map from positive numbers, as a binary tree *)
Inductive tree := Leaf | Node (l : tree) (v : nat) (r : tree).
Fixpoint look (p : positive) (t : tree) : nat :=
  match t with
  | Leaf => 0%nat
  | Node l v r => match p with xH => v | xO p => look p l | xI p => look p r end
  end.
Fixpoint put (p : positive) (n : nat) (t : tree) : tree :=
  match p, t with
  | xH, Leaf => Node Leaf n Leaf
  | xH, Node l _ r => Node l n r
  | xO p, Leaf => Node (put p n Leaf) 0 Leaf
  | xO p, Node l v r => Node (put p n l) v r
  | xI p, Leaf => Node Leaf 0 (put p n Leaf)
  | xI p, Node l v r => Node l v (put p n r)
  end.
Definition lengths : tree :=
  Eval vm_compute in
  fold_right (fun e t => match fst e with Zpos p => put p (length (snd e)) t | _ => t end) Leaf shipped_asc.
(** length of the shipped chain of [w]; 0 for what is not in the table *)
Definition cost (w : Z) : nat := match w with Zpos p => look p lengths | _ => 0%nat end.

Lemma cost_chunk : forallb (fun e => (cost (fst e) =? length (snd e))%nat && (length (snd e) <=? 4)%nat) shipped_asc = true.
Proof. vm_compute. reflexivity. Qed.
Lemma cost_ok : forall k c, In (k, c) shipped_asc -> cost k = length c /\ (length c <= 4)%nat.
Proof.
  intros k c H. pose proof (proj1 (forallb_forall _ _) cost_chunk _ H) as E. cbn [fst snd] in E. lia.
Qed.

(** one further step from [l], the shift below 13, all up to sign *)
Definition nexts (l : list Z) : list Z :=
  flat_map (fun y => flat_map (fun s => let t := Z.shiftl y s in
    flat_map (fun x => [x + t; Z.abs (x - t)]) l) [0; 1; 2; 3; 4; 5; 6; 7; 8; 9; 10; 11; 12]) l.

Inductive bchain : list Z -> Prop :=
| bc_one : bchain [1]
| bc_next : forall l w, bchain l -> In w (nexts l) -> bchain (w :: l).

Lemma nexts_in : forall l x y s e, In x l -> In y l -> 0 <= s < 13 -> (e = 1 \/ e = -1) ->
  (forall z, In z l -> 0 <= z) -> In (Z.abs (x + e * (2 ^ s * y))) (nexts l).
Proof.
  intros l x y s e Hx Hy Hs He Hp. unfold nexts. apply in_flat_map. exists y. split; auto.
  apply in_flat_map. exists s. split.
  { cbn [In]. lia. }
  apply in_flat_map. exists x. split; auto.
  rewrite Z.shiftl_mul_pow2 by lia. pose proof (Hp _ Hx). pose proof (Hp _ Hy).
  assert (0 < 2 ^ s) by (apply Z.pow_pos_nonneg; lia).
  destruct He as [-> | ->].
  - left. rewrite Z.abs_eq; nia.
  - right. left. f_equal. ring.
Qed.
Lemma bchain_pos : forall l, bchain l -> forall z, In z l -> 0 <= z.
Proof.
  intros l H. induction H as [|l w H IH Hw]; intros z Hz.
  - destruct Hz as [<-|[]]. lia.
  - destruct Hz as [<-|Hz]; auto. unfold nexts in Hw.
    apply in_flat_map in Hw. destruct Hw as [y [Hy Hw]].
    apply in_flat_map in Hw. destruct Hw as [s [Hs Hw]].
    apply in_flat_map in Hw. destruct Hw as [x [Hx Hw]].
    assert (0 <= s) by (cbn [In] in Hs; lia).
    assert (0 < 2 ^ s) by (apply Z.pow_pos_nonneg; lia).
    rewrite Z.shiftl_mul_pow2 in Hw by lia. pose proof (IH _ Hx). pose proof (IH _ Hy).
    destruct Hw as [<-|[<-|[]]]; nia.
Qed.

(* ------------------------------------------------------------------ *)
(** ** The search *)

Definition all_nexts (f : Z -> bool) (l : list Z) : bool := forallb f (nexts l).
Lemma all_nexts_in : forall f l w, all_nexts f l = true -> In w (nexts l) -> f w = true.
Proof. intros f l w H. apply (proj1 (forallb_forall _ _) H). Qed.

Definition at_most (n : nat) (w : Z) : bool := (cost w <=? n)%nat.
(** the same modulo 2^13, for either sign *)
Definition at_most_mod (n : nat) (w : Z) : bool :=
  at_most n (w mod 8192) && at_most n ((- w) mod 8192).

Lemma search_1 : all_nexts (at_most 1) [1] = true.
Proof. vm_compute. reflexivity. Qed.
Lemma search_2 : all_nexts (fun a => all_nexts (at_most 2) [a; 1]) [1] = true.
Proof. vm_compute. reflexivity. Qed.
Lemma search_3 : all_nexts (fun a => all_nexts (fun b => all_nexts (at_most 3) [b; a; 1]) [a; 1]) [1] = true.
Proof. vm_compute. reflexivity. Qed.
Lemma search_mod_2 : all_nexts (at_most_mod 2) [1] = true.
Proof. vm_compute. reflexivity. Qed.
Lemma search_mod_3 : all_nexts (fun a => all_nexts (at_most_mod 3) [a; 1]) [1] = true.
Proof. vm_compute. reflexivity. Qed.

(* ------------------------------------------------------------------ *)
(** ** From all chains to the search *)

(** equal up to sign, modulo [n] *)
Definition same (n w z : Z) : Prop := (n | z - w) \/ (n | z + w).

Lemma same_refl : forall n w, same n w w.
Proof. intros n w. left. rewrite Z.sub_diag. apply Z.divide_0_r. Qed.
Lemma abs_sign : forall x, exists e, (e = 1 \/ e = -1) /\ x = e * Z.abs x.
Proof. intros x. destruct (Z.abs_spec x) as [[_ E]|[_ E]]; rewrite E; [exists 1|exists (-1)]; lia. Qed.
Lemma same_sign : forall n w z, same n w z <-> exists e, (e = 1 \/ e = -1) /\ (n | z - e * w).
Proof.
  intros n w z. split.
  - intros [H|H]; [exists 1|exists (-1)]; split; auto.
    + replace (z - 1 * w) with (z - w) by ring. exact H.
    + replace (z - -1 * w) with (z + w) by ring. exact H.
  - intros [e [[-> | ->] H]]; [left|right].
    + replace (z - w) with (z - 1 * w) by ring. exact H.
    + replace (z + w) with (z - -1 * w) by ring. exact H.
Qed.

(** every step either has its shift below 13, or is no step modulo 2^13 *)
Lemma chain_cases : forall vals, chain vals ->
  (exists l, bchain l /\ length l = length vals /\ forall z, In z vals -> In (Z.abs z) l) \/
  (exists l, bchain l /\ (length l < length vals)%nat /\ forall z, In z vals -> exists w, In w l /\ same 8192 w z).
Proof.
  intros vals H. induction H as [|vals x y s e f H IH Hx Hy Hs He Hf].
  { left. exists [1]. split; [constructor|]. split; auto. intros z [<-|[]]. left. reflexivity. }
  assert (Hbig : 13 <= s -> (8192 | f * (2 ^ s * y))).
  { intros Hb. replace s with (13 + (s - 13)) by lia. rewrite Z.pow_add_r by lia.
    exists (f * 2 ^ (s - 13) * y). change (2 ^ 13) with 8192. ring. }
  destruct IH as [[l [Hl [El Hin]]]|[l [Hl [El Hin]]]].
  - destruct (Z.lt_ge_cases s 13) as [Hsm|Hb].
    + left. exists (Z.abs (e * x + f * (2 ^ s * y)) :: l).
      assert (Hw : In (Z.abs (e * x + f * (2 ^ s * y))) (nexts l)).
      { destruct (abs_sign x) as [ex [Hex Ex]]. destruct (abs_sign y) as [ey [Hey Ey]].
        replace (Z.abs (e * x + f * (2 ^ s * y)))
          with (Z.abs (Z.abs x + (e * ex * f * ey) * (2 ^ s * Z.abs y))).
        2:{ assert (Et : 2 ^ s * y = ey * (2 ^ s * Z.abs y)) by (rewrite Ey at 1; ring). rewrite Et.
            replace (e * x) with (e * (ex * Z.abs x)) by (rewrite <- Ex; reflexivity).
            generalize (2 ^ s * Z.abs y) (Z.abs x). intros t u.
            destruct He as [-> | ->], Hf as [-> | ->], Hex as [-> | ->], Hey as [-> | ->]; lia. }
        apply nexts_in; auto; try lia. apply bchain_pos; auto. }
      split; [constructor; auto|]. split; [cbn [length]; lia|].
      intros z [<-|Hz]; [left; reflexivity|right; auto].
    + right. exists l. split; auto. split; [cbn [length]; lia|].
      intros z [<-|Hz].
      * exists (Z.abs x). split; auto. apply same_sign. destruct (abs_sign x) as [ex [Hex Ex]].
        exists (e * ex). split; [lia|]. rewrite Ex at 1.
        replace (e * (ex * Z.abs x) + f * (2 ^ s * y) - e * ex * Z.abs x) with (f * (2 ^ s * y)) by ring. auto.
      * exists (Z.abs z). split; auto. apply same_sign. destruct (abs_sign z) as [ez [Hez Ez]].
        exists ez. split; auto. rewrite <- Ez, Z.sub_diag. apply Z.divide_0_r.
  - right. destruct (Hin _ Hx) as [wx [Hwx Sx]]. destruct (Hin _ Hy) as [wy [Hwy Sy]].
    apply same_sign in Sx. destruct Sx as [ex [Hex Dx]]. apply same_sign in Sy. destruct Sy as [ey [Hey Dy]].
    destruct (Z.lt_ge_cases s 13) as [Hsm|Hb].
    + exists (Z.abs (wx + (e * ex * f * ey) * (2 ^ s * wy)) :: l).
      split; [constructor; auto; apply nexts_in; auto; try lia; apply bchain_pos; auto|].
      split; [cbn [length]; lia|].
      intros z [<-|Hz].
      2:{ destruct (Hin _ Hz) as [w [Hw Sw]]. exists w. split; [right|]; auto. }
      eexists. split; [left; reflexivity|]. apply same_sign.
      set (r := wx + e * ex * f * ey * (2 ^ s * wy)).
      destruct (abs_sign r) as [er [Her Er]]. exists (e * ex * er). split; [lia|].
      replace (e * ex * er * Z.abs r) with (e * ex * (er * Z.abs r)) by ring. rewrite <- Er. unfold r.
      replace (e * x + f * (2 ^ s * y) - e * ex * (wx + e * ex * f * ey * (2 ^ s * wy)))
        with (e * (x - ex * wx) + f * 2 ^ s * (y - ey * wy)).
      * apply Z.divide_add_r; apply Z.divide_mul_r; auto.
      * generalize (2 ^ s). intros p. destruct He as [-> | ->], Hex as [-> | ->]; ring.
    + exists l. split; auto. split; [cbn [length]; lia|].
      intros z [<-|Hz]; [|apply Hin; auto].
      exists wx. split; auto. apply same_sign. exists (e * ex). split; [lia|].
      replace (e * x + f * (2 ^ s * y) - e * ex * wx) with (e * (x - ex * wx) + f * (2 ^ s * y)) by ring.
      apply Z.divide_add_r; [apply Z.divide_mul_r|]; auto.
Qed.

Lemma at_most_le : forall n m w, (n <= m)%nat -> at_most n w = true -> at_most m w = true.
Proof. unfold at_most. intros n m w H E. lia. Qed.
Lemma mod_le : forall n m w, (n <= m)%nat -> at_most_mod n w = true -> at_most_mod m w = true.
Proof.
  unfold at_most_mod. intros n m w H E. apply andb_prop in E. destruct E as [E1 E2].
  rewrite (at_most_le n m), (at_most_le n m); auto.
Qed.

(** the search, as a statement about chains with small shifts *)
Lemma bchain_cost : forall l, bchain l -> (length l <= 4)%nat -> forall w, In w l -> at_most (length l - 1) w = true.
Proof.
  intros l H Hl w Hw. destruct H as [|l b H Hb]; [destruct Hw as [<-|[]]; reflexivity|].
  destruct H as [|l a H Ha].
  { destruct Hw as [<-|[<-|[]]]; [|reflexivity]. exact (all_nexts_in _ _ _ search_1 Hb). }
  destruct H as [|l c H Hc].
  { destruct Hw as [<-|[<-|[<-|[]]]]; [| |reflexivity].
    - exact (all_nexts_in _ _ _ (all_nexts_in _ _ _ search_2 Ha) Hb).
    - apply (at_most_le 1); [cbn; lia|]. exact (all_nexts_in _ _ _ search_1 Ha). }
  destruct H as [|l d H Hd]; [|destruct H; cbn [length] in Hl; lia].
  destruct Hw as [<-|[<-|[<-|[<-|[]]]]]; [| | |reflexivity].
  - exact (all_nexts_in _ _ _ (all_nexts_in _ _ _ (all_nexts_in _ _ _ search_3 Hc) Ha) Hb).
  - apply (at_most_le 2); [cbn; lia|]. exact (all_nexts_in _ _ _ (all_nexts_in _ _ _ search_2 Hc) Ha).
  - apply (at_most_le 1); [cbn; lia|]. exact (all_nexts_in _ _ _ search_1 Hc).
Qed.
Lemma bchain_cost_mod : forall l, bchain l -> (length l <= 3)%nat -> forall w, In w l -> at_most_mod (length l) w = true.
Proof.
  intros l H Hl w Hw. destruct H as [|l b H Hb]; [destruct Hw as [<-|[]]; reflexivity|].
  destruct H as [|l a H Ha].
  { destruct Hw as [<-|[<-|[]]]; [|reflexivity]. exact (all_nexts_in _ _ _ search_mod_2 Hb). }
  destruct H as [|l c H Hc]; [|destruct H; cbn [length] in Hl; lia].
  destruct Hw as [<-|[<-|[<-|[]]]]; [| |reflexivity].
  - exact (all_nexts_in _ _ _ (all_nexts_in _ _ _ search_mod_3 Ha) Hb).
  - apply (mod_le 2); [cbn; lia|]. exact (all_nexts_in _ _ _ search_mod_2 Ha).
Qed.

Lemma chain_nonempty : forall vals, chain vals -> (1 <= length vals)%nat.
Proof. intros vals H. destruct H; cbn [length]; lia. Qed.
Lemma bchain_nonempty : forall l, bchain l -> (1 <= length l)%nat.
Proof. intros vals H. destruct H; cbn [length]; lia. Qed.

Lemma chain_cost : forall vals k, chain vals -> In k vals \/ In (- k) vals -> 0 < k < 4096 ->
  (length vals <= 4)%nat -> (cost k < length vals)%nat.
Proof.
  intros vals k H Hin Hk Hl. pose proof (chain_nonempty _ H) as Hne.
  assert (Hz : exists z, In z vals /\ Z.abs z = k) by (destruct Hin; eexists; split; eauto; lia).
  destruct Hz as [z [Hz Ez]].
  destruct (chain_cases _ H) as [[l [Bl [El Hl']]]|[l [Bl [El Hl']]]].
  - pose proof (bchain_cost l Bl ltac:(lia) _ (Hl' _ Hz)) as E. rewrite Ez in E. unfold at_most in E.
    rewrite El in E. lia.
  - destruct (Hl' _ Hz) as [w [Hw Sw]].
    pose proof (bchain_cost_mod l Bl ltac:(lia) _ Hw) as E. unfold at_most_mod, at_most in E.
    apply andb_prop in E. destruct E as [E1 E2].
    assert (Hd : exists e, (e = 1 \/ e = -1) /\ (8192 | k - e * w)).
    { apply same_sign in Sw. destruct Sw as [e [He D]].
      destruct (Z.abs_spec z) as [[_ A]|[_ A]].
      - exists e. split; auto. replace k with z by lia. exact D.
      - exists (- e). split; [lia|]. replace (k - - e * w) with (- (z - e * w)) by lia. apply Z.divide_opp_r. exact D. }
    destruct Hd as [e [He [q D]]].
    assert (k = (e * w) mod 8192).
    { apply (Z.mod_unique_pos _ _ (- q)); lia. }
    destruct He as [-> | ->].
    + replace (1 * w) with w in * by ring. rewrite <- H0 in E1. lia.
    + replace (-1 * w) with (- w) in * by ring. rewrite <- H0 in E2. lia.
Qed.
