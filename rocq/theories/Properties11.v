(** Property C47: how many additions and bootstraps a multiplication by a known
    integer takes, and the experiment that counts them *)
From Verif Require Import Base Backend Words Encryption Params Pbs Addition Naf Asc AscTable ScalarMul
  Demos Spec BaseProofs EncProofs NafProofs ScalarProofs ShapeProofs CountProofs Instances Properties2.
From Coq Require Import ZifyBool ZifyNat.

(* ------------------------------------------------------------------ *)
(** ** C47 *)

(** operations of the trait that a log starts; the log of a multiplication
    by a known integer starts itself and its additions *)
Definition operations (t : list event) : nat := starts t.
Example operations_example : operations [EStart; EStart; EPbs; EFinish; EEnter; EStart; EExit] = 3%nat.
Proof. reflexivity. Qed.

(** every shipped chain needs fewer additions than every signed-digit form of
    its value has non-zero digits *)
Theorem C47_chains : forall k c w, In (k, c) shipped_asc -> digits w -> value w = k ->
  (length c < weight w)%nat.
Proof.
  intros k c w Hin Hd Hv. pose proof (proj1 (forallb_forall _ _) shipped_below _ Hin) as H.
  cbn [fst snd] in H. apply Nat.ltb_lt in H. pose proof (minw_least w Hd). rewrite Hv in *. lia.
Qed.
(** 3 additions against 6 non-zero digits *)
Lemma asc_get_in : forall m k c, fst (asc_get m k) = Ok c -> In (k, c) m.
Proof.
  induction m as [|[k' c'] m IH]; intros k c; cbn [asc_get]; [discriminate|].
  destruct (k =? k') eqn:E; [|right; auto]. cbn [fst ret]. intros H. inversion H; subst.
  apply Z.eqb_eq in E. subst. left; auto.
Qed.
Example C47_chains_example : exists c, In (1365, c) shipped_asc /\ length c = 3%nat /\
  let w := [1;0;1;0;1;0;1;0;1;0;1] in digits w /\ value w = 1365 /\ weight w = 6%nat.
Proof.
  set (c := match fst (asc_get shipped_asc 1365) with Ok c => c | _ => [] end).
  assert (E : fst (asc_get shipped_asc 1365) = Ok c) by (vm_compute; reflexivity).
  assert (L : length c = 3%nat) by (vm_compute; reflexivity).
  exists c. split; [apply asc_get_in, E|]. split; [exact L|]. cbv zeta. split; [|split; reflexivity].
  unfold digits, digit. repeat (apply Forall_cons; [lia|]). apply Forall_nil.
Qed.

(** never more additions than in adding the shifted copies of x, one for each
    non-zero digit of the recoding: [weight kv - 1]. Holds however the run ends. *)
Theorem C47_additions : forall B pc k (x : ciphertext B) kv, asc_12 pc = shipped_asc ->
  2 <= Z.abs k <= I32_MAX -> fst (koyama_tsuruoka_vec (ovf pc) (Z.abs k)) = Ok kv ->
  (operations (snd (pa_scalar_mul pc k x)) <= weight kv)%nat.
Proof.
  intros B pc k x kv HT Hk Hkv. unfold I32_MAX in Hk.
  pose proof (wind_shifts_ok (ovf pc) (Z.abs k) ASC_BITLEN ltac:(lia) ltac:(unfold ASC_BITLEN; lia)) as W.
  assert (Hws : exists ws, fst (wind_shifts (ovf pc) (Z.abs k) ASC_BITLEN) = Ok ws).
  { unfold wind_shifts. rewrite fst_bind, Hkv.
    pose proof (kt_ok (ovf pc) (Z.abs k) ltac:(lia)) as K. unfold ovfP in K. rewrite Hkv in K.
    destruct K as [K1 [K2 [K3 K4]]].
    destruct (wind_loop_ok (S (length kv)) (ovf pc) kv ASC_BITLEN 0) as [ws [E _]]; auto; try lia.
    - unfold ASC_BITLEN; lia.
    - eauto. }
  destruct Hws as [ws Hws].
  destruct (stP_scalar pc k x ws) as [H _]; [unfold I32_MAX; lia|exact Hws|].
  unfold operations. rewrite HT in H. etransitivity; [exact H|].
  apply (planned_below (ovf pc) (Z.abs k) kv ws); auto. lia.
Qed.

(** the exact number: one chain for every different window, and one addition
    between neighbouring windows *)
Theorem C47_exact : forall B pc k (x z : ciphertext B), 2 <= Z.abs k <= I32_MAX ->
  fst (pa_scalar_mul pc k x) = Ok z ->
  exists ws keys, fst (wind_shifts (ovf pc) (Z.abs k) ASC_BITLEN) = Ok ws /\
    NoDup keys /\ (forall j, In j keys <-> exists w, In w ws /\ j = Z.abs (fst w)) /\
    operations (snd (pa_scalar_mul pc k x)) =
      (1 + list_sum (map (chain_len (asc_12 pc)) keys) + (length ws - 1))%nat.
Proof.
  intros B pc k x z Hk Hz.
  assert (Hws : exists ws, fst (wind_shifts (ovf pc) (Z.abs k) ASC_BITLEN) = Ok ws).
  { unfold pa_scalar_mul in Hz. rewrite fst_analysed in Hz. unfold scalar_mul_impl in Hz. cbv zeta in Hz.
    assert (Hc : chk_i32 (ovf pc) (Z.abs k) = ret (Z.abs k)).
    { unfold chk_i32, in_i32. unfold I32_MIN, I32_MAX in *.
      replace (_ && _) with true by (symmetry; apply andb_true_iff; split; apply Z.leb_le; lia). reflexivity. }
    rewrite Hc, ret_bind in Hz. unfold u32 in Hz. unfold I32_MAX in Hk. rewrite Z.mod_small in Hz by lia.
    replace (Z.abs k =? 0) with false in Hz by (symmetry; apply Z.eqb_neq; lia).
    replace (Z.abs k =? 1) with false in Hz by (symmetry; apply Z.eqb_neq; lia).
    rewrite fst_bind in Hz. destruct (fst (wind_shifts (ovf pc) (Z.abs k) ASC_BITLEN)); try discriminate. eauto. }
  destruct Hws as [ws Hws]. exists ws, (window_keys ws). split; auto. split; [apply window_keys_nodup|].
  split.
  - intros j. unfold window_keys. rewrite window_keys_in. split.
    + intros [[]|[w [H1 H2]]]. exists w. auto.
    + intros [w [H1 H2]]. right. exists w. auto.
  - destruct (stP_scalar pc k x ws Hk Hws) as [_ H]. unfold operations. rewrite (H z Hz). unfold planned_adds. lia.
Qed.

(** at most 14 additions, and the bootstraps that go with them *)
Theorem C47_bound : forall B pc k (x z : ciphertext B), asc_12 pc = shipped_asc ->
  2 <= Z.abs k <= I32_MAX -> fst (pa_scalar_mul pc k x) = Ok z ->
  let adds := (operations (snd (pa_scalar_mul pc k x)) - 1)%nat in
  (adds <= 14 /\ npbs (snd (pa_scalar_mul pc k x)) <= 2 * adds * (length x + 50))%nat.
Proof.
  intros B pc k x z HT Hk Hz adds.
  destruct (C47_exact B pc k x z Hk Hz) as [ws [keys [Hws _]]].
  destruct (stP_scalar pc k x ws Hk Hws) as [_ H]. specialize (H z Hz).
  assert (Ha : adds = planned_adds (asc_12 pc) ws) by (unfold adds, operations; rewrite H; lia).
  rewrite Ha. split.
  - rewrite HT. apply (planned_max (ovf pc) (Z.abs k) ws); auto. unfold I32_MAX in Hk. lia.
  - assert (Hg : forallb (fun kc => (list_max (chain_grow (snd kc) [0%nat]) <=? 16)%nat) (asc_12 pc) = true)
      by (rewrite HT; vm_compute; reflexivity).
    pose proof (scalar_mul_cnt pc k x ws 16 Hk Hg Hws z Hz) as Hn. cbv beta in Hn. lia.
Qed.

(** 0, 1 and -1 take no operation and no bootstrap *)
Theorem C47_trivial : forall B pc k (x : ciphertext B), Z.abs k <= 1 ->
  snd (pa_scalar_mul pc k x) = [EStart; EFinish].
Proof.
  intros B pc k x Hk. assert (k = 0 \/ k = 1 \/ k = -1) as [ -> | [ -> | -> ] ] by lia; reflexivity.
Qed.

(** 31 bits times 4 words: three windows, two of them equal; 7 additions
    where the 16 non-zero digits would need 15 *)
Example C47_example :
  let k := 0x55555555 in let r := pa_scalar_mul (cloud_100 true) k (xenc 5 4) in
  2 <= Z.abs k <= I32_MAX /\ xdec r = Ok (5 * k) /\
  fst (wind_shifts true k ASC_BITLEN) = Ok [(1365, 0%nat); (1365, 12%nat); (85, 24%nat)] /\
  operations (snd r) = 8%nat /\ npbs (snd r) = 126%nat /\
  exists kv, fst (koyama_tsuruoka_vec true k) = Ok kv /\ weight kv = 16%nat.
Proof.
  cbv zeta. split; [unfold I32_MAX; lia|]. split; [vm_compute; reflexivity|].
  split; [vm_compute; reflexivity|]. split; [vm_compute; reflexivity|]. split; [vm_compute; reflexivity|].
  eexists. split; [vm_compute; reflexivity|reflexivity].
Qed.

(* ------------------------------------------------------------------ *)
(** ** The experiment (src/experiments.rs) *)

(** what the unchecked build prints: 6956 additions with shifted copies, 5558
    with chains, for 1792 different windows *)
Definition experiment_check (r : M (list (Z * (Z * nat)) * Z * nat)) : bool :=
  match fst r with
  | Ok (m, nai, opt) => (length m =? 1792)%nat && (nai =? 6956) && (Z.of_nat opt =? 5558)
  | _ => false
  end.
Lemma experiment_check_ok : forall r, experiment_check r = true ->
  exists m nai opt, fst r = Ok (m, nai, opt) /\ length m = 1792%nat /\ nai = 6956 /\ Z.of_nat opt = 5558.
Proof.
  intros r H. unfold experiment_check in H. destruct (fst r) as [[[m nai] opt]|e|e]; try discriminate.
  exists m, nai, opt. split; [reflexivity|]. lia.
Qed.
Lemma experiment_checked : experiment_check (avg_adds false shipped_asc) = true.
Proof. vm_compute. reflexivity. Qed.
Theorem C47_experiment : exists m nai opt, fst (avg_adds false shipped_asc) = Ok (m, nai, opt) /\
  length m = 1792%nat /\ nai = 6956 /\ Z.of_nat opt = 5558.
Proof. exact (experiment_check_ok _ experiment_checked). Qed.

(** a checked build never gets to the end *)
Theorem C47_experiment_checked : fst (avg_adds true shipped_asc) = Panic P_overflow.
Proof. vm_compute. reflexivity. Qed.

Print Assumptions C47_chains.
Print Assumptions C47_additions.
Print Assumptions C47_exact.
Print Assumptions C47_bound.
Print Assumptions C47_trivial.
Print Assumptions C47_experiment.
Print Assumptions C47_experiment_checked.
