(** * Closing lemmas for Props_Pure.v *)
From Coq Require Import ZArith Bool QArith Qround String OrderedTypeEx List Permutation Sorting.Sorted Lia Lqa ZifyBool.
From Verif Require Import Frac Lists Spec_Pure FracProofs ListsProofs.
Import ListNotations.
Open Scope Z_scope.

Lemma c01_add x y : fden x <> 0 -> fden y <> 0 ->
  exists r, add x y = Some r /\ fden r <> 0 /\ (qval r == qval x + qval y)%Q.
Proof. intros H K. destruct (add_qval x y H K) as (r & ? & ? & ?). exists r. repeat split; auto; lia. Qed.
Lemma c01_sub x y : fden x <> 0 -> fden y <> 0 ->
  exists r, sub x y = Some r /\ fden r <> 0 /\ (qval r == qval x - qval y)%Q.
Proof. intros H K. destruct (sub_qval x y H K) as (r & ? & ? & ?). exists r. repeat split; auto; lia. Qed.
Lemma c01_mul x y : fden x <> 0 -> fden y <> 0 ->
  exists r, mul x y = Some r /\ fden r <> 0 /\ (qval r == qval x * qval y)%Q.
Proof. intros H K. destruct (mul_qval x y H K) as (r & ? & ? & ? & ?). exists r. repeat split; auto; lia. Qed.
Lemma c01_div x y : fden x <> 0 -> fden y <> 0 -> fnum y <> 0 ->
  exists r, div x y = Some r /\ fden r <> 0 /\ (qval r == qval x / qval y)%Q.
Proof. intros H K L. destruct (div_qval x y H K L) as (r & ? & ? & ? & ?). exists r. repeat split; auto; lia. Qed.
Lemma c01_mul_int x n : fden x <> 0 ->
  exists r, mul_int x n = Some r /\ fden r <> 0 /\ (qval r == qval x * inject_Z n)%Q.
Proof. intros H. destruct (mul_int_qval x n H) as (r & ? & ? & ?). exists r. repeat split; auto; lia. Qed.
Lemma c01_div_int x n : fden x <> 0 -> n <> 0 ->
  exists r, div_int x n = Some r /\ fden r <> 0 /\ (qval r == qval x / inject_Z n)%Q.
Proof. intros H K. destruct (div_int_qval x n H K) as (r & ? & ? & ?). exists r. repeat split; auto; lia. Qed.
Lemma c01_neg x : fden x <> 0 -> fden (neg x) <> 0 /\ (qval (neg x) == - qval x)%Q.
Proof. intros H. split; [exact H|now apply neg_qval]. Qed.

Lemma c02_comparisons x y : fden x <> 0 -> fden y <> 0 ->
  (exists b, gt x y = Some b /\ (b = true <-> (qval x > qval y)%Q)) /\
  (exists b, gte x y = Some b /\ (b = true <-> (qval x >= qval y)%Q)) /\
  (exists b, lt x y = Some b /\ (b = true <-> (qval x < qval y)%Q)) /\
  (exists b, lte x y = Some b /\ (b = true <-> (qval x <= qval y)%Q)) /\
  (exists b, equal x y = Some b /\ (b = true <-> (qval x == qval y)%Q)).
Proof.
  intros H K. repeat split; [apply gt_spec|apply gte_spec|apply lt_spec|apply lte_spec|apply equal_spec]; auto.
Qed.

Lemma c02_signs x : fden x <> 0 ->
  (is_zero x = true <-> (qval x == 0)%Q) /\
  (is_positive x = true <-> (qval x > 0)%Q) /\
  (is_negative x = true <-> (qval x < 0)%Q).
Proof. intros H. split; [now apply is_zero_spec|split; [now apply is_positive_spec|now apply is_negative_spec]]. Qed.

Lemma c03_truncation x : fden x <> 0 -> big_int x = Some (trunc (qval x)).
Proof.
  destruct x as [n d]; cbn [fden]; intros H. unfold big_int, quo. cbn [fnum fden].
  destruct (Z.eqb_spec d 0); [lia|]. f_equal.
  destruct (quot_trunc n d H) as [P N]. unfold trunc.
  destruct (Qle_bool 0 (qval (Fr n d))) eqn:E.
  - apply P. now apply Qle_bool_iff.
  - apply N. apply Qnot_lt_le. intro L. apply Qlt_le_weak in L. apply Qle_bool_iff in L. congruence.
Qed.

Lemma c03_int64 x : fden x <> 0 ->
  exists v, int64 x = Some v /\ - 2^63 <= v < 2^63 /\ v mod 2^64 = trunc (qval x) mod 2^64 /\
    (- 2^63 <= trunc (qval x) < 2^63 -> v = trunc (qval x)).
Proof.
  intros H. unfold int64. rewrite c03_truncation by auto. cbn [obind].
  eexists. split; [reflexivity|]. split; [apply wrap64_range|]. split; [apply wrap64_mod|apply wrap64_id].
Qed.

Lemma c04_null : parse_frac (print_frac None) = Some None.
Proof. reflexivity. Qed.

Lemma str_eq x y : String_as_OT.cmp x y = Eq <-> x = y.
Proof. apply String_as_OT.cmp_eq. Qed.
Lemma str_anti x y : String_as_OT.cmp y x = CompOpp (String_as_OT.cmp x y).
Proof. rewrite (String_as_OT.cmp_antisym y x). reflexivity. Qed.
Lemma str_trans x y z : String_as_OT.cmp x y = Lt -> String_as_OT.cmp y z = Lt -> String_as_OT.cmp x z = Lt.
Proof.
  intros H K. apply String_as_OT.cmp_lt in H, K. apply String_as_OT.cmp_lt.
  eapply String_as_OT.lt_trans; eauto.
Qed.

Lemma c05_add_sorted l x : str_sorted l ->
  str_sorted (fst (add_sorted String_as_OT.cmp l x)) /\
  (forall y, In y (fst (add_sorted String_as_OT.cmp l x)) <-> y = x \/ In y l) /\
  (snd (add_sorted String_as_OT.cmp l x) = true <-> ~ In x l).
Proof.
  intros H. pose proof (add_sorted_spec _ str_eq str_anti str_trans l x H) as K.
  destruct (add_sorted String_as_OT.cmp l x) as [l' b]. simpl. destruct K as (A & B & C & _). auto.
Qed.

Lemma c05_merge l1 l2 : str_sorted l1 -> str_sorted l2 ->
  str_sorted (merge_sorted String_as_OT.cmp l1 l2) /\
  forall y, In y (merge_sorted String_as_OT.cmp l1 l2) <-> In y l1 \/ In y l2.
Proof.
  intros H K. split; [apply (merge_sorted_sorted _ str_eq str_anti str_trans); auto|].
  intros y. apply (merge_in _ str_eq).
Qed.

Definition c05_remove_ordered l x := remove_ordered_spec _ str_eq l x.
Definition c05_remove_fast l x := remove_fast_spec _ str_eq l x.
Definition c05_add_onto_end l x := add_onto_end_spec _ str_eq l x.
Definition c05_contains l x := contains_spec _ str_eq l x.

Lemma sorted_nodup l : str_sorted l -> NoDup l.
Proof.
  induction 1 as [|a l S IH F]; constructor; auto.
  intro I. rewrite Forall_forall in F. apply F in I. revert I. apply (lt_irrefl _ str_eq).
Qed.

Lemma sorted_app_mid l1 (x : string) l2 : str_sorted (l1 ++ x :: l2) -> str_sorted (l1 ++ l2).
Proof.
  unfold str_sorted. induction l1 as [|a l1 IH]; simpl; intros H; inversion H; subst; auto.
  constructor; auto. rewrite Forall_forall in *. intros y Hy. apply H3.
  rewrite in_app_iff in *. simpl. tauto.
Qed.

Lemma c05_remove_sorted l x : str_sorted l ->
  str_sorted (fst (remove_ordered String_as_OT.cmp l x)) /\
  forall y, In y (fst (remove_ordered String_as_OT.cmp l x)) <-> In y l /\ y <> x.
Proof.
  intros H. destruct (c05_remove_ordered l x) as [[Hn E]|(l1 & l2 & -> & Hn & E)]; rewrite E; simpl.
  - split; auto. intros y. split; [|tauto]. intros Hy. split; auto. congruence.
  - split; [eapply sorted_app_mid; eauto|]. intros y. apply sorted_nodup in H.
    apply NoDup_remove_2 in H. rewrite !in_app_iff in *. simpl. split.
    + intros Hy. split; [tauto|]. intros ->. tauto.
    + intros [[|[|]] Hy]; auto. congruence.
Qed.

Lemma c06_fee_bounds amount rate max p c :
  fden rate <> 0 -> validate_tx_fee rate = true -> validate_max_fee max = true ->
  validate_split_ratios p c = Some true ->
  0 <= amount < 2^63 -> (qval rate * inject_Z amount < inject_Z (2^63))%Q ->
  exists fee, calculate_fee amount rate max p c = Some fee /\
    0 <= fee /\ (inject_Z fee <= qval rate * inject_Z amount)%Q /\ (max <> 0 -> fee <= max) /\
    (forall f, (inject_Z f <= qval rate * inject_Z amount)%Q -> (max <> 0 -> f <= max) -> f < fee + 100).
Proof.
  intros H1 H2 H3 H4 H5 H6.
  destruct (calculate_fee_spec _ _ _ _ _ H1 H2 H3 H4 H5 H6) as (fee & l & E & El & Pl & L0 & F).
  exists fee. split; auto. set (q := (qval rate * inject_Z amount)%Q) in *.
  set (limit := if max =? 0 then Qfloor q else Z.min max (Qfloor q)) in *.
  assert (M : 0 <= limit mod l < l) by (apply Z.mod_pos_bound; lia).
  assert (M2 : limit mod l <= limit) by (apply Z.mod_le; lia).
  assert (L1 : limit <= Qfloor q) by (unfold limit; destruct (Z.eqb_spec max 0); lia).
  split; [lia|]. split; [|split].
  - eapply Qle_trans; [|apply Qfloor_le]. rewrite <- Zle_Qle. lia.
  - intros Hm. unfold limit in *. destruct (Z.eqb_spec max 0); lia.
  - intros f Hf Hm. assert (f <= Qfloor q).
    { rewrite <- (Qfloor_Z f). now apply Qfloor_resp_le. }
    assert (f <= limit) by (unfold limit; destruct (Z.eqb_spec max 0); lia). lia.
Qed.

Lemma rate_le_1_fits amount rate : 0 <= amount < 2^63 -> (qval rate <= 1)%Q ->
  (qval rate * inject_Z amount < inject_Z (2^63))%Q.
Proof.
  intros H K. apply Qle_lt_trans with (1 * inject_Z amount)%Q.
  - apply Qmult_le_compat_r; auto. change 0%Q with (inject_Z 0). rewrite <- Zle_Qle. lia.
  - setoid_replace (1 * inject_Z amount)%Q with (inject_Z amount) by ring. rewrite <- Zlt_Qlt. lia.
Qed.

Lemma c06_fee_below_amount amount rate max p c :
  fden rate <> 0 -> validate_tx_fee rate = true -> validate_max_fee max = true ->
  validate_split_ratios p c = Some true ->
  0 <= amount < 2^63 -> (qval rate <= 1)%Q ->
  exists fee, calculate_fee amount rate max p c = Some fee /\ 0 <= fee <= amount.
Proof.
  intros H1 H2 H3 H4 H5 H6.
  destruct (c06_fee_bounds amount rate max p c H1 H2 H3 H4 H5 (rate_le_1_fits _ _ H5 H6)) as (fee & E & P & B & _ & _).
  exists fee. repeat split; auto. rewrite Zle_Qle. eapply Qle_trans; [exact B|].
  setoid_replace (inject_Z amount) with (1 * inject_Z amount)%Q at 2 by ring.
  apply Qmult_le_compat_r; auto. change 0%Q with (inject_Z 0). rewrite <- Zle_Qle. lia.
Qed.

Lemma c06_zero_denominator : exists rate,
  validate_tx_fee rate = true /\
  forall amount max p c, calculate_fee amount rate max p c = None.
Proof.
  exists (Fr 0 0). split; [reflexivity|]. intros. unfold calculate_fee, to_int64.
  destruct (is_int64 amount); reflexivity.
Qed.

Lemma c06_big_rate : exists amount rate max p c fee,
  fden rate <> 0 /\ validate_tx_fee rate = true /\ validate_max_fee max = true /\
  validate_split_ratios p c = Some true /\ 0 <= amount < 2^63 /\
  calculate_fee amount rate max p c = Some fee /\ fee < 0.
Proof.
  exists (2^62), (Fr 2 1), 10000000, (Fr 1 1), (Fr 0 1), (- 2^63).
  vm_compute. repeat split; try discriminate; auto.
Qed.

Lemma c07_fee_splits amount rate max p c fee :
  fden rate <> 0 -> validate_tx_fee rate = true -> validate_max_fee max = true ->
  validate_split_ratios p c = Some true ->
  0 <= amount < 2^63 -> (qval rate * inject_Z amount < inject_Z (2^63))%Q ->
  calculate_fee amount rate max p c = Some fee ->
  exists proposer company burn,
    split_fee fee p c = Some (proposer, company, burn) /\
    0 <= proposer /\ 0 <= company /\ 0 <= burn /\
    proposer + company + burn = fee /\
    (inject_Z proposer == qval p * inject_Z fee)%Q /\ (inject_Z company == qval c * inject_Z fee)%Q.
Proof.
  intros H1 H2 H3 H4 H5 H6 H7.
  destruct (calculate_fee_spec _ _ _ _ _ H1 H2 H3 H4 H5 H6) as (fee' & l & E & El & Pl & L0 & F).
  rewrite H7 in E. injection E as E. rewrite <- E in F. clear E fee'.
  destruct (c06_fee_bounds _ _ _ _ _ H1 H2 H3 H4 H5 H6) as (fee' & E' & P & B & _ & _).
  rewrite H7 in E'. injection E' as E'. rewrite <- E' in P, B. clear E' fee'.
  assert (fee < 2^63) by (rewrite Zlt_Qlt; eapply Qle_lt_trans; eauto).
  destruct (split_fee_spec fee p c l H4 El) as (x & y & z & S & ?).
  - lia.
  - rewrite F. set (limit := if max =? 0 then _ else _).
    exists (limit / l). rewrite (Z.div_mod limit l) at 1 by lia. lia.
  - exists x, y, z. tauto.
Qed.
