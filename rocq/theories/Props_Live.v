(** * The chain does what it is asked: C92-C95 *)
From Coq Require Import QArith.
From Verif Require Import Schedule Blocks Spec_Schedule Spec_Pure PureLemmas LiveRevoke Props_Network Props_Delegating Spec_Live Witness.
Open Scope Z_scope.

(** ** How to see that a concrete state is in order *)
Definition healthy_check (s : St) : Prop :=
  Forall (fun a => (0 <= status s a <= 9) /\
    Forall (fun x => (2 <= List.length (r_cnt (ref_get s x)))%nat) (active_referrals s a) /\
    Forall (fun n => 0 <= stored_upto s a n /\ stored_upto s a n < 2 ^ 63) (seq 0 11) /\
    stored_deleg s a 0 = delegation s a) (members s) /\
  Forall (fun p : addr * coins => fst p ∈ members s \/ amt (snd p) uartrd = 0) (map_to_list (st_bal s)) /\
  Forall (fun p : addr * ninfo => (11 <= List.length (r_deleg (ref_get s (fst p))))%nat) (map_to_list (st_val s)) /\
  Forall (fun p : addr * coins => snd p <> ∅ /\ Forall (fun q : N * Z => 0 < snd q) (map_to_list (snd p))) (map_to_list (st_bal s)) /\
  0 <= st_now s /\ 0 <= st_day s /\ st_now s + 30 * st_day s < time_limit.
#[local] Instance healthy_check_dec s : Decision (healthy_check s).
Proof. unfold healthy_check. apply _. Defined.
Lemma healthy_checked s : healthy_check s -> healthy s.
Proof.
  intros (HM & HB & HV & HO & H1 & H2 & H3). rewrite Forall_forall in HM. rewrite Forall_forall in HB. rewrite Forall_forall in HV. rewrite Forall_forall in HO.
  assert (D : forall a, a ∈ members s \/ (a ∉ members s /\ ref_get s a = r_zero)).
  { intros a. destruct (decide (a ∈ members s)); [by left|right; split; [done|by apply not_member]]. }
  split.
  - intros a. destruct (D a) as [H|[_ H]]; [apply (HM a H)|]. unfold status. rewrite H. cbn. lia.
  - intros a x Hx. destruct (D a) as [H|[_ H]]; [|unfold active_referrals in Hx; rewrite H in Hx; by apply elem_of_nil in Hx].
    destruct (HM a H) as (_ & X & _). rewrite Forall_forall in X. by apply X.
  - intros a n Hn. destruct (D a) as [H|[_ H]].
    + destruct (HM a H) as (_ & _ & X & _). rewrite Forall_forall in X. destruct (X n); [apply elem_of_seq; lia|]. done.
    + assert (E : stored_upto s a n = 0); [|rewrite E; done]. unfold stored_upto, stored_deleg, line. rewrite H. cbn [r_deleg r_zero].
      generalize (seq 0 (S n)). intros l. induction l as [|k l IH]; [done|]. cbn [map]. change (sum (?x :: ?y)) with (x + sum y). rewrite IH. by rewrite lookup_nil.
  - intros a. destruct (D a) as [H|[N H]]; [apply (HM a H)|]. unfold stored_deleg, line. rewrite H. cbn [r_deleg r_zero]. rewrite lookup_nil.
    unfold delegation, balance. destruct (st_bal s !! a) as [c|] eqn:E; [|done]. cbn. apply elem_of_map_to_list in E. destruct (HB _ E) as [X|X]; cbn in X; [done|by rewrite X].
  - intros a x E. apply elem_of_map_to_list in E. apply (HV _ E).
  - intros a c E. apply elem_of_map_to_list in E. destruct (HO _ E) as [X Y]. cbn in X, Y. split; [done|]. rewrite Forall_forall in Y.
    intros d n Hd. apply elem_of_map_to_list in Hd. apply (Y _ Hd).
  - done.
Qed.

(** The balances do not exceed the supply. *)
Definition sums_check (s : St) : Prop :=
  Forall (fun d => sum_bal s d <= supply s d) [uartr; uartrd; uartrr] /\
  Forall (fun p : addr * coins => Forall (fun q : N * Z => fst q ∈ [uartr; uartrd; uartrr]) (map_to_list (snd p))) (map_to_list (st_bal s)) /\
  Forall (fun q : N * Z => 0 <= snd q) (map_to_list (st_supply s)).
#[local] Instance sums_check_dec s : Decision (sums_check s).
Proof. unfold sums_check. apply _. Defined.
Lemma sums_checked s : sums_check s -> forall d, sum_bal s d <= supply s d.
Proof.
  intros (H1 & H2 & H3) d. rewrite Forall_forall in H1. rewrite Forall_forall in H2. rewrite Forall_forall in H3. destruct (decide (d ∈ [uartr; uartrd; uartrr])) as [E|E]; [by apply H1|].
  assert (0 <= supply s d). { unfold supply, amt. destruct (st_supply s !! d) as [x|] eqn:X; cbn; [|done]. apply elem_of_map_to_list in X. apply (H3 _ X). }
  assert (Z : sum_bal s d = 0); [|lia]. unfold sum_bal.
  assert (HZ : forall a c, st_bal s !! a = Some c -> amt c d = 0).
  { intros a c X. apply elem_of_map_to_list in X. pose proof (H2 _ X) as Y. cbn in Y. rewrite Forall_forall in Y. unfold amt. destruct (c !! d) as [x|] eqn:W; [|done].
    apply elem_of_map_to_list in W. by apply (Y (d, x)) in W. }
  revert HZ. apply (map_fold_ind (fun r m => (forall a c, m !! a = Some c -> amt c d = 0) -> r = 0)); [done|].
  intros a c m r Hm IH HZ. rewrite (HZ a c) by apply lookup_insert. rewrite IH; [done|]. intros b x Hb. apply (HZ b). rewrite lookup_insert_ne; [done|]. intros ->. by rewrite Hm in Hb.
Qed.
Lemma fair_bp0 s : st_bp s = bp0 -> fair_fee s.
Proof.
  intros E n Hn. unfold fee_of. rewrite E. apply c06_fee_below_amount; try done; try (by vm_compute).
Qed.
Lemma fair_dp0 s e : st_dp s = dp0 -> fair_terms (terms s e).
Proof. intros E. unfold terms. rewrite E. destruct e; (split; [done|split; by vm_compute]). Qed.
(** All that is asked of [a] *)
Definition ready_check (s : St) (a : addr) : Prop :=
  sums_check s /\ 0 < st_day s /\
  match next_accrual s a with Some t => 0 <= t - st_now s <= st_day s | None => True end /\
  match st_del s !! a with Some r => d_missed r = None | None => True end /\
  is_Some (st_prof s !! a) /\ a <> nobody /\ status s a <> 0 /\ banished s a = false /\
  match r_banishment_at (ref_get s a) with Some t => 0 <= t < time_limit | None => True end.
#[local] Instance ready_check_dec s a : Decision (ready_check s a).
Proof. unfold ready_check. destruct (next_accrual s a), (st_del s !! a), (r_banishment_at (ref_get s a)); apply _. Defined.
Lemma ready_checked s a : st_bp s = bp0 -> st_dp s = dp0 -> ready_check s a -> ready s a.
Proof.
  intros E1 E2 (H1 & H2 & H3 & H4 & H5 & H6 & H7 & H8 & H9). split; try done.
  - by apply fair_bp0.
  - rewrite E2. apply dp0_proper.
  - intros t Ht. by rewrite Ht in H3.
  - intros t Ht. by rewrite Ht in H9.
  - by apply sums_checked.
Qed.

(** A transaction of one message without a fee *)
Lemma accept m s (Q : St -> Prop) : acc_exists s (signer m) = true -> wp (run_msg m) (fun _ => Q) s -> exists s', accepted m s s' /\ Q s'.
Proof.
  intros HA W. apply wp_run in W as (s' & [] & E & HQ). exists s'. split; [|done]. unfold accepted, deliver_tx.
  assert (HN : ante (mkTx (signer m) ∅ [m]) s = (s, Ok tt)).
  { unfold ante, tx_signers. unfold bind, get, ensure, tx_msgs, tx_payer, tx_fees, map. cbn [List.length forallb].
    rewrite bool_decide_false by done. cbn [negb]. unfold ret at 1. rewrite HA. cbn [andb]. unfold ret at 1.
    assert (HV : coins_valid ∅ = true) by (by vm_compute). rewrite HV. unfold ret at 1. by rewrite decide_True. }
  rewrite HN. cbn [tx_msgs mfor]. unfold bind at 1. by rewrite E.
Qed.

(** ** C92 *)

(** Whoever has the coins to send and the fee can send them to any account there is. *)
Theorem C92_send : forall from to n f s, healthy s -> acc_exists s from = true -> acc_exists s to = true ->
  0 < n -> 0 <= bp_min_send (st_bp s) <= n -> from ∉ bp_blocked (st_bp s) ->
  fee_of n s = Some f -> 0 <= f -> n + f <= bal s from uartr ->
  exists s', accepted (MSend from to {[ uartr := n ]}) s s' /\ healthy s'.
Proof.
  intros from to n f s H A1 A2 H1 H2 H3 H4 H5 H6. apply accept; [done|].
  assert (E : ({[ uartr := n ]} : coins) = coins_of uartr n). { unfold coins_of, nz. destruct (Z.eqb_spec n 0); [lia|done]. }
  rewrite E. by eapply wp_msg_send.
Qed.
Print Assumptions C92_send.

Example C92_witness : healthy w0 /\ acc_exists w0 13 = true /\ acc_exists w0 12 = true /\ bp_min_send (st_bp w0) = 1000 /\
  bp_blocked (st_bp w0) = [] /\ fee_of 5000000 w0 = Some 15000 /\ 5000000 + 15000 <= bal w0 13 uartr.
Proof.
  split; [apply healthy_checked, (bool_decide_unpack _); vm_compute; exact I|]. split_and!; by vm_compute.
Qed.

(** ** C93 *)

(** A large network: 68 is far below 10, then comes nearer when an account in
    between is compressed. *)
Definition artr (n : Z) : Z := n * 1000000.
Definition team : list (addr * addr) :=
  map (fun a => (a, 11%N)) [31; 32; 33; 34; 35; 36; 37; 38]%N ++ map (fun a => (a, 12%N)) [41; 42; 43; 44; 45; 46; 47; 48; 49]%N ++
  [(20, 10)%N] ++ map (fun a => (a, 20%N)) [51; 52; 53; 54; 55; 56; 57; 58; 59]%N.
Definition below : list (addr * addr) := [(61, 15); (62, 61); (63, 62); (64, 63); (65, 64); (66, 65); (67, 66); (68, 67)]%N.
Definition grow (own : Z) (last : list tx) : list block :=
  [blk (T0 + day_ns) (map (fun e => tx1 (MCreateAccount 10 (fst e) (snd e) None)) (team ++ below) ++
      map (fun e => tx1 (MSend 10 (fst e) (uc (artr 100)))) team ++ [tx1 (MSend 10 68 (uc (artr 450000)))] ++
      [tx1 (MDelegate 10 (artr own)); tx1 (MDelegate 68 (artr 400000))])] ++
  map (fun k => blk (T0 + Z.of_nat k * day_ns) []) (seq 2 57) ++
  [blk (T0 + 59 * day_ns) (map (fun a => tx1 (MPayTariff a 0)) ([11; 12; 13]%N ++ map fst team));
   blk (T0 + 60 * day_ns) last].
Definition wl := after (grow 170000 []) w0.

Lemma wl_ready : healthy wl /\ network wl /\ ready wl 68 /\ acc_exists wl 68 = true.
Proof.
  split; [apply healthy_checked, (bool_decide_unpack _); vm_compute; exact I|].
  split; [apply network_checked, (bool_decide_unpack _); vm_compute; exact I|].
  split; [|by vm_compute]. apply ready_checked; [by vm_compute|by vm_compute|]. apply (bool_decide_unpack _). vm_compute. exact I.
Qed.

(** As stated the property fails: a member in good standing of a network in order
    cannot revoke 300000 of its 399990 delegated ARTR, because the record of an
    ancestor of high status, whose lines have grown nearer by a compression, has not
    got as much in its tenth line. *)
Theorem C93_refuted : exists bs s us a n, run_blocks bs w0 = Some (s, us) /\ times_from (st_now w0) bs /\
  st_log s = [] /\ healthy s /\ network s /\ ready s a /\ acc_exists s a = true /\ fair_terms (terms s false) /\
  0 < n <= delegation s a /\ refused (MRevoke a n false) s.
Proof.
  destruct (after_runs (grow 170000 []) w0) as [us HR]; [by vm_compute|]. exists (grow 170000 []), wl, us, 68%N, (artr 300000).
  destruct wl_ready as (H1 & H2 & H3 & H4). split; [exact HR|]. split; [vm_compute; repeat split; congruence|].
  split; [by vm_compute|]. split; [exact H1|]. split; [exact H2|]. split; [exact H3|]. split; [exact H4|].
  split; [apply fair_dp0; by vm_compute|]. split; [split; by vm_compute|by vm_compute].
Qed.
Print Assumptions C93_refuted.

(** If, however, the record of every ancestor within ten lines has at least as
    much, the revocation is accepted, and the chain stays able to act.
    (Missing: the property without that condition.) *)
Theorem C93_partial : forall a n express s, healthy s -> network s -> ready s a -> acc_exists s a = true ->
  fair_terms (terms s express) -> 0 <= st_now s + rv_period (terms s express) * st_day s < time_limit ->
  0 < n <= delegation s a ->
  (forall i, (i <= 10)%nat -> up s i a <> nobody -> n <= stored_upto s (up s i a) 10) ->
  exists s', accepted (MRevoke a n express) s s' /\ healthy s'.
Proof.
  intros a n e s H HN R HA HF HP Hn HU. apply accept; [done|]. apply wp_revoke; try done; [apply HN|apply HN|]. by apply room_minus.
Qed.
Print Assumptions C93_partial.

Example C93_partial_witness : healthy wl /\ network wl /\ ready wl 68 /\ acc_exists wl 68 = true /\ fair_terms (terms wl false) /\
  (0 <= st_now wl + rv_period (terms wl false) * st_day wl < time_limit) /\ 0 < artr 150000 <= delegation wl 68 /\
  (forall i, (i <= 10)%nat -> up wl i 68 <> nobody -> artr 150000 <= stored_upto wl (up wl i 68) 10).
Proof.
  destruct wl_ready as (H1 & H2 & H3 & H4). split; [exact H1|]. split; [exact H2|]. split; [exact H3|]. split; [exact H4|].
  split; [apply fair_dp0; by vm_compute|]. split; [split; by vm_compute|]. split; [split; by vm_compute|].
  assert (X : Forall (fun i => up wl i 68 <> nobody -> artr 150000 <= stored_upto wl (up wl i 68) 10) (seq 0 11)).
  { apply (bool_decide_unpack _). vm_compute. exact I. }
  rewrite Forall_forall in X. intros i Hi. apply X. apply elem_of_seq. lia.
Qed.

(** ** C94 *)

(** As stated the property fails too: when 68 revokes while the status of 10 is
    still low, the tenth line of 10 becomes negative; from then on 10 cannot
    delegate 200000 ARTR, which would lift its status. *)
Definition wm := after (grow 1 [tx1 (MRevoke 68 (artr 300000) false)]) w0.
Theorem C94_refuted : exists bs s us a n, run_blocks bs w0 = Some (s, us) /\ times_from (st_now w0) bs /\
  st_log s = [] /\ network s /\ ready s a /\ acc_exists s a = true /\
  dp_min (st_dp s) <= n /\ 0 < n <= bal s a uartr /\ refused (MDelegate a n) s.
Proof.
  destruct (after_runs (grow 1 [tx1 (MRevoke 68 (artr 300000) false)]) w0) as [us HR]; [by vm_compute|].
  exists (grow 1 [tx1 (MRevoke 68 (artr 300000) false)]), wm, us, 10%N, (artr 200000).
  split; [exact HR|]. split; [vm_compute; repeat split; congruence|]. split; [by vm_compute|].
  split; [apply network_checked, (bool_decide_unpack _); vm_compute; exact I|].
  split; [apply ready_checked; [by vm_compute|by vm_compute|]; apply (bool_decide_unpack _); vm_compute; exact I|].
  split; [by vm_compute|]. split; [by vm_compute|]. split; [split; by vm_compute|by vm_compute].
Qed.
Print Assumptions C94_refuted.

(** If the records can be read and the sums of the ancestors stay numbers of 64
    bits, the delegation is accepted.  (Missing: the property without the first of
    these conditions.) *)
Theorem C94_partial : forall a n s, healthy s -> network s -> ready s a -> acc_exists s a = true ->
  dp_min (st_dp s) <= n -> 0 < n <= bal s a uartr ->
  (forall i k, (i <= k <= 10)%nat -> stored_upto s (up s i a) k + n < 2 ^ 63) ->
  exists s', accepted (MDelegate a n) s s' /\ healthy s'.
Proof.
  intros a n s H HN R HA HM Hn HU. apply accept; [done|]. apply wp_delegate; try done; [apply HN|apply HN|].
  intros m Hm i k Hik Hup. pose proof (hl_sums s H (up s i a) k ltac:(lia)). pose proof (HU i k ltac:(lia)). lia.
Qed.
Print Assumptions C94_partial.

Example C94_partial_witness : healthy wl /\ network wl /\ ready wl 68 /\ acc_exists wl 68 = true /\
  dp_min (st_dp wl) <= artr 20000 /\ 0 < artr 20000 <= bal wl 68 uartr /\
  (forall i k, (i <= k <= 10)%nat -> stored_upto wl (up wl i 68) k + artr 20000 < 2 ^ 63).
Proof.
  destruct wl_ready as (H1 & H2 & H3 & H4). split; [exact H1|]. split; [exact H2|]. split; [exact H3|]. split; [exact H4|].
  split; [by vm_compute|]. split; [split; by vm_compute|].
  assert (X : Forall (fun i => Forall (fun k => stored_upto wl (up wl i 68) k + artr 20000 < 2 ^ 63) (seq 0 11)) (seq 0 11)).
  { apply (bool_decide_unpack _). vm_compute. exact I. }
  rewrite Forall_forall in X. intros i k Hi. specialize (X i ltac:(apply elem_of_seq; lia)). cbn beta in X. rewrite Forall_forall in X. apply X. apply elem_of_seq. lia.
Qed.

(** ** C95 *)

(** The payment of interest goes through. *)
Theorem C95_interest : forall t s, t_hook t = HAccrue -> healthy s -> ready s (t_data t) ->
  next_accrual s (t_data t) = Some (t_time t) -> 0 <= t_time t + st_day s < time_limit ->
  0 <= trunc (account_rate s (t_data t) * inject_Z (delegation s (t_data t))) < 2 ^ 63 ->
  exists s', goes_through t s s' /\ healthy s'.
Proof.
  intros t s HH H R HN HL HI. pose proof (wp_interest _ _ _ H R HN HL HI) as W. apply wp_run in W as (s' & [] & E & H').
  exists s'. split; [|done]. unfold goes_through. rewrite HH. cbn [hooks]. eexists. split; [done|exact E].
Qed.
Print Assumptions C95_interest.

(** So does the return of revoked coins, however many requests are due. *)
Theorem C95_revoked : forall t s, t_hook t = HRevoke -> healthy s ->
  (forall q, q ∈ requests s (t_data t) -> 0 <= q_amount q < 2 ^ 63) ->
  requested (requests s (t_data t)) <= bal s (t_data t) uartrr -> sum_bal s uartrr <= supply s uartrr ->
  exists s', goes_through t s s' /\ healthy s'.
Proof.
  intros t s HH H HA HB HS. pose proof (wp_payout _ _ H HA HB HS) as W. apply wp_run in W as (s' & [] & E & H').
  exists s'. split; [|done]. unfold goes_through. rewrite HH. cbn [hooks]. eexists. split; [done|exact E].
Qed.
Print Assumptions C95_revoked.

(** Shortly before both are due for 13 *)
Definition wq : St := after [
  blk (T0 + day_ns) [tx1 (MDelegate 13 5000000000)];
  blk (T0 + 2 * day_ns) [tx1 (MRevoke 13 1000000000 true); tx1 (MRevoke 13 500000000 true)]] w0 <| st_now := T0 + 9 * day_ns |>.
Example C95_witness : healthy wq /\ sum_bal wq uartrr <= supply wq uartrr /\
  map q_amount (requests wq 13) = [900000000; 450000000] /\
  requested (requests wq 13) <= bal wq 13 uartrr.
Proof.
  split; [apply healthy_checked, (bool_decide_unpack _); vm_compute; exact I|]. split_and!; by vm_compute.
Qed.
Example C95_interest_witness : healthy wl /\ ready wl 68 /\ next_accrual wl 68 = Some (T0 + 61 * day_ns) /\
  0 <= T0 + 61 * day_ns + st_day wl < time_limit /\ trunc (account_rate wl 68 * inject_Z (delegation wl 68)) = 533320000.
Proof.
  destruct wl_ready as (H1 & H2 & H3 & H4). split; [exact H1|]. split; [exact H3|]. split; [by vm_compute|]. split; [split; by vm_compute|by vm_compute].
Qed.
