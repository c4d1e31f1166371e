(** * C40-C46: delegation and earning *)
From Coq Require Import QArith.
From Verif Require Import Spec_Pure DelegHist Witness.
Open Scope Z_scope.

(** ** C40 *)

(** A delegation of [n] takes exactly [n] main coins: the fee (computed as
    described by C06) goes to the collector of splittable fees and the rest
    becomes delegated coins of the same account.  If interest was due later, the
    part for the time that has passed is paid as well ([I], described by
    [part_interest] in the state after the fee was paid), and the next interest
    is due in a day if the delegation is above the dust limit. *)
Theorem C40_delegate : forall a n s s', run_msg (MDelegate a n) s = (s', Ok tt) ->
  exists fee I, 0 < n /\ fee_of n s = Some fee /\ 0 <= fee <= n /\ dp_min (st_dp s) <= n /\
  (forall x, bal s' x uartr = bal s x uartr - at_ x a n + at_ x splitter fee + I x) /\
  (forall x, 0 <= I x) /\ part_interest (exec (pay_tx_fee a (coins_of uartr n)) s) a I /\
  (forall x, bal s' x uartrd = bal s x uartrd + at_ x a (n - fee)) /\
  (forall x d, d <> uartr -> d <> uartrd -> bal s' x d = bal s x d) /\
  supply s' uartrd = supply s uartrd + (n - fee) /\
  (forall x, requests s' x = requests s x) /\
  (forall x, x <> a -> next_accrual s' x = next_accrual s x) /\
  next_accrual s' a = (if bal s' a uartrd <=? bp_dust (st_bp s) then None else Some (st_now s + st_day s)) /\
  (bp_dust (st_bp s) < bal s' a uartrd -> Task (st_now s + st_day s) HAccrue a ∈ tasks_at s' (st_now s + st_day s)).
Proof.
  intros a n s s' H. cbn [run_msg] in H. unfold msg_delegate in H.
  apply bind_ok in H as ([] & s1 & H1 & H). apply ensure_ok in H1 as [-> Hn].
  apply delegate_ok in H as (fee & I & F1 & F2 & F3 & B1 & B2 & B3 & B4 & B5 & S1 & _ & D & T); [|lia].
  exists fee, I. split; [lia|]. do 9 (split; [done|]).
  split; [|split; [|split; [|exact T]]].
  - intros x. unfold requests at 1. rewrite D. destruct (decide (x = a)) as [->|Hx].
    + rewrite lookup_insert. cbn. apply del_get_reqs.
    + by rewrite lookup_insert_ne.
  - intros x Hx. unfold next_accrual. rewrite D. by rewrite lookup_insert_ne.
  - unfold next_accrual. rewrite D. by rewrite lookup_insert.
Qed.
Print Assumptions C40_delegate.

(** The interest is the one of the state before the fee was paid, unless paying
    the fee cost the account its place among the active validators. *)
Theorem C40_interest : forall a n s I, (exists fee, eval (pay_tx_fee a (coins_of uartr n)) s = Ok fee) ->
  is_active_validator (exec (pay_tx_fee a (coins_of uartr n)) s) a = is_active_validator s a ->
  part_interest (exec (pay_tx_fee a (coins_of uartr n)) s) a I -> part_interest s a I.
Proof.
  intros a n s I [c Hc] HV. unfold eval, exec in *.
  destruct (pay_tx_fee a (coins_of uartr n) s) as [s1 r] eqn:H1. cbn in Hc. subst r. cbn [fst] in *.
  kept st_del H1. kept st_now H1. kept st_day H1. kept st_dp H1. kept st_bp H1. kept st_prof H1. kept st_earn H1.
  apply part_interest_same; try done.
  apply pay_tx_fee_ok in H1 as (f & _ & _ & -> & _ & B1 & _). specialize (B1 a uartrd). rewrite amt_coins_of in B1.
  cbn in B1. rewrite !at_zero in B1. lia.
Qed.
Print Assumptions C40_interest.

Definition deleg_blocks : list block :=
  [ blk (T0 + 1000000000) [tx1 (MDelegate 11 1000000000); tx1 (MDelegate 13 5000000000)];
    blk (T0 + 1000000000 + day_ns) [tx1 (MRevoke 13 1000000000 true)];
    blk (T0 + 1000000000 + day_ns + day_ns / 2) [tx1 (MRevoke 13 1000000000 false); tx1 (MRevoke 11 300000000 false)] ].
Definition wd : St := after deleg_blocks w0.
Example C40_witness : exists s', run_msg (MDelegate 11 100000000) wd = (s', Ok tt) /\
  bal s' 11 uartrd = bal wd 11 uartrd + 99700000.
Proof.
  exists (exec (run_msg (MDelegate 11 100000000)) wd). split; [apply exec_ok; by vm_compute|by vm_compute].
Qed.

(** ** C41 *)

(** A revocation of [n] turns the delegated coins into revoking ones, except for
    the share that is burnt, and adds one request for exactly that amount, due
    after the period, with its task. *)
Theorem C41_revoke : forall a n express s s', run_msg (MRevoke a n express) s = (s', Ok tt) ->
  let p := terms s express in
  let t := st_now s + rv_period p * st_day s in
  Frac.fden (rv_burn p) <> 0 -> revoke_valid p = Some true ->
  exists burnt I, 0 < n <= bal s a uartrd /\
  burnt = trunc (qval (rv_burn p) * inject_Z n) /\ 0 <= burnt <= n /\
  (forall x, bal s' x uartr = bal s x uartr + I x) /\ (forall x, 0 <= I x) /\ part_interest s a I /\
  (forall x, bal s' x uartrd = bal s x uartrd - at_ x a n) /\
  (forall x, bal s' x uartrr = bal s x uartrr + at_ x a (n - burnt)) /\
  (forall x d, d <> uartr -> d <> uartrd -> d <> uartrr -> bal s' x d = bal s x d) /\
  supply s' uartrd = supply s uartrd - n /\ supply s' uartrr = supply s uartrr + (n - burnt) /\
  requests s' a = requests s a ++ [mkReq t (n - burnt)] /\
  (forall x, x <> a -> requests s' x = requests s x /\ next_accrual s' x = next_accrual s x) /\
  Task t HRevoke a ∈ tasks_at s' t /\
  next_accrual s' a = (if bal s' a uartrd <=? bp_dust (st_bp s) then None else Some (st_now s + st_day s)) /\
  (bp_dust (st_bp s) < bal s' a uartrd -> Task (st_now s + st_day s) HAccrue a ∈ tasks_at s' (st_now s + st_day s)).
Proof.
  intros a n express s s' H. cbn zeta. intros HF HV. cbn [run_msg] in H. unfold msg_revoke in H.
  apply bind_ok in H as ([] & s1 & H1 & H). apply ensure_ok in H1 as [-> Hn].
  pose proof H as HR. apply revoke_range in HR; [|lia].
  apply revoke_ok in H as (burnt & I & F1 & F2 & F3 & F4 & B1 & B2 & B3 & B4 & B5 & B6 & S1 & S2 & _ & D & T1 & T2); [|lia].
  apply burn_part_spec in F2 as [F2 F2']; [|done|done|lia].
  exists burnt, I. split; [lia|]. do 10 (split; [done|]).
  split; [unfold requests at 1; rewrite D, lookup_insert; done|].
  split; [intros x Hx; unfold requests, next_accrual; rewrite D, lookup_insert_ne by done; done|].
  split; [done|]. split; [|exact T1]. unfold next_accrual. rewrite D. by rewrite lookup_insert.
Qed.
Print Assumptions C41_revoke.

(** When the task runs, everything that is due is paid back in main coins, one
    for one, and only the later requests remain. *)
Theorem C41_paid_back : forall a s s', perform_revoking a s = (s', Ok tt) ->
  let due := due_reqs (st_now s) (requests s a) in
  (forall q, q ∈ due -> 0 <= q_amount q) /\
  (forall x, bal s' x uartr = bal s x uartr + at_ x a (requested due)) /\
  (forall x, bal s' x uartrr = bal s x uartrr - at_ x a (requested due)) /\
  (forall x d, d <> uartr -> d <> uartrr -> bal s' x d = bal s x d) /\
  requests s' a ≡ₚ later_reqs (st_now s) (requests s a) /\
  (forall x, x <> a -> requests s' x = requests s x) /\
  (forall x, next_accrual s' x = next_accrual s x).
Proof. exact perform_revoking_ok. Qed.
Print Assumptions C41_paid_back.

Example C41_witness :
  requests wd 13 = [mkReq (T0 + 1000000000 + 8 * day_ns) 900000000; mkReq (T0 + 1000000000 + 15 * day_ns + day_ns / 2) 950000000] /\
  (exists s', run_msg (MRevoke 13 500000000 true) wd = (s', Ok tt) /\ bal s' 13 uartrr = bal wd 13 uartrr + 450000000) /\
  (let s := wd <| st_now := T0 + 9 * day_ns |> in
   exists s', perform_revoking 13 s = (s', Ok tt) /\ bal s' 13 uartr = bal s 13 uartr + 900000000 /\
     requests s' 13 = [mkReq (T0 + 1000000000 + 15 * day_ns + day_ns / 2) 950000000]).
Proof.
  split; [by vm_compute|]. split.
  - exists (exec (run_msg (MRevoke 13 500000000 true)) wd). split; [apply exec_ok; by vm_compute|by vm_compute].
  - cbn zeta. exists (exec (perform_revoking 13) (wd <| st_now := T0 + 9 * day_ns |>)).
    split; [apply exec_ok; by vm_compute|]. split; by vm_compute.
Qed.

(** ** C42 *)

(** As stated the property fails: a transaction fee may be offered in revoking
    coins, and then they are gone while the request stays. *)
Theorem C42_refuted : exists bs s' us, run_blocks bs w0 = Some (s', us) /\ times_from (st_now w0) bs /\
  (forall a, bal w0 a uartrr = requested (requests w0 a)) /\ lost s' = lost w0 /\
  exists a, bal s' a uartrr < requested (requests s' a).
Proof.
  set (bs := deleg_blocks ++ [blk (T0 + 1000000000 + 2 * day_ns) [mkTx 13 {[ uartrr := 5 ]} [MBurn 13 1000]]]).
  destruct (after_runs bs w0) as [us HR]; [by vm_compute|]. exists bs, (after bs w0), us.
  split; [exact HR|]. split; [vm_compute; repeat split; congruence|]. split.
  2:{ split; [by vm_compute|]. exists 13%N. by vm_compute. }
  intros a. assert (HD : st_del w0 = ∅) by (by vm_compute). unfold requests. rewrite HD, lookup_empty. cbn.
  assert (HB : map_Forall (fun _ (c : coins) => c !! uartrr = None) (st_bal w0)) by (apply (bool_decide_unpack _); by vm_compute).
  unfold bal, balance, amt. destruct (st_bal w0 !! a) as [c|] eqn:E; cbn; [|by rewrite lookup_empty].
  by rewrite (HB a c E).
Qed.
Print Assumptions C42_refuted.

(** If transaction fees are offered in main coins only, then in every history of
    blocks in which no pay-out or banishment failed, every account has exactly as
    many revoking coins as it has requested.  (Missing: other transactions.) *)
Theorem C42_partial : forall bs s s' us, run_blocks bs s = Some (s', us) -> times_from (st_now s) bs ->
  (forall b t, b ∈ bs -> t ∈ b_txs b -> (forall d n, tx_fees t !! d = Some n -> d = uartr) /\ fee_collector ∉ tx_signers t) ->
  (forall d, d <> uartr -> bal s fee_collector d = 0) -> requests s fee_collector = [] ->
  (forall a, bal s a uartrr = requested (requests s a)) -> lost s' = lost s ->
  forall a, bal s' a uartrr = requested (requests s' a).
Proof.
  intros bs s s' us H HT HF HC HR HM HL. apply km_blocks in H as [_ H]; [|done|].
  - apply (H HL). split; [split; done|done].
  - apply Forall_forall. intros b Hb. apply Forall_forall. intros t Ht. apply (HF b t Hb Ht).
Qed.
Print Assumptions C42_partial.

Example C42_witness : exists us, run_blocks deleg_blocks w0 = Some (wd, us) /\ times_from (st_now w0) deleg_blocks /\
  lost wd = lost w0 /\ bal wd 13 uartrr = 1850000000 /\ requested (requests wd 13) = 1850000000 /\
  balance w0 fee_collector = ∅ /\ st_del w0 = ∅.
Proof.
  destruct (after_runs deleg_blocks w0) as [us HR]; [by vm_compute|]. exists us.
  split; [exact HR|]. split; [vm_compute; repeat split; congruence|]. split_and!; by vm_compute.
Qed.

(** ** C43 *)

(** A task that does not match the account's next interest does nothing. *)
Theorem C43_stale : forall a t s, next_accrual s a <> Some t ->
  after_task hooks (Task t HAccrue a) s = s <| st_log := st_log s ++ [LTaskFailed (Task t HAccrue a)] |>.
Proof.
  intros a t s H. destruct (stale_accrue a t s H) as [e E]. unfold after_task. cbn [t_hook t_data t_time hooks]. by rewrite E.
Qed.
Print Assumptions C43_stale.

(** One that does pays a day's interest on the delegation and moves the date. *)
Theorem C43_interest : forall a t s s', perform_accrue a t s = (s', Ok tt) ->
  proper_table (dp_table (st_dp s)) -> unskipped s a ->
  let d := bal s a uartrd in
  let n := trunc (account_rate s a * inject_Z d) in
  next_accrual s a = Some t /\
  (((account_rate s a == 0)%Q /\ next_accrual s' a = None /\ interest_paid s s' a 0 0 [] /\
    forall k, tasks_at s' k = tasks_at s k) \/
   (~ (account_rate s a == 0)%Q /\ next_accrual s' a = Some (t + st_day s) /\
    Task (t + st_day s) HAccrue a ∈ tasks_at s' (t + st_day s) /\
    (- 2^63 <= n < 2^63 -> exists fee l, interest_paid s s' a n fee l /\ 30000 * paid_sum l <= 6 * Z.max 0 d))).
Proof.
  intros a t s s' H HT HU. apply perform_accrue_ok; [done|done|].
  unfold unskipped, del_get in *. by destruct (st_del s !! a).
Qed.
Print Assumptions C43_interest.

(** No part of a day is ever skipped, so the hypothesis above is always met. *)
Theorem C43_unskipped : forall bs s s' us, times_from (st_now s) bs -> run_blocks bs s = Some (s', us) ->
  (forall a, unskipped s a) -> forall a, unskipped s' a.
Proof.
  intros bs s s' us HT H HU a. assert (HE : unmissed s').
  { eapply unmissed_blocks; [exact HT|exact H|]. intros x. specialize (HU x). unfold unskipped, del_get in *. by destruct (st_del s !! x). }
  specialize (HE a). unfold unskipped, del_get in *. by destruct (st_del s' !! a).
Qed.
Print Assumptions C43_unskipped.

(** Once the interest due at [t] has been paid it is never paid again, whatever
    happens in the blocks that follow. *)
Theorem C43_once : forall a t s s' bs s2 us, perform_accrue a t s = (s', Ok tt) -> t <= st_now s -> 0 < st_day s ->
  times_from (st_now s') bs -> run_blocks bs s' = Some (s2, us) ->
  after_task hooks (Task t HAccrue a) s2 = s2 <| st_log := st_log s2 ++ [LTaskFailed (Task t HAccrue a)] |>.
Proof.
  intros a t s s' bs s2 us H1 H2 H3 H4 H5. destruct (accrue_once a t s s' bs s2 us H1 H2 H3 H4 H5) as [e E].
  unfold after_task. cbn [t_hook t_data t_time hooks]. by rewrite E.
Qed.
Print Assumptions C43_once.

Lemma dp0_proper : proper_table (dp_table dp0).
Proof.
  apply table_valid_proper; [by vm_compute|]. intros start row f HR Hf. cbn in HR.
  repeat (apply elem_of_cons in HR as [[= -> ->]|HR]; [repeat (apply elem_of_cons in Hf as [->|Hf]; [done|]); by apply elem_of_nil in Hf|]).
  by apply elem_of_nil in HR.
Qed.
Definition wi : St := wd <| st_now := T0 + 1000000000 + 2 * day_ns + day_ns / 2 |>.
Example C43_witness : next_accrual wi 13 = Some (T0 + 1000000000 + 2 * day_ns + day_ns / 2) /\
  st_dp wi = dp0 /\ (account_rate wi 13 == 4 # 3000)%Q /\
  trunc (account_rate wi 13 * inject_Z (bal wi 13 uartrd)) = 3986666 /\
  (exists s', perform_accrue 13 (T0 + 1000000000 + 2 * day_ns + day_ns / 2) wi = (s', Ok tt) /\
     bal s' 13 uartr = bal wi 13 uartr + 3974708 /\
     exists us, run_blocks [blk (T0 + 1000000000 + 3 * day_ns + day_ns / 2) []] s' =
       Some (after [blk (T0 + 1000000000 + 3 * day_ns + day_ns / 2) []] s', us)).
Proof.
  split; [by vm_compute|]. split; [by vm_compute|]. split; [by vm_compute|]. split; [by vm_compute|].
  exists (exec (perform_accrue 13 (T0 + 1000000000 + 2 * day_ns + day_ns / 2)) wi). split; [apply exec_ok; by vm_compute|].
  split; [by vm_compute|]. apply after_runs. by vm_compute.
Qed.

(** ** C44 *)
Theorem C44_rate : forall s d profile validator vpn storage, proper_table (dp_table (st_dp s)) -> - 2^63 <= d < 2^63 ->
  exists f, percent s d profile validator vpn storage = Some f /\ Frac.fden f <> 0 /\
  (qval f == if (d <=? bp_dust (st_bp s))%Z then 0
             else monthly_rate (dp_table (st_dp s)) d profile validator vpn storage / inject_Z 30)%Q.
Proof. exact percent_spec. Qed.
Print Assumptions C44_rate.

(** Tables that pass the validation and have no zero denominators are proper ones. *)
Theorem C44_validated : forall t, table_valid t = true ->
  (forall start row f, (start, row) ∈ t -> f ∈ row -> Frac.fden f <> 0) -> proper_table t.
Proof. exact table_valid_proper. Qed.
Print Assumptions C44_validated.

Example C44_witness : st_dp w0 = dp0 /\ proper_table (dp_table dp0) /\
  (monthly_rate (dp_table dp0) 999999999 true false true false == 6 # 100)%Q /\
  (monthly_rate (dp_table dp0) 1000000000 true true true true == 9 # 100)%Q /\
  percent w0 1000000000 true true true true = Some (Frac.Fr 3 1000).
Proof. split; [by vm_compute|]. split; [apply dp0_proper|]. split_and!; by vm_compute. Qed.

(** ** C45 *)

(** The answer to the question whether an account is an active earner (VPN, storage) *)
Theorem C45_active : forall a s, exists s', is_active_earner a s =
  (s', Ok (counts (st_now s) (st_day s) (fst (confirmed s a)), counts (st_now s) (st_day s) (snd (confirmed s a)))).
Proof. intros a s. destruct (active_earner_ok a s) as (e & -> & _). by eexists. Qed.
Print Assumptions C45_active.

(** A confirmation stores what it says, for exactly the accounts it names. *)
Theorem C45_confirm : forall x es s s', run_msg (MSetEarners x es) s = (s', Ok tt) -> NoDup (map fst es) ->
  (forall a c, (a, c) ∈ es -> confirmed s' a = c) /\ (forall a, a ∉ map fst es -> confirmed s' a = confirmed s a).
Proof. exact set_earners_ok. Qed.
Print Assumptions C45_confirm.

(** After any history without another confirmation of the account, the answer
    depends only on the age of the confirmation at the start. *)
Theorem C45_history : forall a bs s s' us, run_blocks bs s = Some (s', us) -> times_from (st_now s) bs -> 0 <= st_day s ->
  (forall b t m, b ∈ bs -> t ∈ b_txs b -> m ∈ tx_msgs t -> match m with MSetEarners _ es => a ∉ map fst es | _ => True end) ->
  exists s2, is_active_earner a s' =
    (s2, Ok (counts (st_now s') (st_day s) (fst (confirmed s a)), counts (st_now s') (st_day s) (snd (confirmed s a)))).
Proof.
  intros a bs s s' us H HT HD HF. apply active_later; [|by eapply day_blocks].
  eapply (stays_blocks a (fst (confirmed s a)) (snd (confirmed s a)) bs s s' us); [done|done| |done|split; by left].
  apply Forall_forall. intros b Hb. apply Forall_forall. intros t Ht. apply Forall_forall. intros m Hm.
  exact (HF b t m Hb Ht Hm).
Qed.
Print Assumptions C45_history.

Definition earn_tx : tx := tx1 (MSetEarners 10 [(11%N, (Some T0, Some (T0 - day_ns))); (13%N, (Some (T0 - 3 * day_ns), None))]).
Definition we : St := after [blk (T0 + 5) [earn_tx; tx1 (MDelegate 11 1000000000)]] w0.
Example C45_witness : confirmed we 11 = (Some T0, Some (T0 - day_ns)) /\
  eval (is_active_earner 11) we = Ok (true, true) /\ eval (is_active_earner 13) we = Ok (false, false) /\
  (let s := after [blk (T0 + 5 + day_ns) [tx1 (MDelegate 11 1000000000)]] we in
   confirmed s 11 = (Some T0, None) /\ eval (is_active_earner 11) s = Ok (true, false)).
Proof. split_and!; by vm_compute. Qed.

(** ** C46 *)

(** As stated the property fails: the signer of a confirmation is not looked at. *)
Theorem C46_refuted : exists x es s', x ∉ st_earn_signers w0 /\ run_msg (MSetEarners x es) w0 = (s', Ok tt) /\
  confirmed s' 15 <> confirmed w0 15.
Proof.
  exists 15%N, [(15%N, (Some (T0 + 1000 * day_ns), None))].
  exists (exec (run_msg (MSetEarners 15 [(15%N, (Some (T0 + 1000 * day_ns), None))])) w0).
  split; [apply (bool_decide_unpack _); by vm_compute|]. split; [apply exec_ok; by vm_compute|by vm_compute].
Qed.
Print Assumptions C46_refuted.

(** What holds: only such a message, naming the account, changes a confirmation
    that still counts; without one it stays or, once it has expired, is dropped. *)
Theorem C46_partial : forall a bs s s' us, run_blocks bs s = Some (s', us) -> times_from (st_now s) bs -> 0 <= st_day s ->
  (forall b t m, b ∈ bs -> t ∈ b_txs b -> m ∈ tx_msgs t -> match m with MSetEarners _ es => a ∉ map fst es | _ => True end) ->
  (fst (confirmed s' a) = fst (confirmed s a) \/
     fst (confirmed s' a) = None /\ counts (st_now s') (st_day s') (fst (confirmed s a)) = false) /\
  (snd (confirmed s' a) = snd (confirmed s a) \/
     snd (confirmed s' a) = None /\ counts (st_now s') (st_day s') (snd (confirmed s a)) = false).
Proof.
  intros a bs s s' us H HT HD HF.
  eapply (stays_blocks a (fst (confirmed s a)) (snd (confirmed s a)) bs s s' us); [done|done| |done|split; by left].
  apply Forall_forall. intros b Hb. apply Forall_forall. intros t Ht. apply Forall_forall. intros m Hm.
  exact (HF b t m Hb Ht Hm).
Qed.
Print Assumptions C46_partial.
