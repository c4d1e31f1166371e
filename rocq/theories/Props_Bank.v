(** * C08-C14, C63-C65: coins *)
From Verif Require Import BankProofs Witness.

(** ** C08 *)

(** What a transfer does to the balances: the sender pays the amount and the
    fee, the recipient gets the amount, the collector of splittable fees gets
    the fee (computed as described by C06); sender and recipient may be the
    same account. *)
Theorem C08_send_exact : forall from to c s s', run_msg (MSend from to c) s = (s', Ok tt) ->
  exists n fee, (forall d, amt c d = if (d =? uartr)%N then n else 0) /\ 0 < n /\ 0 <= fee /\
    Frac.calculate_fee n (bp_fee (st_bp s)) (bp_max_fee (st_bp s)) (bp_for_proposer (st_bp s)) (bp_for_company (st_bp s))
      = Some fee /\
    (forall x, bal s' x uartr = bal s x uartr
       - (if (x =? from)%N then n + fee else 0) + (if (x =? splitter)%N then fee else 0) + (if (x =? to)%N then n else 0)) /\
    (forall x d, d <> uartr -> bal s' x d = bal s x d) /\
    (forall d, supply s' d = supply s d) /\ (forall d, sum_bal s' d = sum_bal s d).
Proof.
  intros from to c s s' H. apply msg_send_ok in H as (HD & _ & _ & HP & _ & _ & f & HF & Hp & B1 & B2 & T & S & _).
  exists (amt c uartr), f. split.
  { intros d. destruct (d =? uartr)%N eqn:E; [by assert (d = uartr) as -> by lia|].
    unfold amt. destruct (c !! d) as [k|] eqn:Ed; [|done]. apply HD in Ed as [-> _]. lia. }
  split; [done|]. split; [done|]. split; [exact HF|]. split; [exact B1|]. split; [exact B2|].
  split; [intros d; unfold supply; by rewrite S|exact T].
Qed.
Print Assumptions C08_send_exact.

(** A transaction whose only message is a failed transfer, and which offers no
    fee of its own, changes nothing at all. *)
Theorem C08_failed_send : forall p from to c s s', deliver_tx (mkTx p ∅ [MSend from to c]) s = (s', false) -> s' = s.
Proof. intros p from to c s s' H. by eapply failed_tx_free. Qed.
Print Assumptions C08_failed_send.

Example C08_witness : exists s', run_msg (MSend 11 12 (uc 2000000)) w0 = (s', Ok tt) /\
  bal s' 12 uartr = bal w0 12 uartr + 2000000 /\ bal s' 11 uartr = bal w0 11 uartr - 2006000 /\
  exists s2, deliver_tx (mkTx 11 ∅ [MSend 11 12 (uc (2 * 10^12))]) w0 = (s2, false).
Proof.
  exists (exec (run_msg (MSend 11 12 (uc 2000000))) w0). split; [apply exec_ok; by vm_compute|].
  split; [by vm_compute|]. split; [by vm_compute|].
  exists (fst (deliver_tx (mkTx 11 ∅ [MSend 11 12 (uc (2 * 10^12))]) w0)).
  apply tx_result. by vm_compute.
Qed.

(** ** C09 *)

(** Blocks: the supply stays the sum of the balances as long as no scheduled
    task and no balance hook failed outside of a transaction ([aborts] counts
    those).  A failed payment to the proposer does no harm. *)
Theorem C09_supply_is_sum : forall bs s s' us, run_blocks bs s = Some (s', us) -> bal_ok s ->
  (forall d, supply s d = sum_bal s d) -> aborts s' = aborts s -> forall d, supply s' d = sum_bal s' d.
Proof.
  intros bs s s' us H Hok HS HA d. apply conserved_blocks in H. destruct (H Hok) as [_ [L|[_ D]]]; [lia|].
  specialize (D d). rewrite HS in D. lia.
Qed.
Print Assumptions C09_supply_is_sum.

(** Transactions: always, whether they succeed or fail. *)
Theorem C09_transactions : forall t s, bal_ok s -> (forall d, supply s d = sum_bal s d) ->
  forall d, supply (fst (deliver_tx t s)) d = sum_bal (fst (deliver_tx t s)) d.
Proof. intros t s Hok HS d. destruct (sd_tx t s Hok) as [_ D]. specialize (D d). rewrite HS in D. lia. Qed.
Print Assumptions C09_transactions.

(** A fresh chain starts that way: without an explicit supply the genesis sums the balances up. *)
Theorem C09_genesis : forall bals s s', st_bal s = ∅ -> NoDup (map fst bals) ->
  bank_init bals ∅ s = (s', Ok tt) -> bal_ok s' /\ forall d, supply s' d = sum_bal s' d.
Proof. exact bank_init_ok. Qed.
Print Assumptions C09_genesis.

Lemma w0_bal_ok : bal_ok w0.
Proof.
  assert (E : rel (keeps bal_ok) setup).
  { unfold setup, bank_init. repeat first [ solve [auto 8 with frame] | progress rel_struct | apply rel_modify; intros ?; by apply bal_ok_fields' ]. }
  apply E. intros a c H. change (st_bal empty_chain) with (∅ : gmap N coins) in H. by rewrite lookup_empty in H.
Qed.
Definition busy_blocks : list block :=
  [ blk (T0 + 1000000000) [tx1 (MSend 11 12 (uc 2000000)); tx1 (MDelegate 11 1000000000); tx1 (MDelegate 13 5000000000)];
    blk (T0 + 1000000000 + day_ns) [tx1 (MSend 12 14 (uc 3000000)); tx1 (MBurn 14 5000)];
    blk (T0 + 1000000000 + 2 * day_ns) [tx1 (MRevoke 13 1000000000 true)] ].
Example C09_witness : exists s' us, run_blocks busy_blocks w0 = Some (s', us) /\ bal_ok w0 /\
  aborts s' = aborts w0 /\ supply s' uartr <> supply w0 uartr /\ supply s' uartrd = 4987000001.
Proof.
  destruct (after_runs busy_blocks w0) as [us H]; [by vm_compute|]. exists (after busy_blocks w0), us.
  split; [exact H|]. split; [exact w0_bal_ok|]. split; [by vm_compute|]. split; [|by vm_compute].
  intros E. vm_compute in E. discriminate.
Qed.

(** ** C10 *)

Theorem C10_no_negative_balance : forall bs s s' us, run_blocks bs s = Some (s', us) -> bal_ok s ->
  bal_ok s' /\ forall a d, 0 <= bal s' a d.
Proof.
  intros bs s s' us H Hok. assert (Hok' : bal_ok s') by (by eapply bal_ok_blocks). split; [done|].
  intros. by apply bal_ok_nonneg.
Qed.
Print Assumptions C10_no_negative_balance.

(** Also in the middle of a block, after every transaction *)
Theorem C10_transactions : forall t s, bal_ok s ->
  bal_ok (fst (deliver_tx t s)) /\ forall a d, 0 <= bal (fst (deliver_tx t s)) a d.
Proof.
  intros t s Hok. assert (Hok' : bal_ok (fst (deliver_tx t s))) by (by apply bal_ok_tx). split; [done|].
  intros. by apply bal_ok_nonneg.
Qed.
Print Assumptions C10_transactions.
Example C10_witness : bal_ok w0 /\ bal w0 11 uartr = 20000000000 /\ bal w0 99 uartr = 0.
Proof. split; [exact w0_bal_ok|]. split; by vm_compute. Qed.

(** ** C11 *)

Theorem C11_send_allowed : forall from to c s s', run_msg (MSend from to c) s = (s', Ok tt) ->
  (forall d, d <> uartr -> c !! d = None) /\
  bp_min_send (st_bp s) <= amt c uartr /\ from ∉ bp_blocked (st_bp s).
Proof.
  intros from to c s s' H. apply msg_send_ok in H as (HD & _ & [_ HM] & _ & HB & _).
  split; [|done]. intros d Hd. destruct (c !! d) as [n|] eqn:E; [|done]. by apply HD in E as [-> _].
Qed.
Print Assumptions C11_send_allowed.

(** Only a governance decision takes a sender off the list: it stays on it
    through every transaction that does not vote or propose, through every
    scheduled task but the end of a vote, and through what a block does first
    and last.  And while it is on the list, no transfer of its succeeds. *)
Theorem C11_blocked_stays_tx : forall t s a,
  (forall m, m ∈ tx_msgs t -> match m with MVote _ _ | MPropose _ _ _ => False | _ => True end) ->
  a ∈ bp_blocked (st_bp s) -> a ∈ bp_blocked (st_bp (fst (deliver_tx t s))).
Proof. intros t s a H Ha. by rewrite (bp_same_tx t s H). Qed.
Print Assumptions C11_blocked_stays_tx.
Theorem C11_blocked_stays_task : forall h f x t s a, hooks h = Some f -> h <> HVote ->
  a ∈ bp_blocked (st_bp s) -> a ∈ bp_blocked (st_bp (fst (f x t s))).
Proof. intros h f x t s a H Hh Ha. by rewrite (bp_same_hook h f x t H Hh s). Qed.
Print Assumptions C11_blocked_stays_task.
Theorem C11_blocked_stays_block : forall p v e s a, a ∈ bp_blocked (st_bp s) ->
  a ∈ bp_blocked (st_bp (fst (noding_begin p v e s))) /\ a ∈ bp_blocked (st_bp (fst (end_block s))).
Proof. intros p v e s a Ha. by rewrite (bp_same_noding p v e s), (bp_same_end s). Qed.
Print Assumptions C11_blocked_stays_block.
Theorem C11_blocked_cannot_send : forall from to c s,
  from ∈ bp_blocked (st_bp s) -> forall s', run_msg (MSend from to c) s <> (s', Ok tt).
Proof. intros from to c s H s' E. by apply C11_send_allowed in E as (_ & _ & E). Qed.
Print Assumptions C11_blocked_cannot_send.

Example C11_witness : exists s, run_msg (MSend 11 12 (uc 2000000)) s = (exec (run_msg (MSend 11 12 (uc 2000000))) s, Ok tt) /\
  14%N ∈ bp_blocked (st_bp s).
Proof.
  exists (w0 <| st_bp := bp0 <| bp_blocked := [14%N] |> |>). split; [apply exec_ok; by vm_compute|]. cbn. left.
Qed.

(** ** C12 *)

(** Main, delegated and revoking coins alike: an existing account that has not
    signed a transaction has, after it, at least what it had. *)
Theorem C12_only_signers_pay : forall t s z d, bal_ok s -> acc_exists s z = true -> z ∉ tx_signers t ->
  bal s z d <= bal (fst (deliver_tx t s)) z d.
Proof. intros t s z d Hok HE Hz. by apply (unharmed_tx z t s Hz Hok HE). Qed.
Print Assumptions C12_only_signers_pay.
Example C12_witness : let t := mkTx 11 (uc 5) [MSend 11 12 (uc 2000000); MPayTariff 11 0] in
  bal_ok w0 /\ acc_exists w0 13 = true /\ 13%N ∉ tx_signers t /\ snd (deliver_tx t w0) = true.
Proof.
  split; [exact w0_bal_ok|]. split; [by vm_compute|]. split; [|by vm_compute].
  apply (bool_decide_unpack _). by vm_compute.
Qed.

(** ** C13 *)

(** The amount of the message is an unsigned 64-bit number. *)
Theorem C13_burn_exact : forall a n s s', 0 < n < 2^64 -> run_msg (MBurn a n) s = (s', Ok tt) ->
  n <= bal s a uartr /\
  (forall x, bal s' x uartr = bal s x uartr - (if (x =? a)%N then n else 0)) /\
  (forall x d, d <> uartr -> bal s' x d = bal s x d) /\
  supply s' uartr = supply s uartr - n /\ (forall d, d <> uartr -> supply s' d = supply s d) /\
  sum_bal s' uartr = sum_bal s uartr - n.
Proof. intros a n s s' Hn H. apply msg_burn_ok in H as (_ & H); [exact H|done]. Qed.
Print Assumptions C13_burn_exact.
Theorem C13_not_enough : forall a n s s', 0 < n < 2^64 -> bal s a uartr < n -> run_msg (MBurn a n) s <> (s', Ok tt).
Proof. intros a n s s' Hn Hb H. apply C13_burn_exact in H as [H _]; [lia|done]. Qed.
Print Assumptions C13_not_enough.
Example C13_witness : run_msg (MBurn 11 12345) w0 = (exec (run_msg (MBurn 11 12345)) w0, Ok tt) /\
  supply (exec (run_msg (MBurn 11 12345)) w0) uartr = supply w0 uartr - 12345.
Proof. split; [apply exec_ok; by vm_compute|by vm_compute]. Qed.

(** ** C14 *)

Theorem C14_multi_transfer : forall ins outs s s', input_output_coins ins outs s = (s', Ok tt) ->
  (forall d, sum_all ins d = sum_all outs d) /\
  (forall x d, bal s' x d = bal s x d - share ins x d + share outs x d) /\
  (forall d, sum_bal s' d = sum_bal s d) /\ (forall d, supply s' d = supply s d).
Proof.
  intros ins outs s s' H. apply io_ok in H as (E & B & T & S & _). repeat (split; [assumption|]).
  intros d. unfold supply. by rewrite S.
Qed.
Print Assumptions C14_multi_transfer.
Example C14_witness : let m := input_output_coins [(11%N, uc 500); (13%N, uc 700)] [(12%N, uc 900); (11%N, uc 300)] in
  m w0 = (exec m w0, Ok tt) /\ bal (exec m w0) 11 uartr = bal w0 11 uartr - 200.
Proof. split; [apply exec_ok; by vm_compute|by vm_compute]. Qed.

(** ** C63 *)

(** A failed transaction either leaves the state as it was, or what is left of
    it is the payment of its fee by the payer to the fee collector: balances
    change by exactly that, the supply does not change, and the profiles,
    delegations, earners, votes, polls and parameters do not change at all. *)
Theorem C63_failed_transaction : forall t s s', deliver_tx t s = (s', false) ->
  s' = s \/
  ((forall x d, bal s' x d = bal s x d - (if (x =? tx_payer t)%N then amt (tx_fees t) d else 0)
                                      + (if (x =? fee_collector)%N then amt (tx_fees t) d else 0)) /\
   (forall d, supply s' d = supply s d) /\ unchanged_modules s s').
Proof. exact failed_tx. Qed.
Print Assumptions C63_failed_transaction.
Example C63_witness :
  let t := mkTx 11 (uc 5) [MSend 11 12 (uc 2000000); MSend 11 12 (uc (10 * 10^12))] in
  snd (deliver_tx t w0) = false /\ bal (fst (deliver_tx t w0)) 11 uartr = bal w0 11 uartr - 5 /\
  bal (fst (deliver_tx t w0)) 12 uartr = bal w0 12 uartr.
Proof. split; [by vm_compute|]. split; by vm_compute. Qed.

(** ** C64 *)

(** [all_coins]: the sum of all balances in the main, the delegated and the
    revoking denomination.  No transaction without a delegation or a
    revocation makes it grow, *)
Theorem C64_transactions : forall t s, bal_ok s ->
  (forall m, m ∈ tx_msgs t -> match m with MDelegate _ _ | MRevoke _ _ _ => False | _ => True end) ->
  all_coins (fst (deliver_tx t s)) <= all_coins s.
Proof. exact no_more_tx. Qed.
Print Assumptions C64_transactions.
(** no scheduled task but those that pay interest, whether it succeeds or fails, *)
Theorem C64_tasks : forall h f a t s, bal_ok s -> hooks h = Some f -> h <> HAccrue -> h <> HBanish ->
  all_coins (fst (f a t s)) <= all_coins s.
Proof. intros h f a t s Hok Hf H1 H2. apply (nm_hook h f a t); [by destruct h|done|done]. Qed.
Print Assumptions C64_tasks.
(** and neither does what a block does first and last. *)
Theorem C64_blocks : forall p v e s, bal_ok s ->
  all_coins (fst (noding_begin p v e s)) <= all_coins s /\ all_coins (fst (end_block s)) <= all_coins s.
Proof. intros p v e s Hok. split; [by apply nm_noding|by apply nm_end]. Qed.
Print Assumptions C64_blocks.
(** The two payments of interest: exactly the interest, and the validators'
    shares, at most 6/30000 of the amount they are computed from. *)
Theorem C64_interest : forall a n s s', accrue a n s = (s', Ok tt) ->
  all_coins s' = all_coins s \/ (0 < n /\ all_coins s' = all_coins s + n).
Proof. exact accrue_amount. Qed.
Print Assumptions C64_interest.
Theorem C64_validator_shares : forall a n s s', accrue_to_validator a n s = (s', Ok tt) ->
  all_coins s <= all_coins s' /\ 30000 * (all_coins s' - all_coins s) <= 6 * Z.max 0 n.
Proof. exact shares_amount. Qed.
Print Assumptions C64_validator_shares.
Example C64_witness :
  let s := fst (deliver_tx (tx1 (MDelegate 11 1000000000)) w0) in
  let t := mkTx 11 (uc 5) [MSend 11 12 (uc 2000000); MBurn 11 777] in
  bal_ok s /\ snd (deliver_tx t s) = true /\ all_coins (fst (deliver_tx t s)) = all_coins s - 777 /\
  ok (eval (accrue 10 5000) s) = true /\ all_coins (exec (accrue 10 5000) s) = all_coins s + 5000.
Proof. cbv zeta. split; [apply bal_ok_tx, w0_bal_ok|]. by vm_compute. Qed.

(** ** C65 *)

(** A successful payment empties the fee collector and the main coins of the
    splittable fee collector: the proposer gets all of the former and his share of
    the latter, the company account its share, and the rest is burnt. *)
Theorem C65_fees_handed_out : forall a s s', pay_proposer_reward a s = (s', Ok tt) ->
  let company := bp_company (st_bp s) in
  let x := bal s splitter uartr in
  bal_ok s -> a <> splitter -> a <> fee_collector -> company <> splitter -> company <> fee_collector ->
  exists p c b, p + c + b = x /\ 0 <= p /\ 0 <= c /\ 0 <= b /\
    (forall y d, bal s' y d = bal s y d
       + (if (y =? a)%N then bal s fee_collector d + (if (d =? uartr)%N then p else 0) else 0)
       + (if (y =? company)%N then (if (d =? uartr)%N then c else 0) else 0)
       - (if (y =? fee_collector)%N then bal s fee_collector d else 0)
       - (if (y =? splitter)%N then (if (d =? uartr)%N then x else 0) else 0)) /\
    (forall d, supply s' d = supply s d - (if (d =? uartr)%N then b else 0)) /\
    (forall n, Frac.split_fee x (bp_for_proposer (st_bp s)) (bp_for_company (st_bp s)) = Some n ->
       p = Z.min x (fst (fst n)) /\ c = Z.min (x - p) (snd (fst n))).
Proof. exact reward_exact. Qed.
Print Assumptions C65_fees_handed_out.
Example C65_witness : let s := exec (run_msg (MSend 11 12 (uc 2000000))) w0 in
  let s' := exec (pay_proposer_reward 10) s in
  ok (eval (pay_proposer_reward 10) s) = true /\ bal s splitter uartr = 50005995 /\ bal s' splitter uartr = 0 /\
  bal s' 10 uartr = bal s 10 uartr + 33337330 /\ supply s' uartr = supply s uartr - 16668665.
Proof. by vm_compute. Qed.
