# Design: a Rocq model of arterynetwork/artr

The code base is a Cosmos-SDK (v0.42.6) chain.  The model covers the custom
modules (`util`, `x/bank`, `x/schedule`, `x/referral`, `x/noding`,
`x/delegating`, `x/earning`, `x/profile`, `x/voting`) and the wiring in
`app/app.go` that joins them (hooks, callbacks, block order, transaction
atomicity).

## 1. Shape of the model

* **Pure layer** (`Frac.v`, including fees, and `Lists.v`): total Gallina functions,
  one per Go function; a Go panic is `None`.
* **One chain state** (`State.v`): a record holding the store of every module
  (finite maps), the parameters, the block time/height and the node's error
  log.
* **One monad** (`Monad.v`): `M A := St -> St * res A`, with
  `res A = Ok a | Err e | Panic e`.  A failing computation *keeps the writes
  it has made*, as the Go code does on a KV store.  `tx` (message execution)
  discards the writes of a failed message; the scheduler's `recover` keeps them.
* **One file per keeper**, in the order of their dependencies: `Schedule.v`,
  `Noding.v`, `Referral.v`, `Bank.v`, `Earning.v`, `Delegating.v`, `Profile.v`,
  `Voting.v`.  One Gallina function per Go function, each with a comment citing
  file and lines.  `Genesis*.v`: export and import.
  `Queries.v`: the query servers.  `Upgrade.v`: the upgrade handlers.
* **App.v**: messages, transactions (`deliver_tx`), block phases
  (`begin_block`, `end_block`) and `run_blocks`, the outcome of any list of
  blocks from any state (`None` if the node stops).

What the theorems are stated with:

* `Spec_*.v` hold the small specifications (sums over accounts, k-th referrer,
  requirements of a status, price of a subscription ...), written without the
  model's helper functions.  `Spec_History.v` lists everything that happens in a
  history, step by step: the tasks carried out and the messages of successful
  transactions, each with the state it finds.
* `Props_*.v` hold the theorems, named after the property, with `Print
  Assumptions` after each, and beside each one an `Example` showing that a
  concrete non-trivial state or history meets its hypotheses.
* `Witness.v`: the small chain these examples are computed on.

How they are proved:

* `MonadProofs.v`, `ModeProofs.v`: a relation on states is kept by all runs
  (`rel`), by successful runs (`okrel`), by runs that do not panic (`nprel`).
* `Sweep.v`, `SweepO.v`, `SweepP.v`: for *any* preorder on states, every
  operation of every keeper keeps it as soon as the primitive writes do.  This
  is the induction over the code; each invariant only supplies the primitive
  steps that matter to it.
* `Blocks.v`, `History.v`: from single steps to transactions, blocks and
  histories of any length (`bl_blocks`, `hs_blocks`, `hs_split`).
* `*Proofs.v`, `*Hist.v`: the lemmas of each area.

## 2. Abstractions (the same everywhere)

| Real thing | Model |
|---|---|
| account address (bytes or bech32 string) | `N`; `""`/nil is `nobody` (0); the fee accounts of the chain are 1 and 2 |
| `sdk.Int`, `big.Int` | `Z` (unbounded; the 255-bit overflow panic of sdk.Int is not modelled) |
| int64/uint64/uint32 arithmetic | `Z`, with the wrap `mod 2^64` or the range check written where it can matter |
| `sdk.Coins` | finite map denom -> positive `Z` |
| `time.Time` | `Z`, nanoseconds since the epoch |
| protobuf encode/decode | identity |
| KV store iteration | ascending key order where the order matters (schedule); elsewhere the order of the finite map |
| strings of nicknames | lists of characters; case mapping and blanks are arbitrary functions in the state |
| gas, out-of-gas, mempool, signatures, sequence numbers | not modelled; a message carries its signer |
| events (`EmitEvent`) | not modelled |
| `math.Log` in validator scores | an arbitrary function in the state |
| loops without a bound | fuel that a chain without repetition cannot exceed; running out is a panic "endless loop" |

## 3. Plan per property

Proof methods: **alg** = algebraic law by case analysis/induction on the data;
**inv** = invariant proved by induction over all histories; **step** = a
pre/post theorem about one operation on an arbitrary state; **ref** = the
faithful model violates the property, the theorem is the refutation with a
witness computed by `vm_compute`, together with the largest positive part that
can be proved.

No property on the list is outside what the model can express.

| Prop | Title | Modelled in | Method | Theorems | Status |
|---|---|---|---|---|---|
| C01 | Fractions are exact rationals | Frac.v; values in Q | alg: case analysis on sign and denominator, laws of Q | `C01_add`, `C01_sub`, `C01_mul`, `C01_div`, `C01_div_by_zero`, `C01_mul_int`, `C01_div_int`, `C01_neg`, `C01_reduce` | proved |
| C02 | Fraction comparisons agree with the rational order | Frac.v; values in Q | alg: case analysis on sign and denominator, laws of Q | `C02_comparisons`, `C02_signs` | proved |
| C03 | Conversion of a fraction to an integer truncates toward zero and wraps at 64 bits | Frac.v; values in Q | alg: case analysis on sign and denominator, laws of Q | `C03_truncation`, `C03_int64` | proved |
| C04 | Printing then parsing a fraction gives the same fraction back | Frac.v; values in Q | alg: case analysis on sign and denominator, laws of Q | `C04_round_trip`, `C04_null_round_trip` | proved |
| C05 | Sorted address lists stay sorted, duplicate-free and complete | Lists.v; sets as sorted lists of any ordered type | alg: induction on the list | `C05_add_sorted`, `C05_merge`, `C05_remove_preserve_order`, `C05_remove_sorted`, `C05_remove_fast`, `C05_add_onto_end`, `C05_contains` | proved |
| C06 | Transaction fee never exceeds the rate, the amount or the cap | Frac.v (calculate_fee) | alg: bounds on floor division | `C06_fee_bounds`, `C06_fee_below_amount`, `C06_zero_denominator_refuted`, `C06_big_rate_refuted` | proved |
| C07 | A fee splits exactly | Frac.v (calculate_fee) | alg: bounds on floor division | `C07_fee_splits_exactly` | proved |
| C08 | A send moves exactly the amount, charges exactly the fee, touches nobody else | Bank.v send_coins, every pair of accounts | step | `C08_send_exact`, `C08_failed_send` | proved |
| C09 | Total supply always equals the sum of all balances | App.v: run_blocks; sum of all balances against the supply (Spec_Bank.v) | inv: preorder kept by every primitive (Sweep*.v), lifted to blocks | `C09_supply_is_sum`, `C09_transactions`, `C09_genesis` | proved |
| C10 | No balance is ever negative | App.v: run_blocks; sum of all balances against the supply (Spec_Bank.v) | inv: preorder kept by every primitive (Sweep*.v), lifted to blocks | `C10_no_negative_balance`, `C10_transactions` | proved |
| C11 | Only transferable coins move, and blocked senders cannot send | Bank.v messages | step | `C11_send_allowed`, `C11_blocked_stays_tx`, `C11_blocked_stays_task`, `C11_blocked_stays_block`, `C11_blocked_cannot_send` | proved |
| C12 | Nobody else can take your coins | App.v: run_blocks; sum of all balances against the supply (Spec_Bank.v) | inv: preorder kept by every primitive (Sweep*.v), lifted to blocks | `C12_only_signers_pay` | proved |
| C13 | Burning destroys exactly the stated amount | Bank.v messages | step | `C13_burn_exact`, `C13_not_enough` | proved |
| C14 | Multi-party transfers conserve coins | Bank.v messages | step | `C14_multi_transfer` | proved |
| C15 | Schedule keys order like times | Schedule.v: 8-byte keys | alg | `C15_order`, `C15_accepted`, `C15_bytes` | proved |
| C16 | Due tasks run exactly once, in time order | Schedule.v, Spec_Schedule.v (list of due tasks) | alg/step; C20 over BeginBlock | `C16_due_once`, `C16_scheduling_order`, `C16_well_formed` | proved |
| C17 | No scheduled task is ever lost | Schedule.v | ref (two tasks that differ only in data) and the positive part | `C17_refuted`, `C17_partial` | partial (refuted as stated) |
| C18 | Deleting a task removes that task and nothing else | Schedule.v, Spec_Schedule.v (list of due tasks) | alg/step; C20 over BeginBlock | `C18_delete`, `C18_delete_all`, `C18_total` | proved |
| C19 | Schedule export/import is lossless | Schedule.v, Spec_Schedule.v (list of due tasks) | alg/step; C20 over BeginBlock | `C19_export_import` | proved |
| C20 | A failing task neither stops the block nor the other tasks | Schedule.v, Spec_Schedule.v (list of due tasks) | alg/step; C20 over BeginBlock | `C20_failure_isolated` | proved |
| C21 | Per-line totals equal the real totals of the network | Referral.v, App.v; Spec_Network.v counts members by walking up the referrers | inv over blocks: RefTheory (abstract forest with line sums), RefSane/RefOps/RefSteps/RefMove (each operation), RefHist (blocks), NetProofs (the plain statement), HoldProofs (line 0 follows the balance); ref for registrations under strangers | `C21_partial`, `C21_refuted` | partial (refuted as stated) |
| C22 | The tenth line is accounted like the others | Referral.v compress | ref: a computed history | `C22_refuted` | partial (refuted as stated) |
| C23 | Active-referral counters equal the real numbers | as C21 | inv as C21; ref (Props_Counters.v) | `C23_refuted`, `C23_partial` | partial (refuted as stated) |
| C24 | The referral structure is a forest | as C21 | inv as C21; the lists and chains of C24 and C73 also for histories with own referrers and any banishment: a weaker invariant, with a rank of the chains (ListProofs.v, ListHist.v); C24 also ref (own referrer) | `C24_partial`, `C24_circles_partial`, `C24_network_partial`, `C24_lists_partial`, `C24_refuted` | partial (refuted as stated) |
| C25 | Status requirements are exactly the published thresholds | Referral.v, Profile.v, Delegating.v; Spec_Referral.v restates the requirements of each status | step (every state) | `C25_update` | proved |
| C26 | A status is lost only after the grace period | Referral.v, Profile.v, Delegating.v; Spec_Referral.v restates the requirements of each status | step (every state) | `C26_check`, `C26_downgrade` | proved |
| C27 | A transition cannot create a cycle and its validation terminates | Referral.v validate_transition (loop with fuel; running out of fuel is a panic) | step in any state; termination by rank, and inv over blocks; ref | `C27_ends_partial`, `C27_history_partial`, `C27_request`, `C27_approve`, `C27_terminates_partial`, `C27_refuted` | partial (refuted as stated) |
| C28 | Transitions only go to registered accounts | Referral.v, Profile.v | ref and step | `C28_refuted`, `C28_partial` | partial (refuted as stated) |
| C29 | Only inactive, undelegated, non-top-level members are banished | Referral.v, Profile.v, Delegating.v; Spec_Referral.v restates the requirements of each status | step (every state) | `C29_who`, `C29_effect` | proved |
| C30 | A returning account lands under its nearest open ancestor | Referral.v, Profile.v, Delegating.v; Spec_Referral.v restates the requirements of each status | step (every state) | `C30_come_back`, `C30_returns` | proved |
| C31 | Referral commission for validators never exceeds 6 permille | Referral.v, Profile.v, Delegating.v; Spec_Referral.v restates the requirements of each status | step (every state) | `C31_exact`, `C31_bounds` | proved |
| C32 | Nobody can register under a closed account | Referral.v, Profile.v, Delegating.v; Spec_Referral.v restates the requirements of each status | step (every state) | `C32_append`, `C32_register` | proved |
| C33 | Jailing happens after exactly the configured number of consecutive misses | Noding.v; scores, lottery and powers restated in Spec_Noding.v | step/alg | `C33_block`, `C33_history`, `C33_stays`, `C33_unjail` | proved |
| C34 | A lifetime ban is permanent | App.v: updates given to consensus, folded over a history | inv | `C34_evidence`, `C34_two`, `C34_forever`, `C34_no_power` | proved |
| C35 | The consensus validator set follows the records | App.v: updates given to consensus, folded over a history | inv | `C35_follows`, `C35_block` | proved |
| C36 | A validator that loses qualification is switched off | Noding.v | ref, and the largest positive part | `C36_refuted`, `C36_status_partial`, `C36_on_partial`, `C36_unjail_partial`, `C36_staff_partial` | partial (refuted as stated) |
| C37 | No two active validators share a consensus key, and no update list names a key twice | Noding.v | ref, and the largest positive part | `C37_refuted`, `C37_partial` | partial (refuted as stated) |
| C38 | The lottery queue is first-in first-out | Noding.v; scores, lottery and powers restated in Spec_Noding.v | step/alg | `C38_new`, `C38_requeue`, `C38_exclude`, `C38_draw` | proved |
| C39 | Voting power assignment never fails and follows the slices | Noding.v; scores, lottery and powers restated in Spec_Noding.v | step/alg | `C39_valid`, `C39_powers` | proved |
| C40 | Delegation converts coins one for one | Delegating.v; Spec_Delegating.v restates interest in Q | step | `C40_delegate`, `C40_interest` | proved |
| C41 | Revocation burns exactly the configured share and returns the rest after the period | Delegating.v; Spec_Delegating.v restates interest in Q | step | `C41_revoke`, `C41_paid_back` | proved |
| C42 | Revoking coins always equal the pending requests | App.v | inv | `C42_refuted`, `C42_partial` | partial (refuted as stated) |
| C43 | Interest accrues at most once per period | Delegating.v; Spec_Delegating.v restates interest in Q | step | `C43_stale`, `C43_interest`, `C43_unskipped`, `C43_once` | proved |
| C44 | Interest percentage follows the table | Delegating.v; Spec_Delegating.v restates interest in Q | step | `C44_rate`, `C44_validated` | proved |
| C45 | Earner activity expires two days after the last confirmation | Earning.v | step; C46 ref | `C45_active`, `C45_confirm`, `C45_history` | proved |
| C46 | Only authorised signers can confirm earners | Earning.v | step; C46 ref | `C46_refuted`, `C46_partial` | partial (refuted as stated) |
| C47 | Nicknames are unique | Profile.v; nicknames as lists of characters with arbitrary case mapping | inv | `C47_unique`, `C47_lookup` | proved |
| C48 | A released nickname becomes available again | Profile.v | ref and step | `C48_refuted`, `C48_partial` | partial (refuted as stated) |
| C49 | Card numbers are unique and never change | Profile.v; nicknames as lists of characters with arbitrary case mapping | inv | `C49_refuted`, `C49_created_partial`, `C49_partial` | partial (refuted as stated) |
| C50 | Activity is always paid for | Profile.v | ref and step | `C50_refuted`, `C50_history_partial`, `C50_partial` | partial (refuted as stated) |
| C51 | A subscription payment costs exactly the published price and extends exactly one month | Profile.v; price restated in Q | step | `C51_refuted`, `C51_partial`, `C51_auto_partial` | partial (refuted as stated) |
| C52 | You get the storage you pay for | Profile.v | ref and step | `C52_refuted`, `C52_partial` | partial (refuted as stated) |
| C53 | Traffic limits are never inflated by the monthly reset | Profile.v | ref and step | `C53_refuted`, `C53_refresh_partial`, `C53_payment_partial`, `C53_partial` | partial (refuted as stated) |
| C54 | A failed automatic renewal takes no money | Profile.v | ref and step | `C54_refuted`, `C54_partial` | partial (refuted as stated) |
| C55 | A proposal takes effect only if everybody voted and at least two thirds agreed | Voting.v, App.v | inv | `C55_history`, `C55_changed` | proved |
| C56 | One member, one vote; only members vote | Voting.v, App.v | inv | `C56_votes`, `C56_vote` | proved |
| C57 | A vote always ends | Voting.v, App.v | inv | `C57_deadline`, `C57_closed`, `C57_completed` | proved |
| C58 | A government can always decide | Voting.v (with export and import for C62) | ref and the positive part | `C58_refuted`, `C58_partial` | partial (refuted as stated) |
| C59 | Every decided proposal is kept in history | Voting.v (with export and import for C62) | ref and the positive part | `C59_refuted`, `C59_filed_partial`, `C59_stays_partial` | partial (refuted as stated) |
| C60 | Poll counters equal the number of distinct answers | Voting.v, App.v | inv | `C60_counters`, `C60_history`, `C60_answer` | proved |
| C61 | The poll decision follows the quorum rule | Voting.v | step | `C61_decided` | proved |
| C62 | An exported chain can be imported | Voting.v (with export and import for C62) | ref and the positive part | `C62_refuted`, `C62_partial` | partial (refuted as stated) |
| C63 | Transactions are atomic | App.v | step | `C63_failed_transaction` | proved |
| C64 | New coins come only from interest | App.v | inv | `C64_transactions`, `C64_tasks`, `C64_blocks`, `C64_interest`, `C64_validator_shares` | proved |
| C65 | Collected fees are handed out completely in every block | App.v | step | `C65_fees_handed_out` | proved |
| C66 | Computing the validator updates never stops the node | Noding.v, Voting.v, App.v | inv; C69 ref | `C66_end` | proved |
| C67 | No vote and no evidence is lost | Noding.v, Voting.v, App.v | inv; C69 ref | `C67_attributed` | proved |
| C68 | Validator parameters stay valid | Noding.v, Voting.v, App.v | inv; C69 ref | `C68_parameters` | proved |
| C69 | The consensus validator set is never larger than configured | Noding.v, Voting.v, App.v | inv; C69 ref | `C69_partial`, `C69_refuted` | partial (refuted as stated) |
| C70 | A poll ends at its deadline and not before | Voting.v, App.v | inv | `C70_deadline`, `C70_not_before` | proved |
| C71 | Nicknames cannot imitate card numbers | Profile.v; nicknames as lists of characters with arbitrary case mapping | inv | `C71_reserved` | proved |
| C72 | A new member joins under an existing member | Referral.v, Profile.v | ref and step | `C72_refuted` | partial (refuted as stated) |
| C73 | The active referrals of an account are known | as C21 | inv as C21; the lists and chains of C24 and C73 also for histories with own referrers and any banishment: a weaker invariant, with a rank of the chains (ListProofs.v, ListHist.v); C24 also ref (own referrer) | `C73_active_referrals`, `C73_lists` | proved |
| C74 | A chain starts with the network its genesis file describes | Genesis.v, App.v; Spec_Genesis.v says which files are free of contradictions and what it means that the network is the described one | inv over the stages of the import (GenesisProofs.v), on top of RefHist/HoldProofs; RefDom (which accounts get records) | `C74`, `C74_history_partial` | proved |
| C75 | Exporting the state and starting again keeps the network and the coins | Genesis.v (export and import of all modules); Spec_Genesis.v: settled | the exported file is tidy (ExportProofs.v), then C74; balances are carried through the import | `C75_partial`, `C75_refuted` | partial (refuted as stated) |
| C76 | A chain started from a genesis file has unique nicknames, cards and account numbers | Genesis.v, Profile.v; Spec_Genesis.v: names_apart, numbered, carded | inv over the import (NameGenesis.v) and over histories (NumberHist.v) | `C76_partial`, `C76_history_partial`, `C76_refuted` | partial (refuted as stated) |
| C77 | Exporting the state and starting again keeps profiles, cards and account numbers | Genesis.v, Profile.v | C76 for the exported state; the exported accounts are sorted by number, hence renumbered alike (NameGenesis.v) | `C77` | proved |
| C78 | Paging through a list shows every entry once | Queries.v (page_of with 32-bit arithmetic) | induction over pages (QueryProofs.v); witness | `C78_earners_partial`, `C78_history_partial`, `C78_polls`, `C78_refuted` | partial (refuted as stated) |
| C79 | The accumulation forecast comes true | Queries.v, Delegating.v; Spec_Queries.v: forecast | the query computes the same interest as accrue (accumulation_ok), then C43 and C41 | `C79_total`, `C79_current`, `C79_forecast`, `C79_skipped` | proved |
| C80 | The verdict on a transition is right | Queries.v, Referral.v; Spec_Queries.v: may_move | inversion of validate_transition both ways; C27 for termination | `C80_verdict`, `C80_request`, `C80_answers_partial`, `C80_refuted` | partial (refuted as stated) |
| C81 | Whether an account may run a validator is told right | Queries.v, Noding.v | is_qualified_spec (C36) and running switch_on | `C81_verdict`, `C81_on`, `C81_accepted` | proved |
| C82 | Whoever is found by nickname or card has it | Queries.v, Profile.v; Spec_Queries.v: findable | inv over histories (index_blocks), on top of C47-C49; witness | `C82_card`, `C82_safe`, `C82_refuted`, `C82_nickname_partial` | partial (refuted as stated) |
| C83 | The state of a validator is told right | Queries.v, Noding.v | the invariant of C34/C35 extended by lottery numbers (GatherProofs.v, NodingHist.v) | `C83_states`, `C83_off` | proved |
| C84 | The schedule is shown completely | Queries.v, Schedule.v | sortedness invariant of the schedule (C01-C07) | `C84_all`, `C84_between` | proved |
| C85 | The poll query shows the votes cast | Queries.v, Voting.v | C60 | `C85_poll` | proved |
| C86 | The status query applies the table of requirements | Queries.v, Referral.v | status_req_spec (C25) | `C86_status` | proved |
| C87 | The network sums asked for are those of the open lines | Queries.v, Referral.v; Spec_Queries.v: in_lines | C21 and a sum over lines; witness | `C87_partial`, `C87_refuted` | partial (refuted as stated) |
| C88 | Only the owner changes a profile | Profile.v, App.v; Spec_Consent.v: settings, aged | sweep over all messages with the relation "the profile of z is kept" (ConsentProofs.v); inv over histories | `C88_message`, `C88_history` | proved |
| C89 | A nickname change and a registration cost what they should | Profile.v; Spec_Consent.v: handed_over, still, nick_asked | inversion of the message runs (PriceProofs.v) | `C89_nickname`, `C89_registration` | proved |
| C90 | Storage and traffic cost what they should and are delivered | Profile.v, Frac.v; Spec_Consent.v: gb_price, bought | the fractions compute the rational price (gb_priced), inversion of the runs (PriceProofs.v) | `C90_storage`, `C90_vpn`, `C90_im`, `C90_prolong`, `C90_give_up`, `C90_give_im_up` | proved |
| C91 | Nobody is moved in the referral network without asking | Referral.v, Delegating.v, App.v; Spec_Place.v: placed, no_concern | the referrer, request and banishment of one member followed through every operation of the updater (PlaceProofs.v, like RefDom.v), then sweep over messages and tasks; inv over histories | `C91_message`, `C91_task`, `C91_history` | proved |
| C92 | Whoever has the coins can send them | Bank.v, Referral.v, App.v; Spec_Live.v: healthy, accepted | total correctness: weakest preconditions for the monad (LiveProofs.v), the walk of OnBalanceChanged to the root by induction, the status checks cannot panic on readable books; healthy is shown to be kept | `C92_send` | proved |
| C93 | Delegated coins can be revoked | Delegating.v, Referral.v, App.v; Spec_Live.v: ready, fair_terms | counterexample by a computed history; partial: weakest preconditions for settlement of interest, conversion and scheduling (LiveRevoke.v) | `C93_refuted`, `C93_partial` | partial (refuted as stated) |
| C94 | Coins can be delegated | Delegating.v, Referral.v, App.v; Spec_Live.v | counterexample by a computed history; partial: as C93 | `C94_refuted`, `C94_partial` | partial (refuted as stated) |
| C95 | Scheduled payments go through | Delegating.v, App.v; Spec_Live.v: goes_through | weakest preconditions for the two scheduled tasks; the loop over due requests by induction | `C95_interest`, `C95_revoked` | proved |
| C96 | No software upgrade creates or destroys coins | Upgrade.v, all handlers; Spec_Bank.v, Spec_Network.v: holding | case analysis over the upgrades; preserved money by the preorder method, the two upgrades that move coins by induction over the accounts | `C96_coins` | proved |
| C97 | The upgrade to 2.2.1 delegates everything that the members have | Upgrade.v: ForceGlobalDelegation, RefreshReferralStatuses; Spec_Upgrade.v | induction over the accounts with an invariant on the processed and the remaining ones (UpgradeProofs.v) | `C97_global_delegation` | proved |
| C98 | The upgrade to 2.0.1 makes the lists of active referrals right | Upgrade.v: RecalculateActiveReferrals | induction over the accounts (UpgradeMore.v) | `C98_active_lists` | proved |
| C99 | The upgrade to 2.2.0 keeps exactly the qualified validators | Upgrade.v: InitPollPeriodParam, ForceOnStatusChangedCallback | induction over the validators | `C99_validators` | proved |
| C100 | The upgrade to 2.4.5 schedules the banishments that were missing | Upgrade.v: ScheduleMissingBanishment...; Spec_Upgrade.v: overlooked, waiting | induction over the accounts | `C100_missing_banishments` | proved |
| C101 | The upgrades to 2.4.3 and 2.4.4 lose no scheduled task | Upgrade.v: UpdateStatusDowngradeTasks, FixStatusDowngradeTasks | counterexample by a computed history; partial by induction over the misplaced tasks | `C101_refuted`, `C101_partial` | partial (refuted as stated) |
| C102 | The upgrade to 2.3.2 moves members away from banished accounts | Upgrade.v: TransferFromTheBanished | counterexample by a computed run; partial by induction over the accounts | `C102_refuted`, `C102_partial`, `C102_done_partial` | partial (refuted as stated) |
| C103 | The upgrade to 2.3.2 brings back the banished accounts that have a delegation | Upgrade.v: UnbanishAccountsWithDelegation; Spec_Upgrade.v: open, first_open | counterexample by a computed run; partial by induction over the accounts | `C103_refuted`, `C103_partial`, `C103_done_partial` | partial (refuted as stated) |
| C104 | The upgrade to 2.5.8 deactivates the top-level accounts | Upgrade.v: DeactivateTopLevelAccounts | counterexample by a computed run; partial by computation on maps | `C104_refuted`, `C104_partial` | partial (refuted as stated) |
| C105 | The upgrade to 2.5.8 adds the missing monthly tasks | Upgrade.v: AddMissingProfileRefreshTask | induction over the profiles, the months by induction on the loop | `C105_monthly_tasks` | proved |
| C106 | The lists of accounts by status are right | State.v: st_index; Referral.v: set_index and its callers; Queries.v: query_with_status; Spec_Index.v | invariant of the index over all operations, the start and histories (IndexProofs.v, IndexGen.v); counterexample by a computed history | `C106_complete_partial`, `C106_partial`, `C106_refuted` | partial (refuted as stated) |
| C107 | The upgrade to 2.1.0 makes the scheduled banishments right | Upgrade.v: ban_task, ban_instant, schedule_banishment_fix; Spec_Upgrade210.v | invariants of the loop over the schedule (records and tasks already treated) and of the loop over the returning accounts (UpgradeBan.v) | `C107_banishments` | proved |
| C108 | An update changes a profile exactly as asked | Profile.v: upd, apply_upd, upd_ok, msg_update_profile, set_profile; Spec_Settings.v: asked, proper_nick | induction over the list of updates from its end; computation of SetProfile for an unchanged nickname | `C108_update`, `C108_switches` | proved |
| C109 | Whoever can pay for storage or traffic gets it | Profile.v: pay_tariff, buy_storage, buy_vpn, buy_im, prolong_im, pay_company; Spec_Consent.v: gb_price, gb_fits; Spec_Live.v: healthy, fair_fee, accepted | step by step: the fractions have results (c03), the fee and the payment succeed in a healthy state, the profile with the same nickname and card can be written, and the ancestors can be told that the account has become active | `C109_storage`, `C109_vpn`, `C109_im`, `C109_prolong`, `C109_renewal`, `C109_first` | proved |
| C110 | The end of a month never stops the chain | Profile.v: perform_refresh, monthly, perform_refresh_im, monthly_im, pay_tariff, prolong_core; Referral.v: set_active; Spec_Profile.v: until, month_price, surcharge; Spec_Live.v: healthy, fair_fee, goes_through | by cases: still paid, no automatic payment, not enough coins (the payment is an error, not a stop, and the error is caught), enough coins (as C109); the change of activity succeeds in a healthy state along the chain of referrers | `C110_month`, `C110_im` | proved |
| C111 | A free nickname can be taken, and what one has can be given up | Profile.v: msg_update_profile, set_profile, validate_nickname, give_storage_up, give_im_up; Spec_Profile.v: names_ok, nick_key; Spec_Settings.v: proper_nick; Spec_Live.v: healthy, accepted | weakest preconditions through set_profile: the check of the nickname passes, the price can be paid in a healthy state, the activity does not change | `C111_nickname`, `C111_storage`, `C111_im` | proved |
| C112 | A validator can always be switched off, and leaves jail when its time is over | Noding.v: switch_off, unjail, is_qualified, lottery_exclude; Spec_Noding.v: qualified, jailed; Spec_Live.v: healthy, accepted | weakest preconditions; the qualification can be computed for validators in a healthy state | `C112_off`, `C112_unjail` | proved |
| C113 | Polls can be started and answered | Voting.v: msg_start_poll, answer, poll_valid; Spec_Voting.v: may_answer; Spec_Live.v: accepted | weakest preconditions | `C113_start`, `C113_answer` | proved |
| C114 | Those who have the right are not refused | Bank.v: msg_burn, burn_acc_coins, deflate; Profile.v: msg_set_rate, set_pparams, msg_set_storage_current, msg_set_vpn_current; Delegating.v: msg_resolve_transition; Referral.v: cancel_transition; Spec_Live.v: healthy, accepted | weakest preconditions; the subtraction succeeds in a healthy state | `C114_burn`, `C114_rate`, `C114_use`, `C114_decline` | proved |
| C115 | Newcomers are not refused | Profile.v: msg_create_account, create_with_profile, set_profile; Bank.v: create_account; Referral.v: append_child, registration_closed, schedule_compression; Spec_Live.v: healthy, accepted | weakest preconditions: the new record and the ten lines above it keep every record fit for the computation of statuses (LiveJoin.v) | `C115_join` | proved |
| C116 | The qualified can start a validator, and the government can propose and vote | Noding.v: switch_on, is_qualified, validator_by_cons, val_update; Voting.v: msg_propose, msg_vote, tally; Earning.v: msg_set_earners; Spec_Live.v: healthy, accepted; Spec_Noding.v: qualified | weakest preconditions; in a healthy state the stake of the open lines can be summed up and fits | `C116_on`, `C116_propose`, `C116_vote`, `C116_earners` | proved |
| C117 | Another referrer can be asked for | Delegating.v: msg_request_transition, request_transition, set_transition; Referral.v: validate_transition, walk_up; Spec_Queries.v: may_move; Spec_Live.v: healthy, accepted | the check neither fails (the conditions) nor runs out of fuel (a chain that ends does not go round); then weakest preconditions | `C117_ask` | proved |

## 4. Trusted base

* Coq 8.16.1's kernel, with its virtual machine (`vm_compute` in examples and
  refutations).
* No axioms: `Print Assumptions` reports "Closed under the global context" for
  every theorem in MANIFEST.json (section 6).  Loading std++ brings Coq's own
  `ssreflect`, whose module `Coq.ssr.ssrunder.Under_rel` declares seven opaque
  parameters (`Under_rel`, `Under_rel_from_rel`, `Under_relE`, `Over_rel`,
  `over_rel`, `over_rel_done`, `under_rel_done`); they are part of the standard
  library, a check of the whole environment lists them, no theorem uses them.
* Libraries used: Coq's standard library and std++ (finite maps, lists,
  decidability).  All are themselves checked by the kernel.
* The reading of the Go code, which is not run here: each definition cites the
  lines it models and says where it simplifies.
* The behaviour of the Cosmos SDK and Tendermint as summarised in section 2:
  messages of a failed transaction are undone, the ante handler's fee is not;
  BeginBlock order noding, schedule; EndBlock noding; a panic outside a
  transaction and outside the scheduler's `recover` stops the node.

## 5. What is modelled and what is not

Modelled: all of `util/fraction.go`, `util/fee.go`, `util/lists.go`; the keepers,
message servers, `ValidateBasic` checks and hooks of all eight modules; the
parameters that can be changed by vote and their validation; the ante handler's
fee; block begin and end; export and import as listed in `Genesis*.v` and
`Voting.v`; the answers of the query servers (`Queries.v`) except parameter
queries; the upgrade handlers of
`app/upgrade.go` that change the stores (`Upgrade.v`).

Not modelled: CLI, REST and the transport of queries, simulation, telemetry, the upgrade handlers that only set parameters of
other modules to literals, `util/created_at.go` (a table), the
Cosmos SDK itself beyond what is described above, events, gas, signatures, the
255-bit bound of `sdk.Int`.

Simplifications that a reader should know of (each is also noted at its definition):

* A software upgrade decided by a vote is recorded, not carried out; the
  theorems about upgrades take the state before an upgrade and the state after it.
* An infraction is a number; the evidence itself is not checked.
* A public key is a number and is its own consensus address.
* The bonus tables and prices are parameters of the state, as in the Go code;
  theorems hold for all values that meet the stated hypotheses.

## 6. Print Assumptions

Every one of the 284 theorems named in MANIFEST.json: "Closed under the
global context".  (Printed at each theorem in `Props_*.v` during the build.)

## 7. Wrong programs

`seeded/LOG.jsonl` records the edits made to a scratch copy of the model, the
claim each one breaks, and the theorems that failed to build afterwards.  An edit
that broke a claim without breaking a theorem led to a stronger theorem, named in
the entry.
