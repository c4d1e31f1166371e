{
 "claims": [
  {
   "property": "C01",
   "status": "proved",
   "theorems": [
    "C01_add",
    "C01_sub",
    "C01_mul",
    "C01_div",
    "C01_div_by_zero",
    "C01_mul_int",
    "C01_div_int",
    "C01_neg",
    "C01_reduce"
   ],
   "note": ""
  },
  {
   "property": "C02",
   "status": "proved",
   "theorems": [
    "C02_comparisons",
    "C02_signs"
   ],
   "note": ""
  },
  {
   "property": "C03",
   "status": "proved",
   "theorems": [
    "C03_truncation",
    "C03_int64"
   ],
   "note": ""
  },
  {
   "property": "C04",
   "status": "proved",
   "theorems": [
    "C04_round_trip",
    "C04_null_round_trip"
   ],
   "note": ""
  },
  {
   "property": "C05",
   "status": "proved",
   "theorems": [
    "C05_add_sorted",
    "C05_merge",
    "C05_remove_preserve_order",
    "C05_remove_sorted",
    "C05_remove_fast",
    "C05_add_onto_end",
    "C05_contains"
   ],
   "note": ""
  },
  {
   "property": "C06",
   "status": "proved",
   "theorems": [
    "C06_fee_bounds",
    "C06_fee_below_amount",
    "C06_zero_denominator_refuted",
    "C06_big_rate_refuted"
   ],
   "note": "The bound holds whenever the 64-bit product does not wrap, which every rate up to 100% guarantees. Two refutations show what the parameter validation lets through: a zero denominator (every fee panics) and rates above 100% (the fee can wrap to a negative number)."
  },
  {
   "property": "C07",
   "status": "proved",
   "theorems": [
    "C07_fee_splits_exactly"
   ],
   "note": ""
  },
  {
   "property": "C08",
   "status": "proved",
   "theorems": [
    "C08_send_exact",
    "C08_failed_send"
   ],
   "note": ""
  },
  {
   "property": "C09",
   "status": "proved",
   "theorems": [
    "C09_supply_is_sum",
    "C09_transactions",
    "C09_genesis"
   ],
   "note": ""
  },
  {
   "property": "C10",
   "status": "proved",
   "theorems": [
    "C10_no_negative_balance",
    "C10_transactions"
   ],
   "note": ""
  },
  {
   "property": "C11",
   "status": "proved",
   "theorems": [
    "C11_send_allowed",
    "C11_blocked_stays_tx",
    "C11_blocked_stays_task",
    "C11_blocked_stays_block",
    "C11_blocked_cannot_send"
   ],
   "note": ""
  },
  {
   "property": "C12",
   "status": "proved",
   "theorems": [
    "C12_only_signers_pay"
   ],
   "note": ""
  },
  {
   "property": "C13",
   "status": "proved",
   "theorems": [
    "C13_burn_exact",
    "C13_not_enough"
   ],
   "note": ""
  },
  {
   "property": "C14",
   "status": "proved",
   "theorems": [
    "C14_multi_transfer"
   ],
   "note": ""
  },
  {
   "property": "C15",
   "status": "proved",
   "theorems": [
    "C15_order",
    "C15_accepted",
    "C15_bytes"
   ],
   "note": ""
  },
  {
   "property": "C16",
   "status": "proved",
   "theorems": [
    "C16_due_once",
    "C16_scheduling_order",
    "C16_well_formed"
   ],
   "note": ""
  },
  {
   "property": "C17",
   "status": "partial",
   "theorems": [
    "C17_refuted",
    "C17_partial"
   ],
   "note": "REFUTED as stated: C17_refuted exhibits a reachable history (two days without blocks) in which an interest task is dropped because it is scheduled, by a running task, for an instant of the batch that is already running. C17_partial: nothing scheduled for a later instant, or for an instant at which nothing was due, is lost."
  },
  {
   "property": "C18",
   "status": "proved",
   "theorems": [
    "C18_delete",
    "C18_delete_all",
    "C18_total"
   ],
   "note": ""
  },
  {
   "property": "C19",
   "status": "proved",
   "theorems": [
    "C19_export_import"
   ],
   "note": ""
  },
  {
   "property": "C20",
   "status": "proved",
   "theorems": [
    "C20_failure_isolated"
   ],
   "note": ""
  },
  {
   "property": "C21",
   "status": "partial",
   "theorems": [
    "C21_partial",
    "C21_refuted"
   ],
   "note": "REFUTED as stated: C21_refuted exhibits a history in which an account is registered under the fee account of the chain, which enters the network with nothing on line 0 although it has coins. C21_partial: the claim for lines 0 to 9 after every history of blocks that starts with records in order, registers nobody as their own referrer, has no failed task, no banishment of an account with referrals, and no member that was never registered."
  },
  {
   "property": "C22",
   "status": "partial",
   "theorems": [
    "C22_refuted"
   ],
   "note": "REFUTED: C22_refuted exhibits a history (a chain of eleven accounts, then a compression) after which the tenth line of the top account still holds the coins of an account that has moved to line 9."
  },
  {
   "property": "C23",
   "status": "partial",
   "theorems": [
    "C23_refuted",
    "C23_partial"
   ],
   "note": "REFUTED: C23_refuted runs a history, without own referrers, in which a compression fails because the recorded tenth line of an ancestor is negative; the account keeps its referral, is banished with it, and when its referrer is compressed an ancestor counts an active account in its second line where there is none. C23_partial: the counters of the lines 0 to 9 are exact after every history of blocks that starts with records in order, registers nobody as their own referrer, and in which a banishment finds an account without referrals (fewer than 2^64 members)."
  },
  {
   "property": "C24",
   "status": "partial",
   "theorems": [
    "C24_partial",
    "C24_circles_partial",
    "C24_network_partial",
    "C24_lists_partial",
    "C24_refuted"
   ],
   "note": "REFUTED as stated: C24_refuted exhibits a block that registers an account as its own referrer. C24_partial: the whole claim after every history in which that does not happen. C24_circles_partial: after every history, without exception, the only circles are accounts that are their own referrers and were registered so. C24_lists_partial: after every history, without exception, an account is listed by its referrer, once, and by nobody else. C24_network_partial: the whole invariant of the records, if a banishment finds an account without referrals."
  },
  {
   "property": "C25",
   "status": "proved",
   "theorems": [
    "C25_update"
   ],
   "note": ""
  },
  {
   "property": "C26",
   "status": "proved",
   "theorems": [
    "C26_check",
    "C26_downgrade"
   ],
   "note": ""
  },
  {
   "property": "C27",
   "status": "partial",
   "theorems": [
    "C27_ends_partial",
    "C27_history_partial",
    "C27_request",
    "C27_approve",
    "C27_terminates_partial",
    "C27_refuted"
   ],
   "note": "REFUTED as stated: C27_refuted exhibits an account registered with itself as its referrer, for which the validation loop of a transition never ends (the real node would hang). C27_request and C27_approve: no accepted transition moves an account under itself or a descendant, in any state. C27_terminates_partial: the loop ends whenever the structure has no cycle; C27_ends_partial: in any state it ends unless the chain of the destination itself goes round; C27_history_partial: after every history, without exception, that happens only for destinations the chain of which leads to an account registered as its own referrer."
  },
  {
   "property": "C28",
   "status": "partial",
   "theorems": [
    "C28_refuted",
    "C28_partial"
   ],
   "note": "REFUTED as stated: C28_refuted exhibits a transition to an address that is not registered being requested, approved and carried out. C28_partial: what is checked of the destination."
  },
  {
   "property": "C29",
   "status": "proved",
   "theorems": [
    "C29_who",
    "C29_effect"
   ],
   "note": ""
  },
  {
   "property": "C30",
   "status": "proved",
   "theorems": [
    "C30_come_back",
    "C30_returns"
   ],
   "note": ""
  },
  {
   "property": "C31",
   "status": "proved",
   "theorems": [
    "C31_exact",
    "C31_bounds"
   ],
   "note": ""
  },
  {
   "property": "C32",
   "status": "proved",
   "theorems": [
    "C32_append",
    "C32_register"
   ],
   "note": ""
  },
  {
   "property": "C33",
   "status": "proved",
   "theorems": [
    "C33_block",
    "C33_history",
    "C33_stays",
    "C33_unjail"
   ],
   "note": ""
  },
  {
   "property": "C34",
   "status": "proved",
   "theorems": [
    "C34_evidence",
    "C34_two",
    "C34_forever",
    "C34_no_power"
   ],
   "note": ""
  },
  {
   "property": "C35",
   "status": "proved",
   "theorems": [
    "C35_follows",
    "C35_block"
   ],
   "note": ""
  },
  {
   "property": "C36",
   "status": "partial",
   "theorems": [
    "C36_refuted",
    "C36_status_partial",
    "C36_on_partial",
    "C36_unjail_partial",
    "C36_staff_partial"
   ],
   "note": "REFUTED as stated: C36_refuted exhibits a reachable history in which a validator revokes its whole delegation and stays active with power (OnStakeChanged computes the new record but returns without storing it). The _partial theorems: after a status change, on switching on, on leaving jail and on losing the place among the staff, an active validator is qualified."
  },
  {
   "property": "C37",
   "status": "partial",
   "theorems": [
    "C37_refuted",
    "C37_partial"
   ],
   "note": "REFUTED as stated: C37_refuted exhibits a reachable history in which two operators are active with one key and one list of updates names it twice (the key of a jailed operator may be taken). C37_partial: both hold if operators use only keys of their own."
  },
  {
   "property": "C38",
   "status": "proved",
   "theorems": [
    "C38_new",
    "C38_requeue",
    "C38_exclude",
    "C38_draw"
   ],
   "note": ""
  },
  {
   "property": "C39",
   "status": "proved",
   "theorems": [
    "C39_valid",
    "C39_powers"
   ],
   "note": ""
  },
  {
   "property": "C40",
   "status": "proved",
   "theorems": [
    "C40_delegate",
    "C40_interest"
   ],
   "note": ""
  },
  {
   "property": "C41",
   "status": "proved",
   "theorems": [
    "C41_revoke",
    "C41_paid_back"
   ],
   "note": ""
  },
  {
   "property": "C42",
   "status": "partial",
   "theorems": [
    "C42_refuted",
    "C42_partial"
   ],
   "note": "REFUTED as stated: C42_refuted exhibits a reachable history in which a transaction fee is offered in revoking coins, after which the coins are gone while the request stays. C42_partial: with transaction fees in the main coin the balance of revoking coins equals the pending requests in every history in which no pay-out or banishment task failed."
  },
  {
   "property": "C43",
   "status": "proved",
   "theorems": [
    "C43_stale",
    "C43_interest",
    "C43_unskipped",
    "C43_once"
   ],
   "note": ""
  },
  {
   "property": "C44",
   "status": "proved",
   "theorems": [
    "C44_rate",
    "C44_validated"
   ],
   "note": ""
  },
  {
   "property": "C45",
   "status": "proved",
   "theorems": [
    "C45_active",
    "C45_confirm",
    "C45_history"
   ],
   "note": ""
  },
  {
   "property": "C46",
   "status": "partial",
   "theorems": [
    "C46_refuted",
    "C46_partial"
   ],
   "note": "REFUTED as stated: C46_refuted shows an account outside the list of signers confirming itself (the message server never reads the list). C46_partial: confirmations change only by such a message naming the account, or disappear after they have expired."
  },
  {
   "property": "C47",
   "status": "proved",
   "theorems": [
    "C47_unique",
    "C47_lookup"
   ],
   "note": ""
  },
  {
   "property": "C48",
   "status": "partial",
   "theorems": [
    "C48_refuted",
    "C48_partial"
   ],
   "note": "REFUTED as stated: C48_refuted exhibits a reachable history in which an account created with a nickname with a blank in front of it changes its nickname, after which nobody has the old one and another account is refused it as taken. C48_partial: in histories whose messages give no nicknames with blanks around them, a change of the nickname frees the old one."
  },
  {
   "property": "C49",
   "status": "partial",
   "theorems": [
    "C49_refuted",
    "C49_created_partial",
    "C49_partial"
   ],
   "note": "REFUTED in a corner: C49_refuted shows that the account whose number equals the parameter CardMagic gets the card number 0 and cannot be looked up by it. The _partial theorems: every other card number is unique, leads to its owner and never changes."
  },
  {
   "property": "C50",
   "status": "partial",
   "theorems": [
    "C50_refuted",
    "C50_history_partial",
    "C50_partial"
   ],
   "note": "REFUTED as stated: C50_refuted shows an account created active with no balance changing (the profile in the message is not checked). The _partial theorems: in histories whose messages create no active accounts, every change of the paid time is a payment of the published price by that account."
  },
  {
   "property": "C51",
   "status": "partial",
   "theorems": [
    "C51_refuted",
    "C51_partial",
    "C51_auto_partial"
   ],
   "note": "REFUTED as stated: C51_refuted exhibits a reachable state in which a payment with 2147483653 GB of storage succeeds for the bare price of the subscription, because the surcharge is computed with 64 bits and wraps to 0. The _partial theorems: all amounts are exact, the surcharge unless the arithmetic overflows."
  },
  {
   "property": "C52",
   "status": "partial",
   "theorems": [
    "C52_refuted",
    "C52_partial"
   ],
   "note": "REFUTED as stated: C52_refuted shows an inactive account that pays for 10 GB and gets 5 GB. C52_partial: an active account gets what it has paid for."
  },
  {
   "property": "C53",
   "status": "partial",
   "theorems": [
    "C53_refuted",
    "C53_refresh_partial",
    "C53_payment_partial",
    "C53_partial"
   ],
   "note": "REFUTED as stated: C53_refuted shows a limit of 7 GB that becomes 2^64 bytes less 1 GB. The _partial theorems: if no more was used than the limit and the included amount together, the new limit is exactly what is left, at least the included amount."
  },
  {
   "property": "C54",
   "status": "partial",
   "theorems": [
    "C54_refuted",
    "C54_partial"
   ],
   "note": "REFUTED as stated: C54_refuted shows a failed renewal after which the fee is gone. C54_partial: nothing but the fee of that payment is taken, and it goes to the fee splitter."
  },
  {
   "property": "C55",
   "status": "proved",
   "theorems": [
    "C55_history",
    "C55_changed"
   ],
   "note": ""
  },
  {
   "property": "C56",
   "status": "proved",
   "theorems": [
    "C56_votes",
    "C56_vote"
   ],
   "note": ""
  },
  {
   "property": "C57",
   "status": "proved",
   "theorems": [
    "C57_deadline",
    "C57_closed",
    "C57_completed"
   ],
   "note": ""
  },
  {
   "property": "C58",
   "status": "partial",
   "theorems": [
    "C58_refuted",
    "C58_partial"
   ],
   "note": "REFUTED as stated: C58_refuted exhibits a reachable history in which a member is given a second seat, after which no rule ever changes again whatever the blocks contain. C58_partial: without repeated seats the government decides by two thirds (dismissals from the staff, which the node may abort, are left out)."
  },
  {
   "property": "C59",
   "status": "partial",
   "theorems": [
    "C59_refuted",
    "C59_filed_partial",
    "C59_stays_partial"
   ],
   "note": "REFUTED as stated: C59_refuted exhibits a block in which two proposals are decided and only the second is in the history. The _partial theorems: every end of a proposal is filed with its votes and outcome; the record stays unless another proposal ends in the same block; no later block changes it."
  },
  {
   "property": "C60",
   "status": "proved",
   "theorems": [
    "C60_counters",
    "C60_history",
    "C60_answer"
   ],
   "note": ""
  },
  {
   "property": "C61",
   "status": "proved",
   "theorems": [
    "C61_decided"
   ],
   "note": ""
  },
  {
   "property": "C62",
   "status": "partial",
   "theorems": [
    "C62_refuted",
    "C62_partial"
   ],
   "note": "REFUTED as stated: C62_refuted exhibits a reachable history in which a respondent loses the qualification the poll requires, after which importing the exported state panics. C62_partial: otherwise the import restores exactly the exported voting state."
  },
  {
   "property": "C63",
   "status": "proved",
   "theorems": [
    "C63_failed_transaction"
   ],
   "note": ""
  },
  {
   "property": "C64",
   "status": "proved",
   "theorems": [
    "C64_transactions",
    "C64_tasks",
    "C64_blocks",
    "C64_interest",
    "C64_validator_shares"
   ],
   "note": ""
  },
  {
   "property": "C65",
   "status": "proved",
   "theorems": [
    "C65_fees_handed_out"
   ],
   "note": ""
  },
  {
   "property": "C66",
   "status": "proved",
   "theorems": [
    "C66_end"
   ],
   "note": ""
  },
  {
   "property": "C67",
   "status": "proved",
   "theorems": [
    "C67_attributed"
   ],
   "note": ""
  },
  {
   "property": "C68",
   "status": "proved",
   "theorems": [
    "C68_parameters"
   ],
   "note": ""
  },
  {
   "property": "C69",
   "status": "partial",
   "theorems": [
    "C69_partial",
    "C69_refuted"
   ],
   "note": "REFUTED as stated: C69_refuted exhibits a reachable history with four members where three are configured. C69_partial: the bound holds in every block in which the lottery queue agrees with the records."
  },
  {
   "property": "C70",
   "status": "proved",
   "theorems": [
    "C70_deadline",
    "C70_not_before"
   ],
   "note": ""
  },
  {
   "property": "C71",
   "status": "proved",
   "theorems": [
    "C71_reserved"
   ],
   "note": ""
  },
  {
   "property": "C72",
   "status": "partial",
   "theorems": [
    "C72_refuted"
   ],
   "note": "REFUTED as stated: C72_refuted exhibits a registration under an address that is not registered; that address becomes a top-level member and can never register. The conditions that are checked are C32."
  },
  {
   "property": "C73",
   "status": "proved",
   "theorems": [
    "C73_active_referrals",
    "C73_lists"
   ],
   "note": "C73_active_referrals: after every history of blocks from a state with right lists, self-registrations and banishments of accounts with referrals included; C73_lists: the lists stay right."
  },
  {
   "property": "C74",
   "status": "proved",
   "theorems": [
    "C74",
    "C74_history_partial"
   ],
   "note": "For files without contradictions (tidy). C74_history_partial continues with blocks, under the conditions of C24_partial."
  },
  {
   "property": "C75",
   "status": "partial",
   "theorems": [
    "C75_partial",
    "C75_refuted"
   ],
   "note": "REFUTED as stated: C75_refuted exhibits an account registered as its own referrer; it is a member, but the export does not find it and it is missing in the new chain. C75_partial proves the property for every state whose records are in order (settled)."
  },
  {
   "property": "C76",
   "status": "partial",
   "theorems": [
    "C76_partial",
    "C76_history_partial",
    "C76_refuted"
   ],
   "note": "REFUTED as stated: C76_refuted exhibits a genesis file with one nickname given to two accounts; it is accepted, both have the nickname and one of them is not found. C76_partial (the start) and C76_history_partial (every history after it) prove the property for files without duplicates."
  },
  {
   "property": "C77",
   "status": "proved",
   "theorems": [
    "C77"
   ],
   "note": ""
  },
  {
   "property": "C78",
   "status": "partial",
   "theorems": [
    "C78_earners_partial",
    "C78_history_partial",
    "C78_polls",
    "C78_refuted"
   ],
   "note": "REFUTED: C78_refuted: with 65536 entries a page, page 65537 of the history of proposals shows the first entry again (32-bit arithmetic). C78_earners_partial, C78_history_partial: the claim as long as the number of the last entry asked for fits into 32 bits; C78_polls: without that restriction for polls."
  },
  {
   "property": "C79",
   "status": "proved",
   "theorems": [
    "C79_total",
    "C79_current",
    "C79_forecast",
    "C79_skipped"
   ],
   "note": ""
  },
  {
   "property": "C80",
   "status": "partial",
   "theorems": [
    "C80_verdict",
    "C80_request",
    "C80_answers_partial",
    "C80_refuted"
   ],
   "note": "REFUTED as stated: C80_refuted exhibits a block after which the query never answers (an account registered as its own referrer). C80_verdict and C80_request are the first two parts in full; C80_answers_partial: after every history there is an answer, unless the chain of the destination leads to an account registered as its own referrer."
  },
  {
   "property": "C81",
   "status": "proved",
   "theorems": [
    "C81_verdict",
    "C81_on",
    "C81_accepted"
   ],
   "note": ""
  },
  {
   "property": "C82",
   "status": "partial",
   "theorems": [
    "C82_card",
    "C82_safe",
    "C82_refuted",
    "C82_nickname_partial"
   ],
   "note": "REFUTED: C82_refuted exhibits a history after which the query by nickname finds an account that has another nickname. C82_card and C82_safe: the claim for cards, and that no query crashes, in full; C82_nickname_partial: nicknames when no message gives one with blanks around it."
  },
  {
   "property": "C83",
   "status": "proved",
   "theorems": [
    "C83_states",
    "C83_off"
   ],
   "note": ""
  },
  {
   "property": "C84",
   "status": "proved",
   "theorems": [
    "C84_all",
    "C84_between"
   ],
   "note": ""
  },
  {
   "property": "C85",
   "status": "proved",
   "theorems": [
    "C85_poll"
   ],
   "note": "The counters are 64-bit, hence the mod."
  },
  {
   "property": "C86",
   "status": "proved",
   "theorems": [
    "C86_status"
   ],
   "note": ""
  },
  {
   "property": "C87",
   "status": "partial",
   "theorems": [
    "C87_partial",
    "C87_refuted"
   ],
   "note": "REFUTED: C87_refuted: with depth 0 the total covers all open lines but the delegated sum only the account itself. C87_partial: the claim for depths from 1 and up to line 9 in the histories of C21_partial."
  },
  {
   "property": "C88",
   "status": "proved",
   "theorems": [
    "C88_message",
    "C88_history"
   ],
   "note": ""
  },
  {
   "property": "C89",
   "status": "proved",
   "theorems": [
    "C89_nickname",
    "C89_registration"
   ],
   "note": "C89_registration: in states whose nickname index is right (names_ok, an invariant by C47)."
  },
  {
   "property": "C90",
   "status": "proved",
   "theorems": [
    "C90_storage",
    "C90_vpn",
    "C90_im",
    "C90_prolong",
    "C90_give_up",
    "C90_give_im_up"
   ],
   "note": "The prices are stated for amounts that fit the 64-bit arithmetic (gb_fits)."
  },
  {
   "property": "C91",
   "status": "proved",
   "theorems": [
    "C91_message",
    "C91_task",
    "C91_history"
   ],
   "note": ""
  },
  {
   "property": "C92",
   "status": "proved",
   "theorems": [
    "C92_send"
   ],
   "note": ""
  },
  {
   "property": "C93",
   "status": "partial",
   "theorems": [
    "C93_refuted",
    "C93_partial"
   ],
   "note": "REFUTED: C93_refuted runs a history from the example chain after which a member in good standing cannot revoke 300000 of its 399990 delegated ARTR: a compression brought it into the tenth line of an ancestor of high status, whose record of that line was not increased, so that the sum becomes negative and the status check fails. C93_partial: the revocation is accepted when the records of all ancestors within ten lines hold at least the amount."
  },
  {
   "property": "C94",
   "status": "partial",
   "theorems": [
    "C94_refuted",
    "C94_partial"
   ],
   "note": "REFUTED: C94_refuted: the tenth line of an account can become negative; from then on a delegation that would lift its status is refused. C94_partial: on a chain whose books can be read every delegation is accepted."
  },
  {
   "property": "C95",
   "status": "proved",
   "theorems": [
    "C95_interest",
    "C95_revoked"
   ],
   "note": ""
  },
  {
   "property": "C96",
   "status": "proved",
   "theorems": [
    "C96_coins"
   ],
   "note": "For 2.5.2 under the condition that the company account is not one of the three collectors."
  },
  {
   "property": "C97",
   "status": "proved",
   "theorems": [
    "C97_global_delegation"
   ],
   "note": ""
  },
  {
   "property": "C98",
   "status": "proved",
   "theorems": [
    "C98_active_lists"
   ],
   "note": ""
  },
  {
   "property": "C99",
   "status": "proved",
   "theorems": [
    "C99_validators"
   ],
   "note": ""
  },
  {
   "property": "C100",
   "status": "proved",
   "theorems": [
    "C100_missing_banishments"
   ],
   "note": ""
  },
  {
   "property": "C101",
   "status": "partial",
   "theorems": [
    "C101_refuted",
    "C101_partial"
   ],
   "note": "REFUTED: C101_refuted: 2.4.4 puts the tasks that went astray at instants of its own, where they replace what is scheduled there; a payment of interest is lost. C101_partial: no task is lost if nothing is scheduled at those instants."
  },
  {
   "property": "C102",
   "status": "partial",
   "theorems": [
    "C102_refuted",
    "C102_partial",
    "C102_done_partial"
   ],
   "note": "REFUTED: C102_refuted: a member moved to an account that is itself moved later is dropped from the referrals of its new referrer. C102_partial: nobody is left under a banished account (other than a top-level one), unless the step gives up and changes nothing. C102_done_partial: where the records can be read (eleven sums, registered referrers, no circles) and no top-level account is banished, the step does not give up: whoever was under a banished account is under an open account above it, and nobody else is moved."
  },
  {
   "property": "C103",
   "status": "partial",
   "theorems": [
    "C103_refuted",
    "C103_partial",
    "C103_done_partial"
   ],
   "note": "REFUTED: C103_refuted: an account whose referrer is closed comes back under nobody although there is an open account further up. C103_partial: exactly the right accounts are pardoned, and come back under their referrer if it is open, unless the step gives up and changes nothing. C103_done_partial: where the records can be read, the delegations of the banished accounts fit into 64 bits and their records say that they have them, the step does not give up; whoever comes back is under its referrer or a top-level account."
  },
  {
   "property": "C104",
   "status": "partial",
   "theorems": [
    "C104_refuted",
    "C104_partial"
   ],
   "note": "REFUTED: C104_refuted: the counters of active accounts still count the deactivated ones. C104_partial: the top-level accounts, and only they, become inactive, and their subscriptions end."
  },
  {
   "property": "C105",
   "status": "proved",
   "theorems": [
    "C105_monthly_tasks"
   ],
   "note": ""
  },
  {
   "property": "C106",
   "status": "partial",
   "theorems": [
    "C106_complete_partial",
    "C106_partial",
    "C106_refuted"
   ],
   "note": "REFUTED: C106_refuted: a banished account loses its status but stays on the list. C106_complete_partial: after any start and history whoever has the status is on its list, provided that no task or hook was cut short and no renewal met a banished account. C106_partial: the list is exact, provided also that nobody is banished in the file and nobody is banished while its status is high."
  },
  {
   "property": "C107",
   "status": "proved",
   "theorems": [
    "C107_banishments"
   ],
   "note": "For every state the upgrade succeeds in, with a dust limit that is not negative. When an account has several banishments scheduled, its record names one of them. The turning of raw addresses into text and the removal of records with raw keys have no counterpart in the model."
  },
  {
   "property": "C108",
   "status": "proved",
   "theorems": [
    "C108_update",
    "C108_switches"
   ],
   "note": "C108_update for every accepted update; C108_switches for every state whose records of names, cards and accounts agree (names_ok, which histories keep). An update whose value has another type than its field is refused in the code and cannot be written down in the model."
  },
  {
   "property": "C109",
   "status": "proved",
   "theorems": [
    "C109_storage",
    "C109_vpn",
    "C109_im",
    "C109_prolong",
    "C109_renewal",
    "C109_first"
   ],
   "note": "C109_storage, C109_vpn, C109_im, C109_prolong, C109_renewal and C109_first, for states in good order (healthy and names_ok: the counters, the balances and the records of names agree; fees can be computed; the token rate is a number), amounts that fit 63 bits and a price above zero. The last two ask that some of the payment is left for the company after the fee. The return of a banished account is not covered. What is bought and paid is C51 and C90."
  },
  {
   "property": "C110",
   "status": "proved",
   "theorems": [
    "C110_month",
    "C110_im"
   ],
   "note": "C110_month and C110_im, for states in good order (healthy and names_ok), dates within the range of times, and, where an automatic payment is tried, amounts that fit 63 or 64 bits, a fee that can be computed and is below the price, an account that is neither banished nor the account that splits payments. C110_result shows both outcomes on a history."
  },
  {
   "property": "C111",
   "status": "proved",
   "theorems": [
    "C111_nickname",
    "C111_storage",
    "C111_im"
   ],
   "note": "C111_nickname, C111_storage and C111_im, for states in good order (names_ok, and healthy where coins are paid). Free means that the index of nicknames has no entry under the name in lower case without blanks around, or that of the account itself; C48 shows when an entry outlives its nickname. What then changes is C90 and C108."
  },
  {
   "property": "C112",
   "status": "proved",
   "theorems": [
    "C112_off",
    "C112_unjail"
   ],
   "note": "C112_off in every state; C112_unjail in every healthy state. How one gets into jail and how long one stays is C33."
  },
  {
   "property": "C113",
   "status": "proved",
   "theorems": [
    "C113_start",
    "C113_answer"
   ],
   "note": "C113_start, for a poll that is valid by the check of the code and a deadline within the range of times; C113_answer in every state, and where the poll asks for the qualification of a validator in every healthy state in which the eleven sums of the respondent are recorded. The counts are C60, the decision C61."
  },
  {
   "property": "C114",
   "status": "proved",
   "theorems": [
    "C114_burn",
    "C114_rate",
    "C114_use",
    "C114_decline"
   ],
   "note": "C114_burn (the coins burnt are part of the supply, which C09 keeps equal to the balances), C114_rate (the parameters in force are valid), C114_use and C114_decline."
  },
  {
   "property": "C115",
   "status": "proved",
   "theorems": [
    "C115_join"
   ],
   "note": "C115_join. Registration for a price by somebody who is no registrar is not covered (C89 says what it costs)."
  },
  {
   "property": "C116",
   "status": "proved",
   "theorems": [
    "C116_on",
    "C116_propose",
    "C116_vote",
    "C116_earners"
   ],
   "note": "C116_on, C116_propose, C116_vote (a vote that is not the last one; what the last one does is C57) and C116_earners."
  },
  {
   "property": "C117",
   "status": "proved",
   "theorems": [
    "C117_ask"
   ],
   "note": "C117_ask."
  }
 ]
}