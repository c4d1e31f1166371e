{"id": "C01", "title": "Fractions are exact rationals", "statement": "Add, Sub, Mul, Div, MulInt64, DivInt64, Neg and Reduce on util.Fraction compute exactly the rational operation on the values denoted (whatever the signs of numerators and non-zero denominators), and the result again has a non-zero denominator except for division by a zero fraction, which panics or yields a zero denominator.", "quantifier": "all fractions with non-zero denominators, all integers", "why_tests_cant": "A test tries a handful of values; the claim is about every value of an unbounded domain.", "anchors": ["util/fraction.go: Fraction.Add, Sub, Mul, Div, MulInt64, DivInt64, Neg, Reduce, lcm"]}
{"id": "C02", "title": "Fraction comparisons agree with the rational order", "statement": "GT, GTE, LT, LTE, Equal, IsZero, IsPositive and IsNegative answer exactly as the rational order does, for denominators of either sign.", "quantifier": "all pairs of fractions with non-zero denominators", "why_tests_cant": "A test tries a handful of values; the claim is about every value of an unbounded domain.", "anchors": ["util/fraction.go: Fraction.Equal, GT, GTE, LT, LTE, IsZero, IsNegative, IsPositive"]}
{"id": "C03", "title": "Conversion of a fraction to an integer truncates toward zero and wraps at 64 bits", "statement": "BigInt is the quotient rounded toward zero; Int64 is that quotient reduced to the signed 64-bit range, so it equals the quotient whenever the quotient fits.", "quantifier": "all fractions with non-zero denominator", "why_tests_cant": "A test tries a handful of values; the claim is about every value of an unbounded domain.", "anchors": ["util/fraction.go: Fraction.BigInt, Int64"]}
{"id": "C04", "title": "Printing then parsing a fraction gives the same fraction back", "statement": "For every fraction with a positive denominator, ParseFraction(f.String()) returns f itself (same numerator and denominator), and the null fraction prints to 'nil' and parses back to null.", "quantifier": "all fractions with positive denominators and arbitrary numerators", "why_tests_cant": "A test tries a handful of values; the claim is about every value of an unbounded domain.", "anchors": ["util/fraction.go: ParseFraction, Fraction.String"]}
{"id": "C05", "title": "Sorted address lists stay sorted, duplicate-free and complete", "statement": "AddStringSorted, RemoveStringPreserveOrder, RemoveStringFast, AddStringOntoEnd, ContainsString and MergeStringsSorted add/remove exactly the given element(s), and the sorted variants keep the list strictly sorted.", "quantifier": "all lists and elements", "why_tests_cant": "A test tries a handful of values; the claim is about every value of an unbounded domain.", "anchors": ["util/lists.go"]}
{"id": "C06", "title": "Transaction fee never exceeds the rate, the amount or the cap", "statement": "The fee computed for an amount is non-negative, at most rate*amount, at most the configured maximum (when one is set), and, for rates up to 100%, at most the amount.", "quantifier": "all amounts in int64 range, all valid fee parameters", "why_tests_cant": "A test tries a handful of values; the claim is about every value of an unbounded domain.", "anchors": ["util/fee.go: CalculateFee", "x/bank/types/params.go: validate functions"]}
{"id": "C07", "title": "A fee splits exactly", "statement": "For every fee that CalculateFee returns, the proposer, company and burn parts returned by SplitFee are non-negative and add up to exactly the fee: no coin is created or lost by rounding.", "quantifier": "all amounts, all split ratios accepted by parameter validation", "why_tests_cant": "A test tries a handful of values; the claim is about every value of an unbounded domain.", "anchors": ["util/fee.go: CalculateFee, SplitFee"]}
{"id": "C08", "title": "A send moves exactly the amount, charges exactly the fee, touches nobody else", "statement": "A successful MsgSend increases the recipient by the amount, decreases the sender by amount plus fee, increases the splittable fee collector by the fee, and leaves every other balance and the supply unchanged; a failed one leaves all balances unchanged.", "quantifier": "all states, senders, recipients (including sender = recipient), amounts", "why_tests_cant": "A test replays a few chosen histories; the claim must hold after every sequence of messages, blocks and scheduled tasks.", "anchors": ["x/bank/internal/keeper/msg_server.go: Send", "x/bank/internal/keeper/send.go: SendCoins, SubtractCoins, AddCoins", "x/bank/internal/keeper/keeper.go: PayTxFee"]}
{"id": "C09", "title": "Total supply always equals the sum of all balances", "statement": "After every transaction and every block, for every denomination, the recorded total supply equals the sum of all account balances, provided no scheduled task and no balance hook aborted half-way outside a transaction; transactions keep the equality without that proviso.", "quantifier": "all histories of transactions, blocks and scheduled tasks from a consistent genesis", "why_tests_cant": "A test replays a few chosen histories; the claim must hold after every sequence of messages, blocks and scheduled tasks.", "anchors": ["x/bank/internal/keeper/*.go", "x/delegating/keeper/keeper.go", "x/noding/keeper/keeper.go: PayProposerReward", "app/app.go"]}
{"id": "C10", "title": "No balance is ever negative", "statement": "After any history every account balance in every denomination is non-negative (stored balances are strictly positive; empty ones are removed).", "quantifier": "all histories", "why_tests_cant": "A test replays a few chosen histories; the claim must hold after every sequence of messages, blocks and scheduled tasks.", "anchors": ["x/bank/internal/keeper/send.go: SubtractCoins, SetBalance"]}
{"id": "C11", "title": "Only transferable coins move, and blocked senders cannot send", "statement": "A successful MsgSend contains only the main denomination, is not below the configured minimum, and its sender is not in the blocked-senders list; a sender put on the list cannot send until removed.", "quantifier": "all states and messages", "why_tests_cant": "A test replays a few chosen histories; the claim must hold after every sequence of messages, blocks and scheduled tasks.", "anchors": ["x/bank/internal/keeper/msg_server.go: Send", "util/fee.go: IsSendable"]}
{"id": "C12", "title": "Nobody else can take your coins", "statement": "A transaction, successful or not, decreases the balance of an existing account in any denomination (main, delegated, revoking) only if that account signed it.", "quantifier": "all states, all transactions with any messages, all existing accounts", "why_tests_cant": "A test replays a few chosen histories; the claim must hold after every sequence of messages, blocks and scheduled tasks.", "anchors": ["x/*/keeper/msg_server.go", "app/app.go"]}
{"id": "C13", "title": "Burning destroys exactly the stated amount", "statement": "A successful MsgBurn decreases the signer's balance and the supply by exactly the amount and changes no other balance; it fails when the balance is smaller.", "quantifier": "all states and amounts", "why_tests_cant": "A test tries a handful of values; the claim is about every value of an unbounded domain.", "anchors": ["x/bank/internal/keeper/msg_server.go: Burn", "x/bank/internal/keeper/keeper.go: BurnAccCoins"]}
{"id": "C14", "title": "Multi-party transfers conserve coins", "statement": "InputOutputCoins succeeds only if inputs and outputs have equal totals, and then the sum of all balances is unchanged and each party changes by exactly its outputs minus its inputs.", "quantifier": "all lists of inputs and outputs", "why_tests_cant": "A test tries a handful of values; the claim is about every value of an unbounded domain.", "anchors": ["x/bank/internal/keeper/send.go: InputOutputCoins", "x/bank/types/types.go: ValidateInputsOutputs"]}
{"id": "C15", "title": "Schedule keys order like times", "statement": "For all times the scheduler accepts, the byte order of the storage keys equals the order of the times, and distinct times get distinct keys, so range iteration visits tasks chronologically.", "quantifier": "all pairs of times in the accepted range", "why_tests_cant": "A test tries a handful of values; the claim is about every value of an unbounded domain.", "anchors": ["x/schedule/keeper/keeper.go: Key"]}
{"id": "C16", "title": "Due tasks run exactly once, in time order", "statement": "In every block the scheduler runs exactly the tasks due at or before the block time, in chronological order and in scheduling order within one instant, each exactly once, and none of them is left in the schedule; tasks not yet due stay.", "quantifier": "all schedules and block times, all task behaviours that do not schedule or delete tasks at instants already due", "why_tests_cant": "A test replays a few chosen histories; the claim must hold after every sequence of messages, blocks and scheduled tasks.", "anchors": ["x/schedule/keeper/keeper.go: PerformSchedule, ScheduleTask"]}
{"id": "C17", "title": "No scheduled task is ever lost", "statement": "Every task that is scheduled is eventually run or explicitly deleted. (The model refutes this: a task scheduled by a running task for an instant that is already due and already present in the batch is silently dropped.)", "quantifier": "all schedules and task behaviours", "why_tests_cant": "A test replays a few chosen histories; the claim must hold after every sequence of messages, blocks and scheduled tasks.", "anchors": ["x/schedule/keeper/keeper.go: PerformSchedule", "x/delegating/keeper/hooks.go: MustPerformAccrue"]}
{"id": "C18", "title": "Deleting a task removes that task and nothing else", "statement": "Delete removes every task with the given time, hook and data and no other; DeleteAll removes every task with the given time and hook and no other; the order of the others is unchanged.", "quantifier": "all schedules, times, hooks, data", "why_tests_cant": "A test tries a handful of values; the claim is about every value of an unbounded domain.", "anchors": ["x/schedule/keeper/keeper.go: Delete, DeleteAll"]}
{"id": "C19", "title": "Schedule export/import is lossless", "statement": "Exporting the schedule to genesis and importing it on an empty store gives the same schedule.", "quantifier": "all schedules", "why_tests_cant": "A test replays a few chosen histories; the claim must hold after every sequence of messages, blocks and scheduled tasks.", "anchors": ["x/schedule/keeper/genesis.go"]}
{"id": "C20", "title": "A failing task neither stops the block nor the other tasks", "statement": "If a task panics, the remaining due tasks still run and the block continues.", "quantifier": "all schedules and task behaviours", "why_tests_cant": "A test replays a few chosen histories; the claim must hold after every sequence of messages, blocks and scheduled tasks.", "anchors": ["x/schedule/keeper/keeper.go: performSchedule"]}
{"id": "C21", "title": "Per-line totals equal the real totals of the network", "statement": "For every account and every line k from 0 to 9, the stored amount of coins (and of delegated coins) at line k equals the sum of the balances (delegated balances) of the non-banished accounts whose k-th referrer it is.", "quantifier": "all histories", "why_tests_cant": "A test replays a few chosen histories; the claim must hold after every sequence of messages, blocks and scheduled tasks.", "anchors": ["x/referral/keeper/keeper.go: appendChild, Compress, OnBalanceChanged, AffirmTransition, Banish, ComeBack"]}
{"id": "C22", "title": "The tenth line is accounted like the others", "statement": "Same as C21 for line 10. (The model refutes this: Compress never updates line 10 of ancestors.)", "quantifier": "all histories", "why_tests_cant": "A test replays a few chosen histories; the claim must hold after every sequence of messages, blocks and scheduled tasks.", "anchors": ["x/referral/keeper/keeper.go: Compress (loop bound 10-k)"]}
{"id": "C23", "title": "Active-referral counters equal the real numbers", "statement": "For every account and every line k from 0 to 9, the stored number of active referrals at line k equals the number of active accounts whose k-th referrer it is.", "quantifier": "all histories", "why_tests_cant": "A test replays a few chosen histories; the claim must hold after every sequence of messages, blocks and scheduled tasks.", "anchors": ["x/referral/keeper/keeper.go: SetActive, Compress, AffirmTransition"]}
{"id": "C24", "title": "The referral structure is a forest", "statement": "No account is ever its own direct or indirect referrer; an account is listed among exactly its referrer's referrals, exactly once (unless banished, then nowhere).", "quantifier": "all histories", "why_tests_cant": "A test replays a few chosen histories; the claim must hold after every sequence of messages, blocks and scheduled tasks.", "anchors": ["x/referral/keeper/keeper.go: appendChild, Compress, validateTransition, AffirmTransition, Banish, ComeBack"]}
{"id": "C25", "title": "Status requirements are exactly the published thresholds", "statement": "After any update of an account its status is either raised to the highest status reachable through consecutively satisfied requirements, or kept, and a status whose requirements are no longer met is given a downgrade deadline.", "quantifier": "all accounts and referral states", "why_tests_cant": "A test tries a handful of values; the claim is about every value of an unbounded domain.", "anchors": ["x/referral/keeper/bunch_updater.go: update", "x/referral/keeper/status_requirements.go"]}
{"id": "C26", "title": "A status is lost only after the grace period", "statement": "A status check never lowers a status; the scheduled downgrade lowers it by exactly one step and only if the two-day deadline recorded when the requirements stopped being met has passed.", "quantifier": "all states and times", "why_tests_cant": "A test replays a few chosen histories; the claim must hold after every sequence of messages, blocks and scheduled tasks.", "anchors": ["x/referral/keeper/hooks.go: performDowngrade", "x/referral/keeper/bunch_updater.go: update"]}
{"id": "C27", "title": "A transition cannot create a cycle and its validation terminates", "statement": "A transition accepted by the validator never moves an account under itself or its own descendant, and the validation loop terminates on every reachable referral structure.", "quantifier": "all reachable referral structures, all pairs of accounts", "why_tests_cant": "A test replays a few chosen histories; the claim must hold after every sequence of messages, blocks and scheduled tasks.", "anchors": ["x/referral/keeper/keeper.go: validateTransition, AffirmTransition"]}
{"id": "C28", "title": "Transitions only go to registered accounts", "statement": "A transition request is accepted only if the destination is a registered member. (The model refutes this.)", "quantifier": "all states, subjects, destinations", "why_tests_cant": "A test tries a handful of values; the claim is about every value of an unbounded domain.", "anchors": ["x/referral/keeper/keeper.go: validateTransition, Get"]}
{"id": "C29", "title": "Only inactive, undelegated, non-top-level members are banished", "statement": "Banish succeeds only if the account has a referrer, is inactive, has at most the dust delegation and is not yet banished; it removes exactly this account from its referrer's list.", "quantifier": "all states", "why_tests_cant": "A test tries a handful of values; the claim is about every value of an unbounded domain.", "anchors": ["x/referral/keeper/keeper.go: Banish"]}
{"id": "C30", "title": "A returning account lands under its nearest open ancestor", "statement": "ComeBack re-attaches the account to the first account on its former referrer chain whose registration is open.", "quantifier": "all states", "why_tests_cant": "A test tries a handful of values; the claim is about every value of an unbounded domain.", "anchors": ["x/referral/keeper/keeper.go: ComeBack, OnBalanceChanged", "x/referral/types/types.go: RegistrationClosed"]}
{"id": "C31", "title": "Referral commission for validators never exceeds 6 permille", "statement": "The ratios paid to ancestor validators add up to at most 6/1000, each is positive, every beneficiary is an active validator among the first 20 ancestors with a sufficient status, and no more than six are paid.", "quantifier": "all referral structures and validator sets", "why_tests_cant": "A test tries a handful of values; the claim is about every value of an unbounded domain.", "anchors": ["x/referral/keeper/keeper.go: GetReferralValidatorFeesForDelegating, getReferralValidatorFeesCore"]}
{"id": "C32", "title": "Nobody can register under a closed account", "statement": "A new account is attached only to a referrer whose registration is open (it has no referrer of its own, or it is not banished and is active or recently inactive).", "quantifier": "all states", "why_tests_cant": "A test tries a handful of values; the claim is about every value of an unbounded domain.", "anchors": ["x/referral/keeper/keeper.go: appendChild", "x/referral/types/types.go: RegistrationClosed"]}
{"id": "C33", "title": "Jailing happens after exactly the configured number of consecutive misses", "statement": "A validator that is not jailed becomes jailed by a missed block iff it has now missed the configured number in a row; a jailed validator cannot be released before its release height.", "quantifier": "all validator records, parameters, heights", "why_tests_cant": "A test replays a few chosen histories; the claim must hold after every sequence of messages, blocks and scheduled tasks.", "anchors": ["x/noding/keeper/keeper.go: MarkStroke, MarkTick, Unjail"]}
{"id": "C34", "title": "A lifetime ban is permanent", "statement": "After two recorded infractions a validator is banned, and from then on it is never active again, whatever anyone does.", "quantifier": "all histories", "why_tests_cant": "A test replays a few chosen histories; the claim must hold after every sequence of messages, blocks and scheduled tasks.", "anchors": ["x/noding/keeper/keeper.go: MarkByzantine, SwitchOn, IsActive"]}
{"id": "C35", "title": "The consensus validator set follows the records", "statement": "Applying each block's validator updates in order to the consensus validator set gives exactly the set of recorded last keys and powers; the engine accepts every list of updates (no key twice, no removal of an unknown key); the members are active validators, and no active validator left out is better than one of the MaxValidators best.", "quantifier": "all histories of blocks in which no two operators ever share a key", "why_tests_cant": "A test replays a few chosen histories; the claim must hold after every sequence of messages, blocks and scheduled tasks.", "anchors": ["x/noding/keeper/keeper.go: GatherValidatorUpdates", "x/noding/abci.go: EndBlocker"]}
{"id": "C36", "title": "A validator that loses qualification is switched off", "statement": "When the stake of an active validator drops below the required minimum, it stops being active. (The model refutes this for stake changes: the change is computed but not stored.)", "quantifier": "all states", "why_tests_cant": "A test tries a handful of values; the claim is about every value of an unbounded domain.", "anchors": ["x/noding/keeper/keeper.go: OnStakeChanged, OnStatusUpdate"]}
{"id": "C37", "title": "No two active validators share a consensus key, and no update list names a key twice", "statement": "(The model refutes both.)", "quantifier": "all histories", "why_tests_cant": "A test replays a few chosen histories; the claim must hold after every sequence of messages, blocks and scheduled tasks.", "anchors": ["x/noding/keeper/keeper.go: SwitchOn, GetValidatorByConsAddr, GatherValidatorUpdates"]}
{"id": "C38", "title": "The lottery queue is first-in first-out", "statement": "A new participant gets a number larger than every number in the queue; re-queuing moves it behind everybody; excluding removes only its own entry.", "quantifier": "all queues", "why_tests_cant": "A test tries a handful of values; the claim is about every value of an unbounded domain.", "anchors": ["x/noding/keeper/lottery.go"]}
{"id": "C39", "title": "Voting power assignment never fails and follows the slices", "statement": "For every valid distribution and every sequence of scores, GetVotingPower never indexes out of range within the top validators, gives the lucky power beyond them, and the powers follow the order of slices.", "quantifier": "all valid distributions, all score sequences", "why_tests_cant": "A test tries a handful of values; the claim is about every value of an unbounded domain.", "anchors": ["x/noding/keeper/vp_generator.go", "x/noding/types/types.go: Distribution.Validate"]}
{"id": "C40", "title": "Delegation converts coins one for one", "statement": "Delegating n coins takes exactly n main coins: the fee goes to the collector and the rest becomes delegated coins of the same account.", "quantifier": "all states and amounts", "why_tests_cant": "A test tries a handful of values; the claim is about every value of an unbounded domain.", "anchors": ["x/delegating/keeper/keeper.go: Delegate, delegate"]}
{"id": "C41", "title": "Revocation burns exactly the configured share and returns the rest after the period", "statement": "Revoking n delegated coins turns n minus the burnt share into revoking coins and creates one request for that amount at now + period with a scheduled task.", "quantifier": "all states and amounts", "why_tests_cant": "A test tries a handful of values; the claim is about every value of an unbounded domain.", "anchors": ["x/delegating/keeper/keeper.go: Revoke, freeze"]}
{"id": "C42", "title": "Revoking coins always equal the pending requests", "statement": "For every account, its balance of revoking coins equals the sum of its pending revocation requests, so every request can be paid in full.", "quantifier": "all histories", "why_tests_cant": "A test replays a few chosen histories; the claim must hold after every sequence of messages, blocks and scheduled tasks.", "anchors": ["x/delegating/keeper/keeper.go: Revoke", "x/delegating/keeper/hooks.go: performRevoking"]}
{"id": "C43", "title": "Interest accrues at most once per period", "statement": "A daily accrual is paid only by the task whose time equals the account's next accrual time, which then moves forward; a task that is stale pays nothing.", "quantifier": "all states", "why_tests_cant": "A test replays a few chosen histories; the claim must hold after every sequence of messages, blocks and scheduled tasks.", "anchors": ["x/delegating/keeper/hooks.go: MustPerformAccrue", "x/delegating/keeper/keeper.go: accruePart"]}
{"id": "C44", "title": "Interest percentage follows the table", "statement": "The daily rate is the sum over the enabled bonuses of the entry in the last table row whose start does not exceed the delegated amount, divided by 30; zero at or below the dust threshold.", "quantifier": "all tables, amounts and flags", "why_tests_cant": "A test tries a handful of values; the claim is about every value of an unbounded domain.", "anchors": ["x/delegating/keeper/keeper.go: percent"]}
{"id": "C45", "title": "Earner activity expires two days after the last confirmation", "statement": "An account counts as an active VPN (storage) earner iff its last confirmed timestamp is less than two days old.", "quantifier": "all states and times", "why_tests_cant": "A test tries a handful of values; the claim is about every value of an unbounded domain.", "anchors": ["x/earning/keeper/keeper.go: IsActiveEarner"]}
{"id": "C46", "title": "Only authorised signers can confirm earners", "statement": "Only accounts in the earning signers list can set earner timestamps. (The model refutes this.)", "quantifier": "all messages and signers", "why_tests_cant": "A test tries a handful of values; the claim is about every value of an unbounded domain.", "anchors": ["x/earning/keeper/msg_server.go: Set, SetMultiple"]}
{"id": "C47", "title": "Nicknames are unique", "statement": "No two accounts have nicknames that are equal up to letter case and surrounding blanks, and looking a nickname up (in any letter case, without surrounding blanks) yields its owner.", "quantifier": "all histories", "why_tests_cant": "A test replays a few chosen histories; the claim must hold after every sequence of messages, blocks and scheduled tasks.", "anchors": ["x/profile/keeper/keeper.go: SetProfile, ValidateProfileNickname"]}
{"id": "C48", "title": "A released nickname becomes available again", "statement": "After an account changes its nickname, another account may take the old one. (Refuted for nicknames stored with surrounding blanks.)", "quantifier": "all histories", "why_tests_cant": "A test replays a few chosen histories; the claim must hold after every sequence of messages, blocks and scheduled tasks.", "anchors": ["x/profile/keeper/keeper.go: SetProfile"]}
{"id": "C49", "title": "Card numbers are unique and never change", "statement": "Every account gets a card number of its own at creation, it never changes, and looking it up yields the owner. (Refuted for the account whose number equals the parameter CardMagic.)", "quantifier": "all histories", "why_tests_cant": "A test replays a few chosen histories; the claim must hold after every sequence of messages, blocks and scheduled tasks.", "anchors": ["x/profile/keeper/keeper.go: CreateAccountWithProfile, CardNumberByAccountNumber, SetProfile"]}
{"id": "C50", "title": "Activity is always paid for", "statement": "An account becomes active only by paying the subscription. (Refuted: account creation accepts a profile that is already active.)", "quantifier": "all histories", "why_tests_cant": "A test replays a few chosen histories; the claim must hold after every sequence of messages, blocks and scheduled tasks.", "anchors": ["x/profile/keeper/msg_server.go: CreateAccount", "x/profile/types/msgs.go"]}
{"id": "C51", "title": "A subscription payment costs exactly the published price and extends exactly one month", "statement": "A successful PayTariff takes from the payer exactly price*rate plus the storage surcharge, hands it to the company and fee collector, and moves the expiry by exactly one month. (Refuted: the surcharge for a huge amount of storage overflows to nothing.)", "quantifier": "all states and storage amounts", "why_tests_cant": "A test tries a handful of values; the claim is about every value of an unbounded domain.", "anchors": ["x/profile/keeper/subscription.go: PayTariff"]}
{"id": "C52", "title": "You get the storage you pay for", "statement": "After a successful PayTariff with a storage amount the storage limit is that amount. (Refuted for inactive accounts.)", "quantifier": "all states and amounts", "why_tests_cant": "A test tries a handful of values; the claim is about every value of an unbounded domain.", "anchors": ["x/profile/keeper/subscription.go: PayTariff, resetLimits"]}
{"id": "C53", "title": "Traffic limits are never inflated by the monthly reset", "statement": "The monthly reset never raises the VPN limit above the larger of the old limit and the base. (Refuted when usage exceeds limit plus base.)", "quantifier": "all profiles", "why_tests_cant": "A test tries a handful of values; the claim is about every value of an unbounded domain.", "anchors": ["x/profile/keeper/subscription.go: resetLimits"]}
{"id": "C54", "title": "A failed automatic renewal takes no money", "statement": "If the IM-storage auto-renewal fails, the account's balance is unchanged. (Refuted: the fee is kept.)", "quantifier": "all states", "why_tests_cant": "A test tries a handful of values; the claim is about every value of an unbounded domain.", "anchors": ["x/profile/keeper/subscription.go: monthlyImRoutine, prolongImExtra"]}
{"id": "C55", "title": "A proposal takes effect only if everybody voted and at least two thirds agreed", "statement": "A proposal changes parameters only when every member of the government has voted and at least 2/3 of them agreed.", "quantifier": "all histories of proposals and votes", "why_tests_cant": "A test replays a few chosen histories; the claim must hold after every sequence of messages, blocks and scheduled tasks.", "anchors": ["x/voting/keeper/keeper.go: Validate, Vote, EndProposal, ProcessSchedule"]}
{"id": "C56", "title": "One member, one vote; only members vote", "statement": "At any time every vote recorded was cast by a government member and no account is recorded twice.", "quantifier": "all histories", "why_tests_cant": "A test replays a few chosen histories; the claim must hold after every sequence of messages, blocks and scheduled tasks.", "anchors": ["x/voting/keeper/keeper.go: Propose, Vote"]}
{"id": "C57", "title": "A vote always ends", "statement": "A running proposal can be completed by its voters, or ends at its deadline. In particular a proposal on which all members voted is closed at once.", "quantifier": "all histories", "why_tests_cant": "A test replays a few chosen histories; the claim must hold after every sequence of messages, blocks and scheduled tasks.", "anchors": ["x/voting/keeper/keeper.go"]}
{"id": "C58", "title": "A government can always decide", "statement": "As long as there is a government, a unanimous government can pass a proposal. (Refuted: adding an existing member twice makes every later vote incomplete for ever.)", "quantifier": "all histories", "why_tests_cant": "A test replays a few chosen histories; the claim must hold after every sequence of messages, blocks and scheduled tasks.", "anchors": ["x/voting/types: Government.Append", "x/voting/keeper/keeper.go: Validate"]}
{"id": "C59", "title": "Every decided proposal is kept in history", "statement": "Whenever a proposal ends, the history holds its text, the government, the votes and the outcome, and keeps them for ever. (Refuted: two proposals ending in one block overwrite each other.)", "quantifier": "all histories", "why_tests_cant": "A test replays a few chosen histories; the claim must hold after every sequence of messages, blocks and scheduled tasks.", "anchors": ["x/voting/keeper/keeper.go: EndProposal, saveProposalToHistory"]}
{"id": "C60", "title": "Poll counters equal the number of distinct answers", "statement": "The yes/no counters of the running poll equal the number of accounts recorded with that answer; no account answers twice.", "quantifier": "all histories", "why_tests_cant": "A test replays a few chosen histories; the claim must hold after every sequence of messages, blocks and scheduled tasks.", "anchors": ["x/voting/keeper/polls.go"]}
{"id": "C61", "title": "The poll decision follows the quorum rule", "statement": "A closed poll with a quorum q is positive iff there is a yes and yes/(yes+no) >= q; without a quorum it is undecided.", "quantifier": "all counts and quorums", "why_tests_cant": "A test tries a handful of values; the claim is about every value of an unbounded domain.", "anchors": ["x/voting/keeper/polls.go: EndPoll"]}
{"id": "C62", "title": "An exported chain can be imported", "statement": "Exporting a running poll and importing it succeeds. (Refuted when a respondent has meanwhile lost the required qualification.)", "quantifier": "all reachable states", "why_tests_cant": "A test replays a few chosen histories; the claim must hold after every sequence of messages, blocks and scheduled tasks.", "anchors": ["x/voting/keeper/genesis.go"]}
{"id": "C63", "title": "Transactions are atomic", "statement": "A failed message changes no module state: only the transaction fee already charged stays charged.", "quantifier": "all states and transactions", "why_tests_cant": "A test replays a few chosen histories; the claim must hold after every sequence of messages, blocks and scheduled tasks.", "anchors": ["app/app.go"]}
{"id": "C64", "title": "New coins come only from interest", "statement": "The total of all coins (main + delegated + revoking) increases only by interest accrual; every transaction other than delegate/revoke accruals, and every other task, leaves it equal or lower.", "quantifier": "all histories", "why_tests_cant": "A test replays a few chosen histories; the claim must hold after every sequence of messages, blocks and scheduled tasks.", "anchors": ["x/delegating/keeper/keeper.go: accrue, accrueToValidator"]}
{"id": "C65", "title": "Collected fees are handed out completely in every block", "statement": "A successful payment to the proposer empties both fee collectors: the proposer gets all plain fees and their share of the splittable ones, the company account gets its share, the rest is burnt; nobody else gains or loses.", "quantifier": "all states and proposers", "why_tests_cant": "A test tries a handful of values; the claim is about every value of an unbounded domain.", "anchors": ["x/noding/keeper/keeper.go: PayProposerReward", "util/fee.go: SplitFee"]}
{"id": "C66", "title": "Computing the validator updates never stops the node", "statement": "With validated parameters and sound validator records EndBlock never panics, whatever the blocks contain, and the records stay sound.", "quantifier": "all histories, including operators that share keys", "why_tests_cant": "A test replays a few chosen histories; the claim must hold after every sequence of messages, blocks and scheduled tasks.", "anchors": ["x/noding/keeper/keeper.go: GatherValidatorUpdates", "x/noding/keeper/vp_generator.go"]}
{"id": "C67", "title": "No vote and no evidence is lost", "statement": "Every key that has ever been in the consensus validator set is found in the index when the engine reports a vote or an infraction for it, and leads to the operator it belongs to.", "quantifier": "all histories of blocks in which no two operators ever share a key", "why_tests_cant": "A test replays a few chosen histories; the claim must hold after every sequence of messages, blocks and scheduled tasks.", "anchors": ["x/noding/abci.go: findValidatorAccAddress", "x/noding/keeper/keeper.go: GetValidatorByConsAddr, SwitchOn, GatherValidatorUpdates"]}
{"id": "C68", "title": "Validator parameters stay valid", "statement": "Whatever proposals are passed, the limits stay positive and the voting power distribution stays proper: positive powers and parts that make up the whole.", "quantifier": "all histories", "why_tests_cant": "A test replays a few chosen histories; the claim must hold after every sequence of messages, blocks and scheduled tasks.", "anchors": ["x/noding/types/params.go", "x/noding/keeper/params.go: SetParams", "x/voting/keeper/keeper.go: EndProposal"]}
{"id": "C69", "title": "The consensus validator set is never larger than configured", "statement": "At most MaxValidators + LotteryValidators validators have power. (Refuted: a validator that loses qualification keeps its lottery number.)", "quantifier": "all histories of blocks in which no two operators ever share a key", "why_tests_cant": "A test replays a few chosen histories; the claim must hold after every sequence of messages, blocks and scheduled tasks.", "anchors": ["x/noding/keeper/keeper.go: GatherValidatorUpdates, OnStakeChanged", "x/noding/keeper/lottery.go"]}
{"id": "C70", "title": "A poll ends at its deadline and not before", "statement": "After every block the running poll has not reached its deadline, and a poll disappears only once its deadline has come.", "quantifier": "all histories of blocks", "why_tests_cant": "A test replays a few chosen histories; the claim must hold after every sequence of messages, blocks and scheduled tasks.", "anchors": ["x/voting/keeper/keeper.go: StartPoll, EndPoll, EndPollHandler"]}
{"id": "C71", "title": "Nicknames cannot imitate card numbers", "statement": "No account ever has a nickname that starts with ARTR-, in any letter case and after any blanks.", "quantifier": "all histories", "why_tests_cant": "A test replays a few chosen histories; the claim must hold after every sequence of messages, blocks and scheduled tasks.", "anchors": ["x/profile/keeper/keeper.go: SetProfile, ValidateProfileNickname"]}
{"id": "C72", "title": "A new member joins under an existing member", "statement": "An account can be registered only under an account that is itself registered, so that every member of the network has gone through registration. (The model refutes this: the referrer named in the message need not exist; it then appears as a top-level member and its owner can never register.)", "quantifier": "all states and registration messages", "why_tests_cant": "A test tries a handful of values; the claim is about every value of an unbounded domain.", "anchors": ["x/profile/keeper/msg_server.go: CreateAccount", "x/referral/keeper/keeper.go: appendChild, Get"]}
{"id": "C73", "title": "The active referrals of an account are known", "statement": "The list of active referrals kept for an account, which decides its status, consists of exactly those of its referrals that are active.", "quantifier": "all histories", "why_tests_cant": "A test replays a few chosen histories; the claim must hold after every sequence of messages, blocks and scheduled tasks.", "anchors": ["x/referral/keeper/keeper.go: SetActive, Compress, AffirmTransition"]}
{"id": "C74", "title": "A chain starts with the network its genesis file describes", "statement": "A chain started from a genesis file without contradictions has a referral network in order: every account is listed under the referrer the file names, exactly the accounts of the file are members, and all counters and coin sums of all lines are right; and it stays so in every history of blocks that follows.", "quantifier": "all genesis files without contradictions (accounts named that are not in the network, accounts both listed and banished, circles of former referrers), any balances, profiles and validators", "why_tests_cant": "A test tries a handful of values; the claim is about every value of an unbounded domain.", "anchors": ["x/referral/keeper/genesis.go: ImportFromGenesis", "x/profile/keeper/genesis.go: ImportProfileRecords", "x/bank/internal/keeper/genesis.go: InitGenesis", "app/app.go: InitChainer"]}
{"id": "C75", "title": "Exporting the state and starting again keeps the network and the coins", "statement": "When the state of a chain is exported and a new chain is started from the file, the new chain has the same members in its referral network, every member that is not banished has the same referrer and every account has the same balance; and the network of the new chain is in order.", "quantifier": "all states of a chain, all balances, profiles and validators", "why_tests_cant": "A test tries a handful of values; the claim is about every value of an unbounded domain.", "anchors": ["app/export.go: ExportAppStateAndValidators", "x/referral/keeper/genesis.go: ExportToGenesis", "x/referral/keeper/genesis.go: ImportFromGenesis", "x/bank/internal/keeper/genesis.go: InitGenesis"]}
{"id": "C76", "title": "A chain started from a genesis file has unique nicknames, cards and account numbers", "statement": "In a chain started from a genesis file, and in every history of blocks that follows, no two accounts have the same nickname, the owner of a nickname is found under it, the account numbers are 0, 1, 2, ... without gaps, and every profile has the card with the number of its account.", "quantifier": "all genesis files, all histories of blocks", "why_tests_cant": "A test tries a handful of values; the claim is about every value of an unbounded domain.", "anchors": ["x/profile/keeper/genesis.go: ImportProfileRecords", "x/profile/keeper/keeper.go: SetProfile", "app/app.go: InitChainer"]}
{"id": "C77", "title": "Exporting the state and starting again keeps profiles, cards and account numbers", "statement": "When a chain started from a genesis file without duplicates has lived through any history of blocks, its state is exported and a new chain is started from the export, then every account has the same profile with the same card number, and the same account number, as before.", "quantifier": "all genesis files without duplicate accounts, profiles or nicknames; all histories of blocks", "why_tests_cant": "A test replays a few chosen histories; the claim must hold after every sequence of messages, blocks and scheduled tasks.", "anchors": ["app/export.go: ExportAppStateAndValidators", "x/profile/keeper/genesis.go: ExportProfileRecords", "x/profile/keeper/genesis.go: ImportProfileRecords"]}
{"id": "C78", "title": "Paging through a list shows every entry once", "statement": "Asking for page 1, 2, 3, ... of the earners, of the history of proposals or of the history of polls shows every entry exactly once and in order, for every page size. (Refuted: with large page numbers the first pages come back.)", "quantifier": "all states, page sizes and numbers of pages", "why_tests_cant": "A test tries a handful of values; the claim is about every value of an unbounded domain.", "anchors": ["x/earning/keeper/query_server.go: List", "x/voting/keeper/keeper.go: GetHistory, GetPollHistory"]}
{"id": "C79", "title": "The accumulation forecast comes true", "statement": "The query about accrued interest tells the end of the current day, the rate and the total; the total is what the account is paid at the end of the day if its delegation and rate do not change, and the current amount is what it is paid if it revokes now.", "quantifier": "all states and accounts with a usable percentage table and amounts within 64 bits", "why_tests_cant": "A test tries a handful of values; the claim is about every value of an unbounded domain.", "anchors": ["x/delegating/keeper/keeper.go: GetAccumulation, accrue, Revoke"]}
{"id": "C80", "title": "The verdict on a transition is right", "statement": "The query about a transition answers positively iff the account may move there, a request is accepted only with a positive answer, and there always is an answer.", "quantifier": "all states, accounts and destinations; for the last part all histories", "why_tests_cant": "A test replays a few chosen histories; the claim must hold after every sequence of messages, blocks and scheduled tasks.", "anchors": ["x/referral/keeper/query_server.go: ValidateTransition", "x/referral/keeper/keeper.go: validateTransition, RequestTransition"]}
{"id": "C81", "title": "Whether an account may run a validator is told right", "statement": "The query answers positively iff the account qualifies; nobody switches a validator on with a negative answer; and with a positive one the account can, unless it is banned, on already, or the key is in use.", "quantifier": "all states, accounts and keys", "why_tests_cant": "A test tries a handful of values; the claim is about every value of an unbounded domain.", "anchors": ["x/noding/keeper/query_server.go: IsAllowed", "x/noding/keeper/keeper.go: IsQualified, SwitchOn"]}
{"id": "C82", "title": "Whoever is found by nickname or card has it", "statement": "The queries by nickname and by card number return exactly the account that has it now, and never crash. (Refuted for nicknames given with blanks around them.)", "quantifier": "all histories of blocks, nicknames and card numbers", "why_tests_cant": "A test replays a few chosen histories; the claim must hold after every sequence of messages, blocks and scheduled tasks.", "anchors": ["x/profile/keeper/query_server.go: GetByNickname, GetByCardNumber", "x/profile/keeper/keeper.go: SetProfile, GetProfileAccountByNickname"]}
{"id": "C83", "title": "The state of a validator is told right", "statement": "After every block the validators the query calls top or lucky are those with power, no more are top than configured, no lucky or spare validator is better than a top one, and spare are all other active ones. At any time it calls banned and jailed those that are, and off all the rest.", "quantifier": "all histories of blocks", "why_tests_cant": "A test replays a few chosen histories; the claim must hold after every sequence of messages, blocks and scheduled tasks.", "anchors": ["x/noding/keeper/keeper.go: GetValidatorState, GatherValidatorUpdates"]}
{"id": "C84", "title": "The schedule is shown completely", "statement": "The queries show every pending task, or every one of the period asked for, once and by time.", "quantifier": "all histories of blocks, all periods", "why_tests_cant": "A test replays a few chosen histories; the claim must hold after every sequence of messages, blocks and scheduled tasks.", "anchors": ["x/schedule/keeper/query_server.go: All, Get"]}
{"id": "C85", "title": "The poll query shows the votes cast", "statement": "The counts shown for the running poll are the numbers of accounts that have answered yes and no.", "quantifier": "all histories of blocks", "why_tests_cant": "A test replays a few chosen histories; the claim must hold after every sequence of messages, blocks and scheduled tasks.", "anchors": ["x/voting/keeper/query_server.go: Poll", "x/voting/keeper/keeper.go: Answer"]}
{"id": "C86", "title": "The status query applies the table of requirements", "statement": "The query whether an account meets the requirements of a status answers positively iff it meets those of the table.", "quantifier": "all states and accounts, all statuses", "why_tests_cant": "A test tries a handful of values; the claim is about every value of an unbounded domain.", "anchors": ["x/referral/keeper/query_server.go: CheckStatus", "x/referral/keeper/keeper.go: AreStatusRequirementsFulfilled"]}
{"id": "C87", "title": "The network sums asked for are those of the open lines", "statement": "The query about the coins below an account answers the coins and the delegated coins of the account and its lines, as far as its status opens them and the depth asked for allows. (Refuted for depth 0.)", "quantifier": "all histories of blocks, accounts and depths", "why_tests_cant": "A test replays a few chosen histories; the claim must hold after every sequence of messages, blocks and scheduled tasks.", "anchors": ["x/referral/keeper/query_server.go: Coins", "x/referral/keeper/keeper.go: GetCoinsInNetwork, GetDelegatedInNetwork"]}
{"id": "C88", "title": "Only the owner changes a profile", "statement": "A message of somebody else leaves the profile of an account alone, except that an appointed storage or VPN signer may record its current usage. In a history without any message of the owner the switches, the nickname and the card number stay, automatic payment for extra storage can only be switched off, and whoever does not pay automatically is given no further time.", "quantifier": "all messages, states and accounts; all histories of blocks without messages of the owner", "why_tests_cant": "A test replays a few chosen histories; the claim must hold after every sequence of messages, blocks and scheduled tasks.", "anchors": ["x/profile/keeper/msg_server.go: SetStorageCurrent, SetVpnCurrent", "x/profile/keeper/keeper.go: SetProfile", "x/profile/keeper/subscription.go: monthlyRoutine, monthlyImRoutine"]}
{"id": "C89", "title": "A nickname change and a registration cost what they should", "statement": "An update that changes the nickname to one that is not blank costs its owner exactly 1 ARTR, any other update nothing; a registration costs the registrant the price in force, unless appointed, and nobody else.", "quantifier": "all messages and states", "why_tests_cant": "A test tries a handful of values; the claim is about every value of an unbounded domain.", "anchors": ["x/profile/keeper/keeper.go: SetProfile, CreateAccountWithProfile", "x/profile/keeper/msg_server.go: UpdateProfile, CreateAccount"]}
{"id": "C90", "title": "Storage and traffic cost what they should and are delivered", "statement": "A purchase of storage, traffic or extra storage takes the price at the current token rate for the part of the month it is for, from the buyer alone, and raises exactly the limit bought; giving up is free and never goes below what is used or included.", "quantifier": "all purchases, states and amounts that fit 64 bits", "why_tests_cant": "A test tries a handful of values; the claim is about every value of an unbounded domain.", "anchors": ["x/profile/keeper/subscription.go: BuyStorage, BuyVpn, GiveStorageUp", "x/profile/keeper/subscription.go: BuyImStorage, GiveImStorageUp, ProlongImExtra"]}
{"id": "C91", "title": "Nobody is moved in the referral network without asking", "statement": "A message changes the referrer or the pending transition of a member that is not banished only if it is the request of that member, or the answer of its current referrer to that request; then the member is moved to where it asked to be, or the request is dropped. Of the scheduled tasks only the compression of the account it is listed under moves it, up to that account's referrer, and only an expired request is dropped. A member that does not ask keeps its referrer in every history, until it is banished or its referrer is compressed.", "quantifier": "all messages, scheduled tasks, states and members; all histories of blocks", "why_tests_cant": "A test replays a few chosen histories; the claim must hold after every sequence of messages, blocks and scheduled tasks.", "anchors": ["x/referral/keeper/keeper.go: RequestTransition, AffirmTransition, CancelTransition, Compress, OnBalanceChanged", "x/referral/keeper/msg_server.go: ResolveTransition"]}
{"id": "C92", "title": "Whoever has the coins can send them", "statement": "On a chain whose books can be read (statuses are those there are, everybody's own delegation is the recorded one, the recorded delegations of the first lines add up to numbers of 64 bits, active referrals have counters), an account that has the amount and the fee, is not blocked, and sends at least the minimum to an existing account has its transaction accepted, and the books can still be read afterwards: nobody else's records can stand in the way.", "quantifier": "all senders, recipients, amounts and states meeting the description", "why_tests_cant": "A test replays a few chosen histories; the claim must hold after every sequence of messages, blocks and scheduled tasks.", "anchors": ["x/bank/internal/keeper/msg_server.go: Send", "x/referral/keeper/keeper.go: OnBalanceChanged"]}
{"id": "C93", "title": "Delegated coins can be revoked", "statement": "A member in good standing can revoke any part of what it has delegated: the transaction is accepted, whatever its ancestors' records say.", "quantifier": "all members, amounts, terms and states", "why_tests_cant": "A test replays a few chosen histories; the claim must hold after every sequence of messages, blocks and scheduled tasks.", "anchors": ["x/delegating/keeper/keeper.go: Revoke", "x/referral/keeper/keeper.go: OnBalanceChanged, Compress", "x/referral/keeper/status_requirements.go"]}
{"id": "C94", "title": "Coins can be delegated", "statement": "A member in good standing can delegate any amount it has, from the minimum on: the transaction is accepted.", "quantifier": "all members, amounts and states", "why_tests_cant": "A test replays a few chosen histories; the claim must hold after every sequence of messages, blocks and scheduled tasks.", "anchors": ["x/delegating/keeper/keeper.go: Delegate", "x/referral/keeper/keeper.go: OnBalanceChanged", "x/referral/keeper/status_requirements.go"]}
{"id": "C95", "title": "Scheduled payments go through", "statement": "On a chain whose books can be read, the scheduled payment of interest to a member in good standing goes through if the interest fits a 64-bit number, and so does the scheduled return of revoked coins, however many requests are due, if the account has what it requested; the books can be read afterwards.", "quantifier": "all accounts, tasks and states meeting the description", "why_tests_cant": "A test replays a few chosen histories; the claim must hold after every sequence of messages, blocks and scheduled tasks.", "anchors": ["x/delegating/keeper/hooks.go: MustPerformAccrue, MustPerformRevoking", "x/delegating/keeper/keeper.go: accrue, undelegate"]}
{"id": "C96", "title": "No software upgrade creates or destroys coins", "statement": "Whichever of the chain's upgrades is carried out, what is in circulation stays equal to what the accounts have, the total over the three denominations stays the same, and everybody keeps what it has (in whichever of the three denominations); the only exception is 2.5.2, which gives what the three collectors have to the company account, to the last coin.", "quantifier": "all upgrades, states and plan times", "why_tests_cant": "A test replays a few chosen histories; the claim must hold after every sequence of messages, blocks and scheduled tasks.", "anchors": ["app/upgrade.go: ForceGlobalDelegation, EmptyEarningVpnStorageCollectors and all other handlers", "app/app.go: UpgradeKeeper.SetUpgradeHandler"]}
{"id": "C97", "title": "The upgrade to 2.2.1 delegates everything that the members have", "statement": "Afterwards each member has everything it had, all of it delegated; whoever was revoking is revoking no longer and no payment is left scheduled for it; whoever was earning interest goes on at the same instant and the others start within a day; the records of the ten lines agree. Nobody but the members is touched.", "quantifier": "all states whose records agree with the balances", "why_tests_cant": "A test replays a few chosen histories; the claim must hold after every sequence of messages, blocks and scheduled tasks.", "anchors": ["app/upgrade.go: ForceGlobalDelegation, RefreshReferralStatuses"]}
{"id": "C98", "title": "The upgrade to 2.0.1 makes the lists of active referrals right", "statement": "Afterwards the active referrals of an account are exactly its referrals that are active; nothing else about the network changes.", "quantifier": "all states", "why_tests_cant": "A test replays a few chosen histories; the claim must hold after every sequence of messages, blocks and scheduled tasks.", "anchors": ["app/upgrade.go: RecalculateActiveReferrals"]}
{"id": "C99", "title": "The upgrade to 2.2.0 keeps exactly the qualified validators", "statement": "Afterwards somebody is a validator if and only if it was one and is qualified; the qualified ones keep their records; polls last as long as votes.", "quantifier": "all states", "why_tests_cant": "A test replays a few chosen histories; the claim must hold after every sequence of messages, blocks and scheduled tasks.", "anchors": ["app/upgrade.go: InitPollPeriodParam, ForceOnStatusChangedCallback"]}
{"id": "C100", "title": "The upgrade to 2.4.5 schedules the banishments that were missing", "statement": "Every member that does not pay, has nothing delegated and is not scheduled for compression or banishment is scheduled for banishment, at the recorded time and not before an hour has passed; nobody else is; no task is lost; the rest of the network stays.", "quantifier": "all states", "why_tests_cant": "A test replays a few chosen histories; the claim must hold after every sequence of messages, blocks and scheduled tasks.", "anchors": ["app/upgrade.go: ScheduleMissingBanishmentAndRefreshReferralStatuses"]}
{"id": "C101", "title": "The upgrades to 2.4.3 and 2.4.4 lose no scheduled task", "statement": "After the two upgrades that repair the scheduled status downgrades every task that was scheduled before is still scheduled, those that went astray at a later instant.", "quantifier": "all states", "why_tests_cant": "A test replays a few chosen histories; the claim must hold after every sequence of messages, blocks and scheduled tasks.", "anchors": ["app/upgrade.go: UpdateStatusDowngradeTasks, FixStatusDowngradeTasks"]}
{"id": "C102", "title": "The upgrade to 2.3.2 moves members away from banished accounts", "statement": "Afterwards no member is under a banished account, nobody was banished or pardoned, banished accounts stay where they are, and whoever was moved is among the referrals of its new referrer.", "quantifier": "all states", "why_tests_cant": "A test replays a few chosen histories; the claim must hold after every sequence of messages, blocks and scheduled tasks.", "anchors": ["app/upgrade.go: TransferFromTheBanished"]}
{"id": "C103", "title": "The upgrade to 2.3.2 brings back the banished accounts that have a delegation", "statement": "Exactly the banished accounts whose delegation is above the dust are pardoned; they start anew under the nearest account above them that is open, and are among its referrals.", "quantifier": "all states", "why_tests_cant": "A test replays a few chosen histories; the claim must hold after every sequence of messages, blocks and scheduled tasks.", "anchors": ["app/upgrade.go: UnbanishAccountsWithDelegation"]}
{"id": "C104", "title": "The upgrade to 2.5.8 deactivates the top-level accounts", "statement": "Afterwards the top-level accounts, and only they, are inactive with their subscriptions ended, and the figures of the network are still right.", "quantifier": "all states", "why_tests_cant": "A test replays a few chosen histories; the claim must hold after every sequence of messages, blocks and scheduled tasks.", "anchors": ["app/upgrade.go: DeactivateTopLevelAccounts"]}
{"id": "C105", "title": "The upgrade to 2.5.8 adds the missing monthly tasks", "statement": "Everyone below the top level that has paid for more than a month ahead has a task for each month ahead; no task is lost and no other is added.", "quantifier": "all states", "why_tests_cant": "A test replays a few chosen histories; the claim must hold after every sequence of messages, blocks and scheduled tasks.", "anchors": ["app/upgrade.go: AddMissingProfileRefreshTask"]}
{"id": "C106", "title": "The lists of accounts by status are right", "statement": "Whoever asks for all accounts with a status (those from the fifth on can be asked for) gets exactly the accounts that have it, each once.", "quantifier": "all genesis files and all histories after them", "why_tests_cant": "A test replays a few chosen histories; the claim must hold after every sequence of messages, blocks and scheduled tasks.", "anchors": ["x/referral/keeper/query_server.go: AllWithStatus", "x/referral/keeper/keeper.go: setStatus, Compress, Banish, ComeBack", "x/referral/keeper/bunch_updater.go: update", "x/referral/keeper/hooks.go: PerformDowngrade", "x/referral/keeper/genesis.go: ImportFromGenesis"]}
{"id": "C107", "title": "The upgrade to 2.1.0 makes the scheduled banishments right", "statement": "After the upgrade to 2.1.0 a banishment is scheduled exactly for the accounts that had one scheduled and that do not pay, are not banished, have at most the dust delegated and await no compression; their records say when, and the records of those no longer scheduled say nothing. Accounts banished although they pay are back unless their return fails; nobody else returns or is banished, and all other tasks wait on.", "quantifier": "all states before the upgrade", "why_tests_cant": "A test replays a few chosen histories; the claim must hold after every sequence of messages, blocks and scheduled tasks.", "anchors": ["app/upgrade.go: ScheduleBanishment", "x/referral/keeper/keeper.go: ComeBack"]}
{"id": "C108", "title": "An update changes a profile exactly as asked", "statement": "An update of a profile that is accepted asks for something, and only for proper nicknames (none, or at least three bytes without blanks and punctuation, not starting with ARTR-). Afterwards every switch and the nickname are what was asked for last, or as before if nothing was asked; nothing else of the profile changes, and no other profile. An update that only turns switches is never refused to an account with a profile.", "quantifier": "all states, accounts and lists of updates", "why_tests_cant": "The list of updates is arbitrary: later updates override earlier ones, and untouched fields must survive every combination.", "anchors": ["x/profile/keeper/msg_server.go: UpdateProfile", "x/profile/types/msgs.go: MsgUpdateProfile.ValidateBasic", "x/profile/keeper/keeper.go: SetProfile"]}
{"id": "C109", "title": "Whoever can pay for storage or traffic gets it", "statement": "An account whose subscription is paid and whose free coins cover the price is never refused more storage for the rest of the month or more VPN traffic; an account with a profile and the coins is never refused extra IM storage, for a month or for the rest of the month it has already paid, nor a further month of it; and an account that is not banished is never refused a month, be it the first or the next one, with as much storage as before or any amount not below what is included and what it uses. The prices are those of C51 and C90, and the transaction fee is within them.", "quantifier": "all states in good order, accounts, amounts and rests of the month", "why_tests_cant": "The purchase goes through fractions, fees, two payments, the schedule and the rewritten profile; a refusal in any of them for some amount would only be met by that amount.", "anchors": ["x/profile/keeper/subscription.go: PayTariff, BuyStorage, BuyVpn, BuyImStorage, ProlongImExtra", "x/profile/keeper/keeper.go: SetProfile", "x/bank/internal/keeper/keeper.go: PayTxFee", "x/schedule/keeper/keeper.go: ScheduleTask, Delete"]}
{"id": "C110", "title": "The end of a month never stops the chain", "statement": "When the month of an account is over, the scheduled task goes through whatever the account owns: the month is renewed at its published price if the account has asked for automatic payment and its free coins cover it, and otherwise ends where it ends; an account that has paid in the meantime is not charged. The same holds for extra IM storage, which goes on for a month if asked for and affordable, and is taken away with its automatic payment otherwise.", "quantifier": "all states in good order, accounts, profiles, prices and balances", "why_tests_cant": "A task that fails stops the block and with it the chain; whether it does depends on the balance, the fee, the prices and the referral tree at that moment, for every account.", "anchors": ["x/profile/keeper/subscription.go: monthlyRoutine, monthlyImRoutine, PayTariff, ProlongImExtra", "x/profile/keeper/keeper.go: SetProfile", "x/referral/keeper/keeper.go: SetActive", "x/bank/keeper/keeper.go: PayTxFee"]}
{"id": "C111", "title": "A free nickname can be taken, and what one has can be given up", "statement": "An account with a profile and one ARTR can take any proper nickname that nobody else has, together with any other settings; giving the nickname up or changing only other settings is never refused and needs no coins. Storage can always be given up down to what is used and what is included, and extra IM storage that is paid for can always be given up, in part or in full.", "quantifier": "all states in good order, accounts, lists of settings and amounts", "why_tests_cant": "Whether the profile can be written depends on the index of nicknames, the card, the balance and the schedule together; an index that disagrees with the profiles would refuse a rightful change only for some history.", "anchors": ["x/profile/keeper/msg_server.go: UpdateProfile", "x/profile/keeper/keeper.go: SetProfile, ValidateProfileNickname", "x/profile/keeper/subscription.go: GiveStorageUp, GiveImStorageUp"]}
{"id": "C112", "title": "A validator can always be switched off, and leaves jail when its time is over", "statement": "Whoever has a validator can switch it off at any time; from then on the account is no validator. A jailed validator whose jail period is over is never refused its release; it is then active exactly if it was switched on before, meets the requirements and is not banned. Neither changes the record of anybody else.", "quantifier": "all states, and for the release all states in good order; all validators", "why_tests_cant": "The release looks at the status, the delegations of ten lines and the score, the switch at the lottery queue; a failure would need a particular combination of them.", "anchors": ["x/noding/keeper/keeper.go: SwitchOff, Unjail, IsQualified", "x/noding/keeper/lottery.go: lotteryExclude"]}
{"id": "C113", "title": "Polls can be started and answered", "statement": "When no poll is running, every member of the government can start a valid one; it ends exactly one poll period later. Whoever meets the requirement of a running poll and has not answered yet is never refused an answer, and exactly this answer is kept.", "quantifier": "all states, members, polls, respondents and answers", "why_tests_cant": "The right to answer depends on the qualification at that moment, computed from the network, and the record of answers depends on the whole history of the poll.", "anchors": ["x/voting/keeper/keeper.go: StartPoll, Answer", "x/voting/types/types.go: Poll.Validate", "x/noding/keeper/keeper.go: IsQualified"]}
{"id": "C114", "title": "Those who have the right are not refused", "statement": "Whoever has free coins can burn any part of them; exactly these are gone, from the balance and from the supply. An account that may set the rate of the token can set it to any positive value, and only the rate changes. An account that may report the use of storage or traffic can report it for everybody with a profile. The referrer of an account that has asked for another referrer can decline at any time, and nobody else is touched.", "quantifier": "all states (for the burning: in good order), accounts, amounts and rates", "why_tests_cant": "Each is refused by a check somewhere in the bank, the parameters or the network that only some state fails.", "anchors": ["x/bank/internal/keeper/keeper.go: BurnAccCoins", "x/profile/keeper/msg_server.go: SetRate, SetStorageCurrent, SetVpnCurrent", "x/profile/keeper/params.go: SetParams", "x/referral/keeper/msg_server.go: ResolveTransition", "x/referral/keeper/keeper.go: CancelTransition"]}
{"id": "C115", "title": "Newcomers are not refused", "statement": "A registrar, or anybody when registration costs nothing, can register any newcomer that has no account, no place in the network and no delegation, under any member that is at the top of the network, or is not banished and is active or at least thirty days before its removal; with any nickname that nobody has and that does not look like a card number, or with none. The newcomer then has an account and a profile with this nickname.", "quantifier": "all states in good order, registrars, newcomers, referrers and profiles without a paid month", "why_tests_cant": "The new record is pushed through the lines of ten referrers, whose statuses are recomputed, and through the timetable; one panic or refusal in any of them refuses the newcomer.", "anchors": ["x/profile/keeper/msg_server.go: CreateAccount", "x/profile/keeper/keeper.go: CreateAccountWithProfile, SetProfile", "x/referral/keeper/keeper.go: AppendChild, appendChild, ScheduleCompression", "x/referral/types/types.go: RegistrationClosed"]}
{"id": "C116", "title": "The qualified can start a validator, and the government can propose and vote", "statement": "An account that is qualified, has a complete place in the network and is not banned can switch its validator on with any key that no validator at work uses; the validator is then at work unless it is in jail, and nobody else's record changes. A member of the government can propose anything valid when nothing is being voted on and there are other members, and a member who has not voted, unless all others have, can vote; the proposal and the vote are recorded. A list of earners that is not empty is never refused.", "quantifier": "all states (for validators: in good order), accounts, keys, proposals, votes and lists", "why_tests_cant": "Whether a key is free and whether the total stake of ten lines fits into the types used depends on the whole history.", "anchors": ["x/noding/keeper/keeper.go: SwitchOn, IsQualified, GetValidatorByConsAddr", "x/voting/keeper/keeper.go: Propose, Vote", "x/earning/keeper/msg_server.go: SetMultiple"]}
{"id": "C117", "title": "Another referrer can be asked for", "statement": "Whoever has the price can ask to be moved under any member who takes newcomers, is not below them and is not their referrer already, provided nothing has been asked for before and the chain of referrers of that member ends. The wish is then recorded.", "quantifier": "all states in good order, accounts and destinations", "why_tests_cant": "The check follows a chain of referrers of any length, and the payment changes records along two other chains.", "anchors": ["x/referral/keeper/keeper.go: RequestTransition, validateTransition", "x/referral/keeper/msg_server.go: RequestTransition", "x/bank/internal/keeper/keeper.go: SendCoinsFromAccountToModule"]}
