(** * The application: messages, transactions, blocks *)
From Verif Require Export Voting.

(** x/noding/keeper/keeper.go:747-770: the proposer is remembered, their record
    counts the block, and in the lottery they go to the end of the queue *)
Definition proposed (a : addr) : M unit :=
  do! modify (fun s => s <| st_proposers := <[ st_height s - 1 := a ]> (st_proposers s) |>) in
  val_update a (fun x =>
    let! x := if_in_lottery (lottery_downshift a) (x <| n_proposed := n_proposed x + 1 |>) in
    ret (Some x)).

(** ** The proposer's reward.  x/noding/keeper/keeper.go:747-822.  All accounts
    the coins come from are module accounts (SendCoinsFromModuleToAccount,
    x/bank/internal/keeper/keeper.go:100-113, is SendCoins). *)
Definition pay_collected (a : addr) : M unit :=
  let! amount := get (fun s => balance s fee_collector) in
  if decide (amount = ∅) then ret tt else send_coins fee_collector a amount.
Definition pay_proposer_reward (a : addr) : M unit :=
  do! proposed a in
  do! pay_collected a in
  let! splittable := get (fun s => amt (balance s splitter) uartr) in
  let! bp := get st_bp in
  let! (for_proposer, for_company, for_burning) :=
    lift "fraction" (Frac.split_fee splittable (bp_for_proposer bp) (bp_for_company bp)) in
  let for_proposer := if splittable <? for_proposer then splittable else for_proposer in
  let! c := new_coins uartr for_proposer in
  do! (if decide (c = ∅) then ret tt else send_coins splitter a c) in
  let splittable := splittable - for_proposer in
  let for_company := if splittable <? for_company then splittable else for_company in
  let! c := new_coins uartr for_company in
  do! (if decide (c = ∅) then ret tt else send_coins splitter (bp_company bp) c) in
  let splittable := splittable - for_company in
  (* whatever was meant to be burnt, what is left is burnt *)
  let! c := new_coins uartr splittable in
  if decide (c = ∅) then ret tt else burn_acc_coins splitter c.

(** x/noding/abci.go:92-105 payProposerReward *)
Definition pay_proposer (cons : N) : M unit :=
  let! (a, found, _) := validator_by_cons cons in
  if (found : bool) then pay_proposer_reward a else throw ErrNotFound.

(** x/noding/abci.go:13-35 BeginBlocker: errors are only logged *)
Definition noding_begin (proposer : N) (votes : list (N * bool)) (evs : list (N * N)) : M unit :=
  let! r := try (pay_proposer proposer) in
  do! (match r with
       | inl _ => ret tt
       | inr _ => modify (fun s => s <| st_log := st_log s ++ [LProposerFailed] |>)
       end) in
  do! logged (mark_strokes_and_ticks votes) in
  logged (punish_wrongdoers evs).

(** ** Scheduled tasks: app/app.go:323-332 *)
Definition hooks (h : hook) : option (N -> time -> M unit) :=
  match h with
  | HDowngrade => Some (fun a _ => perform_downgrade a)
  | HCompression => Some (fun a _ => perform_compression a)
  | HTransition => Some (fun a _ => perform_transition_timeout a)
  | HRefresh => Some (fun a _ => perform_refresh a)
  | HRefreshIm => Some (fun a _ => perform_refresh_im a)
  | HVote => Some (fun _ _ => perform_vote)
  | HPoll => Some (fun _ _ => end_poll)
  | HRevoke => Some (fun a _ => perform_revoking a)
  | HAccrue => Some (fun a t => perform_accrue a t)
  | HBanish => Some (fun a _ => perform_banish a)
  | HOther _ => None
  end.

(** ** Messages *)
Inductive msg :=
  | MSend (from to : addr) (c : coins)
  | MBurn (a : addr) (n : Z)
  | MDelegate (a : addr) (n : Z)
  | MRevoke (a : addr) (n : Z) (express : bool)
  | MRequestTransition (subject dest : addr)
  | MResolveTransition (signer subject : addr) (approved : bool)
  | MOn (a : addr) (key : N) | MOff (a : addr) | MUnjail (a : addr)
  | MSetEarners (signer : addr) (es : list (addr * (option time * option time)))
  | MCreateAccount (creator a referrer : addr) (p : option profile)
  | MUpdateProfile (a : addr) (us : list upd)
  | MSetStorageCurrent (sender a : addr) (v : Z)
  | MSetVpnCurrent (sender a : addr) (v : Z)
  | MSetRate (sender : addr) (v : frac)
  | MPayTariff (a : addr) (gbs : Z)
  | MBuyStorage (a : addr) (gbs : Z) | MGiveStorageUp (a : addr) (gbs : Z)
  | MBuyVpn (a : addr) (gbs : Z)
  | MBuyIm (a : addr) (gbs : Z) | MGiveImUp (a : addr) (gbs : Z) | MProlongIm (a : addr)
  | MPropose (author : addr) (name : N) (act : paction)
  | MVote (voter : addr) (agree : bool)
  | MStartPoll (author : addr) (name question : N) (q : option frac) (r : preq)
  | MAnswer (a : addr) (yes : bool).

(** GetSigners of each message: every message has one signer. *)
Definition signer (m : msg) : addr :=
  match m with
  | MSend a _ _ | MBurn a _ | MDelegate a _ | MRevoke a _ _ | MRequestTransition a _
  | MResolveTransition a _ _ | MOn a _ | MOff a | MUnjail a | MSetEarners a _
  | MCreateAccount a _ _ _ | MUpdateProfile a _ | MSetStorageCurrent a _ _ | MSetVpnCurrent a _ _
  | MSetRate a _ | MPayTariff a _ | MBuyStorage a _ | MGiveStorageUp a _ | MBuyVpn a _
  | MBuyIm a _ | MGiveImUp a _ | MProlongIm a | MPropose a _ _ | MVote a _
  | MStartPoll a _ _ _ _ | MAnswer a _ => a
  end.

Definition run_msg (m : msg) : M unit :=
  match m with
  | MSend a b c => msg_send a b c
  | MBurn a n => msg_burn a n
  | MDelegate a n => msg_delegate a n
  | MRevoke a n e => msg_revoke a n e
  | MRequestTransition a b => msg_request_transition a b
  | MResolveTransition a b x => msg_resolve_transition a b x
  | MOn a k => do! ensure (negb (k =? 0)%N) "invalid public key" in switch_on a k
  | MOff a => switch_off a
  | MUnjail a => unjail a
  | MSetEarners a es => msg_set_earners a es
  | MCreateAccount c a r p => msg_create_account c a r p
  | MUpdateProfile a us => msg_update_profile a us
  | MSetStorageCurrent x a v => msg_set_storage_current x a v
  | MSetVpnCurrent x a v => msg_set_vpn_current x a v
  | MSetRate x v => msg_set_rate x v
  | MPayTariff a x => msg_pay_tariff a x
  | MBuyStorage a x => msg_buy_storage a x
  | MGiveStorageUp a x => msg_give_storage_up a x
  | MBuyVpn a x => msg_buy_vpn a x
  | MBuyIm a x => msg_buy_im a x
  | MGiveImUp a x => msg_give_im_up a x
  | MProlongIm a => msg_prolong_im a
  | MPropose a n p => msg_propose a n p
  | MVote a b => msg_vote a b
  | MStartPoll a n q x r => msg_start_poll a n q x r
  | MAnswer a b => msg_answer a b
  end.

(** ** Transactions.  A transaction is paid for by one of its signers; the fee
    it offers may be in any denomination (app/app.go:512-520: the stock ante
    handler of the SDK, whose DeductFees is SendCoinsFromAccountToModule).
    Not modelled: signatures, sequence numbers, memo, gas. *)
Record tx := mkTx { tx_payer : addr; tx_fees : coins; tx_msgs : list msg }.
Definition tx_signers (t : tx) : list addr := tx_payer t :: map signer (tx_msgs t).
Definition ante (t : tx) : M unit :=
  do! ensure (negb (bool_decide (List.length (tx_msgs t) = 0%nat))) "no messages" in
  let! ok := get (fun s => forallb (acc_exists s) (tx_signers t)) in
  do! ensure ok "unknown address" in
  do! ensure (coins_valid (tx_fees t)) "invalid fee" in
  if decide (tx_fees t = ∅) then ret tt else send_to_module (tx_payer t) fee_collector (tx_fees t).
(** BaseApp.runTx: the fee stays when the messages fail; errors and panics undo
    all the messages have done. *)
Definition deliver_tx (t : tx) (s : St) : St * bool :=
  match ante t s with
  | (s1, Ok _) =>
      match mfor (tx_msgs t) run_msg s1 with
      | (s2, Ok _) => (s2, true)
      | _ => (s1, false)
      end
  | _ => (s, false)
  end.

(** ** Blocks.  app/app.go:478-487: upgrade (not modelled: it stops the node
    when a plan is due), noding, referral and delegating (nothing), schedule;
    at the end noding. *)
Record block := mkBlock {
  b_time : time; b_proposer : N; b_votes : list (N * bool); b_evs : list (N * N); b_txs : list tx }.
Definition begin_block (b : block) : M unit :=
  do! modify (fun s => s <| st_now := b_time b |> <| st_height := st_height s + 1 |>) in
  do! noding_begin (b_proposer b) (b_votes b) (b_evs b) in
  perform_schedule hooks.
Definition deliver_txs (ts : list tx) (s : St) : St := fold_left (fun s t => fst (deliver_tx t s)) ts s.
Definition end_block : M (list (N * Z)) := must gather.
(** The state after a block and the validator updates returned to the consensus
    engine; [None]: the node stops (a panic outside transactions). *)
Definition run_block (b : block) (s : St) : option (St * list (N * Z)) :=
  match begin_block b s with
  | (s1, Ok _) =>
      match end_block (deliver_txs (b_txs b) s1) with
      | (s2, Ok u) => Some (s2, u)
      | _ => None
      end
  | _ => None
  end.
Fixpoint run_blocks (bs : list block) (s : St) : option (St * list (list (N * Z))) :=
  match bs with
  | [] => Some (s, [])
  | b :: r =>
      match run_block b s with
      | Some (s1, u) => match run_blocks r s1 with
                        | Some (s2, us) => Some (s2, u :: us)
                        | None => None
                        end
      | None => None
      end
  end.
