(** * The chain state

    One record holds what the stores of all modules hold.  Addresses are
    numbers; [nobody] (0) is the empty string, which the code uses for "no
    referrer", "no transition" and so on.  Times are nanoseconds since the
    epoch.  Protobuf encoding and decoding is the identity. *)
From stdpp Require Export base gmap list sorting.
From RecordUpdate Require Export RecordSet.
From Coq Require Export ZArith NArith String.
From Verif Require Frac.
Export RecordSetNotations.
Global Open Scope Z_scope.

Notation frac := Frac.frac.
Notation addr := N (only parsing).
Notation time := Z (only parsing).
Definition nobody : addr := 0%N.

(** ** Coins.  util/keys.go: the three denominations *)
Definition uartr : N := 0%N.     (* ConfigMainDenom *)
Definition uartrd : N := 1%N.    (* ConfigDelegatedDenom *)
Definition uartrr : N := 2%N.    (* ConfigRevokingDenom *)

(** sdk.Coins: a finite map; a valid value has only positive entries. *)
Notation coins := (gmap N Z) (only parsing).
(** sdk.Coins.AmountOf *)
Definition amt (c : coins) (d : N) : Z := default 0 (c !! d).

(** ** Scheduled tasks.  x/schedule/types: Task; the hook names registered in
    app/app.go:323-332.  [t_data] is the payload: the account the task is
    about, 0 when there is none. *)
Inductive hook :=
  | HDowngrade | HCompression | HTransition | HRefresh | HRefreshIm
  | HVote | HPoll | HRevoke | HAccrue | HBanish
  | HOther (n : N).   (* a name no hook is registered for *)
#[export] Instance hook_eq_dec : EqDecision hook.
Proof. solve_decision. Defined.
Record task := Task { t_time : time; t_hook : hook; t_data : N }.
#[export] Instance task_eq_dec : EqDecision task.
Proof. solve_decision. Defined.

(** ** x/bank.  types/params.go *)
Record bparams := mkBP {
  bp_min_send : Z; bp_dust : Z; bp_fee : frac; bp_max_fee : Z;
  bp_for_proposer : frac; bp_for_company : frac;
  bp_company : addr; bp_blocked : list addr }.
#[export] Instance eta_bparams : Settable _ := settable! mkBP
  <bp_min_send; bp_dust; bp_fee; bp_max_fee; bp_for_proposer; bp_for_company; bp_company; bp_blocked>.

(** ** x/referral.  types.proto: Info *)
Record rinfo := mkR {
  r_status : Z; r_referrer : addr; r_referrals : list addr; r_active : bool;
  r_coins : list Z; r_deleg : list Z; r_arefs : list addr; r_cnt : list Z;
  r_transition : addr; r_downgrade_at : option time; r_compression_at : option time;
  r_banishment_at : option time; r_banished : bool }.
#[export] Instance eta_rinfo : Settable _ := settable! mkR
  <r_status; r_referrer; r_referrals; r_active; r_coins; r_deleg; r_arefs; r_cnt;
   r_transition; r_downgrade_at; r_compression_at; r_banishment_at; r_banished>.
(** The zero value: what decoding an empty byte string gives. *)
Definition r_zero : rinfo :=
  mkR 0 nobody [] false [] [] [] [] nobody None None None false.

Record rparams := mkRP { rp_company : addr; rp_transition_price : Z }.
#[export] Instance eta_rparams : Settable _ := settable! mkRP <rp_company; rp_transition_price>.

(** ** x/noding.  types.proto: Info.  A public key is a number, 0 the empty
    string; the consensus address of a key is the key itself.  An infraction
    is represented by a number. *)
Record ninfo := mkN {
  n_status : bool; n_power : Z; n_pub : N; n_last_pub : N; n_strokes : Z;
  n_ok : Z; n_missed : Z; n_jailed : bool; n_unjail_at : Z; n_infr : list N;
  n_banned : bool; n_staff : bool; n_proposed : Z; n_jails : Z; n_score : Z;
  n_lottery : Z }.
#[export] Instance eta_ninfo : Settable _ := settable! mkN
  <n_status; n_power; n_pub; n_last_pub; n_strokes; n_ok; n_missed; n_jailed; n_unjail_at;
   n_infr; n_banned; n_staff; n_proposed; n_jails; n_score; n_lottery>.
Definition n_zero : ninfo :=
  mkN false 0 0%N 0%N 0 0 0 false 0 [] false false 0 0 0 0.

Record nparams := mkNP {
  np_max : Z; np_lucky : Z; np_jail_after : Z; np_unjail_after : Z;
  np_min_status : Z; np_min_self : Z; np_min_total : Z;
  np_lucky_power : Z; np_slices : list (frac * Z) }.
#[export] Instance eta_nparams : Settable _ := settable! mkNP
  <np_max; np_lucky; np_jail_after; np_unjail_after; np_min_status; np_min_self; np_min_total;
   np_lucky_power; np_slices>.

(** ** x/delegating.  types.proto: Record, RevokeRequest; params.proto *)
Record request := mkReq { q_time : time; q_amount : Z }.
#[export] Instance request_eq_dec : EqDecision request.
Proof. solve_decision. Defined.
Record drec := mkD { d_next : option time; d_reqs : list request; d_missed : option frac }.
#[export] Instance eta_drec : Settable _ := settable! mkD <d_next; d_reqs; d_missed>.
Record revoke_p := mkRev { rv_period : Z; rv_burn : frac }.
Record dparams := mkDP {
  dp_min : Z; dp_revoke : revoke_p; dp_express : revoke_p; dp_table : list (Z * list frac) }.
#[export] Instance eta_dparams : Settable _ := settable! mkDP <dp_min; dp_revoke; dp_express; dp_table>.

(** ** x/profile.  types.proto: Profile; params.proto.  A nickname is the list
    of its characters (code points). *)
Record profile := mkP {
  p_autopay : bool; p_until : option time; p_noding : bool; p_storage : bool;
  p_validator : bool; p_vpn : bool; p_nick : list N; p_card : Z;
  p_storage_limit : Z; p_storage_cur : Z; p_vpn_limit : Z; p_vpn_cur : Z;
  p_im_extra : Z; p_im_until : option time; p_im_autopay : bool }.
#[export] Instance eta_profile : Settable _ := settable! mkP
  <p_autopay; p_until; p_noding; p_storage; p_validator; p_vpn; p_nick; p_card;
   p_storage_limit; p_storage_cur; p_vpn_limit; p_vpn_cur; p_im_extra; p_im_until; p_im_autopay>.
Definition p_zero : profile :=
  mkP false None false false false false [] 0 0 0 0 0 0 None false.
Record pparams := mkPP {
  pp_creators : list addr; pp_rename_price : Z; pp_card_magic : Z;
  pp_storage_signers : list addr; pp_vpn_signers : list addr;
  pp_token_rate : frac; pp_sub_price : Z; pp_vpn_price : Z; pp_storage_price : Z;
  pp_base_vpn : Z; pp_base_storage : Z; pp_rate_signers : list addr }.
#[export] Instance eta_pparams : Settable _ := settable! mkPP
  <pp_creators; pp_rename_price; pp_card_magic; pp_storage_signers; pp_vpn_signers;
   pp_token_rate; pp_sub_price; pp_vpn_price; pp_storage_price; pp_base_vpn; pp_base_storage;
   pp_rate_signers>.

(** ** x/voting.  proposals.proto, args.proto: one constructor per proposal
    type; the deprecated types, which only log an error, are [PDeprecated]. *)
Inductive paction :=
  | PEnterPrice (p : Z) | PVpnPrice (p : Z) | PStoragePrice (p : Z) | PTransitionPrice (p : Z)
  | PGovAdd (a : addr) | PGovRemove (a : addr)
  | PCreatorAdd (a : addr) | PCreatorRemove (a : addr)
  | PStaffAdd (a : addr) | PStaffRemove (a : addr)
  | PEarnSignerAdd (a : addr) | PEarnSignerRemove (a : addr)
  | PRateSignerAdd (a : addr) | PRateSignerRemove (a : addr)
  | PVpnSignerAdd (a : addr) | PVpnSignerRemove (a : addr)
  | PStorageSignerAdd (a : addr) | PStorageSignerRemove (a : addr)
  | PBlockedAdd (a : addr) | PBlockedRemove (a : addr)
  | PUpgrade (plan : N) | PUpgradeCancel
  | PMinSend (v : Z) | PMinDelegate (v : Z) | PDust (v : Z) | PMaxFee (v : Z)
  | PMaxValidators (v : Z) | PLuckyValidators (v : Z) | PJailAfter (v : Z)
  | PAmnesty | PMinCriteria (status self total : Z)
  | PVotingPower (lucky : Z) (slices : list (frac * Z))
  | PTxFee (f : frac) | PSplitRatios (p c : frac)
  | PPercentTable (t : list (Z * list frac))
  | PRevoke (r : revoke_p) | PExpressRevoke (r : revoke_p)
  | PDeprecated (n : N).
Record proposal := mkProp { pr_name : N; pr_author : addr; pr_end : time; pr_act : paction }.
(** [ph_decision] is not stored: it is the outcome in the event emitted when the
    record is written (x/voting/keeper/keeper.go:220-225). *)
Record phist := mkPH {
  ph_prop : proposal; ph_gov : list addr; ph_agreed : list addr; ph_disagreed : list addr;
  ph_started : Z; ph_finished : Z; ph_decision : bool }.
Inductive preq := ReqNone | ReqValidate | ReqStatus (s : Z).
Record poll := mkPoll {
  po_name : N; po_author : addr; po_question : N; po_start : time; po_end : time;
  po_quorum : option frac; po_req : preq }.
Inductive decision := DUnspecified | DPositive | DNegative.
Record pollhist := mkPoH { poh_poll : poll; poh_yes : Z; poh_no : Z; poh_dec : decision }.

(** ** Events the node only logs, kept as a history of what was aborted. *)
Inductive logev :=
  | LTaskFailed (t : task)      (* x/schedule performSchedule recovered a panic *)
  | LNoHook (t : task)          (* no hook registered *)
  | LHookFailed (a : addr)      (* the balance-change hook returned an error *)
  | LProposerFailed.            (* PayProposerReward returned an error *)

(** ** The state *)
Record St := mkSt {
  st_now : time; st_height : Z;
  (* auth *)
  st_accs : gmap addr Z;               (* account -> account number *)
  st_next_acc : Z;
  (* schedule *)
  st_sched : gmap time (list task);
  st_day : Z;                          (* DayNanos parameter *)
  (* bank *)
  st_bal : gmap addr coins; st_supply : coins; st_bp : bparams;
  (* referral *)
  st_ref : gmap addr rinfo; st_rp : rparams;
  st_index : gset (Z * addr);          (* the index of accounts by status *)
  (* noding *)
  st_val : gmap addr ninfo; st_oper : gmap N addr; st_proposers : gmap Z addr;
  st_lottery : gmap Z addr; st_np : nparams;
  (* delegating *)
  st_del : gmap addr drec; st_dp : dparams;
  (* earning *)
  st_earn : gmap addr (option time * option time);   (* vpn, storage *)
  st_earn_signers : list addr;
  (* profile *)
  st_prof : gmap addr profile; st_nick : gmap (list N) addr; st_card : gmap Z addr;
  st_pp : pparams;
  (* voting *)
  st_gov : list addr; st_cur : option proposal; st_agreed : list addr;
  st_disagreed : list addr; st_start : Z; st_phist : gmap Z phist;
  st_vperiod : Z; st_pperiod : Z;
  st_poll : option poll; st_answers : gmap addr bool; st_yes : Z; st_no : Z;
  st_pollhist : gmap Z pollhist;
  (* upgrade *)
  st_plan : option N;
  (* int64(math.Log(float64(x))) as this platform computes it: not a store, an
     arbitrary function that no step changes *)
  st_ilog : Z -> Z;
  (* unicode.ToLower, unicode.ToTitle, unicode.IsSpace: arbitrary functions
     that no step changes *)
  st_lower : N -> N; st_title : N -> N; st_space : N -> bool;
  (* log *)
  st_log : list logev }.
#[export] Instance eta_St : Settable _ := settable! mkSt
  <st_now; st_height; st_accs; st_next_acc; st_sched; st_day; st_bal; st_supply; st_bp;
   st_ref; st_rp; st_index; st_val; st_oper; st_proposers; st_lottery; st_np; st_del; st_dp; st_earn;
   st_earn_signers; st_prof; st_nick; st_card; st_pp; st_gov; st_cur; st_agreed; st_disagreed;
   st_start; st_phist; st_vperiod; st_pperiod; st_poll; st_answers; st_yes; st_no; st_pollhist;
   st_plan; st_ilog; st_lower; st_title; st_space; st_log>.
