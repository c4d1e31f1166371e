(** * What the properties of voting talk about *)
From Coq Require Import QArith.
From Verif Require Export App Spec_Noding Spec_Schedule Spec_Pure.
Open Scope Z_scope.

(** ** What the government decides on *)

(** The parameters of the profile module but the exchange rate, which its
    signers set *)
Definition but_rate (p : pparams) : pparams := p <| pp_token_rate := Frac.frac_zero |>.
Definition rules (s : St) :=
  (st_gov s, st_bp s, st_np s, st_dp s, st_rp s, st_earn_signers s, but_rate (st_pp s), st_plan s, st_vperiod s, st_pperiod s).
Definition same_rules (s s' : St) : Prop := rules s' = rules s /\ forall a, on_staff s' a = on_staff s a.

(** What a proposal is to change (all but the staff) *)
Definition enact (act : paction) (s : St) : St :=
  let bp := st_bp s in let np := st_np s in let dp := st_dp s in let pp := st_pp s in
  match act with
  | PEnterPrice x => s <| st_pp := pp <| pp_sub_price := x |> |>
  | PVpnPrice x => s <| st_pp := pp <| pp_vpn_price := x |> |>
  | PStoragePrice x => s <| st_pp := pp <| pp_storage_price := x |> |>
  | PTransitionPrice x => s <| st_rp := st_rp s <| rp_transition_price := x |> |>
  | PGovAdd a => s <| st_gov := st_gov s ++ [a] |>
  | PGovRemove a => s <| st_gov := gov_remove (st_gov s) a |>
  | PCreatorAdd a => s <| st_pp := pp <| pp_creators := add_once (pp_creators pp) a |> |>
  | PCreatorRemove a => s <| st_pp := pp <| pp_creators := remove_one (pp_creators pp) a |> |>
  | PRateSignerAdd a => s <| st_pp := pp <| pp_rate_signers := add_once (pp_rate_signers pp) a |> |>
  | PRateSignerRemove a => s <| st_pp := pp <| pp_rate_signers := remove_one (pp_rate_signers pp) a |> |>
  | PVpnSignerAdd a => s <| st_pp := pp <| pp_vpn_signers := add_once (pp_vpn_signers pp) a |> |>
  | PVpnSignerRemove a => s <| st_pp := pp <| pp_vpn_signers := remove_one (pp_vpn_signers pp) a |> |>
  | PStorageSignerAdd a => s <| st_pp := pp <| pp_storage_signers := add_once (pp_storage_signers pp) a |> |>
  | PStorageSignerRemove a => s <| st_pp := pp <| pp_storage_signers := remove_one (pp_storage_signers pp) a |> |>
  | PEarnSignerAdd a => s <| st_earn_signers := st_earn_signers s ++ [a] |>
  | PEarnSignerRemove a => s <| st_earn_signers := remove_one (st_earn_signers s) a |>
  | PBlockedAdd a => s <| st_bp := bp <| bp_blocked := add_once (bp_blocked bp) a |> |>
  | PBlockedRemove a => s <| st_bp := bp <| bp_blocked := remove_one (bp_blocked bp) a |> |>
  | PUpgrade n => s <| st_plan := Some n |>
  | PUpgradeCancel => s <| st_plan := None |>
  | PMinSend x => s <| st_bp := bp <| bp_min_send := x |> |>
  | PDust x => s <| st_bp := bp <| bp_dust := x |> |>
  | PMaxFee x => s <| st_bp := bp <| bp_max_fee := x |> |>
  | PTxFee f => s <| st_bp := bp <| bp_fee := f |> |>
  | PSplitRatios f g => s <| st_bp := bp <| bp_for_proposer := f |> <| bp_for_company := g |> |>
  | PMinDelegate x => s <| st_dp := dp <| dp_min := x |> |>
  | PPercentTable t => s <| st_dp := dp <| dp_table := t |> |>
  | PRevoke r => s <| st_dp := dp <| dp_revoke := r |> |>
  | PExpressRevoke r => s <| st_dp := dp <| dp_express := r |> |>
  | PMaxValidators x => s <| st_np := np <| np_max := x |> |>
  | PLuckyValidators x => s <| st_np := np <| np_lucky := x |> |>
  | PJailAfter x => s <| st_np := np <| np_jail_after := x |> |>
  | PMinCriteria st self total =>
      s <| st_np := np <| np_min_status := st |> <| np_min_self := self |> <| np_min_total := total |> |>
  | PVotingPower l sl => s <| st_np := np <| np_lucky_power := l |> <| np_slices := sl |> |>
  | PStaffAdd _ | PStaffRemove _ | PAmnesty | PDeprecated _ => s
  end.
Definition staff_after (act : paction) (s : St) (z : addr) : bool :=
  match act with
  | PStaffAdd a => if decide (z = a) then true else on_staff s z
  | PStaffRemove a => if decide (z = a) then false else on_staff s z
  | _ => on_staff s z
  end.
Definition enacted (act : paction) (s s' : St) : Prop :=
  rules s' = rules (enact act s) /\ forall z, on_staff s' z = staff_after act s z.

(** The modules refuse values that their own parameter checks reject. *)
Definition admissible (act : paction) (s : St) : bool :=
  let s' := enact act s in
  match act with
  | PEnterPrice _ | PVpnPrice _ | PStoragePrice _ | PCreatorAdd _ | PCreatorRemove _ | PRateSignerAdd _ | PRateSignerRemove _
  | PVpnSignerAdd _ | PVpnSignerRemove _ | PStorageSignerAdd _ | PStorageSignerRemove _ => pparams_valid (st_pp s')
  | PBlockedAdd _ | PBlockedRemove _ | PMinSend _ | PDust _ | PMaxFee _ | PTxFee _ | PSplitRatios _ _ =>
      bool_decide (bparams_valid (st_bp s') = Some true)
  | PMinDelegate _ | PPercentTable _ | PRevoke _ | PExpressRevoke _ => bool_decide (dparams_valid (st_dp s') = Some true)
  | PMaxValidators _ | PLuckyValidators _ | PJailAfter _ | PMinCriteria _ _ _ | PVotingPower _ _ =>
      bool_decide (nparams_valid (st_np s') = Some true)
  | PEarnSignerAdd _ | PEarnSignerRemove _ => bool_decide (st_earn_signers s' <> [])
  | _ => true
  end.

(** ** The ballot *)
Definition voters (s : St) : list addr := st_agreed s ++ st_disagreed s.
(** Every member of the government has voted, and at least two thirds of them
    agreed.  (A member with two seats cannot vote for both.) *)
Definition majority (s : St) : Prop :=
  NoDup (st_gov s) /\
  (forall m, m ∈ st_gov s -> m ∈ voters s) /\
  exists yes, NoDup yes /\ (forall m, m ∈ yes -> m ∈ st_gov s /\ m ∈ st_agreed s) /\
              2 * Z.of_nat (List.length (st_gov s)) <= 3 * Z.of_nat (List.length yes).
(** The ballot: the proposal, those for it and those against it, and the height
    at which it was opened *)
Definition ballot_is (s : St) (cur : option proposal) (yes no : list addr) (start : Z) : Prop :=
  st_cur s = cur /\ st_agreed s = yes /\ st_disagreed s = no /\ st_start s = start.
(** The history, one entry per height *)
Definition same_history (s s' : St) : Prop := st_phist s' = st_phist s /\ st_height s <= st_height s'.
Definition recorded (p : proposal) (decision : bool) (s s' : St) : Prop :=
  st_height s' = st_height s /\
  st_phist s' = <[ st_height s := mkPH p (st_gov s) (st_agreed s) (st_disagreed s) (st_start s) (st_height s) decision ]> (st_phist s).

(** What may happen, one thing at a time: nothing, a proposal, a vote, the end
    of a proposal without effect, the end of a proposal with its effect. *)
Inductive vstep (s s' : St) : Prop :=
  | V_none : same_rules s s' -> ballot_is s' (st_cur s) (st_agreed s) (st_disagreed s) (st_start s) -> same_history s s' -> vstep s s'
  | V_propose p : same_rules s s' -> st_cur s = None -> pr_author p ∈ st_gov s -> st_now s < pr_end p ->
      ballot_is s' (Some p) [pr_author p] [] (st_height s) -> same_history s s' -> vstep s s'
  | V_agree p a : same_rules s s' -> st_cur s = Some p -> a ∈ st_gov s -> a ∉ voters s ->
      ballot_is s' (Some p) (st_agreed s ++ [a]) (st_disagreed s) (st_start s) -> same_history s s' -> vstep s s'
  | V_disagree p a : same_rules s s' -> st_cur s = Some p -> a ∈ st_gov s -> a ∉ voters s ->
      ballot_is s' (Some p) (st_agreed s) (st_disagreed s ++ [a]) (st_start s) -> same_history s s' -> vstep s s'
  | V_drop p d : same_rules s s' -> st_cur s = Some p ->
      ((forall m, m ∈ st_gov s -> m ∈ voters s) \/ pr_end p <= st_now s) ->
      (d = true <-> majority s) -> (majority s -> admissible (pr_act p) s = false) ->
      ballot_is s' None [] [] 0 -> recorded p d s s' -> vstep s s'
  | V_pass p : st_cur s = Some p -> majority s -> admissible (pr_act p) s = true ->
      enacted (pr_act p) s s' -> ballot_is s' None [] [] 0 -> recorded p true s s' -> vstep s s'.
Notation vsteps := (rtc vstep).

(** The states from which the theorems start, and which no block leaves: the
    votes are of different members and not all have voted; the end of the
    running proposal is scheduled, and no other; the voting period is positive. *)
Record voting_ok (s : St) : Prop := {
  vo_votes : forall p, st_cur s = Some p -> NoDup (voters s) /\ (forall a, a ∈ voters s -> a ∈ st_gov s) /\
               (List.length (voters s) < List.length (st_gov s))%nat;
  vo_task : forall p, st_cur s = Some p -> key_ok (pr_end p) = true /\ Task (pr_end p) HVote 0%N ∈ tasks_at s (pr_end p);
  vo_only : forall k t, t ∈ tasks_at s k -> t_hook t = HVote -> exists p, st_cur s = Some p /\ k = pr_end p;
  vo_period : 0 < st_vperiod s * hour < 2^63 }.

(** ** Polls *)
(** How many accounts have answered so *)
Definition answers (s : St) (b : bool) : Z :=
  Z.of_nat (List.length (List.filter (fun e => Bool.eqb (snd e) b) (map_to_list (st_answers s)))).
(** Who may answer *)
Definition may_answer (r : preq) (s : St) (a : addr) : Prop :=
  match r with
  | ReqNone => True
  | ReqValidate => qualified s a
  | ReqStatus st => st <= r_status (ref_get s a)
  end.
(** What a poll decides: nothing without a quorum, else whether at least that
    share of the answers is positive. *)
Definition decided (q : option frac) (yes no : Z) (d : decision) : Prop :=
  match q with
  | None => d = DUnspecified
  | Some f => if decide (0 < yes) then
                (d = DPositive /\ (qval f * inject_Z (yes + no) <= inject_Z yes)%Q) \/
                (d = DNegative /\ (inject_Z yes < qval f * inject_Z (yes + no))%Q)
              else d = DNegative
  end.

(** What may happen, one thing at a time: nothing, a poll, an answer, the end of
    the poll.  (The counters are 64 bits wide.) *)
Inductive pstep (s s' : St) : Prop :=
  | P_none : st_poll s' = st_poll s -> st_answers s' = st_answers s -> st_pollhist s' = st_pollhist s -> pstep s s'
  | P_start p : st_poll s = None -> po_author p ∈ st_gov s -> po_start p = st_now s -> po_end p = st_now s + st_pperiod s * hour ->
      st_poll s' = Some p -> st_answers s' = ∅ -> st_pollhist s' = st_pollhist s -> pstep s s'
  | P_answer p a b : st_poll s = Some p -> st_answers s !! a = None -> may_answer (po_req p) s a ->
      st_poll s' = Some p -> st_answers s' = <[ a := b ]> (st_answers s) -> st_pollhist s' = st_pollhist s -> pstep s s'
  | P_end p d : st_poll s = Some p -> po_end p <= st_now s ->
      (answers s true + answers s false < 2^63 -> decided (po_quorum p) (answers s true) (answers s false) d) ->
      st_poll s' = None -> st_answers s' = ∅ ->
      st_pollhist s' = <[ po_end p / second := mkPoH p (answers s true mod 2^64) (answers s false mod 2^64) d ]> (st_pollhist s) -> pstep s s'.
Notation psteps := (rtc pstep).

(** The states from which the theorems start, and which no block leaves: the
    counters count the recorded answers; the end of the running poll is
    scheduled, and no other; the period is positive. *)
Record poll_ok (s : St) : Prop := {
  po_yes : st_yes s = answers s true mod 2^64;
  po_no : st_no s = answers s false mod 2^64;
  po_none : st_poll s = None -> st_answers s = ∅;
  po_quorum_ok : forall p, st_poll s = Some p -> forall q, po_quorum p = Some q -> Frac.fden q <> 0;
  po_task : forall p, st_poll s = Some p -> Task (po_end p) HPoll 0%N ∈ tasks_at s (po_end p);
  po_only : forall k t, t ∈ tasks_at s k -> t_hook t = HPoll -> exists p, st_poll s = Some p /\ k = po_end p;
  po_period : 0 < st_pperiod s * hour < 2^63 }.

(** ** Export and import *)
(** Everything but voting, as it is when the voting state is imported *)
Definition no_voting (s : St) : St :=
  s <| st_gov := [] |> <| st_cur := None |> <| st_agreed := [] |> <| st_disagreed := [] |> <| st_start := 0 |> <| st_phist := ∅ |>
    <| st_vperiod := 0 |> <| st_pperiod := 0 |> <| st_poll := None |> <| st_answers := ∅ |> <| st_yes := 0 |> <| st_no := 0 |> <| st_pollhist := ∅ |>.
(** The histories are filed under the height and the second; there are no votes
    without a proposal. *)
Record filed (s : St) : Prop := {
  fi_props : forall k h, st_phist s !! k = Some h -> ph_finished h = k;
  fi_polls : forall k h, st_pollhist s !! k = Some h -> po_end (poh_poll h) / second = k;
  fi_none : st_cur s = None -> st_agreed s = [] /\ st_disagreed s = [] /\ st_start s = 0 }.
