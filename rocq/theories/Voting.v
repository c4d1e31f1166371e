(** * Model of x/voting *)
From Verif Require Export Profile.

(** ** Government.  types/types.go:323-346; keeper/government.go *)
Definition gov_contains (l : list addr) (a : addr) : bool := bool_decide (a ∈ l).
Fixpoint gov_remove (l : list addr) (a : addr) : list addr :=
  match l with
  | [] => []
  | x :: r => if (x =? a)%N then r else x :: gov_remove r a
  end.

(** ** Proposals *)

(** keeper/keeper.go:146-157 Validate: complete, agreed *)
Definition tally (gov agreed disagreed : list addr) : bool * bool :=
  if (List.length gov =? List.length agreed + List.length disagreed)%nat
  then (true, (List.length gov * 2 <=? List.length agreed * 3)%nat)
  else (false, false).

(** An error of these is only logged (381-388). *)
Definition logged (m : M unit) : M unit := let! _ := try m in ret tt.
(** p.Validate() then SetParams (330-345) *)
Definition try_bparams (p : bparams) : M unit :=
  let! ok := lift "invalid params" (bparams_valid p) in
  if ok then set_bparams p else ret tt.
Definition try_dparams (p : dparams) : M unit :=
  let! ok := lift "invalid params" (dparams_valid p) in
  if ok then set_dparams p else ret tt.

(** keeper/keeper.go:227-380: the effect of an accepted proposal.
    Simplified: an upgrade plan is its number; the upgrade module's own checks
    (whose failure is only logged) are left out. *)
Definition apply_proposal (p : paction) : M unit :=
  let! bp := get st_bp in
  let! np := get st_np in
  let! dp := get st_dp in
  match p with
  | PEnterPrice x => on_pparams (fun q => q <| pp_sub_price := x |>)
  | PVpnPrice x => on_pparams (fun q => q <| pp_vpn_price := x |>)
  | PStoragePrice x => on_pparams (fun q => q <| pp_storage_price := x |>)
  | PTransitionPrice x => modify (fun s => s <| st_rp := st_rp s <| rp_transition_price := x |> |>)
  | PGovAdd a => modify (fun s => s <| st_gov := st_gov s ++ [a] |>)
  | PGovRemove a => modify (fun s => s <| st_gov := gov_remove (st_gov s) a |>)
  | PCreatorAdd a => add_creator a
  | PCreatorRemove a => remove_creator a
  | PStaffAdd a => logged (add_to_staff a)
  | PStaffRemove a => logged (remove_from_staff a)
  | PEarnSignerAdd a => add_earn_signer a
  | PEarnSignerRemove a => remove_earn_signer a
  | PRateSignerAdd a => add_rate_signer a
  | PRateSignerRemove a => remove_rate_signer a
  | PVpnSignerAdd a => add_vpn_signer a
  | PVpnSignerRemove a => remove_vpn_signer a
  | PStorageSignerAdd a => add_storage_signer a
  | PStorageSignerRemove a => remove_storage_signer a
  | PBlockedAdd a => add_blocked_sender a
  | PBlockedRemove a => remove_blocked_sender a
  | PUpgrade n => modify (fun s => s <| st_plan := Some n |>)
  | PUpgradeCancel => modify (fun s => s <| st_plan := None |>)
  | PMinSend x => set_bparams (bp <| bp_min_send := x |>)
  | PDust x => set_bparams (bp <| bp_dust := x |>)
  | PMinDelegate x => set_dparams (dp <| dp_min := x |>)
  | PMaxFee x => try_bparams (bp <| bp_max_fee := x |>)
  | PTxFee f => try_bparams (bp <| bp_fee := f |>)
  | PSplitRatios f g => try_bparams (bp <| bp_for_proposer := f |> <| bp_for_company := g |>)
  | PMaxValidators x => set_nparams (np <| np_max := x |>)
  | PLuckyValidators x => set_nparams (np <| np_lucky := x |>)
  | PJailAfter x => set_nparams (np <| np_jail_after := x |>)
  | PAmnesty => general_amnesty
  | PMinCriteria st self total =>
      set_nparams (np <| np_min_status := st |> <| np_min_self := self |> <| np_min_total := total |>)
  | PVotingPower l sl => set_nparams (np <| np_lucky_power := l |> <| np_slices := sl |>)
  | PPercentTable t => try_dparams (dp <| dp_table := t |>)
  | PRevoke r => set_dparams (dp <| dp_revoke := r |>)
  | PExpressRevoke r => set_dparams (dp <| dp_express := r |>)
  | PDeprecated _ => ret tt
  end.

(** keeper/keeper.go:204-391 EndProposal; 159-177 SaveProposalToHistory *)
Definition end_proposal (p : proposal) (agreed : bool) : M unit :=
  do! delete_all (pr_end p) HVote in
  do! modify (fun s => s <| st_phist :=
        <[ st_height s := mkPH p (st_gov s) (st_agreed s) (st_disagreed s) (st_start s) (st_height s) agreed ]>
          (st_phist s) |>) in
  do! modify (fun s => s <| st_cur := None |> <| st_agreed := [] |> <| st_disagreed := [] |> <| st_start := 0 |>) in
  if agreed then apply_proposal (pr_act p) else ret tt.

(** keeper/keeper.go:397-409 ProcessSchedule *)
Definition perform_vote : M unit :=
  let! s := get id in
  match st_cur s with
  | None => ret tt
  | Some p => end_proposal p (snd (tally (st_gov s) (st_agreed s) (st_disagreed s)))
  end.

(** types/types.go:30-291 Proposal.Validate.  Simplified: the arguments of the
    deprecated proposal types are not modelled; names are not empty. *)
Definition paction_valid (p : paction) : option bool :=
  match p with
  | PJailAfter x => Some (0 <? x)
  | PMinCriteria st self total => Some (status_valid st && (self <=? total))
  | PVotingPower l sl => distribution_valid l sl
  | PTxFee f => if Frac.is_negative f then Some false else
                match Frac.gte f (Frac.frac_int 1) with Some b => Some (negb b) | None => None end
  | PSplitRatios f g => Frac.validate_split_ratios f g
  | PPercentTable t => Some (table_valid t)
  | PRevoke r | PExpressRevoke r => revoke_valid r
  | PGovAdd a | PGovRemove a | PCreatorAdd a | PCreatorRemove a | PStaffAdd a | PStaffRemove a
  | PEarnSignerAdd a | PEarnSignerRemove a | PRateSignerAdd a | PRateSignerRemove a
  | PVpnSignerAdd a | PVpnSignerRemove a | PStorageSignerAdd a | PStorageSignerRemove a
  | PBlockedAdd a | PBlockedRemove a => Some (negb (a =? nobody)%N)
  | _ => Some true
  end.

Definition hour : Z := 3600000000000.
(** keeper/keeper.go:437-476 Propose; types/msgs.go:27-32 (the author signs; the
    period is at most 2^31 hours, so the duration does not overflow before the
    time does) *)
Definition msg_propose (author : addr) (name : N) (act : paction) : M unit :=
  let! ok := lift "invalid proposal" (paction_valid act) in
  do! ensure ok "invalid proposal" in
  let! s := get id in
  match st_cur s with
  | Some _ => fail "another proposal is active"
  | None =>
      do! ensure (gov_contains (st_gov s) author) "not allowed" in
      let t := st_now s + Frac.wrap64 (st_vperiod s * hour) in
      let p := mkProp name author t act in
      do! modify (fun s => s <| st_cur := Some p |> <| st_agreed := [author] |> <| st_disagreed := [] |>) in
      do! schedule_task t HVote 0%N in
      do! modify (fun s => s <| st_start := st_height s |>) in
      let '(complete, agree) := tally (st_gov s) [author] [] in
      if complete then end_proposal p agree else ret tt
  end.

(** keeper/keeper.go:478-518 Vote *)
Definition msg_vote (voter : addr) (agree : bool) : M unit :=
  let! s := get id in
  match st_cur s with
  | None => fail "no active proposals"
  | Some p =>
      do! ensure (gov_contains (st_gov s) voter) "not allowed" in
      do! ensure (negb (gov_contains (st_agreed s) voter)) "already voted" in
      do! ensure (negb (gov_contains (st_disagreed s) voter)) "already voted" in
      let a := if agree then st_agreed s ++ [voter] else st_agreed s in
      let d := if agree then st_disagreed s else st_disagreed s ++ [voter] in
      do! modify (fun s => s <| st_agreed := a |> <| st_disagreed := d |>) in
      let '(complete, agree) := tally (st_gov s) a d in
      if complete then end_proposal p agree else ret tt
  end.

(** ** Polls *)

(** types/types.go:397-422 Poll.Validate (an empty name and question are 0) *)
Definition poll_valid (name question : N) (q : option frac) (r : preq) : option bool :=
  if ((name =? 0) && (question =? 0))%N%bool then Some false else
  match q with
  | Some f =>
      if Frac.is_negative f then Some false else
      match Frac.gt f (Frac.frac_int 1) with
      | Some true => Some false
      | Some false => Some (match r with ReqStatus s => status_valid s | _ => true end)
      | None => None
      end
  | None => Some (match r with ReqStatus s => status_valid s | _ => true end)
  end.
(** keeper/keeper.go:543-561 StartPoll *)
Definition msg_start_poll (author : addr) (name question : N) (q : option frac) (r : preq) : M unit :=
  let! ok := lift "invalid poll" (poll_valid name question q r) in
  do! ensure ok "invalid poll" in
  let! s := get id in
  match st_poll s with
  | Some _ => fail "another poll is active"
  | None =>
      do! ensure (gov_contains (st_gov s) author) "not allowed" in
      let t := st_now s + Frac.wrap64 (st_pperiod s * hour) in
      do! schedule_task t HPoll 0%N in
      modify (fun s => s <| st_poll := Some (mkPoll name author question (st_now s) t q r) |>)
  end.

(** keeper/keeper.go:563-624 Answer *)
Definition answer (a : addr) (yes : bool) : M unit :=
  let! p := get st_poll in
  match p with
  | None => fail "no active poll"
  | Some p =>
      do! match po_req p with
          | ReqNone => ret tt
          | ReqValidate =>
              let! (q, _) := must (is_qualified a) in ensure q "respondent not allowed"
          | ReqStatus st =>
              let! r := get (fun s => ref_get s a) in
              ensure (negb (r_status r <? st)) "respondent not allowed"
          end in
      let! old := get (fun s => st_answers s !! a) in
      match old with
      | Some _ => fail "already voted"
      | None =>
          do! modify (fun s => s <| st_answers := <[ a := yes ]> (st_answers s) |>) in
          modify (fun s => if yes then s <| st_yes := w64 (st_yes s + 1) |>
                           else s <| st_no := w64 (st_no s + 1) |>)
      end
  end.
Definition msg_answer (a : addr) (yes : bool) : M unit := answer a yes.

(** keeper/keeper.go:643-650: the decision *)
Definition poll_decision (q : option frac) (yes no : Z) : option decision :=
  match q with
  | None => Some DUnspecified
  | Some f =>
      if yes =? 0 then Some DNegative else
      match Frac.mul f (Frac.frac_int (Frac.wrap64 (yes + no))) with
      | Some x => match Frac.gte (Frac.frac_int (Frac.wrap64 yes)) x with
                  | Some true => Some DPositive
                  | Some false => Some DNegative
                  | None => None
                  end
      | None => None
      end
  end.
(** keeper/keeper.go:626-683 EndPoll.  History is keyed by the end in whole
    seconds. *)
Definition second : Z := 1000000000.
Definition end_poll : M unit :=
  let! s := get id in
  match st_poll s with
  | None => panic "no active poll"
  | Some p =>
      let! d := lift "fraction" (poll_decision (po_quorum p) (st_yes s) (st_no s)) in
      modify (fun s => s
        <| st_pollhist := <[ po_end p / second := mkPoH p (st_yes s) (st_no s) d ]> (st_pollhist s) |>
        <| st_poll := None |> <| st_yes := 0 |> <| st_no := 0 |> <| st_answers := ∅ |>)
  end.

(** ** Genesis *)
Record vgen := mkVG {
  vg_vperiod : Z; vg_pperiod : Z; vg_gov : list addr; vg_cur : option proposal; vg_start : Z;
  vg_agreed : list addr; vg_disagreed : list addr; vg_hist : list phist;
  vg_poll : option poll; vg_answers : list (addr * bool); vg_pollhist : list pollhist }.
(** genesis.go:37-64 ExportGenesis *)
Definition voting_export (s : St) : vgen :=
  mkVG (st_vperiod s) (st_pperiod s) (st_gov s) (st_cur s)
       (match st_cur s with Some _ => st_start s | None => 0 end)
       (st_agreed s) (st_disagreed s)
       (omap (fun k => st_phist s !! k) (keysZ (st_phist s)))
       (st_poll s)
       (match st_poll s with
        | Some _ => map (fun a => (a, default false (st_answers s !! a))) (keysN (st_answers s))
        | None => []
        end)
       (omap (fun k => st_pollhist s !! k) (keysZ (st_pollhist s))).
(** genesis.go:13-34 InitGenesis; keeper/keeper.go:737-755 LoadPolls *)
Definition voting_import (g : vgen) : M unit :=
  do! assert ((1 <=? vg_vperiod g) && (1 <=? vg_pperiod g)) "invalid params" in
  do! modify (fun s => s <| st_vperiod := vg_vperiod g |> <| st_pperiod := vg_pperiod g |>
                         <| st_gov := vg_gov g |>) in
  do! (match vg_cur g with
       | Some p => modify (fun s => s <| st_cur := Some p |> <| st_start := vg_start g |>)
       | None => ret tt
       end) in
  do! modify (fun s => s <| st_agreed := vg_agreed g |> <| st_disagreed := vg_disagreed g |>) in
  do! modify (fun s => s <| st_phist :=
        fold_left (fun m h => <[ ph_finished h := h ]> m) (vg_hist g) (st_phist s) |>) in
  do! (match vg_poll g with
       | Some p =>
           do! modify (fun s => s <| st_poll := Some p |>) in
           must (mfor (vg_answers g) (fun e => answer (fst e) (snd e)))
       | None => ret tt
       end) in
  modify (fun s => s <| st_pollhist :=
    fold_left (fun m h => <[ po_end (poh_poll h) / second := h ]> m) (vg_pollhist g) (st_pollhist s) |>).
