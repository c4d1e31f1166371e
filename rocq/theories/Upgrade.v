(** * Model of app/upgrade.go: what the software upgrades do to the state

    The handlers run in the BeginBlocker of cosmos-sdk x/upgrade, outside any
    transaction: an uncaught panic stops the node.  Log messages are not
    modelled.  Addresses are numbers here, so the parsing and printing of
    addresses (and its failures) is left out. *)
From Verif Require Export Genesis.

(** x/referral/keeper/keeper.go:657-696 Iterate.  The callback gets the record
    as the iterator sees it (the store as it was at the beginning: the changes
    are collected and written at the end) and says whether it has changed the
    record and whether the status has to be checked.  [X] is what the callback
    keeps between its calls. *)
Definition iterate {X} (x : X) (f : X -> addr -> rinfo -> M (X * rinfo * bool * bool)) : M X :=
  let! l := get (fun s => map (fun a => (a, ref_get s a)) (keysN (st_ref s))) in
  let! (b, x) := mfold l (bu_new, x) (fun '(b, x) '(a, item) =>
    let! (x, item', changed, check) := f x a item in
    if changed || check then
      let! (b, _) := must (bu_update b a check (fun r => (if changed then item' else r, tt))) in
      ret (b, x)
    else ret (b, x)) in
  do! must (bu_commit b) in
  ret x.

(** ** 2.0.1 *)

(** upgrade.go:45-88 RecalculateActiveReferrals, the callback.  [ars] and
    [oars] are sets in the code; only membership is asked.  (A missing record
    reads as the zero record: decoding nothing is no error.) *)
Definition recalc_one (a : addr) (r : rinfo) : M (unit * rinfo * bool * bool) :=
  let! arl := get (fun s => List.filter (fun x => r_active (ref_get s x)) (r_referrals r)) in
  let changed := negb (forallb (fun x => bool_decide (x ∈ arl)) (r_arefs r))
                 || negb (forallb (fun x => bool_decide (x ∈ r_arefs r)) arl) in
  if changed then ret (tt, r <| r_arefs := arl |>, true, true) else ret (tt, r, false, false).
Definition recalculate_active : M unit := iterate tt (fun _ => recalc_one).

(** ** 2.1.0 *)

(** upgrade.go:156-178: is the compression recorded for [a] at [t] scheduled? *)
Definition compression_found (s : St) (t : time) (a : addr) : bool :=
  existsb (fun x => bool_decide (t_hook x = HCompression) && (t_data x =? a)%N) (default [] (st_sched s !! t)).
Definition ref_put (a : addr) (r : rinfo) : M unit := modify (fun s => s <| st_ref := <[ a := r ]> (st_ref s) |>).
(** upgrade.go:116-217 one task; the answer is whether the task stays.  (Lines
    119-150, which turn raw addresses in the tasks' data into their text form,
    have no counterpart: both are the same number here.) *)
Definition ban_task (t : task) : M bool :=
  if negb (bool_decide (t_hook t = HBanish)) then ret true else
  let a := t_data t in
  let! s := get id in
  let! dd := get (fun s => bp_dust (st_bp s)) in
  let r := ref_get s a in
  let ahead := match r_compression_at r with Some c => st_now s <? c | None => false end in
  let found := match r_compression_at r with Some c => compression_found s c a | None => false end in
  let r := if ahead && negb found then r <| r_compression_at := None |> else r in
  do! when (ahead && negb found) (ref_put a r) in
  let! d := (match r_deleg r with [] => ret 0 | d :: _ =>
               if r_active r || r_banished r || (ahead && found) then ret 0
               else lift "Int64() out of bound" (Frac.to_int64 d) end) in
  if r_active r || r_banished r || (ahead && found)
     || (negb (bool_decide (r_deleg r = [])) && (dd <? d)) then
    do! when (match r_banishment_at r with Some _ => true | None => false end)
             (ref_put a (r <| r_banishment_at := None |>)) in
    ret false
  else
    do! ref_put a (r <| r_banishment_at := Some (t_time t) |>) in
    ret true.
(** upgrade.go:108-228 the tasks of one instant: the iterator sees the schedule
    as it was at the beginning (but the search for compressions sees the
    changes). *)
Definition ban_instant (e : time * list task) : M unit :=
  let! keep := mfold (snd e) [] (fun keep t => let! k := ban_task t in ret (keep ++ if k then [t] else [])) in
  when (negb (List.length keep =? List.length (snd e))%nat)
    (modify (fun s => s <| st_sched := match keep with
                                       | [] => base.delete (fst e) (st_sched s)
                                       | _ => <[ fst e := keep ]> (st_sched s)
                                       end |>)).
(** upgrade.go:90-257 ScheduleBanishment.  (Lines 231-237, deleting records
    whose key is a raw address, have no counterpart.)  An error of ComeBack is
    only logged. *)
Definition schedule_banishment_fix : M unit :=
  let! l := get (fun s => map (fun t => (t, default [] (st_sched s !! t))) (keysZ (st_sched s))) in
  do! mfor l ban_instant in
  let! rs := get (fun s => map (fun a => (a, ref_get s a)) (keysN (st_ref s))) in
  mfor rs (fun '(a, r) =>
    if r_banished r && r_active r then do! try (come_back a) in ret tt else ret tt).

(** ** 2.2.0 *)

(** upgrade.go:259-271 InitPollPeriodParam *)
Definition init_poll_period : M unit := modify (fun s => s <| st_pperiod := st_vperiod s |>).
(** upgrade.go:273-295 ForceOnStatusChangedCallback, x/noding/keeper/keeper.go:547-565 GetActiveValidatorList *)
Definition active_validators (s : St) : list addr :=
  List.filter (fun a => match st_val s !! a with Some x => n_active x | None => false end) (keysN (st_val s)).
Definition force_status_callback : M unit :=
  let! l := get active_validators in
  mfor l (fun a =>
    let! q := try (is_qualified a) in
    match q with
    | inl (false, _) => do! try (switch_off a) in ret tt
    | _ => ret tt
    end).

(** ** 2.2.1 *)

(** What the callback keeps: the coins moved so far (main, being revoked), the
    time of the next new accrual and the part of the day to skip *)
Record fgd := mkF { f_main : Z; f_revoke : Z; f_t : time; f_q : frac }.
#[export] Instance eta_fgd : Settable _ := settable! mkF <f_main; f_revoke; f_t; f_q>.

(** upgrade.go:341-353: main coins, then coins being revoked, become delegated *)
Definition all_delegated (c : coins) : coins :=
  let m := amt c uartr in
  let c := if m =? 0 then c else coins_add (coins_sub c (coins_of uartr m)) (coins_of uartrd m) in
  let k := amt c uartrr in
  if k =? 0 then c else coins_add (coins_sub c (coins_of uartrr k)) (coins_of uartrd k).
(** upgrade.go:324-329: Delegated[i] = Coins[i] where they differ.  (Indices up
    to 10 must exist.) *)
Definition delegate_lines (r : rinfo) : option (rinfo * bool) :=
  if (11 <=? List.length (r_coins r))%nat && (11 <=? List.length (r_deleg r))%nat then
    let d := take 11 (r_coins r) ++ drop 11 (r_deleg r) in
    Some (if decide (d = r_deleg r) then r else r <| r_deleg := d |>, negb (bool_decide (d = r_deleg r)))
  else None.
(** upgrade.go:362-389 the record of the delegating module *)
Definition fgd_record (plan : time) (dq : frac) (x : fgd) (a : addr) (r : rinfo) (bal : coins) (m k : Z)
    : M (fgd * rinfo * bool * drec * bool) :=
  let! old := get (fun s => del_get a s) in
  do! mfor (d_reqs old) (fun q => delete_task (q_time q) HRevoke a) in
  let d := old <| d_reqs := [] |> in
  let changed := negb (bool_decide (d_reqs old = [])) in
  let! day := get one_day in
  match d_next d with
  | Some next =>
      let! m' := lift "Int64() out of bound" (Frac.to_int64 m) in
      let! k' := lift "Int64() out of bound" (Frac.to_int64 k) in
      let! w := lift "Int64() out of bound" (Frac.to_int64 (amt bal uartrd)) in
      let! p := fr (Frac.mul (Frac.new_fraction (Frac.wrap64 (m' + k')) w)
                             (Frac.new_fraction (sat64 (plan - (next - day))) day)) in
      ret (x, r, false, d <| d_missed := Some p |>, true)
  | None =>
      let! w := lift "Int64() out of bound" (Frac.to_int64 (amt bal uartrd)) in
      let! dust := get (fun s => bp_dust (st_bp s)) in
      if dust <? w then
        let t := f_t x - 1000000000 in
        let! q := fr (Frac.add (f_q x) dq) in
        do! schedule_task t HAccrue a in
        let x := x <| f_t := t |> <| f_q := q |> in
        let d := d <| d_next := Some t |> <| d_missed := Some q |> in
        match r_banishment_at r with
        | Some t => do! delete_task t HBanish a in
                    ret (x, r <| r_banishment_at := None |>, true, d, true)
        | None => ret (x, r, false, d, true)
        end
      else ret (x, r, false, d, changed)
  end.
(** upgrade.go:318-400 ForceGlobalDelegation, the callback *)
Definition fgd_one (plan : time) (dq : frac) (x : fgd) (a : addr) (r : rinfo) : M (fgd * rinfo * bool * bool) :=
  if r_banished r then ret (x, r, false, false) else
  let! (r', changed) := lift "index out of range" (delegate_lines r) in
  if nth 0 (r_coins r) 0 =? nth 0 (r_deleg r) 0 then ret (x, r', changed, false) else
  let! old := get (fun s => balance s a) in
  let m := amt old uartr in
  let k := amt old uartrr in
  let bal := all_delegated old in
  let! (x, r', changed', d, d_changed) := fgd_record plan dq x a r' bal m k in
  do! when d_changed (modify (fun s => s <| st_del :=
    if bool_decide (d_reqs d = []) && bool_decide (d_next d = None)
    then base.delete a (st_del s) else <[ a := d ]> (st_del s) |>)) in
  do! modify (fun s => s <| st_bal := <[ a := bal ]> (st_bal s) |>) in
  ret (x <| f_main := f_main x + m |> <| f_revoke := f_revoke x + k |>, r', changed || changed', false).

(** upgrade.go:297-416 ForceGlobalDelegation; [plan] is the time of the plan *)
Definition force_global_delegation (plan : time) : M unit :=
  let! day := get one_day in
  let! dq := fr (Frac.reduce (Frac.new_fraction 1000000000 day)) in
  let! x := iterate (mkF 0 0 (plan + day) (Frac.frac_int 0)) (fgd_one plan dq) in
  let! m := new_coins uartr (f_main x) in
  let! k := new_coins uartrr (f_revoke x) in
  do! deflate (coins_add m k) in
  let! d := new_coins uartrd (f_main x + f_revoke x) in
  inflate d.
(** upgrade.go:418-428 RefreshReferralStatuses *)
Definition refresh_statuses : M unit := iterate tt (fun x _ r => ret (x, r, false, true)).

(** ** 2.3.2

    Both steps work on a copy of the referral records ([m] below) and write it
    back at the end.  A panic ([None] below) is caught before that: the records
    stay as they were. *)

(** upgrade.go:478-484, 595-601: all eleven sums are zero *)
Fixpoint zero_upto (n : nat) (c d : list Z) : option bool :=
  match n with
  | O => Some true
  | S n =>
      match c with
      | [] => None
      | x :: c => if negb (x =? 0) then Some false else
          match d with
          | [] => None
          | y :: d => if negb (y =? 0) then Some false else zero_upto n c d
          end
      end
  end.
Definition lines_zero (r : rinfo) : option bool := zero_upto 11 (r_coins r) (r_deleg r).
(** upgrade.go:499-502, 619-622, 637-640: the sums of the lines of [r] are added to (sign 1) or taken from
    (sign -1) those of an ancestor [i] lines above *)
Definition shifted (sign : Z) (i : nat) (src dst : list Z) : list Z :=
  imap (fun j x => if (i <=? j)%nat && (j <=? 10)%nat then x + sign * nth (j - i) src 0 else x) dst.
Definition shift_lines (sign : Z) (i : nat) (r info : rinfo) : option rinfo :=
  if (11 <=? List.length (r_coins info))%nat && (11 <=? List.length (r_deleg info))%nat
     && (11 - i <=? List.length (r_coins r))%nat && (11 - i <=? List.length (r_deleg r))%nat
  then Some (info <| r_coins := shifted sign i (r_coins r) (r_coins info) |>
                  <| r_deleg := shifted sign i (r_deleg r) (r_deleg info) |>)
  else None.
(** upgrade.go:491-507, 612-628, 630-646: up to ten ancestors from [a] on, the first of which also gets its
    list of referrals changed by [f] *)
Fixpoint climb_lines (sign : Z) (f : list addr -> list addr) (r : rinfo) (n i : nat) (a : addr)
    (m : gmap addr rinfo) : option (gmap addr rinfo) :=
  match n with
  | O => Some m
  | S n' =>
      if (a =? nobody)%N then Some m else
      match m !! a with
      | None => None
      | Some info =>
          let info := if (i =? 1)%nat then info <| r_referrals := f (r_referrals info) |> else info in
          match shift_lines sign i r info with
          | None => None
          | Some info => climb_lines sign f r n' (S i) (r_referrer info) (<[ a := info ]> m)
          end
      end
  end.
(** upgrade.go:464-474: the parent of an account that comes back.  The record
    read inside the loop hides the outer variable: after one closed parent the
    loop goes on with the outer one, which is never set. *)
Definition unbanish_parent (s : St) (m : gmap addr rinfo) (r : rinfo) : option addr :=
  if (r_referrer r =? nobody)%N then Some nobody else
  match m !! r_referrer r with
  | None => None
  | Some pi => Some (if registration_closed s pi then nobody else r_referrer r)
  end.
(** upgrade.go:449-518 UnbanishAccountsWithDelegation, one account *)
Definition unbanish_one (s : St) (m : gmap addr rinfo) (a : addr) : option (gmap addr rinfo) :=
  match m !! a with
  | None => None
  | Some r =>
      if negb (r_banished r) then Some m else
      match Frac.to_int64 (amt (balance s a) uartrd) with
      | None => None
      | Some d =>
          if bp_dust (st_bp s) <? d then
            match unbanish_parent s m r with
            | None => None
            | Some parent =>
                let r := r <| r_referrer := parent |> <| r_banished := false |> <| r_banishment_at := None |>
                           <| r_compression_at := None |> <| r_status := 1 |> in
                let m := <[ a := r ]> m in
                match lines_zero r with
                | None => None
                | Some true =>
                    match m !! parent with
                    | None => None
                    | Some info => Some (<[ parent := info <| r_referrals := r_referrals info ++ [a] |> ]> m)
                    end
                | Some false => climb_lines 1 (fun l => l ++ [a]) r 10 1 parent m
                end
            end
          else match r_compression_at r with
               | Some _ => Some (<[ a := r <| r_compression_at := None |> ]> m)
               | None => Some m
               end
      end
  end.
Fixpoint ofold {A B} (f : B -> A -> option B) (l : list A) (b : B) : option B :=
  match l with [] => Some b | x :: r => match f b x with None => None | Some b => ofold f r b end end.
(** upgrade.go:430-538 UnbanishAccountsWithDelegation *)
Definition unbanish_delegated : M unit :=
  modify (fun s => match ofold (unbanish_one s) (keysN (st_ref s)) (st_ref s) with
                   | Some m => s <| st_ref := m |>
                   | None => s
                   end).

(** upgrade.go:584-593: up from a banished parent.  [None] is a missing record,
    or a closed chain of ancestors longer than the number of records (a cycle,
    where the code does not stop). *)
Fixpoint transfer_parent (s : St) (m : gmap addr rinfo) (n : nat) (pi : rinfo) : option addr :=
  match n with
  | O => None
  | S n' =>
      if (r_referrer pi =? nobody)%N then Some nobody else
      match m !! r_referrer pi with
      | None => None
      | Some pi' => if registration_closed s pi' then transfer_parent s m n' pi' else Some (r_referrer pi)
      end
  end.
(** upgrade.go:569-656 TransferFromTheBanished, one account: [r] is its record
    as it was before the upgrade (the iterator's value).
    util.RemoveStringPreserveOrder removes the first occurrence. *)
Definition transfer_one (s : St) (m : gmap addr rinfo) (e : addr * rinfo) : option (gmap addr rinfo) :=
  let '(a, r) := e in
  if r_banished r || (r_referrer r =? nobody)%N then Some m else
  match m !! r_referrer r with
  | None => None
  | Some pi =>
      if negb (r_banished pi) then Some m else
      match transfer_parent s m (S (size m)) pi with
      | None => None
      | Some parent =>
          let m := match lines_zero r with
            | None => None
            | Some true =>
                match m !! r_referrer r with
                | None => None
                | Some info =>
                    let m := <[ r_referrer r := info <| r_referrals := fst (Lists.remove_ordered N.compare (r_referrals info) a) |> ]> m in
                    match m !! parent with
                    | None => None
                    | Some info => Some (<[ parent := info <| r_referrals := r_referrals info ++ [a] |> ]> m)
                    end
                end
            | Some false =>
                match climb_lines (-1) (fun l => fst (Lists.remove_ordered N.compare l a)) r 10 1 (r_referrer r) m with
                | None => None
                | Some m => climb_lines 1 (fun l => l ++ [a]) r 10 1 parent m
                end
            end in
          match m with
          | None => None
          | Some m => Some (<[ a := r <| r_referrer := parent |> ]> m)
          end
      end
  end.
(** upgrade.go:540-663 TransferFromTheBanished *)
Definition transfer_from_banished : M unit :=
  modify (fun s => match ofold (transfer_one s) (map (fun a => (a, ref_get s a)) (keysN (st_ref s))) (st_ref s) with
                   | Some m => s <| st_ref := m |>
                   | None => s
                   end).

(** ** 2.4.2 - 2.4.8: bank parameters *)

(** upgrade.go:679-695 InitTransactionFeeParam *)
Definition init_tx_fee : M unit := let! p := get st_bp in set_bparams (p <| bp_fee := Frac.new_fraction 3 1000 |>).
(** upgrade.go:804-820 InitMaxTransactionFeeParam *)
Definition init_max_fee : M unit := let! p := get st_bp in set_bparams (p <| bp_max_fee := 10000000 |>).
(** upgrade.go:941-959 InitTransactionFeeSplitRatiosAndCompanyAccountParams;
    [company] stands for the address in line 952 *)
Definition init_split (company : addr) : M unit :=
  let! p := get st_bp in
  set_bparams (p <| bp_for_proposer := Frac.frac_int 1 |> <| bp_for_company := Frac.frac_int 0 |>
                 <| bp_company := company |>).
(** upgrade.go:968-984 InitBlockedSendersParam *)
Definition init_blocked : M unit := let! p := get st_bp in set_bparams (p <| bp_blocked := [] |>).

(** ** 2.4.3 *)

(** upgrade.go:725-802 UpdateStatusDowngradeTasks: the time written in a task
    changes, the key it is stored at does not. *)
Definition update_downgrade_tasks : M unit :=
  modify (fun s =>
    let limit := st_now s + 2 * one_day s in
    s <| st_sched := map (fun t => if bool_decide (t_hook t = HDowngrade) && (limit <? t_time t)
                                   then Task limit (t_hook t) (t_data t) else t) <$> st_sched s |>
      <| st_ref := (fun r => match r_downgrade_at r with
                             | Some t => if limit <? t then r <| r_downgrade_at := Some limit |> else r
                             | None => r
                             end) <$> st_ref s |>).

(** ** 2.4.4 *)

(** upgrade.go:849-856: a task to be moved from the key [k].  (scheduleK.Key
    panics on times out of range.) *)
Definition misplaced (now k : time) (t : task) : bool :=
  bool_decide (t_hook t = HDowngrade) && negb (k =? t_time t) && (t_time t <? now).
(** sk.GetParams(ctx).DayNanos * 15 / (24 * 60 * 60), in uint64 *)
Definition shift_interval (s : St) : Z := u64 (st_day s * 15) / 86400.
(** upgrade.go:822-896 FixStatusDowngradeTasks.  Line 886 decodes the key
    instead of what is stored there (a key is eight bytes and no message): the
    tasks that are already there are lost. *)
Definition fix_downgrade_tasks : M unit :=
  let! now := get st_now in
  let! ks := get (fun s => keysZ (st_sched s)) in
  let! l := get (fun s => flat_map (fun k => map (fun t => (k, t)) (default [] (st_sched s !! k))) ks) in
  do! mfor l (fun e => when (bool_decide (t_hook (snd e) = HDowngrade)) (check_key (t_time (snd e)))) in
  let bad := map snd (List.filter (fun e => misplaced now (fst e) (snd e)) l) in
  do! modify (fun s => s <| st_sched := omap (fun e =>
        match List.filter (fun t => negb (misplaced now (fst e) t)) (snd e) with
        | [] => if bool_decide (snd e = []) then Some [] else None
        | l => Some l
        end) (map_imap (fun k l => Some (k, l)) (st_sched s)) |>) in
  let! shift := get shift_interval in
  do! mfold bad now (fun at_ t =>
        let at_ := at_ + shift in
        do! check_key at_ in
        do! modify (fun s => s <| st_sched := <[ at_ := [t] ]> (st_sched s) |>) in
        ret at_) in
  ret tt.

(** ** 2.4.5 *)

(** upgrade.go:898-939 ScheduleMissingBanishmentAndRefreshReferralStatuses *)
Definition missing_one (shift : Z) (at_ : time) (a : addr) (r : rinfo) : M (time * rinfo * bool * bool) :=
  if r_active r then ret (at_, r, false, true) else
  let! d := get (fun s => own_deleg s a) in
  let! d := lift "Int64() out of bound" (Frac.to_int64 d) in
  let! dd := get (fun s => bp_dust (st_bp s)) in
  let! now := get st_now in
  if (d <=? dd) && negb (r_banished r)
     && match r_banishment_at r with None => true | Some _ => false end
     && match r_compression_at r with None => true | Some c => c <? now end then
    let at_ := at_ + shift in
    do! schedule_task at_ HBanish a in
    ret (at_, r <| r_banishment_at := Some at_ |>, true, true)
  else ret (at_, r, false, true).
Definition schedule_missing : M unit :=
  let! shift := get shift_interval in
  let! at_ := get (fun s => st_now s + st_day s / 24) in
  do! iterate at_ (missing_one shift) in
  ret tt.

(** ** 2.5.0 *)

(** upgrade.go:986-1004 CleanEarningStore *)
Definition clean_earning : M unit := modify (fun s => s <| st_earn := ∅ |>).

(** ** 2.5.2 *)

(** Module accounts of x/earning, app/app.go:99-101 *)
Definition earning_acc : addr := 3%N.
Definition vpn_acc : addr := 4%N.
Definition storage_acc : addr := 5%N.
(** upgrade.go:1020-1054 EmptyEarningVpnStorageCollectors *)
Definition empty_collectors : M unit :=
  let! company := get (fun s => rp_company (st_rp s)) in
  let! c := get (fun s => coins_add (coins_add (coins_add (balance s company) (balance s earning_acc))
                                               (balance s vpn_acc)) (balance s storage_acc)) in
  do! must (set_balance company c) in
  do! must (set_balance earning_acc ∅) in
  do! must (set_balance vpn_acc ∅) in
  must (set_balance storage_acc ∅).

(** ** 2.5.8 *)

(** upgrade.go:1070-1101 DeactivateTopLevelAccounts *)
Definition deactivate_top : M unit :=
  modify (fun s =>
    let tops := List.filter (fun a => (r_referrer (ref_get s a) =? nobody)%N) (keysN (st_ref s)) in
    s <| st_ref := (fun r => if (r_referrer r =? nobody)%N then r <| r_active := false |> else r) <$> st_ref s |>
      <| st_prof := foldl (fun m a => <[ a := default p_zero (m !! a) <| p_until := None |> ]> m) (st_prof s) tops |>).
(** upgrade.go:1120-1126: the instants from [t] down while after [limit].  With
    [month] not positive the code does not stop: out of fuel. *)
Fixpoint months_down (n : nat) (month limit t : Z) : option (list time) :=
  if limit <? t then
    match n with
    | O => None
    | S n => match months_down n month limit (t - month) with Some l => Some (t :: l) | None => None end
    end
  else Some [].
(** upgrade.go:1103-1133 AddMissingProfileRefreshTask *)
Definition add_missing_refresh : M unit :=
  let! month := get one_month in
  let! limit := get (fun s => st_now s + month) in
  let! l := get (fun s => map (fun a => (a, default p_zero (st_prof s !! a))) (keysN (st_prof s))) in
  mfor l (fun '(a, p) =>
    match p_until p with
    | None => ret tt
    | Some u =>
        let! ts := lift "endless loop" (months_down (S (Z.to_nat ((u - limit) / month))) month limit u) in
        mfor ts (fun t => schedule_task t HRefresh a)
    end).

(** ** The upgrades.  app/app.go:338-446; those left out do nothing. *)
Inductive version := V201 | V210 | V220 | V221 | V231 | V232 | V242 | V243 | V244 | V245 | V246 | V248
                   | V250 | V252 | V258 | VOther.
(** [plan]: the time of the plan; [company]: see [init_split] *)
Definition upgrade (plan : time) (company : addr) (v : version) : M unit :=
  match v with
  | V201 => recalculate_active
  | V210 => schedule_banishment_fix
  | V220 => do! init_poll_period in force_status_callback
  | V221 => do! force_global_delegation plan in refresh_statuses
  | V231 => refresh_statuses
  | V232 => do! transfer_from_banished in do! unbanish_delegated in refresh_statuses
  | V242 => init_tx_fee
  | V243 => update_downgrade_tasks
  | V244 => do! init_max_fee in fix_downgrade_tasks
  | V245 => schedule_missing
  | V246 => init_split company
  | V248 => init_blocked
  | V250 => clean_earning
  | V252 => empty_collectors
  | V258 => do! deactivate_top in add_missing_refresh
  | VOther => ret tt
  end.
