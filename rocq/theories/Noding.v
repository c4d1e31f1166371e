(** * Model of x/noding/keeper (all but the proposer's reward, which needs the
    bank and is in [Block.v]) *)
From Verif Require Export Schedule.

(** ** What noding reads from the referral store *)

(** x/referral/keeper/keeper.go:1080-1088 Get: decoding a missing value gives
    the zero record and no error. *)
Definition ref_get (s : St) (a : addr) : rinfo := default r_zero (st_ref s !! a).

(** x/referral/types/types.go:29-40 LinesOpened *)
Definition lines_opened (status : Z) : nat :=
  if status =? 1 then 4 else if status =? 2 then 6 else if status =? 3 then 8 else 10.

(** x/referral/types/types.go:58-72 CoinsAtLevelsUpTo, DelegatedAtLevelsUpTo:
    the sum of the entries 0..n; [None] is the index out of range panic. *)
Fixpoint sum_upto (n : nat) (l : list Z) : option Z :=
  match l with
  | [] => None
  | x :: r => match n with
              | O => Some x
              | S m => match sum_upto m r with Some y => Some (x + y) | None => None end
              end
  end.

(** x/referral/keeper/keeper.go:416-426 GetDelegatedInNetwork *)
Definition delegated_in_network (a : addr) (depth : nat) : M Z :=
  let! r := get (fun s => ref_get s a) in
  lift "index out of range" (sum_upto (Nat.min (lines_opened (r_status r)) depth) (r_deleg r)).

(** x/bank/internal/keeper/view.go:59-75 GetBalance *)
Definition balance (s : St) (a : addr) : coins := default ∅ (st_bal s !! a).

(** ** Records *)

(** x/noding/types/types.go:34-36 IsActive *)
Definition n_active (x : ninfo) : bool := n_status x && negb (n_jailed x) && negb (n_banned x).

(** x/noding/types/types.go:38-49 UpdateScore *)
Definition update_score (ilog : Z -> Z) (stake : Z) (x : ninfo) : ninfo * bool :=
  let stake := if stake <? 1 then 1 else stake in
  let score := ilog stake - n_strokes x + Z.quot (n_ok x) 100 in
  if score =? n_score x then (x, false) else (x <| n_score := score |>, true).

(** x/noding/types/types.go:14-32 NewInfo *)
Definition new_ninfo (ilog : Z -> Z) (pub : N) (delegation : Z) : ninfo :=
  fst (update_score ilog delegation (n_zero <| n_status := true |> <| n_pub := pub |>)).

(** x/noding/keeper/keeper.go:955-976 Get, set *)
Definition val_get (a : addr) : M ninfo := fun s =>
  match st_val s !! a with Some x => (s, Ok x) | None => (s, Err ErrNotFound) end.
Definition val_set (a : addr) (x : ninfo) : M unit :=
  modify (fun s => s <| st_val := <[ a := x ]> (st_val s) |>).
(** x/noding/keeper/keeper.go:978-994 update.  The callback returns the new
    record, or [None] when it does not want it saved. *)
Definition val_update (a : addr) (f : ninfo -> M (option ninfo)) : M unit :=
  let! x := val_get a in
  let! y := f x in
  match y with None => ret tt | Some y => val_set a y end.

(** ** Lottery.  x/noding/keeper/lottery.go *)

(** 34-45 lotteryExclude *)
Definition lottery_exclude (x : ninfo) : M ninfo :=
  if n_lottery x =? 0 then fail "already out" else
  do! modify (fun s => s <| st_lottery := base.delete (n_lottery x) (st_lottery s) |>) in
  ret (x <| n_lottery := 0 |>).
(** 13-32 lotteryAddNew *)
Definition lottery_add_new (a : addr) (x : ninfo) : M ninfo :=
  if negb (n_lottery x =? 0) then fail "already in" else
  let! ks := get (fun s => keysZ (st_lottery s)) in
  let n := match last ks with Some k => k + 1 | None => 1 end in
  do! modify (fun s => s <| st_lottery := <[ n := a ]> (st_lottery s) |>) in
  ret (x <| n_lottery := n |>).
(** 47-60 lotteryLastNo *)
Definition lottery_last_no (count : nat) (s : St) : Z :=
  default 0 (last (take count (keysZ (st_lottery s)))).
(** 62-70 lotteryDownshift *)
Definition lottery_downshift (a : addr) (x : ninfo) : M ninfo :=
  let! x := lottery_exclude x in lottery_add_new a x.

(** "if d.LotteryNo != 0 { if err := f(d); err != nil { panic(err) } }" *)
Definition if_in_lottery (f : ninfo -> M ninfo) (x : ninfo) : M ninfo :=
  if n_lottery x =? 0 then ret x else must (f x).

(** ** Qualification *)

(** x/noding/keeper/keeper.go:75-120 IsQualified: the verdict and the delegation.
    The reason is not modelled. *)
Definition is_qualified (a : addr) : M (bool * Z) :=
  let! d := delegated_in_network a 10 in
  let! staff := get (fun s => match st_val s !! a with Some x => n_staff x | None => false end) in
  let! p := get st_np in
  let! status := get (fun s => r_status (ref_get s a)) in
  if staff then ret (true, d) else
  if status <? np_min_status p then ret (false, d) else
  let! self := get (fun s => amt (balance s a) uartrd) in
  let! self := lift "Uint64() out of bounds" (Frac.to_uint64 self) in
  if self <? np_min_self p then ret (false, d) else
  let! total := lift "Uint64() out of bounds" (Frac.to_uint64 d) in
  if total <? np_min_total p then ret (false, d) else
  ret (true, d).

(** x/noding/keeper/keeper.go:124-133 IsValidator *)
Definition is_validator (s : St) (a : addr) : bool :=
  match st_val s !! a with Some x => n_active x | None => false end.
(** x/noding/keeper/keeper.go:135-151 IsActiveValidator *)
Definition is_active_validator (s : St) (a : addr) : bool :=
  match st_val s !! a with
  | Some x => n_active x && negb (st_height s - n_unjail_at x <? 6 * np_unjail_after (st_np s))
  | None => false
  end.

(** x/noding/keeper/keeper.go:164-174 GetValidatorByConsAddr:
    operator, found, active *)
Definition validator_by_cons (c : N) : M (addr * bool * bool) :=
  let! o := get (fun s => st_oper s !! c) in
  match o with
  | None => ret (nobody, false, false)
  | Some a =>
      let! x := val_get a in
      ret (a, true, n_active x && bool_decide (c = n_pub x))
  end.

(** ** Switching on and off *)

(** x/noding/keeper/keeper.go:176-232 SwitchOn *)
Definition switch_on (a : addr) (key : N) : M unit :=
  let! r := get (fun s => st_val s !! a) in
  do! ensure (negb (match r with Some x => n_banned x | None => false end)) "banned for lifetime" in
  do! ensure (negb (match r with Some x => n_status x | None => false end)) "already on" in
  let! (_, found, active) := validator_by_cons key in
  do! ensure (negb (found && active)) "pubkey busy" in
  let! (q, d) := is_qualified a in
  do! ensure q "not qualified" in
  let! d := lift "Int64() out of bound" (Frac.to_int64 d) in
  let! ilog := get st_ilog in
  do! match r with
      | Some _ => val_update a (fun x =>
          ret (Some (fst (update_score ilog d (x <| n_status := true |> <| n_pub := key |>)))))
      | None => val_set a (new_ninfo ilog key d)
      end in
  modify (fun s => s <| st_oper := <[ key := a ]> (st_oper s) |>).

(** x/noding/keeper/keeper.go:234-254 SwitchOff *)
Definition switch_off (a : addr) : M unit :=
  val_update a (fun x =>
    if negb (n_status x) then ret None else
    let! y := if_in_lottery lottery_exclude (x <| n_status := false |>) in
    ret (Some y)).

(** x/noding/keeper/keeper.go:256-287 OnStatusUpdate *)
Definition on_status_update (a : addr) : M unit :=
  let! v := get (fun s => is_validator s a) in
  if negb v then ret tt else
  let! (q, _) := is_qualified a in
  if q then ret tt else switch_off a.

(** x/noding/keeper/keeper.go:289-332 OnStakeChanged.  Note the early return
    (line 323): the record of a validator that is not qualified any more is
    not saved, only its lottery index entry is removed. *)
Definition on_stake_changed (a : addr) : M unit :=
  let! r := get (fun s => st_val s !! a) in
  match r with
  | None => ret tt
  | Some x =>
      let! (q, d) := is_qualified a in
      let! d := lift "Int64() out of bound" (Frac.to_int64 d) in
      let! ilog := get st_ilog in
      let '(y, changed) := update_score ilog d x in
      if n_active x && negb q then
        do! if_in_lottery lottery_exclude (y <| n_status := false |>) in
        ret tt
      else if changed then val_set a y else ret tt
  end.

(** x/noding/keeper/keeper.go:712-745 Unjail *)
Definition unjail (a : addr) : M unit :=
  let! x := val_get a in
  do! ensure (n_jailed x) "not jailed" in
  let! h := get st_height in
  do! ensure (negb (h <? n_unjail_at x)) "jail period is not over" in
  let x := x <| n_jailed := false |> in
  let! (q, d) := is_qualified a in
  if q then
    let! d := lift "Int64() out of bound" (Frac.to_int64 d) in
    let! ilog := get st_ilog in
    val_set a (fst (update_score ilog d x))
  else val_set a (x <| n_status := false |>).

(** ** Blocks *)

(** x/noding/keeper/keeper.go:629-667 MarkStroke *)
Definition mark_stroke (a : addr) : M unit :=
  let! p := get st_np in
  let! h := get st_height in
  val_update a (fun x =>
    if n_jailed x then ret None else
    let x := x <| n_score := n_score x - Z.quot (n_ok x) 100 - 1 |>
               <| n_strokes := n_strokes x + 1 |>
               <| n_ok := 0 |>
               <| n_missed := n_missed x + 1 |> in
    let! y :=
      if np_jail_after p <=? n_missed x then
        if_in_lottery lottery_exclude
          (x <| n_jailed := true |>
             <| n_unjail_at := h + np_unjail_after p |>
             <| n_jails := n_jails x + 1 |>
             <| n_missed := 0 |>)
      else if_in_lottery (lottery_downshift a) x in
    ret (Some y)).

(** x/noding/keeper/keeper.go:670-679 MarkTick *)
Definition mark_tick (a : addr) : M unit :=
  val_update a (fun x =>
    let x := x <| n_missed := 0 |> <| n_ok := n_ok x + 1 |> in
    ret (Some (if Z.rem (n_ok x) 100 =? 0 then x <| n_score := n_score x + 1 |> else x))).

(** x/noding/keeper/keeper.go:681-710 MarkByzantine *)
Definition mark_byzantine (a : addr) (evidence : N) : M unit :=
  val_update a (fun x =>
    let x := x <| n_infr := n_infr x ++ [evidence] |> in
    let! y :=
      if (1 <? List.length (n_infr x))%nat then
        if_in_lottery lottery_exclude (x <| n_banned := true |> <| n_status := false |>)
      else if_in_lottery (lottery_downshift a) x in
    ret (Some y)).

(** ** Staff *)

(** x/noding/keeper/keeper.go:832-846 AddToStaff *)
Definition add_to_staff (a : addr) : M unit :=
  let! r := get (fun s => st_val s !! a) in
  match r with
  | Some _ => val_update a (fun x => ret (if n_staff x then None else Some (x <| n_staff := true |>)))
  | None => val_set a (n_zero <| n_staff := true |>)
  end.

(** x/noding/keeper/keeper.go:848-878 RemoveFromStaff *)
Definition remove_from_staff (a : addr) : M unit :=
  let! r := get (fun s => st_val s !! a) in
  match r with
  | None => ret tt
  | Some x =>
      if negb (n_staff x) then ret tt else
      do! val_set a (x <| n_staff := false |>) in
      if n_active x then
        do! on_status_update a in
        on_stake_changed a
      else ret tt
  end.

(** x/noding/keeper/keeper.go:903-924 GeneralAmnesty *)
Definition amnesty_one (x : ninfo) : ninfo :=
  if (n_strokes x =? 0) && (n_jails x =? 0) then x
  else x <| n_score := n_score x + n_strokes x |> <| n_strokes := 0 |> <| n_jails := 0 |>.
Definition general_amnesty : M unit :=
  modify (fun s => s <| st_val := amnesty_one <$> st_val s |>).

(** ** Voting power.  x/noding/keeper/vp_generator.go *)

Record vpg := mkVpg { g_count : Z; g_last : Z; g_ptr : nat; g_acc : frac }.
(** 18-25 NewVotingPowerGenerator *)
Definition vpg_new : vpg := mkVpg 0 0 0 Frac.frac_zero.
(** 27-47 GetVotingPower ([None] is a panic: a slice missing, a bad fraction) *)
Definition vpg_next (p : nparams) (score : Z) (g : vpg) : option (Z * vpg) :=
  let count := g_count g + 1 in
  if np_max p <? count then Some (np_lucky_power p, mkVpg count score (g_ptr g) (g_acc g)) else
  if count =? 1 then
    match np_slices p !! 0%nat with
    | Some (part, pw) => Some (pw, mkVpg count score (g_ptr g) part)
    | None => None
    end
  else
    match Frac.lte (Frac.new_fraction count (np_max p)) (g_acc g) with
    | None => None
    | Some le =>
        if le || (score =? g_last g) then
          match np_slices p !! g_ptr g with
          | Some (_, pw) => Some (pw, mkVpg count score (g_ptr g) (g_acc g))
          | None => None
          end
        else
          match np_slices p !! S (g_ptr g) with
          | Some (part, pw) =>
              match Frac.add (g_acc g) part with
              | Some acc => Some (pw, mkVpg count score (S (g_ptr g)) acc)
              | None => None
              end
          | None => None
          end
    end.

(** ** The validator set handed to the consensus *)

(** x/noding/keeper/keeper.go:397-402: the order of the candidates.  sort.Slice
    leaves the order of equal candidates open; here they keep their key order. *)
Definition val_better (x y : addr * ninfo) : Prop :=
  n_score (snd y) < n_score (snd x) \/
  (n_score (snd x) = n_score (snd y) /\ n_ok (snd y) <= n_ok (snd x)).
#[export] Instance val_better_dec : RelDecision val_better.
Proof. intros x y. unfold val_better. apply _. Defined.

Definition update := (N * Z)%type.   (* public key, power *)

(** x/noding/keeper/keeper.go:342-375 the first loop, for one record *)
Definition gather_scan (acc : list (addr * ninfo) * list update) (e : addr * ninfo)
  : M (list (addr * ninfo) * list update) :=
  let '(active, result) := acc in
  let '(a, x) := e in
  if n_active x then
    do! assert (negb (n_pub x =? 0)%N) "empty Bech32 string" in
    do! modify (fun s => s <| st_oper := <[ n_pub x := a ]> (st_oper s) |>) in
    ret (active ++ [(a, x)], result)
  else if n_power x =? 0 then ret (active, result)
  else
    do! assert (negb (n_last_pub x =? 0)%N) "non-zero LastPower is impossible without LastPubKey" in
    do! val_update a (fun d => ret (Some (d <| n_power := 0 |> <| n_last_pub := 0%N |>))) in
    ret (active, result ++ [(n_last_pub x, 0)]).

(** x/noding/keeper/keeper.go:405-446 the top validators, for one record *)
Definition gather_top (p : nparams) (acc : vpg * list update) (e : addr * ninfo)
  : M (vpg * list update) :=
  let '(g, result) := acc in
  let '(a, x) := e in
  do! assert (negb (n_pub x =? 0)%N) "validator cannot be active without PubKey" in
  let! (power, g) := lift "GetVotingPower" (vpg_next p (n_score x) g) in
  let new_key := negb (n_pub x =? n_last_pub x)%N in
  let updated := negb (n_power x =? power) || new_key in
  let result := result ++
    (if new_key && negb (n_last_pub x =? 0)%N then [(n_last_pub x, 0)] else []) ++
    (if updated then [(n_pub x, power)] else []) in
  let in_lottery := negb (n_lottery x =? 0) in
  let! y := if_in_lottery lottery_exclude x in
  do! (if updated || in_lottery then
         val_update a (fun d => ret (Some
           (d <| n_power := power |> <| n_last_pub := n_pub d |> <| n_lottery := n_lottery y |>)))
       else ret tt) in
  ret (g, result).

(** x/noding/keeper/keeper.go:448-501 the others, for one record *)
Definition gather_rest (p : nparams) (max_no : Z) (acc : vpg * list update) (e : addr * ninfo)
  : M (vpg * list update) :=
  let '(g, result) := acc in
  let '(a, x) := e in
  if negb (n_lottery x =? 0) && (n_lottery x <=? max_no) then
    let! (power, g) := lift "GetVotingPower" (vpg_next p (n_score x) g) in
    let new_key := negb (n_pub x =? n_last_pub x)%N in
    if negb new_key && (n_power x =? power) then ret (g, result) else
    do! val_update a (fun d => ret (Some (d <| n_power := power |> <| n_last_pub := n_pub d |>))) in
    ret (g, result ++ (if new_key && negb (n_last_pub x =? 0)%N then [(n_last_pub x, 0)] else [])
                   ++ [(n_pub x, power)])
  else
    let out := negb (n_power x =? 0) in
    let fresh := n_lottery x =? 0 in
    do! assert (negb (out && (n_last_pub x =? 0)%N)) "empty Bech32 string" in
    let! y := (if fresh then must (lottery_add_new a x) else ret x) in
    do! (if out || fresh then
           val_update a (fun d => ret (Some
             (d <| n_power := 0 |> <| n_last_pub := 0%N |> <| n_lottery := n_lottery y |>)))
         else ret tt) in
    ret (g, result ++ (if out then [(n_last_pub x, 0)] else [])).

(** x/noding/keeper/keeper.go:334-520 GatherValidatorUpdates.  The final
    deduplication (503-517) compares structures that hold freshly allocated
    pointers, so it never finds two equal keys: it is the identity. *)
Definition gather : M (list update) :=
  let! recs := get (fun s => map (fun a => (a, default n_zero (st_val s !! a))) (keysN (st_val s))) in
  let! (active, result) := mfold recs ([], []) gather_scan in
  let! p := get st_np in
  let len := Z.of_nat (List.length active) in
  let n1 := if np_max p <? len then np_max p else len in
  let n2 := if np_max p <? len
            then (if np_max p + np_lucky p <? len then np_lucky p else len - n1)
            else 0 in
  let sorted := merge_sort val_better active in
  let! (g, result) := mfold (take (Z.to_nat n1) sorted) (vpg_new, result) (gather_top p) in
  let! max_no := get (lottery_last_no (Z.to_nat n2)) in
  let! (g, result) := mfold (drop (Z.to_nat n1) sorted) (g, result) (gather_rest p max_no) in
  ret result.

(** x/noding/abci.go:46-56 findValidatorAccAddress *)
Definition find_validator (c : N) : M addr :=
  let! (a, found, _) := validator_by_cons c in
  do! ensure found "validator not found for consensus address" in
  ret a.
(** x/noding/abci.go:59-71 punishWrongdoers *)
Definition punish_wrongdoers (evs : list (N * N)) : M unit :=
  mfor evs (fun '(c, ev) => let! a := find_validator c in mark_byzantine a ev).
(** x/noding/abci.go:74-90 markStrokesAndTicks *)
Definition mark_strokes_and_ticks (votes : list (N * bool)) : M unit :=
  mfor votes (fun '(c, signed) =>
    let! a := find_validator c in
    if (signed : bool) then mark_tick a else mark_stroke a).

(** ** Parameters.  x/noding/types/params.go:106-200, types.go:70-101 *)
Definition distribution_valid (lucky : Z) (slices : list (frac * Z)) : option bool :=
  if lucky <=? 0 then Some false else
  match slices with
  | [] => Some false
  | _ =>
      (fix go l sum :=
        match l with
        | [] => Frac.equal sum (Frac.frac_int 1)
        | (part, pw) :: r =>
            if pw <=? 0 then Some false else
            if negb (Frac.is_positive part) then Some false else
            match Frac.add sum part with Some sum' => go r sum' | None => None end
        end) slices Frac.frac_zero
  end.
(** x/referral/types/types.go:22-27 Status.Validate *)
Definition status_valid (st : Z) : bool := (1 <=? st) && (st <=? 9) && negb (st =? 8).
Definition nparams_valid (p : nparams) : option bool :=
  if negb ((1 <=? np_max p) && (1 <=? np_jail_after p) && (1 <=? np_unjail_after p)
           && status_valid (np_min_status p) && (np_min_self p <=? np_min_total p))
  then Some false else distribution_valid (np_lucky_power p) (np_slices p).
(** x/noding/keeper/params.go:15-17 SetParams: SetParamSet panics on a value
    its validator rejects. *)
Definition set_nparams (p : nparams) : M unit :=
  let! ok := lift "invalid params" (nparams_valid p) in
  do! assert ok "invalid params" in
  modify (fun s => s <| st_np := p |>).
