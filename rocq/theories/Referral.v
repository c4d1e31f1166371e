(** * Model of x/referral/keeper *)
From Verif Require Lists.
From Verif Require Export Noding.

(** ** Records *)

(** Go's uint64 arithmetic *)
Definition u64 (z : Z) : Z := z mod 2 ^ 64.

(** x/referral/types/types.go:100-110 Normalize: pad to eleven entries *)
Definition pad (l : list Z) : list Z := l ++ repeat 0 (11 - List.length l).
Definition normalize (r : rinfo) : rinfo :=
  r <| r_coins := pad (r_coins r) |> <| r_deleg := pad (r_deleg r) |> <| r_cnt := pad (r_cnt r) |>.
(** x/referral/types/types.go:46-56 NewInfo *)
Definition new_rinfo (referrer : addr) (coins deleg : Z) : rinfo :=
  normalize (r_zero <| r_status := 1 |> <| r_referrer := referrer |>
                    <| r_coins := [coins] |> <| r_deleg := [deleg] |>).
(** x/referral/types/types.go:74-76 RegistrationClosed *)
Definition registration_closed (s : St) (r : rinfo) : bool :=
  negb (r_referrer r =? nobody)%N &&
  (r_banished r ||
   (negb (r_active r) &&
    match r_compression_at r with
    | None => true
    | Some t => t - one_month s <? st_now s
    end)).
(** x/referral/types/types.go:112-114 IsEmpty *)
Definition r_empty (r : rinfo) : bool := (r_status r =? 0) && negb (r_banished r).

(** Adding to one entry of a list. *)
Definition add_at (i : nat) (d : Z) (l : list Z) : list Z := alter (Z.add d) i l.
Definition add_cnt (i : nat) (d : Z) (l : list Z) : list Z := alter (fun x => u64 (x + d)) i l.
(** The same change of Coins and Delegated at one line. *)
Definition add_line (i : nat) (c d : Z) (r : rinfo) : rinfo :=
  r <| r_coins := add_at i c (r_coins r) |> <| r_deleg := add_at i d (r_deleg r) |>.

(** ** The bunch updater.  x/referral/keeper/bunch_updater.go *)

(** Callback names (x/referral/keeper/hooks.go:17-22), in their sorting order;
    "banished" is never collected by the updater. *)
Inductive event := EvStake | EvStatus.
Record bu := mkBu { bu_data : gmap N rinfo; bu_cbs : list (addr * event) }.
(** 29-35 newBunchUpdater *)
Definition bu_new : bu := mkBu ∅ [].
(** 73-90 set *)
Definition bu_set (a : addr) (r : rinfo) (b : bu) : bu :=
  mkBu (<[ a := r ]> (bu_data b)) (bu_cbs b).
(** 239-244 addCallback *)
Definition bu_call (e : event) (a : addr) (b : bu) : bu :=
  mkBu (bu_data b) ((a, e) :: bu_cbs b).
(** 93-112 get *)
Definition bu_get (b : bu) (a : addr) (s : St) : rinfo :=
  match bu_data b !! a with Some r => r | None => ref_get s a end.

(** ** The index of accounts by status *)

(** x/referral/keeper/keeper.go:22 minIndexedStatus *)
Definition min_indexed : Z := 5.
(** x/referral/keeper/keeper.go:1204-1225 setStatus, the part that writes the
    index, at once and not through the bunch updater *)
Definition reindex (a : addr) (old new : Z) (ix : gset (Z * addr)) : gset (Z * addr) :=
  if old =? new then ix else
  let ix := if min_indexed <=? old then ix ∖ {[ (old, a) ]} else ix in
  if min_indexed <=? new then {[ (new, a) ]} ∪ ix else ix.
Definition set_index (a : addr) (old new : Z) : M unit :=
  modify (fun s => s <| st_index := reindex a old new (st_index s) |>).

(** ** Requirements.  x/referral/keeper/status_requirements.go *)

(** 100-103, 135-138: DelegatedAtLevelsUpTo(n).Uint64() / 1_000000 >= coins *)
Definition coins_req (r : rinfo) (lines : nat) (coins : Z) : option bool :=
  match sum_upto lines (r_deleg r) with
  | None => None
  | Some d => match Frac.to_uint64 d with
              | None => None
              | Some u => Some (coins <=? u / 1000000)
              end
  end.
(** 107-120: the number of active referrals with at least [size] active
    referrals of their own, counted up to [count] *)
Fixpoint count_wide (g : addr -> rinfo) (size : Z) (count : nat) (found : nat) (l : list addr) : option nat :=
  match l with
  | [] => Some found
  | a :: rest =>
      if (count <=? found)%nat then Some found else
      match r_cnt (g a) !! 1%nat with
      | None => None
      | Some n => count_wide g size count (if size <=? n then S found else found) rest
      end
  end.
(** 97-127 statusRequirementsXByX *)
Definition req_xbyx (g : addr -> rinfo) (r : rinfo) (lines : nat) (coins : Z) (count : nat) (size : Z) : option bool :=
  match coins_req r lines coins with
  | None => None
  | Some c =>
      match count_wide g size count 0 (r_arefs r) with
      | None => None
      | Some n => Some (c && (count <=? n)%nat)
      end
  end.
(** 139-161: does one child's team reach [leg]?  (running sums of uint64) *)
Fixpoint reaches (leg : Z) (sum : Z) (l : list Z) : bool :=
  match l with
  | [] => false
  | n :: rest => let sum := u64 (sum + n) in (leg <=? sum) || reaches leg sum rest
  end.
Fixpoint scan_core (g : addr -> rinfo) (leg : Z) (wide legs : nat) (l : list addr) : option (nat * nat) :=
  match l with
  | [] => Some (wide, legs)
  | a :: rest =>
      if (3 <=? wide)%nat && (3 <=? legs)%nat then Some (wide, legs) else
      let legs' := if (3 <=? legs)%nat then legs
                   else if reaches leg 0 (r_cnt (g a)) then S legs else legs in
      if (3 <=? wide)%nat then scan_core g leg wide legs' rest else
      match r_cnt (g a) !! 1%nat with
      | None => None
      | Some n => scan_core g leg (if 3 <=? n then S wide else wide) legs' rest
      end
  end.
(** 129-168 statusRequirementsCore *)
Definition req_core (g : addr -> rinfo) (r : rinfo) (lines : nat) (coins : Z) (leg : Z) : option bool :=
  match coins_req r lines coins with
  | None => None
  | Some c =>
      match scan_core g leg 0 0 (r_arefs r) with
      | None => None
      | Some (wide, legs) => Some (c && (3 <=? wide)%nat && (3 <=? legs)%nat)
      end
  end.
(** 9-95 statusRequirements, checkStatusRequirements (the Overall flag);
    [None] is a panic *)
Definition status_req (g : addr -> rinfo) (r : rinfo) (st : Z) : option bool :=
  if st =? 0 then Some true else
  if r_banished r then Some false else
  if st =? 1 then Some true else
  if st =? 2 then req_xbyx g r 4 20000 2 2 else
  if st =? 3 then req_xbyx g r 6 50000 3 3 else
  if st =? 4 then req_core g r 8 150000 10 else
  if st =? 5 then req_core g r 10 300000 50 else
  if st =? 6 then req_core g r 10 700000 100 else
  if st =? 7 then req_core g r 10 1500000 300 else
  if st =? 9 then req_core g r 10 3000000 600 else
  None.

(** bunch_updater.go:176-200: climb while the next status' requirements are met *)
Definition next_status (st : Z) : Z := if st + 1 =? 8 then 9 else st + 1.
Definition prev_status (st : Z) : Z := if st - 1 =? 8 then 7 else st - 1.
Fixpoint climb (fuel : nat) (g : addr -> rinfo) (r : rinfo) (st : Z) : option Z :=
  match fuel with
  | O => None
  | S n =>
      if st =? 9 then Some st else
      let nx := next_status st in
      match status_req g r nx with
      | None => None
      | Some true => climb n g r nx
      | Some false => Some (prev_status nx)
      end
  end.

(** bunch_updater.go:143-206 the status part of update *)
Definition status_check (b : bu) (a : addr) (r : rinfo) : M (bu * rinfo) :=
  let old := r_status r in
  let '(b, r) := if r_status r =? 8 then (bu_call EvStatus a b, r <| r_status := 9 |>) else (b, r) in
  do! set_index a old (r_status r) in
  let! s := get id in
  let g := fun x => bu_get b x s in
  let! ok := lift "status requirements" (status_req g r (r_status r)) in
  if negb ok then
    match r_downgrade_at r with
    | Some _ => ret (b, r)
    | None =>
        let t := st_now s + 2 * one_day s in
        do! schedule_task t HDowngrade a in
        ret (b, r <| r_downgrade_at := Some t |>)
    end
  else
    let r := r <| r_downgrade_at := None |> in
    let! nx := lift "status requirements" (climb 12 g r (r_status r)) in
    if r_status r <? nx then do! set_index a (r_status r) nx in ret (bu_call EvStatus a b, r <| r_status := nx |>)
    else ret (b, r).

(** bunch_updater.go:118-216 update.  The callback gets the updater and the
    record; a panic inside becomes an error. *)
Definition bu_updatem {A} (b : bu) (a : addr) (check : bool)
    (f : bu -> rinfo -> M (bu * rinfo * A)) : M (bu * A) :=
  recovered (
    let! r := get (bu_get b a) in
    let! (b, r, x) := f b (normalize r) in
    let! (b, r) := (if check then status_check b a r else ret (b, r)) in
    ret (bu_set a r b, x)).
(** ... with a callback that only computes. *)
Definition bu_update {A} (b : bu) (a : addr) (check : bool) (f : rinfo -> rinfo * A) : M (bu * A) :=
  bu_updatem b a check (fun b r => let '(r, x) := f r in ret (b, r, x)).

(** bunch_updater.go:246-285 sorting and removing repeated callbacks *)
Definition cb_key (c : addr * event) : N :=
  (2 * fst c + match snd c with EvStake => 0 | EvStatus => 1 end)%N.
Definition cb_of (k : N) : addr * event := (N.div2 k, if N.odd k then EvStatus else EvStake).
Fixpoint dedup (l : list N) : list N :=
  match l with
  | [] => []
  | x :: r => match dedup r with
              | y :: r' => if (x =? y)%N then y :: r' else x :: y :: r'
              | [] => [x]
              end
  end.
Definition cbs_sorted (l : list (addr * event)) : list (addr * event) :=
  map cb_of (dedup (merge_sort N.le (map cb_key l))).
(** x/referral/keeper/hooks.go:54-75 callback, app/app.go:316-322 the registrations *)
Definition run_callback (c : addr * event) : M unit :=
  match snd c with EvStake => on_stake_changed (fst c) | EvStatus => on_status_update (fst c) end.
(** bunch_updater.go:222-237 commit *)
Definition bu_commit (b : bu) : M unit :=
  do! modify (fun s => s <| st_ref := bu_data b ∪ st_ref s |>) in
  mfor (cbs_sorted (bu_cbs b)) run_callback.

(** ** Helpers of keeper.go *)

(** x/referral/keeper/keeper.go:1198-1202 exists *)
Definition ref_exists (s : St) (a : addr) : bool :=
  match st_ref s !! a with Some _ => true | None => false end.
(** 1179-1196 getBalance, getDelegated *)
Definition total_coins (c : coins) : Z := amt c uartr + amt c uartrd + amt c uartrr.
Definition own_coins (s : St) (a : addr) : Z := total_coins (balance s a).
Definition own_deleg (s : St) (a : addr) : Z := amt (balance s a) uartrd.
(** 1234-1236 ScheduleCompression *)
Definition schedule_compression (t : time) (a : addr) : M unit := schedule_task t HCompression a.
(** 1286-1288 CompressionPeriod *)
Definition compression_period (s : St) : Z := 2 * one_month s.
(** 1290-1296 scheduleBanishment *)
Definition schedule_banishment (a : addr) (r : rinfo) : M rinfo :=
  let! t := get (fun s => st_now s + one_month s) in
  do! schedule_task t HBanish a in
  ret (r <| r_banishment_at := Some t |>).

(** The loops over a chain of ancestors: the line number goes through [lines],
    the walk stops at the first missing address.  Each step updates the
    ancestor (with the status check unless said otherwise) and goes to its
    referrer as seen by the callback. *)
Fixpoint walk (check : bool) (lines : list nat) (b : bu) (a : addr)
    (f : nat -> addr -> bu -> rinfo -> bu * rinfo) : M bu :=
  match lines with
  | [] => ret b
  | i :: rest =>
      if (a =? nobody)%N then ret b else
      let! (b, up) := bu_updatem b a check (fun b r =>
        let '(b, r') := f i a b r in ret (b, r', r_referrer r)) in
      walk check rest b up f
  end.

(** The nearest ancestor, starting with [a], that registration is not closed
    under (keeper.go:478-491, 1011-1024); "" when there is none.  The Go loop
    has no bound; here it stops after as many steps as there are records, which
    a chain without repetition cannot exceed. *)
Fixpoint nearest_open (fuel : nat) (b : bu) (a : addr) : M addr :=
  if (a =? nobody)%N then ret nobody else
  match fuel with
  | O => panic "endless loop"
  | S n =>
      let! r := get (bu_get b a) in
      let! closed := get (fun s => registration_closed s r) in
      if closed then nearest_open n b (r_referrer r) else ret a
  end.
Definition fuel_for (s : St) : nat := S (S (size (st_ref s))).

(** ** Operations *)

(** keeper.go:150-181 AddTopLevelAccount *)
Definition add_top_level (a : addr) : M unit :=
  recovered (
    let! ex := get (fun s => ref_exists s a) in
    do! ensure (negb ex) "the account already exists" in
    let! r := get (fun s => new_rinfo nobody (own_coins s a) (own_deleg s a)) in
    bu_commit (bu_set a r bu_new)).

(** keeper.go:213-281 appendChild *)
Definition append_child_core (parent child : addr) (skip_check set_compression : bool) : M unit :=
  do! ensure (negb (parent =? nobody)%N) "parent is nil" in
  let! ex := get (fun s => ref_exists s child) in
  do! ensure (negb ex) "the account already exists" in
  let! s := get id in
  let c := own_coins s child in
  let d := own_deleg s child in
  let r := new_rinfo parent c d in
  let r := if set_compression then r <| r_compression_at := Some (st_now s + compression_period s) |> else r in
  let b := bu_set child r bu_new in
  let! (b, (anc, closed)) := bu_update b parent true (fun r =>
    (add_line 1 c d (r <| r_referrals := r_referrals r ++ [child] |>),
     (r_referrer r, negb skip_check && registration_closed s r))) in
  let b := bu_call EvStake parent b in
  do! ensure (negb closed) "registration is closed" in
  let! b := walk true (seq 2 9) b anc (fun i a b r => (bu_call EvStake a b, add_line i c d r)) in
  bu_commit b.
(** keeper.go:209-211 AppendChild *)
Definition append_child (parent child : addr) : M unit := append_child_core parent child false true.

(** keeper.go:284-393 Compress *)
Definition line_shift (k : nat) (get_l : list Z) (l : list Z) : list Z :=
  let at_ i := default 0 (get_l !! i) in
  fold_left (fun l i => add_at (k + i) (at_ (i + 1)%nat - at_ i) l) (seq 1 (9 - k))
            (add_at k (at_ 1%nat) l).
Definition cnt_shift (k : nat) (get_l : list Z) (l : list Z) : list Z :=
  let at_ i := default 0 (get_l !! i) in
  fold_left (fun l i => add_cnt (k + i) (at_ (i + 1)%nat - at_ i) l) (seq 1 (9 - k))
            (add_cnt k (at_ 1%nat) l).
Definition keep_first (l : list Z) : list Z := default 0 (l !! 0%nat) :: repeat 0 10.
Definition compress (a : addr) : M unit :=
  let! dust := get (fun s => bp_dust (st_bp s)) in
  let! (b, old) := bu_updatem bu_new a false (fun b r =>
    if (r_referrer r =? nobody)%N then fail "it's a top-level account" else
    let b := bu_call EvStatus a (bu_call EvStake a b) in
    let r' := r <| r_referrals := [] |> <| r_arefs := [] |> <| r_cnt := repeat 0 11 |>
                <| r_coins := keep_first (r_coins r) |> <| r_deleg := keep_first (r_deleg r) |>
                <| r_compression_at := None |> <| r_status := 1 |> in
    do! set_index a (r_status r) 1 in
    let! own := lift "Int64() out of bound" (Frac.to_int64 (default 0 (r_deleg r !! 0%nat))) in
    let! r' := (if own <=? dust then schedule_banishment a r' else ret r') in
    ret (b, r', r)) in
  let parent := r_referrer old in
  let! b := mfold (r_referrals old) b (fun b child =>
    let! (b, _) := bu_update b child false (fun r => (r <| r_referrer := parent |>, tt)) in
    ret b) in
  let! b := walk true (seq 1 10) b parent (fun k x b r =>
    let r' := r <| r_coins := line_shift k (r_coins old) (r_coins r) |>
                <| r_deleg := line_shift k (r_deleg old) (r_deleg r) |>
                <| r_cnt := cnt_shift k (r_cnt old) (r_cnt r) |> in
    (bu_call EvStake x b,
     if (k =? 1)%nat
     then r' <| r_referrals := r_referrals r ++ r_referrals old |>
             <| r_arefs := Lists.merge_sorted N.compare (r_arefs r) (r_arefs old) |>
     else r')) in
  bu_commit b.

(** keeper.go:471-539: a banished account whose stake has grown again returns
    under its nearest open ancestor *)
Definition revive (a : addr) (b : bu) (r : rinfo) : M (bu * rinfo) :=
  let! f := get fuel_for in
  let! parent := nearest_open f b (r_referrer r) in
  let c := default 0 (r_coins r !! 0%nat) in
  let d := default 0 (r_deleg r !! 0%nat) in
  let r := r <| r_referrer := parent |> <| r_banished := false |> <| r_status := 1 |> in
  if (parent =? nobody)%N then ret (b, r) else
  let! (b, up) := bu_update b parent true (fun p =>
    (add_line 1 c d (p <| r_referrals := r_referrals p ++ [a] |>), r_referrer p)) in
  if ((c =? 0) && (d =? 0)) || (up =? nobody)%N then ret (b, r) else
  let! b := walk true (seq 2 9) b up (fun i _ b p => (b, add_line i c d p)) in
  ret (b, r).

(** keeper.go:428-566 OnBalanceChanged *)
Definition on_balance_changed (a : addr) : M unit :=
  let! s := get id in
  let nb := own_coins s a in
  let nd := own_deleg s a in
  let dust := bp_dust (st_bp s) in
  let! out := try (bu_updatem bu_new a true (fun b r =>
    if r_empty r then throw ErrNotFound else
    let dc := nb - default 0 (r_coins r !! 0%nat) in
    let dd := nd - default 0 (r_deleg r !! 0%nat) in
    let finish (b : bu) (r : rinfo) :=
      (b, r <| r_coins := <[ 0%nat := nb ]> (r_coins r) |> <| r_deleg := <[ 0%nat := nd ]> (r_deleg r) |>,
       (dc, dd, r_referrer r, r_banished r)) in
    if dd =? 0 then ret (finish b r) else
    let b := bu_call EvStake a b in
    if r_active r then ret (finish b r) else
    let! ndi := lift "Int64() out of bound" (Frac.to_int64 nd) in
    if ndi <=? dust then
      if negb (r_referrer r =? nobody)%N && negb (r_banished r) &&
         (match r_banishment_at r with None => true | Some _ => false end) &&
         (match r_compression_at r with None => true | Some t => t <? st_now s end)
      then let! r := schedule_banishment a r in ret (finish b r)
      else ret (finish b r)
    else
      let! r := match r_banishment_at r with
                | Some t => do! delete_task t HBanish a in ret (r <| r_banishment_at := None |>)
                | None => ret r
                end in
      if r_banished r then let! (b, r) := revive a b r in ret (finish b r)
      else ret (finish b r))) in
  match out with
  | inr ErrNotFound => ret tt
  | inr e => throw e
  | inl (b, (dc, dd, node, banished)) =>
      let! b := (if banished then ret b else
        walk true (seq 1 10) b node (fun i x b r =>
          (if dd =? 0 then b else bu_call EvStake x b, add_line i dc dd r))) in
      bu_commit b
  end.

(** keeper.go:568-639 SetActive *)
Definition set_active (a : addr) (value check : bool) : M unit :=
  let! s := get id in
  let delta := if value then 1 else -1 in
  let! (b, o) := bu_updatem bu_new a false (fun b r =>
    if Bool.eqb (r_active r) value then ret (b, r, None) else
    let r' := r <| r_active := value |> <| r_cnt := add_cnt 0 delta (r_cnt r) |>
                <| r_compression_at := if value then None else Some (st_now s + compression_period s) |> in
    let! r' := match r_banishment_at r with
               | Some t => if value
                           then do! delete_task t HBanish a in ret (r' <| r_banishment_at := None |>)
                           else ret r'
               | None => ret r'
               end in
    ret (b, r', Some (r_referrer r))) in
  match o with
  | None => ret tt
  | Some parent =>
      let! b := walk check (seq 1 10) b parent (fun i _ b r =>
        let r' := r <| r_cnt := add_cnt i delta (r_cnt r) |> in
        (b, if (i =? 1)%nat
            then r' <| r_arefs := if value then fst (Lists.add_sorted N.compare (r_arefs r) a)
                                  else fst (Lists.remove_ordered N.compare (r_arefs r) a) |>
            else r')) in
      do! (if negb (parent =? nobody)%N && negb value
           then schedule_compression (st_now s + compression_period s) a else ret tt) in
      bu_commit b
  end.
(** keeper.go:641-655 MustSetActive, MustSetActiveWithoutStatusUpdate *)
Definition must_set_active (a : addr) (value : bool) : M unit := must (set_active a value true).

(** keeper.go:1238-1284 validateTransition *)
Fixpoint walk_up (fuel : nat) (stop : addr) (a : addr) : M unit :=
  if (a =? nobody)%N then ret tt else
  if (a =? stop)%N then fail "cycles are not allowed" else
  match fuel with
  | O => panic "endless loop"
  | S n => let! r := get (fun s => ref_get s a) in walk_up n stop (r_referrer r)
  end.
Definition validate_transition (subject parent : addr) (fresh : bool) : M unit :=
  do! ensure (negb (parent =? nobody)%N) "invalid destination address" in
  do! ensure (negb (subject =? parent)%N) "subject cannot be their own referral" in
  let! r := get (fun s => ref_get s subject) in
  do! (if fresh then ensure (r_transition r =? nobody)%N "transition is already requested"
       else ensure (r_transition r =? parent)%N "no such transition") in
  do! ensure (negb (r_referrer r =? parent)%N) "destination is already the referrer" in
  let! p := get (fun s => ref_get s parent) in
  let! closed := get (fun s => registration_closed s p) in
  do! ensure (negb closed) "registration is closed" in
  let! f := get fuel_for in
  walk_up f subject (r_referrer p).

(** keeper.go:749-778 CancelTransition *)
Definition cancel_transition (a : addr) : M unit :=
  let! r := get (fun s => ref_get s a) in
  modify (fun s => s <| st_ref := <[ a := r <| r_transition := nobody |> ]> (st_ref s) |>).

(** keeper.go:806-866: the two sides of a transition.  The subtree's lines
    0..10-level move to the lines level..10 of the ancestor at that level. *)
Definition zip_lines (sign : Z) (level : nat) (src : list Z) (l : list Z) : list Z :=
  fold_left (fun l i => add_at i (sign * default 0 (src !! (i - level)%nat)) l) (seq level (11 - level)) l.
Definition zip_cnt (sign : Z) (level : nat) (src : list Z) (l : list Z) : list Z :=
  fold_left (fun l i => add_cnt i (sign * default 0 (src !! (i - level)%nat)) l) (seq level (11 - level)) l.
Definition move_lines (sign : Z) (level : nat) (src : rinfo) (r : rinfo) : rinfo :=
  r <| r_coins := zip_lines sign level (r_coins src) (r_coins r) |>
    <| r_deleg := zip_lines sign level (r_deleg src) (r_deleg r) |>
    <| r_cnt := zip_cnt sign level (r_cnt src) (r_cnt r) |>.
Fixpoint index_of (x : addr) (l : list addr) : nat :=
  match l with [] => 0 | y :: r => if (x =? y)%N then 0 else S (index_of x r) end.

Fixpoint affirm_up (levels : list nat) (src : rinfo) (b : bu) (old new : addr) : M bu :=
  match levels with
  | [] => ret b
  | level :: rest =>
      if (old =? new)%N then ret b else
      let! (b, old') := (if (old =? nobody)%N then ret (b, old) else
        bu_update b old true (fun r => (move_lines (-1) level src r, r_referrer r))) in
      let! (b, new') := (if (new =? nobody)%N then ret (b, new) else
        bu_update b new true (fun r => (move_lines 1 level src r, r_referrer r))) in
      affirm_up rest src b old' new'
  end.
(** keeper.go:782-893 AffirmTransition *)
Definition affirm_transition (subject : addr) : M unit :=
  let! r := get (fun s => ref_get s subject) in
  let new_parent := r_transition r in
  do! validate_transition subject new_parent false in
  let old_parent := r_referrer r in
  let short l := (List.length l <? 10)%nat in
  do! modify (fun s => s <| st_ref :=
    <[ subject := r <| r_referrer := new_parent |> <| r_transition := nobody |> ]> (st_ref s) |>) in
  must (
    let! (b, old_anc) := bu_updatem bu_new old_parent true (fun b p =>
      let l := r_referrals p in
      do! assert (index_of subject l <? List.length l)%nat "index out of range" in
      let l := match last l with Some z => removelast (<[ index_of subject l := z ]> l) | None => l end in
      let l := fst (Lists.remove_fast N.compare l subject) in
      do! assert (negb (short (r_coins r) || short (r_deleg r) || short (r_cnt r))) "index out of range" in
      let p' := p <| r_referrals := l |>
                  <| r_arefs := if r_active r then fst (Lists.remove_fast N.compare (r_arefs p) subject)
                                else r_arefs p |> in
      ret (b, move_lines (-1) 1 r p', r_referrer p)) in
    let! (b, new_anc) := bu_update b new_parent true (fun p =>
      let p' := p <| r_referrals := r_referrals p ++ [subject] |>
                  <| r_arefs := if r_active r then r_arefs p ++ [subject] else r_arefs p |> in
      (move_lines 1 1 r p', r_referrer p)) in
    let! b := affirm_up (seq 2 9) r b old_anc new_anc in
    bu_commit b).

(** keeper.go:909-1001 Banish, up to the commit; the "banished" callback
    follows in [Delegating.v] *)
Definition banish_core (a : addr) : M unit :=
  let! dust := get (fun s => bp_dust (st_bp s)) in
  let! (b, (parent, c, d)) := bu_updatem bu_new a false (fun b r =>
    let d := default 0 (r_deleg r !! 0%nat) in
    do! ensure (negb (r_referrer r =? nobody)%N) "it's a top-level account" in
    do! ensure (negb (r_active r)) "account is active" in
    let! di := lift "Int64() out of bound" (Frac.to_int64 d) in
    do! ensure (di <=? dust) "account has delegation" in
    do! ensure (negb (r_banished r)) "already banished" in
    ret (b, r <| r_banished := true |> <| r_status := 0 |> <| r_compression_at := None |>
              <| r_downgrade_at := None |> <| r_banishment_at := None |>,
         (r_referrer r, default 0 (r_coins r !! 0%nat), d))) in
  let! (b, up) := bu_update b parent true (fun p =>
    (add_line 1 (- c) (- d) (p <| r_referrals := fst (Lists.remove_fast N.compare (r_referrals p) a) |>),
     r_referrer p)) in
  let! b := (if (up =? nobody)%N || ((c =? 0) && (d =? 0)) then ret b else
    walk true (seq 2 9) b up (fun i _ b p => (b, add_line i (- c) (- d) p))) in
  bu_commit b.

(** keeper.go:1004-1077 ComeBack *)
Definition come_back (a : addr) : M unit :=
  let! (b, (parent, c, d)) := bu_updatem bu_new a false (fun b r =>
    let! f := get fuel_for in
    let! parent := nearest_open f b (r_referrer r) in
    ret (b, r <| r_referrer := parent |> <| r_banished := false |> <| r_banishment_at := None |>
              <| r_compression_at := None |> <| r_status := 1 |>,
         (parent, default 0 (r_coins r !! 0%nat), default 0 (r_deleg r !! 0%nat)))) in
  let! b := (if (parent =? nobody)%N then ret b else
    let! (b, up) := bu_update b parent true (fun p =>
      (add_line 1 c d (p <| r_referrals := r_referrals p ++ [a] |>), r_referrer p)) in
    if (up =? nobody)%N || ((c =? 0) && (d =? 0)) then ret b else
    walk true (seq 2 9) b up (fun i _ b p => (b, add_line i c d p))) in
  bu_commit b.

(** hooks.go:78-108 performDowngrade (an error becomes a panic) *)
Definition perform_downgrade (a : addr) : M unit :=
  must (
    let! now := get st_now in
    let! (b, _) := bu_updatem bu_new a true (fun b r =>
      match r_downgrade_at r with
      | Some t => if now <? t then ret (b, r, tt) else
                  do! set_index a (r_status r) (prev_status (r_status r)) in
                  ret (b, r <| r_status := prev_status (r_status r) |> <| r_downgrade_at := None |>, tt)
      | None => ret (b, r, tt)
      end) in
    bu_commit (bu_call EvStatus a b)).
(** hooks.go:110-120 performCompression *)
Definition perform_compression (a : addr) : M unit :=
  let! r := get (fun s => ref_get s a) in
  let! now := get st_now in
  match r_compression_at r with
  | None => ret tt
  | Some t => if now <? t then ret tt else must (compress a)
  end.
(** hooks.go:51-55 PerformTransitionTimeout *)
Definition perform_transition_timeout (a : addr) : M unit := must (cancel_transition a).

(** ** Validators' share of the fees: keeper.go:98-127, 1090-1148 *)
Definition vfee_table : list (Z * frac * nat) :=
  [(3, Frac.permille 1, 4%nat); (4, Frac.permille 2, 6%nat); (5, Frac.permille 3, 10%nat);
   (6, Frac.permille 4, 12%nat); (7, Frac.permille 5, 14%nat); (9, Frac.permille 6, 20%nat)].
(** The largest entry the ancestor at distance [i] is entitled to. *)
Fixpoint vfee_rank (st : Z) (i : nat) (j : nat) : option nat :=
  match j with
  | O => None
  | S n => match vfee_table !! n with
           | Some (s, _, lvl) => if (s <=? st) && (i <? lvl)%nat then Some n else vfee_rank st i n
           | None => vfee_rank st i n
           end
  end.
Definition vfee_ratio (j : nat) : frac :=
  match vfee_table !! j with Some (_, f, _) => f | None => Frac.frac_zero end.
Fixpoint vfees_up (n i : nat) (highest : option nat) (s : St) (a : addr) : option (list (addr * frac)) :=
  match n with
  | O => Some []
  | S n' =>
      if (a =? nobody)%N then Some [] else
      let r := ref_get s a in
      let take_ :=
        if is_active_validator s a then
          match vfee_rank (r_status r) i 6 with
          | Some j => match highest with
                      | None => Some (j, Some (vfee_ratio j))
                      | Some h => if (h <? j)%nat then Some (j, Frac.sub (vfee_ratio j) (vfee_ratio h)) else None
                      end
          | None => None
          end
        else None in
      match take_ with
      | None => vfees_up n' (S i) highest s (r_referrer r)
      | Some (j, None) => None
      | Some (j, Some f) =>
          match vfees_up n' (S i) (Some j) s (r_referrer r) with
          | Some l => Some ((a, f) :: l)
          | None => None
          end
      end
  end.
