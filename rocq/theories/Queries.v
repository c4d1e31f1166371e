(** * Model of the query servers

    A query reads the state and answers; what it writes (x/earning/keeper/keeper.go:49-85
    clears outdated confirmations while reading them) is thrown away with the
    branch of the store it works on.  So a query is either a function of the
    state or a computation of which only the result counts ([eval]).  Parsing of
    addresses and times and the encoding of answers are not modelled.  The
    queries for parameters return the stored records and are left out. *)
From Verif Require Export Genesis.

(** ** Pages *)

(** int32 arithmetic *)
Definition wrap32 (z : Z) : Z := (z + 2147483648) mod 4294967296 - 2147483648.
(** The loop of x/earning/keeper/query_server.go:96-113 and
    x/voting/keeper/keeper.go:417-432 over what the iterator yields *)
Fixpoint page_loop {A} (start end_ current : Z) (l : list A) : list A :=
  match l with
  | [] => []
  | x :: r =>
      if current <? end_ then
        if current <? start then page_loop start end_ (wrap32 (current + 1)) r
        else x :: page_loop start end_ (wrap32 (current + 1)) r
      else []
  end.
Definition page_of {A} (limit page : Z) (l : list A) : list A :=
  page_loop (wrap32 (limit * wrap32 (page - 1))) (wrap32 (limit * page)) 0 l.

(** x/earning/keeper/query_server.go:79-116 List *)
Definition query_earners (s : St) (limit page : Z) : list (addr * (option time * option time)) :=
  page_of limit page (earn_export s).
(** x/earning/keeper/query_server.go:18-77 Get, GetMultiple *)
Definition query_earner (s : St) (a : addr) : option time * option time :=
  default (None, None) (st_earn s !! a).

(** x/voting/keeper/keeper.go:411-435 GetHistory (query_server.go:18-27 History) *)
Definition all_history (s : St) : list phist := omap (fun k => st_phist s !! k) (keysZ (st_phist s)).
Definition query_history (s : St) (limit page : Z) : list phist := page_of limit page (all_history s).
(** x/voting/keeper/keeper.go:688-707 GetPollHistory (query_server.go:95-105
    PollHistory).  The paginated iterator of the SDK skips (page-1)*limit records
    in uint arithmetic and stops after limit; modelled for pages from 1. *)
Definition all_polls (s : St) : list pollhist := omap (fun k => st_pollhist s !! k) (keysZ (st_pollhist s)).
Definition query_poll_history (s : St) (limit page : Z) : list pollhist :=
  if 0 <? limit then take (Z.to_nat limit) (drop (Z.to_nat ((page - 1) * limit)) (all_polls s))
  else all_polls s.
(** x/voting/keeper/query_server.go:77-93 Poll *)
Definition query_poll (s : St) : option (poll * Z * Z) :=
  match st_poll s with Some p => Some (p, st_yes s, st_no s) | None => None end.
(** x/voting/keeper/query_server.go:40-64 Current: proposal, government, agreed, disagreed *)
Definition query_current (s : St) : option proposal * list addr * list addr * list addr :=
  match st_cur s with
  | None => (None, [], [], [])
  | Some p => (Some p, st_gov s, st_agreed s, st_disagreed s)
  end.

(** ** Schedule: x/schedule/keeper/query_server.go:20-45 All, 47-72 Get *)
Definition query_tasks (s : St) : list task :=
  flat_map (fun k => default [] (st_sched s !! k)) (keysZ (st_sched s)).
Definition query_tasks_between (since to : time) : M (list task) := get_tasks since to.

(** ** Delegation *)

(** x/delegating/keeper/keeper.go:177-184 GetRevoking (query_server.go:33-39) *)
Definition query_revoking (s : St) (a : addr) : list request :=
  match st_del s !! a with Some r => d_reqs r | None => [] end.

(** x/delegating/keeper/keeper.go:201-253 GetAccumulation (query_server.go:41-46):
    start, end, rate per month in percent, rate per day, total,
    current, part missed *)
Record accumulation := mkAcc {
  ac_start : time; ac_end : time; ac_percent : Z; ac_daily : frac;
  ac_total : Z; ac_current : Z; ac_missed : option frac }.
Definition query_accumulation (a : addr) : M accumulation :=
  let! r := get (fun s => st_del s !! a) in
  match r with
  | None => fail "nothing delegated"
  | Some item =>
      match d_next item with
      | None => fail "nothing delegated"
      | Some next =>
          let! day := get one_day in
          let start := next - day in
          let! now := get st_now in
          let! part := fr (Frac.reduce (Frac.new_fraction (sat64 (now - start)) day)) in
          let! delegated := get (fun s => own_deleg s a) in
          let! (prof, val, vpn, st) := bonus_flags a in
          let! pc := get (fun s => percent s delegated prof val vpn st) in
          let! pc := fr pc in
          let! d := lift "Int64() out of bound" (Frac.to_int64 delegated) in
          let! total := fr (oget (Frac.mul_int pc d) Frac.reduce) in
          let! current := fr (Frac.mul total part) in
          let! (total, current) := match d_missed item with
            | None => ret (total, current)
            | Some m =>
                let! x := fr (Frac.mul m total) in
                let! t := fr (Frac.sub total x) in
                let! c := fr (Frac.sub current x) in
                ret (t, c)
            end in
          let! monthly := fr (oget (Frac.mul_int pc 3000) Frac.int64) in
          let! total := fr (Frac.int64 total) in
          let! current := fr (Frac.int64 current) in
          ret (mkAcc start next monthly pc total current (d_missed item))
      end
  end.

(** ** Validators *)

(** x/noding/keeper/keeper.go:926-947 GetValidatorState (query_server.go:160-180 State) *)
Inductive vstate := VOff | VBan | VJail | VSpare | VTop | VLucky.
Definition query_state (s : St) (a : addr) : vstate :=
  match st_val s !! a with
  | None => VOff
  | Some x =>
      if n_banned x then VBan else
      if n_jailed x then VJail else
      if negb (n_status x) then VOff else
      if n_power x =? 0 then VSpare else
      if n_lottery x =? 0 then VTop else VLucky
  end.
(** x/noding/keeper/query_server.go:77-97 IsAllowed (the reason is not modelled) *)
Definition query_is_allowed (a : addr) : M bool :=
  let! (q, _) := is_qualified a in ret q.
(** x/noding/keeper/query_server.go:120-134 SwitchedOn: keeper.go:547-565 GetActiveValidatorList *)
Definition query_switched_on (s : St) : list addr :=
  List.filter (is_validator s) (keysN (st_val s)).
(** x/noding/keeper/query_server.go:136-158 Queue *)
Definition query_queue (s : St) : list (Z * addr) :=
  omap (fun k => option_map (pair k) (st_lottery s !! k)) (keysZ (st_lottery s)).
(** x/noding/keeper/query_server.go:56-75 Proposer *)
Definition query_proposer (s : St) (h : Z) : option addr := st_proposers s !! h.

(** ** The referral network *)

(** x/referral/keeper/keeper.go:398-411 GetCoinsInNetwork *)
Definition coins_in_network (a : addr) (depth : Z) : M Z :=
  let depth := if depth <=? 0 then 10 else depth in
  let! r := get (fun s => ref_get s a) in
  lift "index out of range" (sum_upto (Nat.min (lines_opened (r_status r)) (Z.to_nat depth)) (r_coins r)).
(** x/referral/keeper/keeper.go:416-426 GetDelegatedInNetwork: a negative depth
    gives an empty sum *)
Definition delegated_to_depth (a : addr) (depth : Z) : M Z :=
  if depth <? 0 then ret 0 else delegated_in_network a (Z.to_nat depth).
(** x/referral/keeper/query_server.go:36-54 Coins: total, delegated *)
Definition query_coins (a : addr) (depth : Z) : M (Z * Z) :=
  let! n := coins_in_network a depth in
  let! d := delegated_to_depth a depth in
  ret (n, d).
(** x/referral/keeper/query_server.go:56-65 CheckStatus: keeper.go:138-147
    AreStatusRequirementsFulfilled (the Overall flag); types/types.go:22-27 Validate *)
Definition query_check_status (a : addr) (st : Z) : M bool :=
  do! ensure ((1 <=? st) && (st <=? 9) && negb (st =? 8)) "no such status" in
  let! s := get id in
  lift "status requirements" (status_req (ref_get s) (ref_get s a) st).
(** x/referral/keeper/query_server.go:67-76 ValidateTransition: [true] if there is no error *)
Definition query_transition (subject parent : addr) : M bool :=
  let! r := try (validate_transition subject parent true) in
  ret (match r with inl _ => true | inr _ => false end).

(** ** Profiles: x/profile/keeper/query_server.go:15-50.  A missing profile is
    dereferenced. *)
Definition query_by_address (a : addr) : M profile :=
  let! p := get (fun s => st_prof s !! a) in
  match p with Some p => ret p | None => fail "not found" end.
Definition query_by_owner (o : option addr) : M (addr * profile) :=
  match o with
  | None => fail "not found"
  | Some a =>
      let! p := get (fun s => st_prof s !! a) in
      let! p := lift "nil pointer dereference" p in
      ret (a, p)
  end.
Definition query_by_nickname (n : list N) : M (addr * profile) :=
  let! o := get (fun s => nick_owner s n) in query_by_owner o.
Definition query_by_card (c : Z) : M (addr * profile) :=
  let! o := get (fun s => st_card s !! c) in query_by_owner o.

(** ** Accounts by status *)

(** x/referral/types/types.go:22-27 Status.Validate *)
Definition status_known (st : Z) : bool := (1 <=? st) && (st <=? 9) && negb (st =? 8).
(** x/referral/keeper/query_server.go:85-106 AllWithStatus; [None] for an error.
    The iterator goes through the accounts in the order of their keys. *)
Definition query_with_status (s : St) (st : Z) : option (list addr) :=
  if status_known st && (min_indexed <=? st)
  then Some (merge_sort N.le (map snd (List.filter (fun e => fst e =? st) (elements (st_index s)))))
  else None.
