(** * Model of x/schedule/keeper *)
From Verif Require Export Monad.

(** 2263-01-01T00:00:00Z, the first instant whose year is above 2262 *)
Definition time_limit : Z := 9246182400000000000.
(** x/schedule/keeper/keeper.go:161-164 Key: the accepted times *)
Definition key_ok (t : time) : bool := (0 <=? t) && (t <? time_limit).
(** x/schedule/keeper/keeper.go:161-168 Key: eight bytes, most significant
    first.  (UnixNano overflows int64 in 2262; the conversion to uint64 undoes
    the overflow.) *)
Definition key (t : time) : option (list Z) :=
  if key_ok t
  then Some (map (fun i => Z.shiftr t (8 * i) mod 256) [7; 6; 5; 4; 3; 2; 1; 0])
  else None.
(** The store below is indexed by the time itself; C15 shows that this is the
    same order as the byte order of the keys.  A rejected time panics. *)
Definition check_key (t : time) : M unit := assert (key_ok t) "time is out of range".

(** x/schedule/keeper/periods.go:9-13 *)
Definition one_day (s : St) : Z := st_day s.
Definition one_week (s : St) : Z := 7 * one_day s.
Definition one_month (s : St) : Z := 30 * one_day s.

(** x/schedule/keeper/keeper.go:50-66 GetTasks *)
Definition get_tasks (since to : time) : M (list task) :=
  do! check_key since in
  do! check_key to in
  get (fun s => flat_map (fun k => if (since <=? k) && (k <? to)
                                   then default [] (st_sched s !! k) else [])
                         (keysZ (st_sched s))).

(** x/schedule/keeper/keeper.go:72-85 scheduleTask *)
Definition schedule_task' (t : task) : M unit :=
  do! check_key (t_time t) in
  modify (fun s => s <| st_sched :=
    <[ t_time t := default [] (st_sched s !! t_time t) ++ [t] ]> (st_sched s) |>).
(** x/schedule/keeper/keeper.go:69-71 ScheduleTask *)
Definition schedule_task (t : time) (h : hook) (d : N) : M unit :=
  schedule_task' (Task t h d).

(** x/schedule/keeper/keeper.go:97-121 delete *)
Definition delete_where (t : time) (pred : task -> bool) : M unit :=
  do! check_key t in
  modify (fun s =>
    match st_sched s !! t with
    | None => s
    | Some items =>
        let filtered := List.filter (fun x => negb (pred x)) items in
        s <| st_sched := match filtered with
                         | [] => base.delete t (st_sched s)
                         | _ => <[ t := filtered ]> (st_sched s)
                         end |>
    end).
(** x/schedule/keeper/keeper.go:87-91 DeleteAll *)
Definition delete_all (t : time) (h : hook) : M unit :=
  delete_where t (fun x => bool_decide (t_hook x = h)).
(** x/schedule/keeper/keeper.go:92-96 Delete *)
Definition delete_task (t : time) (h : hook) (d : N) : M unit :=
  delete_where t (fun x => bool_decide (t_hook x = h) && bool_decide (t_data x = d)).

Section perform.
  (** The registered hooks (app/app.go:323-332). *)
  Context (hooks : hook -> option (N -> time -> M unit)).

  (** x/schedule/keeper/keeper.go:148-159 performSchedule: a panic is logged,
      what the hook has written so far stays. *)
  Definition perform_one (t : task) : M unit := fun s =>
    match hooks (t_hook t) with
    | None => (s <| st_log := st_log s ++ [LNoHook t] |>, Ok tt)
    | Some h =>
        match h (t_data t) (t_time t) s with
        | (s', Ok _) => (s', Ok tt)
        | (s', _) => (s' <| st_log := st_log s' ++ [LTaskFailed t] |>, Ok tt)
        end
    end.

  (** x/schedule/keeper/keeper.go:125-146 PerformSchedule: the iterator sees
      the store as it was when it was created; the keys it visited are deleted
      at the end. *)
  Definition due_keys (s : St) : list time :=
    List.filter (fun k => k <? st_now s + 1) (keysZ (st_sched s)).
  Definition perform_schedule : M unit :=
    let! now := get st_now in
    do! check_key (now + 1) in
    let! ks := get due_keys in
    let! batch := get (fun s => map (fun k => default [] (st_sched s !! k)) ks) in
    do! mfor batch (fun ts => mfor ts perform_one) in
    modify (fun s => s <| st_sched := foldr base.delete (st_sched s) ks |>).
End perform.

(** x/schedule/keeper/genesis.go:9-14 InitGenesis (tasks) *)
Definition sched_import (ts : list task) : M unit := mfor ts schedule_task'.
(** x/schedule/keeper/genesis.go:16-29 ExportGenesis (tasks) *)
Definition sched_export (s : St) : list task :=
  flat_map (fun k => default [] (st_sched s !! k)) (keysZ (st_sched s)).
