(** * What the schedule properties talk about *)
From Verif Require Import App.

(** Byte strings in the order of the store: at the first difference the smaller
    byte decides, a proper prefix comes first. *)
Fixpoint bytes_before (x y : list Z) : Prop :=
  match x, y with
  | _, [] => False
  | [], _ :: _ => True
  | a :: x', b :: y' => a < b \/ (a = b /\ bytes_before x' y')
  end.

(** The tasks waiting for the instant [k]. *)
Definition tasks_at (s : St) (k : time) : list task := default [] (st_sched s !! k).

(** A well-formed schedule: nothing empty is stored, every task is stored under
    its own time, and only acceptable times occur. *)
Definition sched_ok (s : St) : Prop :=
  forall k ts, st_sched s !! k = Some ts ->
    ts <> [] /\ Forall (fun t => t_time t = k) ts /\ 0 <= k < time_limit.

(** [ts] lists the tasks due at or before [now]: by time, and in the order they
    were scheduled within one instant. *)
Definition due_in_order (now : time) (s : St) (ts : list task) : Prop :=
  exists ks, StronglySorted Z.lt ks /\ (forall k, k ∈ ks <-> k <= now /\ tasks_at s k <> []) /\
             ts = flat_map (tasks_at s) ks.

(** One task is handed to its hook.  What the hook did stays even if it fails;
    the failure is logged. *)
Definition after_task (hooks : hook -> option (N -> time -> M unit)) (t : task) (s : St) : St :=
  match hooks (t_hook t) with
  | None => s <| st_log := st_log s ++ [LNoHook t] |>
  | Some h =>
      let s1 := fst (h (t_data t) (t_time t) s) in
      match snd (h (t_data t) (t_time t) s) with
      | Ok _ => s1
      | _ => s1 <| st_log := st_log s1 ++ [LTaskFailed t] |>
      end
  end.
(** The tasks one after the other, each exactly once. *)
Fixpoint after_tasks hooks (ts : list task) (s : St) : St :=
  match ts with
  | [] => s
  | t :: r => after_tasks hooks r (after_task hooks t s)
  end.
