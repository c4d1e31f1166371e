(** * What happens in a history, step by step *)
From Verif Require Export App Spec_Schedule.

(** A scheduled task is carried out, or a message of a successful transaction. *)
Inductive step := STask (t : task) | SMsg (m : msg).

(** Each of the tasks together with the state it finds *)
Fixpoint task_steps (ts : list task) (s : St) : list (step * St) :=
  match ts with
  | [] => []
  | t :: r => (STask t, s) :: task_steps r (after_task hooks t s)
  end.
(** Each of the messages together with the state it finds *)
Fixpoint msg_steps (ms : list msg) (s : St) : list (step * St) :=
  match ms with
  | [] => []
  | m :: r => (SMsg m, s) :: msg_steps r (fst (run_msg m s))
  end.
(** Transactions that fail are undone, so their messages do not count. *)
Definition tx_steps (t : tx) (s : St) : list (step * St) :=
  if snd (deliver_tx t s) then msg_steps (tx_msgs t) (fst (ante t s)) else [].
Fixpoint txs_steps (ts : list tx) (s : St) : list (step * St) :=
  match ts with
  | [] => []
  | t :: r => tx_steps t s ++ txs_steps r (fst (deliver_tx t s))
  end.
(** The state the schedule is started in: the clock has been set and the
    noding module has paid the proposer and judged the validators. *)
Definition before_schedule (b : block) (s : St) : St :=
  fst (noding_begin (b_proposer b) (b_votes b) (b_evs b)
         (s <| st_now := b_time b |> <| st_height := st_height s + 1 |>)).
(** The tasks due, in the order of their times *)
Definition due_tasks (s : St) : list task := flat_map (tasks_at s) (due_keys s).
Definition block_steps (b : block) (s : St) : list (step * St) :=
  task_steps (due_tasks (before_schedule b s)) (before_schedule b s) ++
  txs_steps (b_txs b) (fst (begin_block b s)).
Fixpoint steps (bs : list block) (s : St) : list (step * St) :=
  match bs with
  | [] => []
  | b :: r => block_steps b s ++ match run_block b s with Some (s1, _) => steps r s1 | None => [] end
  end.
