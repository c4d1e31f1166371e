(** * C15-C20: the schedule *)
From Verif Require Import Sweep Spec_Schedule ScheduleProofs Witness.

(** ** C15 *)

(** The keys of accepted times compare, byte by byte, as the times do. *)
Theorem C15_order : forall t1 t2 b1 b2, key t1 = Some b1 -> key t2 = Some b2 ->
  (bytes_before b1 b2 <-> t1 < t2) /\ (b1 = b2 <-> t1 = t2).
Proof. exact c15. Qed.
Print Assumptions C15_order.

(** The accepted times are those from 1970 to the end of 2262. *)
Theorem C15_accepted : forall t, (exists b, key t = Some b) <-> 0 <= t < time_limit.
Proof. exact c15_accepted. Qed.
Print Assumptions C15_accepted.

Theorem C15_bytes : forall t b, key t = Some b ->
  List.length b = 8%nat /\ Forall (fun x => 0 <= x < 256) b.
Proof. intros t b H. apply (key_value t b H). Qed.
Print Assumptions C15_bytes.

Example C15_witness : exists b1 b2, key 255 = Some b1 /\ key 256 = Some b2 /\ bytes_before b1 b2.
Proof. do 2 eexists. split; [reflexivity|]. split; [reflexivity|]. vm_compute. repeat (first [left; reflexivity|right; split; [reflexivity|]]). Qed.

(** ** C16 *)

(** Whatever the hooks do: one run of the schedule hands exactly the tasks due,
    in order, each once, to their hooks; the instants that were due are empty
    afterwards, and all others are as the tasks left them. *)
Theorem C16_due_once : forall hooks s, sched_ok s -> 0 <= st_now s -> st_now s + 1 < time_limit ->
  exists ts s', perform_schedule hooks s = (s', Ok tt) /\
    due_in_order (st_now s) s ts /\
    let s1 := after_tasks hooks ts s in
    s' = s1 <| st_sched := st_sched s' |> /\
    (forall k, k <= st_now s -> tasks_at s k <> [] -> tasks_at s' k = []) /\
    (forall k, k <= st_now s -> tasks_at s k = [] -> tasks_at s' k = tasks_at s1 k) /\
    (forall k, st_now s < k -> tasks_at s' k = tasks_at s1 k).
Proof. exact c16. Qed.
Print Assumptions C16_due_once.

(** A task is put behind the tasks already waiting for the same instant. *)
Theorem C16_scheduling_order : forall t h d s, 0 <= t < time_limit ->
  exists s', schedule_task t h d s = (s', Ok tt) /\ s' = s <| st_sched := st_sched s' |> /\
    tasks_at s' t = tasks_at s t ++ [Task t h d] /\
    forall k, k <> t -> tasks_at s' k = tasks_at s k.
Proof. intros. by apply c16_schedule. Qed.
Print Assumptions C16_scheduling_order.

(** The schedule is well-formed in every reachable state. *)
Theorem C16_well_formed : forall bs s s' us,
  run_blocks bs s = Some (s', us) -> sched_ok s -> sched_ok s'.
Proof. exact sched_ok_blocks. Qed.
Print Assumptions C16_well_formed.

Lemma w0_sched_ok : sched_ok w0.
Proof.
  assert (E : rel (keeps sched_ok) setup).
  { unfold setup, bank_init.
    repeat first [ solve [auto 8 with frame] | rel_struct | apply rel_modify; intros ? ]. }
  apply E. intros k ts H. change (st_sched empty_chain) with (∅ : gmap Z (list task)) in H.
  rewrite lookup_empty in H. discriminate.
Qed.
Definition b17 : block :=
  blk (T0 + 1) [tx1 (MDelegate 11 10000000000); tx1 (MRevoke 11 2000000000 true)].
Definition d17 (i : Z) : block := blk (T0 + i * day_ns + 2) [].
Definition w17 : St := after [b17; d17 1; d17 2; d17 3; d17 4; d17 5] w0.
Example C16_witness :
  sched_ok w17 /\ 0 <= st_now w17 < time_limit - 1 /\
  map (fun k => List.length (tasks_at w17 k)) (keysZ (st_sched w17)) = [1; 1; 5]%nat.
Proof.
  split; [|vm_compute; split; [split; congruence|reflexivity]].
  unfold w17, after. destruct (run_blocks _ w0) as [[s us]|] eqn:E; [|apply w0_sched_ok].
  eapply sched_ok_blocks; [exact E|apply w0_sched_ok].
Qed.

(** ** C17: refuted.  Account 11 delegates and revokes a part with the express
    period of seven days.  Blocks come once a day until day 5, then the chain
    stands still until day 7.  The first task of that block is the interest due
    on day 6; it schedules the next one for day 7, an instant that is part of the
    batch that is already running.  That task is neither run nor kept: account 11
    never gets interest again, although it is recorded as due on day 7. *)
Definition w17' : St := after [d17 7] w17.
Theorem C17_refuted : exists s s' us a t,
  run_blocks [d17 7] s = Some (s', us) /\ s = after [b17; d17 1; d17 2; d17 3; d17 4; d17 5] w0 /\
  (* interest is due at [t], the account still has more than the dust *)
  d_next (del_get a s') = Some t /\ t <= st_now s' /\ bp_dust (st_bp s') < own_deleg s' a /\
  (* it was the task that was due before that put it there *)
  d_next (del_get a s) = Some (t - st_day s) /\
  (* but no such task is waiting, and none has run or failed *)
  (forall k, Task t HAccrue a ∉ tasks_at s' k) /\ st_log s' = [].
Proof.
  destruct (after_runs [d17 7] w17) as [us Hus]; [vm_compute; reflexivity|].
  exists w17, w17', us, 11%N, (T0 + 7 * day_ns + 1).
  split; [exact Hus|]. split; [reflexivity|].
  split; [vm_compute; reflexivity|]. split; [vm_compute; congruence|].
  split; [vm_compute; reflexivity|]. split; [vm_compute; reflexivity|]. split; [|vm_compute; reflexivity].
  intros k Hk.
  eapply (all_tasks_spec (fun t => negb (bool_decide (t = Task (T0 + 7 * day_ns + 1) HAccrue 11)))) in Hk;
    [|vm_compute; reflexivity].
  rewrite bool_decide_true in Hk by done. discriminate.
Qed.
Print Assumptions C17_refuted.

(** What does hold: nothing that is scheduled for a later instant than the
    block's time is lost, and neither is a task scheduled for an instant at which
    nothing else was due. *)
Theorem C17_partial : forall hooks s s' t, sched_ok s -> 0 <= st_now s -> st_now s + 1 < time_limit ->
  perform_schedule hooks s = (s', Ok tt) ->
  forall ts, due_in_order (st_now s) s ts ->
  t ∈ tasks_at (after_tasks hooks ts s) (t_time t) ->
  (st_now s < t_time t \/ tasks_at s (t_time t) = []) ->
  t ∈ tasks_at s' (t_time t).
Proof.
  intros hooks s s' t Hok H0 H1 HP ts Hts Hin Hc.
  destruct (c16 hooks s Hok H0 H1) as (ts' & s'' & E & (ks & S1 & S2 & S3) & _ & _ & K2 & K3).
  rewrite E in HP. injection HP as <-. destruct Hts as (ks' & S1' & S2' & S3').
  assert (ks' = ks) as -> by (apply sorted_uniqueZ; [done|done|intros k; by rewrite S2, S2']).
  subst ts ts'.
  destruct Hc as [Hc|Hc]; [by rewrite K3|].
  destruct (Z_le_gt_dec (t_time t) (st_now s)); [by rewrite K2|rewrite K3; [done|lia]].
Qed.
Print Assumptions C17_partial.

(** ** C18 *)
Theorem C18_delete : forall t h d s s', delete_task t h d s = (s', Ok tt) ->
  s' = s <| st_sched := st_sched s' |> /\
  tasks_at s' t = List.filter (fun x => negb (bool_decide (t_hook x = h /\ t_data x = d))) (tasks_at s t) /\
  forall k, k <> t -> tasks_at s' k = tasks_at s k.
Proof.
  intros t h d s s' H. apply delete_where_at in H as (H1 & H2 & H3). split; [done|]. split; [|done].
  rewrite H2. apply filter_ext. intros x. f_equal. apply eq_true_iff_eq.
  rewrite andb_true_iff, !bool_decide_eq_true. done.
Qed.
Print Assumptions C18_delete.

Theorem C18_delete_all : forall t h s s', delete_all t h s = (s', Ok tt) ->
  s' = s <| st_sched := st_sched s' |> /\
  tasks_at s' t = List.filter (fun x => negb (bool_decide (t_hook x = h))) (tasks_at s t) /\
  forall k, k <> t -> tasks_at s' k = tasks_at s k.
Proof. intros t h s s' H. by apply delete_where_at in H. Qed.
Print Assumptions C18_delete_all.

(** Both succeed for every acceptable time. *)
Theorem C18_total : forall t h d s, 0 <= t < time_limit ->
  (exists s', delete_task t h d s = (s', Ok tt)) /\ (exists s', delete_all t h s = (s', Ok tt)).
Proof. intros. split; by apply delete_where_total. Qed.
Print Assumptions C18_total.

Example C18_witness :
  tasks_at (exec (delete_task (T0 + 60 * day_ns) HCompression 12) w0) (T0 + 60 * day_ns) =
  map (Task (T0 + 60 * day_ns) HCompression) [11; 13; 14; 15]%N.
Proof. vm_compute. reflexivity. Qed.

(** ** C19 *)
Theorem C19_export_import : forall s s0, sched_ok s -> st_sched s0 = ∅ ->
  exists s', sched_import (sched_export s) s0 = (s', Ok tt) /\
             s' = s0 <| st_sched := st_sched s |>.
Proof. exact c19. Qed.
Print Assumptions C19_export_import.

Example C19_witness : sched_ok w17 /\ List.length (sched_export w17) = 7%nat.
Proof. split; [apply C16_witness|vm_compute; reflexivity]. Qed.

(** ** C20 *)

(** Whatever tasks are due before and after it, a task that fails is only
    logged: the run succeeds, and the tasks behind it run from the state it left. *)
Theorem C20_failure_isolated : forall hooks s h l1 t l2 s1 r,
  sched_ok s -> 0 <= st_now s -> st_now s + 1 < time_limit ->
  due_in_order (st_now s) s (l1 ++ t :: l2) ->
  hooks (t_hook t) = Some h ->
  h (t_data t) (t_time t) (after_tasks hooks l1 s) = (s1, r) -> r <> Ok tt ->
  exists s', perform_schedule hooks s = (s', Ok tt) /\
    let s2 := after_tasks hooks l2 (s1 <| st_log := st_log s1 ++ [LTaskFailed t] |>) in
    s' = s2 <| st_sched := st_sched s' |> /\
    forall k, st_now s < k -> tasks_at s' k = tasks_at s2 k.
Proof.
  intros hooks s h l1 t l2 s1 r Hok H0 H1 Hdue Hh Hr Hf.
  destruct (c16 hooks s Hok H0 H1) as (ts & s' & E & (ks & S1 & S2 & S3) & F & _ & _ & K).
  destruct Hdue as (ks' & S1' & S2' & S3').
  assert (ks' = ks) as -> by (apply sorted_uniqueZ; [done|done|intros k; by rewrite S2, S2']).
  rewrite <- S3' in S3. subst ts. exists s'. split; [exact E|].
  rewrite after_tasks_app in F, K. cbn [after_tasks] in F, K.
  assert (A : after_task hooks t (after_tasks hooks l1 s) = s1 <| st_log := st_log s1 ++ [LTaskFailed t] |>).
  { unfold after_task. rewrite Hh, Hr. cbn. destruct r as [[]|e|e]; done. }
  rewrite A in F, K. split; [exact F|exact K].
Qed.
Print Assumptions C20_failure_isolated.

(** In the application: at the end of [w17]'s day 6 the schedule holds a task
    that fails (a stale one), and the block goes on. *)
Definition w20 : St := exec (schedule_task (T0 + 6 * day_ns) HAccrue 11) w17.
Example C20_witness :
  option_map (fun r => st_log (fst r)) (run_blocks [d17 6] w20) =
    Some [LTaskFailed (Task (T0 + 6 * day_ns) HAccrue 11)] /\
  option_map (fun r => d_next (del_get 11 (fst r))) (run_blocks [d17 6] w20) =
    Some (Some (T0 + 7 * day_ns + 1)).
Proof. vm_compute. auto. Qed.
