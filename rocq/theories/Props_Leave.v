(** * C112, C113: validators can leave and come back, respondents can answer *)
From Coq Require Import QArith.
From Verif Require Import Spec_Pure LiveProofs LiveNode Props_Live Props_Noding Props_Voting Spec_Live Spec_Noding Spec_Voting Witness.
Open Scope Z_scope.

(** ** C112 *)

(** Whoever runs a validator can switch it off, in any state of the chain. It is then no
    validator, and nobody else's record has changed. *)
Theorem C112_off : forall a s, acc_exists s a = true -> is_Some (st_val s !! a) ->
  exists s', accepted (MOff a) s s' /\ is_validator s' a = false /\ forall b, b <> a -> st_val s' !! b = st_val s !! b.
Proof.
  intros a s HA [x Hx]. apply accept; [done|]. eapply wp_mono; [exact (wp_off a x s Hx)|].
  intros [] s' ((y & Ey & Y) & HB). split; [|done]. unfold is_validator. rewrite Ey. unfold n_active. by rewrite Y.
Qed.
Print Assumptions C112_off.

(** Whoever is in jail can leave it when the time is over. The validator is then on if it
    was on before, is qualified and not banned; nobody else's record has changed. *)
Theorem C112_unjail : forall a x s, healthy s -> acc_exists s a = true -> st_val s !! a = Some x -> n_jailed x = true -> n_unjail_at x <= st_height s ->
  exists s', accepted (MUnjail a) s s' /\ jailed s' a = false /\
    (is_validator s' a = true <-> n_status x = true /\ qualified s a /\ n_banned x = false) /\ forall b, b <> a -> st_val s' !! b = st_val s !! b.
Proof.
  intros a x s H HA Hx J U. apply accept; [done|]. eapply wp_mono; [exact (wp_unjail a x s H Hx J U)|].
  intros [] s' ((y & Ey & Y1 & Y2 & Y3) & HB). split; [unfold jailed; by rewrite Ey|]. split; [|done].
  unfold is_validator. rewrite Ey. unfold n_active. rewrite Y1, Y2. cbn [negb]. rewrite andb_true_r, andb_true_iff, negb_true_iff. tauto.
Qed.
Print Assumptions C112_unjail.

(** Account 11 has missed two blocks and waits in jail *)
Definition wj : St := after (replicate 5 (blk (T0 + 8 * sec) [])) wm.
Example C112_witness : healthy wj /\ acc_exists wj 11 = true /\ jailed wj 11 = true /\
  (exists x, st_val wj !! 11%N = Some x /\ n_jailed x = true /\ n_unjail_at x <= st_height wj /\ n_status x = true /\ n_banned x = false) /\
  is_validator (exec (run_msg (MUnjail 11)) wj) 11 = true.
Proof.
  split; [apply healthy_checked, (bool_decide_unpack _); vm_compute; exact I|]. split; [by vm_compute|]. split; [by vm_compute|].
  split; [|by vm_compute].
  assert (B : match st_val wj !! 11%N with Some x => n_jailed x && (n_unjail_at x <=? st_height wj) && n_status x && negb (n_banned x) | None => false end = true) by (by vm_compute).
  revert B. generalize wj. intros s B. destruct (st_val s !! 11%N) as [x|]; [|done]. exists x. rewrite !andb_true_iff, negb_true_iff in B. split; [done|].
  destruct B as (((? & ?) & ?) & ?). split_and!; try done; lia.
Qed.

(** ** C113 *)

(** Any member of the government can start a poll when none is running *)
Theorem C113_start : forall a n q f r s, acc_exists s a = true -> a ∈ st_gov s -> st_poll s = None -> poll_valid n q f r = Some true ->
  - 2^63 <= st_pperiod s * hour < 2^63 -> 0 <= st_now s + st_pperiod s * hour < time_limit ->
  exists s', accepted (MStartPoll a n q f r) s s' /\ st_poll s' = Some (mkPoll n a q (st_now s) (st_now s + st_pperiod s * hour) f r).
Proof.
  intros a n q f r s HA HG HP HV HW HT. apply accept; [done|]. cbn [run_msg]. unfold msg_start_poll.
  apply wp_bind. apply (wp_lift _ _ true); [done|]. apply wp_bind, wp_ensure; [done|]. apply wp_bind, wp_get. change (id s) with s. rewrite HP.
  apply wp_bind, wp_ensure; [unfold gov_contains; by apply bool_decide_eq_true|]. cbv zeta. rewrite FracProofs.wrap64_id by done. apply wp_bind.
  eapply wp_mono; [by apply wp_schedule|]. intros [] s1 (x & i & ->). apply wp_modify. done.
Qed.
Print Assumptions C113_start.

(** Whoever meets the requirement of the poll and has not answered yet can answer, and the
    answer is kept. (That it is counted is C60.) *)
Theorem C113_answer : forall a yes p s, acc_exists s a = true -> st_poll s = Some p -> st_answers s !! a = None -> may_answer (po_req p) s a ->
  (po_req p = ReqValidate -> healthy s /\ (11 <= List.length (r_deleg (ref_get s a)))%nat) ->
  exists s', accepted (MAnswer a yes) s s' /\ st_answers s' = <[ a := yes ]> (st_answers s) /\ st_poll s' = Some p.
Proof.
  intros a yes p s HA HP HN HM HQ. apply accept; [done|]. by apply wp_answer.
Qed.
Print Assumptions C113_answer.

Definition c113s : St := after [blk (T0 + sec) [tx1 (MStartPoll 10 1 1 (Some (Frac.Fr 1 2)) ReqValidate)]] w0.
Example C113_witness : acc_exists w0 10 = true /\ st_gov w0 = [10; 11]%N /\ st_poll w0 = None /\ poll_valid 1 1 (Some (Frac.Fr 1 2)) ReqValidate = Some true /\
  st_pperiod w0 * hour = 86400000000000 /\ st_now w0 + 86400000000000 < time_limit /\
  acc_exists c113s 10 = true /\ option_map po_req (st_poll c113s) = Some ReqValidate /\ st_answers c113s !! 10%N = None /\
  on_staff c113s 10 = true /\ healthy c113s /\ List.length (r_deleg (ref_get c113s 10)) = 11%nat /\
  ok (eval (run_msg (MAnswer 10 true)) c113s) = true /\ ok (eval (run_msg (MAnswer 12 true)) c113s) = false.
Proof.
  do 10 (split; [by vm_compute|]). split; [apply healthy_checked, (bool_decide_unpack _); vm_compute; exact I|]. split_and!; by vm_compute.
Qed.
