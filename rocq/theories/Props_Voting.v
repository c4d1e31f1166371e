(** * C55-C62 and C70: proposals and polls *)
From Coq Require Import QArith.
From Verif Require Import VotingGenesis Witness.
Open Scope Z_scope.

Definition sec : Z := 1000000000.
(** The initial state of the examples is one of the states the theorems start
    from. *)
Lemma no_tasks (h : hook) s : map_Forall (fun _ l => Forall (fun t => t_hook t <> h) l) (st_sched s) -> forall k t, t ∈ tasks_at s k -> t_hook t <> h.
Proof.
  intros H k t Ht. unfold tasks_at in Ht. destruct (st_sched s !! k) as [l|] eqn:E; [|by apply elem_of_nil in Ht].
  exact (proj1 (Forall_forall _ _) (H k l E) t Ht).
Qed.
Lemma w0_votes : voting_ok w0.
Proof.
  assert (N : st_cur w0 = None) by by vm_compute.
  assert (T : map_Forall (fun _ l => Forall (fun t => t_hook t <> HVote) l) (st_sched w0)) by (apply (bool_decide_unpack _); by vm_compute).
  assert (P : st_vperiod w0 = 24) by by vm_compute.
  revert N T P. generalize w0. intros s N T P. split.
  - rewrite N. discriminate.
  - rewrite N. discriminate.
  - intros k t H1 H2. destruct (no_tasks HVote s T k t H1 H2).
  - rewrite P. unfold hour. lia.
Qed.
Lemma w0_polls : poll_ok w0.
Proof.
  assert (N : st_poll w0 = None) by by vm_compute.
  assert (A : st_answers w0 = ∅) by by vm_compute.
  assert (Y : st_yes w0 = 0) by by vm_compute. assert (Y' : st_no w0 = 0) by by vm_compute.
  assert (T : map_Forall (fun _ l => Forall (fun t => t_hook t <> HPoll) l) (st_sched w0)) by (apply (bool_decide_unpack _); by vm_compute).
  assert (P : st_pperiod w0 = 24) by by vm_compute.
  revert N A Y Y' T P. generalize w0. intros s N A Y Y' T P. split.
  - rewrite Y. unfold answers. by rewrite A, map_to_list_empty.
  - rewrite Y'. unfold answers. by rewrite A, map_to_list_empty.
  - done.
  - rewrite N. discriminate.
  - rewrite N. discriminate.
  - intros k t H1 H2. destruct (no_tasks HPoll s T k t H1 H2).
  - rewrite P. unfold hour. lia.
Qed.
Lemma w0_filed : filed w0.
Proof.
  assert (A : st_phist w0 = ∅) by by vm_compute. assert (B : st_pollhist w0 = ∅) by by vm_compute.
  assert (C : st_agreed w0 = [] /\ st_disagreed w0 = [] /\ st_start w0 = 0) by (split_and!; by vm_compute).
  revert A B C. generalize w0. intros s A B C. split; rewrite ?A, ?B; done.
Qed.

(** ** C55 *)

(** Whatever the blocks contain, only the steps of the specification happen: the
    rules change only by the end of a proposal on which every member has voted
    and on which at least two thirds of them agreed, and then as proposed. *)
Theorem C55_history : forall bs s s' us, voting_ok s -> run_blocks bs s = Some (s', us) -> voting_ok s' /\ vsteps s s'.
Proof. intros bs s s' us HV HB. destruct (blocks_votes _ _ _ _ HV HB) as (H1 & H2 & _). done. Qed.
Print Assumptions C55_history.

(** So if any rule differs, some proposal had that majority and was enacted. *)
Theorem C55_changed : forall bs s s' us, voting_ok s -> run_blocks bs s = Some (s', us) -> ~ same_rules s s' ->
  exists s1 s2 p, vsteps s s1 /\ st_cur s1 = Some p /\ majority s1 /\ enacted (pr_act p) s1 s2 /\ vsteps s2 s'.
Proof.
  intros bs s s' us HV HB HN. destruct (blocks_votes _ _ _ _ HV HB) as (_ & H & _). clear HB HV.
  induction H as [s|s s1 s2 H1 H2 IH]; [destruct HN; apply same_rules_refl|].
  assert (D : same_rules s s1 \/ exists p, st_cur s = Some p /\ majority s /\ enacted (pr_act p) s s1).
  { destruct H1 as [?|? ?|? ? ?|? ? ?|? ? ?|p P1 P2 P3 P4 _ _]; [by left..|]. right. by exists p. }
  destruct D as [D|(p & P1 & P2 & P3)].
  - destruct IH as (s3 & s4 & p & I1 & I2); [intros X; apply HN; by eapply same_rules_trans|].
    exists s3, s4, p. split; [by eapply rtc_l|done].
  - exists s, s1, p. split_and!; try done.
Qed.
Print Assumptions C55_changed.

Definition price_blk : block := blk (T0 + sec) [tx1 (MPropose 10 1 (PEnterPrice 300000)); tx1 (MVote 11 true)].
Example C55_witness : voting_ok w0 /\ runs [price_blk] w0 = true /\
  pp_sub_price (st_pp w0) = 199000 /\ pp_sub_price (st_pp (after [price_blk] w0)) = 300000.
Proof. split; [apply w0_votes|]. split_and!; by vm_compute. Qed.

(** ** C56 *)

(** At any time the votes on the running proposal are of different accounts, all
    of them members of the government. *)
Theorem C56_votes : forall bs s s' us, voting_ok s -> run_blocks bs s = Some (s', us) ->
  forall p, st_cur s' = Some p -> NoDup (voters s') /\ forall a, a ∈ voters s' -> a ∈ st_gov s'.
Proof.
  intros bs s s' us HV HB p HC. destruct (blocks_votes _ _ _ _ HV HB) as (H1 & _). destruct (vo_votes _ H1 p HC) as (? & ? & _). done.
Qed.
Print Assumptions C56_votes.

(** A vote that is accepted is of a member who had not voted, and is recorded as
    it was cast, unless it closes the ballot. *)
Theorem C56_vote : forall a b s s', voting_ok s -> msg_vote a b s = (s', Ok tt) ->
  a ∈ st_gov s /\ a ∉ voters s /\
  forall p, st_cur s' = Some p -> st_agreed s' = (if b then st_agreed s ++ [a] else st_agreed s) /\
    st_disagreed s' = (if b then st_disagreed s else st_disagreed s ++ [a]).
Proof.
  intros a b s s' HV H. destruct (vote_run _ _ _ _ HV H) as (p & s1 & H1 & H2 & H3 & _ & _ & _ & (B1 & B2 & B3 & _) & _ & D).
  split_and!; try done. intros q HC. destruct D as [(_ & _ & ->)|(_ & _ & D & _)]; [|congruence]. by split.
Qed.
Print Assumptions C56_vote.

Definition propose_blk : block := blk (T0 + sec) [tx1 (MPropose 10 1 (PEnterPrice 300000)); tx1 (MVote 10 true); tx1 (MVote 12 true)].
Example C56_witness : runs [propose_blk] w0 = true /\ st_agreed (after [propose_blk] w0) = [10%N] /\ st_disagreed (after [propose_blk] w0) = [] /\
  ok (eval (msg_vote 11 false) (after [propose_blk] w0)) = true /\ ok (eval (msg_vote 10 false) (after [propose_blk] w0)) = false.
Proof. split_and!; by vm_compute. Qed.

(** ** C57 *)

(** After any block the running proposal has not reached its deadline. *)
Theorem C57_deadline : forall bs s s' us, voting_ok s -> run_blocks bs s = Some (s', us) -> bs <> [] ->
  forall p, st_cur s' = Some p -> st_now s' < pr_end p.
Proof. intros bs s s' us HV HB HN. destruct (blocks_votes _ _ _ _ HV HB) as (_ & _ & H). by apply H. Qed.
Print Assumptions C57_deadline.

(** ... and some member has not voted on it: a ballot in which all have voted is
    closed at once. *)
Theorem C57_closed : forall bs s s' us, voting_ok s -> run_blocks bs s = Some (s', us) ->
  forall p, st_cur s' = Some p -> NoDup (st_gov s') -> exists m, m ∈ st_gov s' /\ m ∉ voters s'.
Proof.
  intros bs s s' us HV HB p HC HG. destruct (blocks_votes _ _ _ _ HV HB) as (H1 & _). destruct (vo_votes _ H1 p HC) as (A1 & A2 & A3).
  destruct (decide (Forall (fun m => m ∈ voters s') (st_gov s'))) as [D|D].
  - rewrite Forall_forall in D. pose proof (incl_length _ _ HG D). lia.
  - apply not_Forall_Exists in D; [|apply _]. apply Exists_exists in D as (m & ? & ?). by exists m.
Qed.
Print Assumptions C57_closed.

(** The remaining members can complete it, whatever each of them thinks. *)
Theorem C57_completed : forall vs s p, voting_ok s -> st_cur s = Some p -> NoDup (st_gov s) -> voters s ++ map fst vs ≡ₚ st_gov s ->
  admissible (pr_act p) s = true -> (forall x, pr_act p <> PStaffRemove x) ->
  exists s', mfor (map (fun v => MVote (fst v) (snd v)) vs) run_msg s = (s', Ok tt) /\ st_cur s' = None.
Proof.
  intros vs s p HV HC HG HP HA HN. destruct (ballot_run vs s p HV HC HG HP HA HN) as (s' & H1 & H2 & _). eauto.
Qed.
Print Assumptions C57_completed.

Example C57_witness : st_cur (after [propose_blk] w0) <> None /\
  runs [propose_blk; blk (T0 + 2 * day_ns) []] w0 = true /\ st_cur (after [propose_blk; blk (T0 + 2 * day_ns) []] w0) = None /\
  pp_sub_price (st_pp (after [propose_blk; blk (T0 + 2 * day_ns) []] w0)) = 199000 /\
  ok (eval (mfor [MVote 11 false] run_msg) (after [propose_blk] w0)) = true.
Proof. split_and!; by vm_compute. Qed.

(** ** C58 *)

(** A member is given a second seat; after that, whatever the blocks contain, no
    rule ever changes again. *)
Definition seat_blk : block := blk (T0 + sec) [tx1 (MPropose 10 1 (PGovAdd 10)); tx1 (MVote 11 true)].
Theorem C58_refuted : exists s s1 us1, voting_ok s /\ NoDup (st_gov s) /\ run_blocks [seat_blk] s = Some (s1, us1) /\ st_gov s1 <> [] /\
  forall bs s' us, run_blocks bs s1 = Some (s', us) -> same_rules s1 s'.
Proof.
  destruct (after_runs [seat_blk] w0) as [us E]; [by vm_compute|].
  assert (G0 : st_gov w0 = [10; 11]%N) by by vm_compute.
  assert (G : st_gov (after [seat_blk] w0) = [10; 11; 10]%N) by by vm_compute.
  pose proof w0_votes as HV. exists w0, (after [seat_blk] w0), us. revert E G0 G HV. generalize (after [seat_blk] w0). generalize w0.
  intros s s1 E G0 G HV. split_and!; [done| |done| |].
  - rewrite G0. apply (bool_decide_unpack _). by vm_compute.
  - by rewrite G.
  - intros bs s' us' HB. destruct (blocks_votes _ _ _ _ HV E) as (V1 & _). destruct (blocks_votes _ _ _ _ V1 HB) as (_ & H & _).
    eapply stuck; [|exact H]. rewrite G. intros X. apply NoDup_cons in X as [X _]. apply X. right. left.
Qed.
Print Assumptions C58_refuted.

(** As long as nobody has two seats, the government decides by two thirds: the
    proposal of one member, followed by the votes of the others in any order, is
    enacted if at least two thirds agree, and only then.  (Missing: governments
    with a repeated member, where the claim is false, and dismissals from the
    staff, which a node that cannot be switched off may abort.) *)
Theorem C58_partial : forall s a n act vs, voting_ok s -> st_cur s = None -> NoDup (st_gov s) -> a :: map fst vs ≡ₚ st_gov s ->
  key_ok (st_now s + st_vperiod s * hour) = true -> paction_valid act = Some true -> admissible act s = true -> (forall x, act <> PStaffRemove x) ->
  exists s', mfor (MPropose a n act :: map (fun v => MVote (fst v) (snd v)) vs) run_msg s = (s', Ok tt) /\ st_cur s' = None /\
    if decide (2 * List.length (st_gov s) <= 3 * (1 + agreeing vs))%nat then enacted act s s' else same_rules s s'.
Proof. exact proposal_run. Qed.
Print Assumptions C58_partial.

Example C58_witness : st_cur w0 = None /\ st_gov w0 = [10; 11]%N /\ key_ok (st_now w0 + st_vperiod w0 * hour) = true /\
  paction_valid (PMaxFee 5) = Some true /\ admissible (PMaxFee 5) w0 = true /\
  bp_max_fee (st_bp (exec (mfor [MPropose 11 1 (PMaxFee 5); MVote 10 true] run_msg) w0)) = 5.
Proof. split_and!; by vm_compute. Qed.

(** ** C59 *)

(** Two proposals are decided in one block; only the second is in the history. *)
Definition twice_blk : block := blk (T0 + sec)
  [tx1 (MPropose 10 1 (PEnterPrice 300000)); tx1 (MVote 11 true); tx1 (MPropose 11 2 (PMaxFee 5)); tx1 (MVote 10 true)].
Theorem C59_refuted : exists s s', voting_ok s /\ (exists us, run_blocks [twice_blk] s = Some (s', us)) /\
  pp_sub_price (st_pp s) <> 300000 /\ pp_sub_price (st_pp s') = 300000 /\
  forall k h, st_phist s' !! k = Some h -> pr_act (ph_prop h) <> PEnterPrice 300000.
Proof.
  exists w0, (after [twice_blk] w0). split_and!; [apply w0_votes|apply after_runs; by vm_compute|vm_compute; discriminate|by vm_compute|].
  assert (H : map_Forall (fun _ h => (match pr_act (ph_prop h) with PEnterPrice _ => false | _ => true end) = true) (st_phist (after [twice_blk] w0)))
    by (apply (bool_decide_unpack _); by vm_compute).
  revert H. generalize (after [twice_blk] w0). intros s H k h Hk E. specialize (H k h Hk). cbn in H. by rewrite E in H.
Qed.
Print Assumptions C59_refuted.

(** When a proposal ends it is filed with the government, the votes and the
    outcome, and the record stays unless another one ends in the same block.
    (The steps are those of C55_history.) *)
Theorem C59_filed_partial : forall s1 s2 s' p, vstep s1 s2 -> st_cur s1 = Some p -> st_cur s2 = None -> vsteps s2 s' ->
  exists d, (d = true <-> majority s1) /\
    (st_phist s' !! st_height s1 = Some (mkPH p (st_gov s1) (st_agreed s1) (st_disagreed s1) (st_start s1) (st_height s1) d) \/
     exists s3 s4 q, vsteps s2 s3 /\ vstep s3 s4 /\ vsteps s4 s' /\ st_height s3 = st_height s1 /\ st_cur s3 = Some q /\ st_cur s4 = None).
Proof.
  intros s1 s2 s' p H HC HC' HS.
  assert (R : exists d, (d = true <-> majority s1) /\ recorded p d s1 s2).
  { destruct H as [H1 (B1 & _)|q H1 H2|q a H1 H2 H3 H4 (B1 & _)|q a H1 H2 H3 H4 (B1 & _)|q d H1 H2 H3 H4 H5 _ H6|q H1 H2 H3 H4 _ H6]; try congruence.
    - exists d. assert (q = p) as -> by congruence. done.
    - exists true. assert (q = p) as -> by congruence. done. }
  destruct R as (d & D & _ & R). exists d. split; [done|]. apply kept_or_again; [done|]. rewrite R. apply lookup_insert.
Qed.
Print Assumptions C59_filed_partial.

(** No later block changes the history. *)
Theorem C59_stays_partial : forall bs s s' us k, voting_ok s -> run_blocks bs s = Some (s', us) -> k <= st_height s -> st_phist s' !! k = st_phist s !! k.
Proof. exact hist_blocks. Qed.
Print Assumptions C59_stays_partial.

Example C59_witness : voting_ok w0 /\ runs [price_blk] w0 = true /\
  fmap (fun h => (pr_act (ph_prop h), ph_agreed h, ph_decision h)) (st_phist (after [price_blk] w0) !! 2) = Some (PEnterPrice 300000, [10; 11]%N, true).
Proof. split; [apply w0_votes|]. split_and!; by vm_compute. Qed.

(** ** C60 *)

(** At any time the counters of the running poll are the numbers of accounts
    recorded with that answer (64 bits wide). *)
Theorem C60_counters : forall bs s s' us, poll_ok s -> run_blocks bs s = Some (s', us) ->
  st_yes s' = answers s' true mod 2^64 /\ st_no s' = answers s' false mod 2^64.
Proof. intros bs s s' us HP HB. destruct (blocks_polls _ _ _ _ HP HB) as (H & _). split; [apply po_yes|apply po_no]; done. Qed.
Print Assumptions C60_counters.

(** Only the steps of the specification happen: an answer is recorded only of an
    account that has none and may answer, and stays until the end of the poll. *)
Theorem C60_history : forall bs s s' us, poll_ok s -> run_blocks bs s = Some (s', us) -> poll_ok s' /\ psteps s s'.
Proof. intros bs s s' us HP HB. destruct (blocks_polls _ _ _ _ HP HB) as (H1 & H2 & _). done. Qed.
Print Assumptions C60_history.

(** An accepted answer adds exactly itself. *)
Theorem C60_answer : forall a b s s', poll_ok s -> msg_answer a b s = (s', Ok tt) ->
  exists p, st_poll s = Some p /\ st_answers s !! a = None /\ may_answer (po_req p) s a /\
    st_answers s' = <[ a := b ]> (st_answers s) /\ answers s' b = answers s b + 1 /\ answers s' (negb b) = answers s (negb b) /\ poll_ok s'.
Proof.
  intros a b s s' HP H. apply pinv_ok in HP. destruct (answer_run _ _ _ _ _ HP H) as (p & H1 & H2 & H3 & H4 & H5 & H6 & H7 & H8).
  exists p. apply pinv_ok in H8. split_and!; try done; unfold answers; rewrite H5, (answers_insert _ _ _ _ H2); destruct b; cbn [Bool.eqb negb]; lia.
Qed.
Print Assumptions C60_answer.

Definition poll_blk : block := blk (T0 + sec)
  [tx1 (MStartPoll 10 1 1 (Some (Frac.Fr 2 3)) (ReqStatus 1)); tx1 (MAnswer 11 true); tx1 (MAnswer 12 false); tx1 (MAnswer 12 true); tx1 (MAnswer 13 true)].
Example C60_witness : poll_ok w0 /\ runs [poll_blk] w0 = true /\ st_yes (after [poll_blk] w0) = 2 /\ st_no (after [poll_blk] w0) = 1 /\
  st_answers (after [poll_blk] w0) !! 12%N = Some false.
Proof. split; [apply w0_polls|]. split_and!; by vm_compute. Qed.

(** ** C61 *)

(** Every poll in the history that was not there before was running when its
    deadline came, with the counts and the decision of the quorum rule.  (The
    rule is exact while fewer than 2^63 accounts have answered.) *)
Theorem C61_decided : forall bs s s' us k h, poll_ok s -> run_blocks bs s = Some (s', us) -> st_pollhist s' !! k = Some h ->
  st_pollhist s !! k = Some h \/
  exists s1, psteps s s1 /\ st_poll s1 = Some (poh_poll h) /\ po_end (poh_poll h) <= st_now s1 /\
    (answers s1 true + answers s1 false < 2^63 ->
       poh_yes h = answers s1 true /\ poh_no h = answers s1 false /\
       decided (po_quorum (poh_poll h)) (answers s1 true) (answers s1 false) (poh_dec h)).
Proof.
  intros bs s s' us k h HP HB Hk. destruct (blocks_polls _ _ _ _ HP HB) as (_ & H & _).
  destruct (pollhist_psteps _ _ _ _ H Hk) as [?|(s1 & p & P1 & P2 & P3 & P4 & P5 & P6 & P7 & P8)]; [by left|right].
  exists s1. rewrite P5. split_and!; try done. intros HL. split_and!; [| |auto].
  - rewrite P6. apply Z.mod_small. unfold answers in *. lia.
  - rewrite P7. apply Z.mod_small. unfold answers in *. lia.
Qed.
Print Assumptions C61_decided.

Definition end_blk : block := blk (T0 + 2 * day_ns) [].
Definition poll_key : Z := (T0 + sec + 86400000000000) / second.
Example C61_witness : runs [poll_blk; end_blk] w0 = true /\
  fmap (fun h => (poh_yes h, poh_no h, poh_dec h)) (st_pollhist (after [poll_blk; end_blk] w0) !! poll_key) = Some (2, 1, DPositive).
Proof. split_and!; by vm_compute. Qed.

(** ** C62 *)

(** A respondent loses the qualification they had when they answered; the chain
    exported then cannot be imported. *)
Definition asked_blk : block := blk (T0 + sec) [tx1 (MStartPoll 10 1 1 (Some (Frac.Fr 1 2)) ReqValidate); tx1 (MAnswer 10 true)].
Definition fired_blk : block := blk (T0 + 2 * sec) [tx1 (MPropose 10 1 (PStaffRemove 10)); tx1 (MVote 11 true)].
Theorem C62_refuted : exists s s' us, voting_ok s /\ poll_ok s /\ filed s /\ run_blocks [asked_blk; fired_blk] s = Some (s', us) /\
  exists e, snd (voting_import (voting_export s') (no_voting s')) = Panic e.
Proof.
  destruct (after_runs [asked_blk; fired_blk] w0) as [us E]; [by vm_compute|].
  exists w0, (after [asked_blk; fired_blk] w0), us. split_and!; [apply w0_votes|apply w0_polls|apply w0_filed|done|].
  exists (ErrMsg "respondent not allowed"). by vm_compute.
Qed.
Print Assumptions C62_refuted.

(** While nobody who answered has lost the right to answer, the import restores
    exactly the exported state.  (Missing: the import of the other modules.) *)
Theorem C62_partial : forall bs s s' us, voting_ok s -> poll_ok s -> filed s -> run_blocks bs s = Some (s', us) ->
  (forall p a, st_poll s' = Some p -> is_Some (st_answers s' !! a) ->
     may_answer (po_req p) s' a /\ (po_req p = ReqValidate -> exists r, is_qualified a s' = (s', Ok r))) ->
  voting_import (voting_export s') (no_voting s') = (s', Ok tt).
Proof.
  intros bs s s' us HV HP HF HB HA. apply reimport; [apply (blocks_votes _ _ _ _ HV HB)|apply (blocks_polls _ _ _ _ HP HB)|by eapply filed_blocks|done].
Qed.
Print Assumptions C62_partial.

Example C62_witness : voting_ok w0 /\ poll_ok w0 /\ filed w0 /\ runs [poll_blk] w0 = true /\
  ok (eval (voting_import (voting_export (after [poll_blk] w0))) (no_voting (after [poll_blk] w0))) = true /\
  st_yes (exec (voting_import (voting_export (after [poll_blk] w0))) (no_voting (after [poll_blk] w0))) = 2.
Proof. split; [apply w0_votes|]. split; [apply w0_polls|]. split; [apply w0_filed|]. split_and!; by vm_compute. Qed.

(** ** C70 *)

(** After any block the running poll has not reached its deadline; by C61_decided
    it is not closed before. *)
Theorem C70_deadline : forall bs s s' us, poll_ok s -> run_blocks bs s = Some (s', us) -> bs <> [] ->
  forall p, st_poll s' = Some p -> st_now s' < po_end p.
Proof. intros bs s s' us HP HB HN. destruct (blocks_polls _ _ _ _ HP HB) as (_ & _ & H). by apply H. Qed.
Print Assumptions C70_deadline.

(** A poll that was running and runs no more has reached its deadline by then. *)
Theorem C70_not_before : forall s s' p, psteps s s' -> st_poll s = Some p ->
  st_poll s' = Some p \/ exists s1, psteps s s1 /\ psteps s1 s' /\ st_poll s1 = Some p /\ po_end p <= st_now s1.
Proof.
  intros s s' p H. induction H as [s|s s1 s2 H H2 IH]; [by left|]. intros E.
  pose proof H as H0. destruct H as [H _ _|q H|q a b H _ _ H' _ _|q d H H1 H3 H4 H5 H6].
  - rewrite E in H. destruct (IH H) as [?|(s3 & ? & ?)]; [by left|]. right. exists s3. split; [by eapply rtc_l|done].
  - congruence.
  - rewrite E in H. injection H as <-. destruct (IH H') as [?|(s3 & ? & ?)]; [by left|]. right. exists s3. split; [by eapply rtc_l|done].
  - rewrite E in H. injection H as <-. right. exists s. split_and!; try done. by eapply rtc_l.
Qed.
Print Assumptions C70_not_before.

Example C70_witness : poll_ok w0 /\ runs [poll_blk; blk (T0 + day_ns) []] w0 = true /\
  fmap po_end (st_poll (after [poll_blk; blk (T0 + day_ns) []] w0)) = Some (T0 + sec + day_ns) /\ st_poll (after [poll_blk; end_blk] w0) = None.
Proof. split; [apply w0_polls|]. split_and!; by vm_compute. Qed.
