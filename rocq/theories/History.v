(** * Relations kept by every step of a history *)
From Verif Require Export Blocks Spec_History ScheduleProofs.

Section steps.
  Context (R : St -> St -> Prop) `{!PreOrder R} (ok : step -> St -> Prop).
  Hypothesis H_begin : forall b s, st_now s <= b_time b -> R s (begin_state b s).
  Hypothesis H_noding : forall p v e, okrel R (noding_begin p v e).
  Hypothesis H_task : forall t s, ok (STask t) s -> R s (after_task hooks t s).
  Hypothesis H_due : forall ks s, R s (s <| st_sched := foldr base.delete (st_sched s) ks |>).
  Hypothesis H_ante : forall t, okrel R (ante t).
  Hypothesis H_msg : forall m s s', ok (SMsg m) s -> run_msg m s = (s', Ok tt) -> R s s'.
  Hypothesis H_end : okrel R end_block.
  Let good (l : list (step * St)) := forall x s, (x, s) ∈ l -> ok x s.
  Local Lemma good_app l1 l2 : good (l1 ++ l2) -> good l1 /\ good l2.
  Proof. intros H. split; intros x s Hx; apply H, elem_of_app; auto. Qed.
  Local Lemma good_cons x s l : good ((x, s) :: l) -> ok x s /\ good l.
  Proof. intros H. split; [apply H; left|]. intros x' s' Hx. apply H. by right. Qed.

  Lemma hs_tasks ts : forall s, good (task_steps ts s) -> R s (after_tasks hooks ts s).
  Proof.
    induction ts as [|t ts IH]; intros s H; cbn in *; [reflexivity|]. apply good_cons in H as [H1 H2].
    transitivity (after_task hooks t s); [by apply H_task|by apply IH].
  Qed.
  Lemma hs_msgs ms : forall s s', good (msg_steps ms s) -> mfor ms run_msg s = (s', Ok tt) -> R s s'.
  Proof.
    induction ms as [|m ms IH]; intros s s' H E; cbn in *; [apply ret_ok in E as [-> _]; reflexivity|].
    apply bind_ok in E as ([] & s1 & E1 & E). apply good_cons in H as [H1 H2]. rewrite E1 in H2. cbn in H2.
    transitivity s1; [by eapply H_msg|by apply IH].
  Qed.
  Lemma hs_tx t s : good (tx_steps t s) -> R s (fst (deliver_tx t s)).
  Proof.
    unfold tx_steps, deliver_tx. destruct (ante t s) as [s1 [[]|e|e]] eqn:E1; cbn; [|reflexivity..].
    destruct (mfor (tx_msgs t) run_msg s1) as [s2 [[]|e|e]] eqn:E2; cbn; [|intros _; by eapply H_ante..].
    intros H. transitivity s1; [by eapply H_ante|]. by eapply hs_msgs.
  Qed.
  Lemma hs_txs ts : forall s, good (txs_steps ts s) -> R s (deliver_txs ts s).
  Proof.
    induction ts as [|t ts IH]; intros s H; [reflexivity|]. cbn in H. apply good_app in H as [H1 H2].
    cbn. fold (deliver_txs ts (fst (deliver_tx t s))). transitivity (fst (deliver_tx t s)); [by apply hs_tx|by apply IH].
  Qed.
  Lemma hs_schedule s s' : good (task_steps (due_tasks s) s) -> perform_schedule hooks s = (s', Ok tt) -> R s s'.
  Proof.
    intros HG H. assert (K : 0 <= st_now s + 1 < time_limit).
    { unfold perform_schedule, check_key, bind, get, assert in H. destruct (key_ok (st_now s + 1)) eqn:E; [|done].
      unfold key_ok in E. apply andb_true_iff in E as [E1 E2]. apply Z.leb_le in E1. apply Z.ltb_lt in E2. lia. }
    rewrite perform_schedule_eq in H by done. cbv zeta in H. injection H as <-.
    transitivity (after_tasks hooks (due_tasks s) s); [by apply hs_tasks|apply H_due].
  Qed.
  Lemma hs_block b s s' u : good (block_steps b s) -> st_now s <= b_time b -> run_block b s = Some (s', u) -> R s s'.
  Proof.
    intros HG HN. unfold run_block. unfold block_steps, before_schedule in HG.
    destruct (begin_block b s) as [s1 [x|e|e]] eqn:E1; try discriminate. cbn [fst] in HG. apply good_app in HG as [G1 G2].
    unfold begin_block in E1.
    apply bind_ok in E1 as ([] & s2 & E2 & E1). apply modify_ok in E2. rewrite <- E2 in G1.
    apply bind_ok in E1 as ([] & s3 & E3 & E1). rewrite E3 in G1. cbn [fst] in G1.
    destruct (end_block (deliver_txs (b_txs b) s1)) as [s4 [y|e|e]] eqn:E4; try discriminate.
    intros [= <- <-]. destruct x.
    transitivity s2; [subst s2; by apply H_begin|]. transitivity s3; [by eapply H_noding|].
    transitivity s1; [by apply hs_schedule|].
    transitivity (deliver_txs (b_txs b) s1); [by apply hs_txs|by eapply H_end].
  Qed.
  Lemma hs_blocks bs : forall s s' us, times_from (st_now s) bs -> good (steps bs s) ->
    run_blocks bs s = Some (s', us) -> R s s'.
  Proof.
    induction bs as [|b bs IH]; intros s s' us HT HG H; cbn in H.
    - injection H as <- <-. reflexivity.
    - cbn in HG. destruct (run_block b s) as [[s1 u]|] eqn:E1; [|discriminate].
      destruct (run_blocks bs s1) as [[s2 us']|] eqn:E2; [|discriminate]. injection H as <- <-.
      destruct HT as [HT1 HT2]. apply good_app in HG as [G1 G2].
      assert (N1 : st_now s1 = b_time b).
      { assert (PT : PreOrder (fun _ _ : St => True)) by (by split).
        eapply (bl_block (fun _ _ => True) (PreOrder0 := PT) (fun _ => True)); [..|exact E1]; try done; by apply Forall_true. }
      transitivity s1; [by eapply hs_block|]. eapply IH; [|exact G2|exact E2]. by rewrite N1.
  Qed.
End steps.

(** What a step does *)
Definition did (x : step) (s s' : St) : Prop :=
  match x with STask t => s' = after_task hooks t s | SMsg m => run_msg m s = (s', Ok tt) end.

Section split.
  Context (R : St -> St -> Prop) `{!PreOrder R}.
  Hypothesis H_begin : forall b s, st_now s <= b_time b -> R s (begin_state b s).
  Hypothesis H_noding : forall p v e, okrel R (noding_begin p v e).
  Hypothesis H_task : forall t s, R s (after_task hooks t s).
  Hypothesis H_due : forall ks s, R s (s <| st_sched := foldr base.delete (st_sched s) ks |>).
  Hypothesis H_ante : forall t, okrel R (ante t).
  Hypothesis H_msg : forall m, okrel R (run_msg m).
  Hypothesis H_end : okrel R end_block.
  Let ok : step -> St -> Prop := fun _ _ => True.
  Let HT := fun t s (_ : ok (STask t) s) => H_task t s.
  Let HM := fun m s s' (_ : ok (SMsg m) s) (E : run_msg m s = (s', Ok tt)) => H_msg m s s' tt E.
  Let split (x : step) (s s1 s' : St) := exists s2, did x s1 s2 /\ R s s1 /\ R s2 s'.
  Local Lemma split_l x s0 s s1 s' : R s0 s -> split x s s1 s' -> split x s0 s1 s'.
  Proof. intros H (s2 & H1 & H2 & H3). exists s2. split_and!; [done| |done]. by transitivity s. Qed.
  Local Lemma split_r x s s1 s' s3 : split x s s1 s' -> R s' s3 -> split x s s1 s3.
  Proof. intros (s2 & H1 & H2 & H3) H. exists s2. split_and!; [done|done|]. by transitivity s'. Qed.

  Lemma sp_tasks ts : forall s x s1, (x, s1) ∈ task_steps ts s -> split x s s1 (after_tasks hooks ts s).
  Proof.
    induction ts as [|t ts IH]; intros s x s1 H; cbn in *; [by apply elem_of_nil in H|]. apply elem_of_cons in H as [H|H].
    - injection H as -> ->. exists (after_task hooks t s). split_and!; [done|reflexivity|].
      eapply (hs_tasks R ok HT). by intros.
    - eapply split_l; [apply H_task|by apply IH].
  Qed.
  Lemma sp_msgs ms : forall s s' x s1, (x, s1) ∈ msg_steps ms s -> mfor ms run_msg s = (s', Ok tt) -> split x s s1 s'.
  Proof.
    induction ms as [|m ms IH]; intros s s' x s1 H E; cbn in *; [by apply elem_of_nil in H|].
    apply bind_ok in E as ([] & s2 & E1 & E). rewrite E1 in H. cbn in H. apply elem_of_cons in H as [H|H].
    - injection H as -> ->. exists s2. split_and!; [done|reflexivity|]. eapply (hs_msgs R ok HM); [|exact E]. by intros.
    - eapply split_l; [by eapply H_msg|by eapply IH].
  Qed.
  Lemma sp_tx t s x s1 : (x, s1) ∈ tx_steps t s -> split x s s1 (fst (deliver_tx t s)).
  Proof.
    unfold tx_steps, deliver_tx. destruct (ante t s) as [s2 [[]|e|e]] eqn:E1; cbn; [|intros H; by apply elem_of_nil in H..].
    destruct (mfor (tx_msgs t) run_msg s2) as [s3 [[]|e|e]] eqn:E2; cbn; [|intros H; by apply elem_of_nil in H..].
    intros H. eapply split_l; [by eapply H_ante|by eapply sp_msgs].
  Qed.
  Lemma sp_txs ts : forall s x s1, (x, s1) ∈ txs_steps ts s -> split x s s1 (deliver_txs ts s).
  Proof.
    induction ts as [|t ts IH]; intros s x s1 H; cbn in H; [by apply elem_of_nil in H|].
    cbn. fold (deliver_txs ts (fst (deliver_tx t s))). apply elem_of_app in H as [H|H].
    - eapply split_r; [by apply sp_tx|]. apply (hs_txs R ok H_ante HM). by intros.
    - eapply split_l; [|by apply IH]. apply (hs_tx R ok H_ante HM). by intros.
  Qed.
  Lemma sp_block b s s' u x s1 : (x, s1) ∈ block_steps b s -> st_now s <= b_time b -> run_block b s = Some (s', u) -> split x s s1 s'.
  Proof.
    intros HG HN. unfold run_block. unfold block_steps, before_schedule in HG.
    destruct (begin_block b s) as [s2 [y|e|e]] eqn:E1; try discriminate. cbn [fst] in HG.
    unfold begin_block in E1.
    apply bind_ok in E1 as ([] & s3 & E2 & E1). apply modify_ok in E2. rewrite <- E2 in HG.
    apply bind_ok in E1 as ([] & s4 & E3 & E1). rewrite E3 in HG. cbn [fst] in HG.
    destruct (end_block (deliver_txs (b_txs b) s2)) as [s5 [z|e|e]] eqn:E4; try discriminate.
    intros [= <- <-]. destruct y.
    assert (R1 : R s s4) by (transitivity s3; [subst s3; by apply H_begin|by eapply H_noding]).
    assert (R2 : R s2 (deliver_txs (b_txs b) s2)) by (apply (hs_txs R ok H_ante HM); by intros).
    assert (R3 : R (deliver_txs (b_txs b) s2) s5) by (by eapply H_end).
    apply elem_of_app in HG as [HG|HG].
    - eapply split_l; [exact R1|]. eapply split_r; [by apply sp_tasks|].
      assert (K : 0 <= st_now s4 + 1 < time_limit).
      { unfold perform_schedule, check_key, bind, get, assert in E1. destruct (key_ok (st_now s4 + 1)) eqn:E; [|done].
        unfold key_ok in E. apply andb_true_iff in E as [K1 K2]. apply Z.leb_le in K1. apply Z.ltb_lt in K2. lia. }
      rewrite perform_schedule_eq in E1 by done. cbv zeta in E1. injection E1 as <-.
      etransitivity; [apply H_due|]. by transitivity (deliver_txs (b_txs b) (after_tasks hooks (due_tasks s4) s4 <| st_sched := foldr base.delete (st_sched (after_tasks hooks (due_tasks s4) s4)) (due_keys s4) |>)).
    - eapply (split_l _ _ s2); [transitivity s4; [exact R1|]; apply (hs_schedule R ok HT H_due); [by intros|exact E1]|].
      eapply split_r; [by apply sp_txs|exact R3].
  Qed.
  Lemma hs_split bs : forall s s' us x s1, times_from (st_now s) bs -> (x, s1) ∈ steps bs s ->
    run_blocks bs s = Some (s', us) -> exists s2, did x s1 s2 /\ R s s1 /\ R s2 s'.
  Proof.
    induction bs as [|b bs IH]; intros s s' us x s1 HX HG H; cbn in H, HG.
    - by apply elem_of_nil in HG.
    - destruct (run_block b s) as [[s2 u]|] eqn:E1; [|discriminate].
      destruct (run_blocks bs s2) as [[s3 us']|] eqn:E2; [|discriminate]. injection H as <- <-.
      destruct HX as [HT1 HT2].
      assert (N1 : st_now s2 = b_time b).
      { assert (PT : PreOrder (fun _ _ : St => True)) by (by split).
        eapply (bl_block (fun _ _ => True) (PreOrder0 := PT) (fun _ => True)); [..|exact E1]; try done; by apply Forall_true. }
      apply elem_of_app in HG as [HG|HG].
      + eapply split_r; [by eapply sp_block|]. eapply (hs_blocks R ok H_begin H_noding HT H_due H_ante HM H_end); [|by intros|exact E2]. by rewrite N1.
      + eapply split_l; [|eapply IH; [|exact HG|exact E2]; by rewrite N1].
        eapply (hs_block R ok H_begin H_noding HT H_due H_ante HM H_end); [|exact HT1|exact E1]. by intros.
  Qed.
End split.
