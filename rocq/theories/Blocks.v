(** * From single steps to whole histories *)
From Verif Require Export Sweep ModeProofs Spec_Schedule.

(** Block times never go back. *)
Fixpoint times_from (t : time) (bs : list block) : Prop :=
  match bs with
  | [] => True
  | b :: r => t <= b_time b /\ times_from (b_time b) r
  end.

(** The clock stands still within a block. *)
Lemma now_noding p v e : rel (same st_now) (noding_begin p v e).
Proof. auto 8 with frame. Qed.
Lemma now_schedule : rel (same st_now) (perform_schedule hooks).
Proof. auto 8 with frame. Qed.
Lemma now_end : rel (same st_now) end_block.
Proof. auto 8 with frame. Qed.
Lemma now_tx t s : st_now (fst (deliver_tx t s)) = st_now s.
Proof. apply (sw_deliver_tx (same st_now)); auto 8 with frame. Qed.
Lemma now_txs ts s : st_now (deliver_txs ts s) = st_now s.
Proof.
  revert s. induction ts as [|t ts IH]; intros s; [done|]. cbn. fold (deliver_txs ts (fst (deliver_tx t s))).
  by rewrite IH, now_tx.
Qed.
Lemma now_hook h f a t : hooks h = Some f -> rel (same st_now) (f a t).
Proof. intros H. eapply sw_hooks; [..|exact H]; auto 8 with frame. Qed.

Definition begin_state (b : block) (s : St) : St := s <| st_now := b_time b |> <| st_height := st_height s + 1 |>.

Section blocks.
  Context (R : St -> St -> Prop) `{!PreOrder R} (okb : block -> Prop) (okt : tx -> Prop).
  Hypothesis H_begin : forall b s, st_now s <= b_time b -> R s (begin_state b s).
  Hypothesis H_noding : forall p v e, okrel R (noding_begin p v e).
  Hypothesis H_task : forall t s, R s (after_task hooks t s).
  Hypothesis H_due : forall ks s, R s (s <| st_sched := foldr base.delete (st_sched s) ks |>).
  Hypothesis H_tx : forall t s, okt t -> R s (fst (deliver_tx t s)).
  Hypothesis H_end : okrel R end_block.

  Lemma bl_perform_one t s : fst (perform_one hooks t s) = after_task hooks t s.
  Proof.
    unfold perform_one, after_task. destruct (hooks (t_hook t)) as [h|]; [|done].
    by destruct (h (t_data t) (t_time t) s) as [s' [x|e|e]].
  Qed.
  Lemma bl_schedule : rel R (perform_schedule hooks).
  Proof.
    unfold perform_schedule. repeat progress rel_struct.
    - unfold check_key. apply rel_assert, _.
    - intros s. rewrite bl_perform_one. apply H_task.
    - apply rel_modify. intros s. apply H_due.
  Qed.
  Lemma bl_txs ts : Forall okt ts -> forall s, R s (deliver_txs ts s).
  Proof.
    intros HF. induction HF as [|t ts Ht HF IH]; intros s; [reflexivity|]. cbn.
    fold (deliver_txs ts (fst (deliver_tx t s))). transitivity (fst (deliver_tx t s)); [by apply H_tx|apply IH].
  Qed.
  Lemma bl_block b s s' u : Forall okt (b_txs b) -> st_now s <= b_time b -> run_block b s = Some (s', u) ->
    R s s' /\ st_now s' = b_time b.
  Proof.
    intros HT HN. unfold run_block, begin_block.
    destruct (bind _ _ s) as [s1 [x|e|e]] eqn:E1; try discriminate.
    apply bind_ok in E1 as ([] & s2 & E2 & E1). apply modify_ok in E2.
    apply bind_ok in E1 as ([] & s3 & E3 & E1).
    destruct (end_block (deliver_txs (b_txs b) s1)) as [s4 [y|e|e]] eqn:E4; try discriminate.
    intros [= <- <-]. split.
    - transitivity s2; [subst s2; by apply H_begin|]. transitivity s3; [by eapply H_noding|].
      transitivity s1; [pose proof (bl_schedule s3) as HS; by rewrite E1 in HS|].
      transitivity (deliver_txs (b_txs b) s1); [by apply bl_txs|by eapply H_end].
    - pose proof (now_end (deliver_txs (b_txs b) s1)) as N4. rewrite E4 in N4. unfold same in N4. cbn [fst] in N4.
      rewrite N4, now_txs. pose proof (now_schedule s3) as N1. rewrite E1 in N1. unfold same in N1. cbn [fst] in N1.
      rewrite N1. pose proof (now_noding (b_proposer b) (b_votes b) (b_evs b) s2) as N3. rewrite E3 in N3.
      unfold same in N3. cbn [fst] in N3. rewrite N3. by subst s2.
  Qed.
  Lemma bl_blocks bs : forall s s' us, times_from (st_now s) bs -> Forall (fun b => Forall okt (b_txs b)) bs ->
    run_blocks bs s = Some (s', us) -> R s s'.
  Proof.
    induction bs as [|b bs IH]; intros s s' us HT HF H; cbn in H.
    - injection H as <- <-. reflexivity.
    - destruct (run_block b s) as [[s1 u]|] eqn:E1; [|discriminate].
      destruct (run_blocks bs s1) as [[s2 us']|] eqn:E2; [|discriminate]. injection H as <- <-.
      destruct HT as [HT1 HT2]. apply Forall_cons_1 in HF as [HF1 HF2].
      apply bl_block in E1 as [R1 N1]; [|done|done]. transitivity s1; [done|].
      eapply IH; [|exact HF2|exact E2]. by rewrite N1.
  Qed.
End blocks.

(** A task, from a relation on all outcomes of its hook *)
Lemma task_rel (R : St -> St -> Prop) `{!PreOrder R} :
  (forall s e, R s (s <| st_log := st_log s ++ [e] |>)) ->
  forall t s, (forall f, hooks (t_hook t) = Some f -> R s (fst (f (t_data t) (t_time t) s))) -> R s (after_task hooks t s).
Proof.
  intros HL t s HF. unfold after_task. destruct (hooks (t_hook t)) as [f|]; [|apply HL].
  specialize (HF f eq_refl). destruct (f (t_data t) (t_time t) s) as [s' r]. cbn in *.
  destruct r; [exact HF|transitivity s'; [exact HF|apply HL]..].
Qed.
Lemma tx_rel (R : St -> St -> Prop) `{!PreOrder R} t :
  okrel R (ante t) -> (forall m, m ∈ tx_msgs t -> okrel R (run_msg m)) -> forall s, R s (fst (deliver_tx t s)).
Proof.
  intros HA HM s. unfold deliver_tx. destruct (ante t s) as [s1 [[]|e|e]] eqn:E1; cbn; [|reflexivity..].
  assert (R1 : R s s1) by (eapply HA; exact E1).
  assert (HF : okrel R (mfor (tx_msgs t) run_msg)).
  { clear -HM PreOrder0. revert HM. induction (tx_msgs t) as [|m l IH]; intros HM; cbn.
    - apply okrel_rel, rel_ret, _.
    - apply okrel_bind; [done|apply HM; left|]. intros []. apply IH. intros m' Hm. apply HM. by right. }
  destruct (mfor (tx_msgs t) run_msg s1) as [s2 [[]|e|e]] eqn:E2; cbn; auto.
  transitivity s1; [done|]. eapply HF; exact E2.
Qed.
