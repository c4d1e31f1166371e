(** * Proofs about the index of consensus keys *)
From Verif Require Export VoteProofs.
Open Scope Z_scope.

Section opers.
  Context (K : addr -> N -> Prop).
  Definition opers (s s' : St) : Prop :=
    (forall z, is_Some (st_val s !! z) -> is_Some (st_val s' !! z)) /\
    (forall k, is_Some (st_oper s !! k) -> is_Some (st_oper s' !! k)) /\
    (forall k a, st_oper s' !! k = Some a -> st_oper s !! k = Some a \/ (K a k /\ is_Some (st_val s' !! a))).
  #[export] Instance opers_preorder : PreOrder opers.
  Proof.
    split; [intros s; split_and!; auto|]. intros s1 s2 s3 (A1 & A2 & A3) (B1 & B2 & B3). split_and!; [auto..|].
    intros k a H. destruct (B3 k a H) as [H1|H1]; [|by right]. destruct (A3 k a H1) as [H2|[H2 H3]]; [by left|right]. auto.
  Qed.
  Lemma opers_fields s s' : st_val s' = st_val s -> st_oper s' = st_oper s -> opers s s'.
  Proof. intros H1 H2. unfold opers. rewrite H1, H2. auto. Qed.
  Lemma opers_full v w g K' {A} (m : M A) : rel (full v w g K') m -> rel (same st_oper) m -> rel opers m.
  Proof.
    intros H1 H2 s. specialize (H1 s). specialize (H2 s). unfold same in H2. split_and!.
    - intros z. by eapply full_kept.
    - by rewrite H2.
    - rewrite H2. auto.
  Qed.
End opers.
#[export] Hint Extern 1 (opers _ _ _) => (apply opers_fields; reflexivity) : frame.
Section ops.
  Context (K : addr -> N -> Prop).
  Local Ltac o := apply (opers_full K true true false (fun _ _ => True)); auto 8 with frame.
  Lemma ox_switch_off a : rel (opers K) (switch_off a).
  Proof. o. Qed.
  Lemma ox_on_status_update a : rel (opers K) (on_status_update a).
  Proof. o. Qed.
  Lemma ox_on_stake_changed a : rel (opers K) (on_stake_changed a).
  Proof. o. Qed.
  Lemma ox_unjail a : rel (opers K) (unjail a).
  Proof. o. Qed.
  Lemma ox_add_to_staff a : rel (opers K) (add_to_staff a).
  Proof. o. Qed.
  Lemma ox_remove_from_staff a : rel (opers K) (remove_from_staff a).
  Proof. o. Qed.
  Lemma ox_general_amnesty : rel (opers K) general_amnesty.
  Proof. o. Qed.
  Lemma ox_proposed a : rel (opers K) (proposed a).
  Proof. o. Qed.
  Lemma ox_votes l : rel (opers K) (mark_strokes_and_ticks l).
  Proof. o. Qed.
  Lemma ox_evidence l : rel (opers K) (punish_wrongdoers l).
  Proof. o. Qed.
  Lemma ox_switch_on a k : K a k -> rel (opers K) (switch_on a k).
  Proof.
    intros HK s. unfold switch_on. apply at_get; [apply _|].
    do 2 (apply at_ensure; [apply _|intros _]).
    apply at_bind; [apply _|apply sw_validator_by_cons, _|]. intros [[b found] active] s1 H1.
    assert (s1 = s) as ->. { pose proof (sw_validator_by_cons eq k s) as E. by rewrite H1 in E. }
    apply at_ensure; [apply _|intros _].
    apply at_bind; [apply _|apply sw_is_qualified, _|]. intros [q d] s1 H2. apply qualified_read in H2 as ->.
    apply at_ensure; [apply _|intros _]. apply at_lift; [apply _|intros d' _]. apply at_get; [apply _|].
    match goal with |- opers _ _ (fst (bind ?m _ s)) => set (u := m) end.
    assert (HU : exists s1, u s = (s1, Ok tt) /\ st_oper s1 = st_oper s /\ is_Some (st_val s1 !! a) /\ forall z, is_Some (st_val s !! z) -> is_Some (st_val s1 !! z)).
    { unfold u. destruct (st_val s !! a) as [x|] eqn:E.
      - rewrite (val_update_run a _ s s x _ E eq_refl). eexists. split; [reflexivity|]. cbn. split_and!; [done|rewrite lookup_insert; eauto|].
        intros z Hz. destruct (decide (a = z)) as [<-|Hn]; [rewrite lookup_insert; eauto|by rewrite lookup_insert_ne].
      - unfold val_set, modify. eexists. split; [reflexivity|]. cbn. split_and!; [done|rewrite lookup_insert; eauto|].
        intros z Hz. destruct (decide (a = z)) as [<-|Hn]; [rewrite lookup_insert; eauto|by rewrite lookup_insert_ne]. }
    destruct HU as (s1 & EU & O1 & V1 & V2). rewrite (run_bind _ _ _ _ _ EU). unfold modify. cbn [fst]. split_and!; cbn.
    - done.
    - intros j Hj. rewrite O1. destruct (decide (k = j)) as [<-|Hn]; [rewrite lookup_insert; eauto|by rewrite lookup_insert_ne].
    - intros j b'. rewrite O1. destruct (decide (k = j)) as [<-|Hn]; [rewrite lookup_insert|rewrite lookup_insert_ne by done; auto].
      intros [= <-]. auto.
  Qed.
End ops.
#[export] Hint Resolve ox_switch_off ox_on_status_update ox_on_stake_changed ox_unjail ox_add_to_staff ox_remove_from_staff
  ox_general_amnesty ox_proposed ox_votes ox_evidence | 0 : frame.
Lemma ox_msg (K : addr -> N -> Prop) m : (forall a k, m = MOn a k -> k <> 0%N -> K a k) -> rel (opers K) (run_msg m).
Proof.
  intros HK. destruct m; cbn [run_msg]; try (solve [auto 8 with frame]).
  destruct (key =? 0)%N eqn:E; cbn [negb].
  - intros s. cbn. reflexivity.
  - apply rel_bind; [apply _|apply rel_ensure, _|intros _]. apply ox_switch_on. apply HK; [done|lia].
Qed.
Lemma opers_before K b s s1 : Forall (keyed_tx K) (b_txs b) -> st_now s <= b_time b -> begin_block b s = (s1, Ok tt) ->
  opers K s (deliver_txs (b_txs b) s1).
Proof.
  intros HT HN HB. eapply (before_end (opers K) (keyed_tx K)); [..|exact HT|exact HN|exact HB].
  - intros b' s' _. by apply opers_fields.
  - intros p v e. apply okrel_rel. auto 8 with frame.
  - intros t s'. apply task_rel; [apply _|intros; by apply opers_fields|]. intros f Hf. eapply sw_hooks; [..|exact Hf]; auto 8 with frame.
  - intros ks s'. by apply opers_fields.
  - intros t s' Ht. apply tx_rel; [apply _|apply okrel_rel; auto 8 with frame|]. intros m Hm. apply okrel_rel, ox_msg.
    intros a k -> Hk. by apply Ht.
Qed.

(** Keys lead to their operators. *)
Definition attributed (K : addr -> N -> Prop) (s : St) : Prop :=
  (forall k a, st_oper s !! k = Some a -> K a k /\ is_Some (st_val s !! a)) /\
  (forall z x, st_val s !! z = Some x -> n_last_pub x <> 0%N -> is_Some (st_oper s !! n_last_pub x)).
Section hist.
  Context (K : addr -> N -> Prop).
  Hypothesis K0 : forall z k, K z k -> k <> 0%N.
  Lemma attributed_block b s s' us : Forall (keyed_tx K) (b_txs b) -> st_now s <= b_time b -> run_block b s = Some (s', us) ->
    usable K s -> attributed K s -> attributed K s' /\ forall k, is_Some (st_oper s !! k) -> is_Some (st_oper s' !! k).
  Proof.
    intros HT HN HB HU [A1 A2]. unfold run_block in HB. destruct (begin_block b s) as [s1 [[]|e|e]] eqn:E1; try discriminate.
    pose proof (opers_before K b s s1 HT HN E1) as (O1 & O2 & O3).
    destruct (end_ok K K0 False ltac:(done) ∅ b s s1 HT HN E1 HU ltac:(done)) as (s2 & us2 & T & L & HE & U2 & _ & M1 & M2 & M3 & M4 & _).
    rewrite HE in HB. injection HB as <- <-. set (sg := deliver_txs (b_txs b) s1) in *.
    assert (HK : forall z, is_Some (st_val sg !! z) -> is_Some (st_val s2 !! z)).
    { intros z. assert (Q : rel (full true true true (fun _ _ => True)) end_block) by (unfold end_block; apply rel_must; by apply ft_gather).
      specialize (Q sg). rewrite HE in Q. by eapply full_kept. }
    split; [split|auto].
    - intros k a Hk. destruct (M4 k a Hk) as [H|[H1 H2]]; [|split; [done|by apply HK]].
      destruct (O3 k a H) as [H1|[H1 H2]]; [|split; [done|by apply HK]]. destruct (A1 k a H1) as [H2 H3]. split; [done|]. apply HK, O1, H3.
    - intros z x Hx Hl. destruct U2 as [_ HR]. destruct (HR z x Hx) as (_ & _ & _ & R4).
      assert (Hz : z ∈ T ++ L). { apply M1. exists x. split; [done|]. rewrite R4. done. }
      destruct (M2 z Hz) as (y & Hy & Hl' & HS). rewrite Hx in Hy. injection Hy as <-. by rewrite Hl'.
  Qed.
  Lemma attributed_blocks bs s s' us : times_from (st_now s) bs -> Forall (fun b => Forall (keyed_tx K) (b_txs b)) bs ->
    run_blocks bs s = Some (s', us) -> usable K s -> attributed K s ->
    attributed K s' /\ forall k, is_Some (st_oper s !! k) -> is_Some (st_oper s' !! k).
  Proof.
    revert s s' us. induction bs as [|b bs IH]; intros s s' us HT HF H HU HA; cbn in H.
    { injection H as <- <-. done. }
    destruct (run_block b s) as [[s1 u]|] eqn:E1; [|discriminate].
    destruct (run_blocks bs s1) as [[s2 us']|] eqn:E2; [|discriminate]. injection H as <- <-.
    destruct HT as [HT1 HT2]. apply Forall_cons_1 in HF as [HF1 HF2].
    destruct (usable_block K K0 False ltac:(done) ∅ b s s1 u HF1 HT1 E1 HU ltac:(done)) as (U1 & _ & N1).
    destruct (attributed_block b s s1 u HF1 HT1 E1 HU HA) as [A1 O1].
    destruct (IH s1 s2 us') as [A2 O2]; [by rewrite N1|done..|]. auto.
  Qed.
End hist.
