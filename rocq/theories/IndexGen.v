(** * The index of accounts by status after a start from a genesis file *)
From Verif Require Export IndexProofs GenesisProofs.
Open Scope Z_scope.

Section genesis.
  Context (full : bool).
  Local Notation okx := (okx full).
  Local Notation ixb := (ixb full).
  Local Notation ixs := (ixs full).
  Local Notation ix := (ix full).
  Definition nob (s : St) : Prop := full = true -> forall a, r_banished (ref_get s a) = false.
  Definition gx (s s' : St) : Prop := ixs s -> nob s -> ixs s' /\ nob s'.
  #[local] Instance gx_pre : PreOrder gx.
  Proof. split; [by intros s|]. intros s1 s2 s3 H1 H2 H N. destruct (H1 H N). by apply H2. Qed.
  Lemma bans_nob b s s' : (full = true -> forall y, r_banished (bu_get b y s) = false) -> (exists x, bu_commit b s = (s', Ok x)) -> nob s'.
  Proof. intros HB [x H] HF a. rewrite (commit_get b s s') by (by rewrite H). by apply HB. Qed.
  Lemma gx_append_core p c sk sc : okrel gx (append_child_core p c sk sc).
  Proof.
    intros s s' x H HI HN. split; [by eapply ki_append_core|]. unfold append_child_core in H.
    apply bind_ok in H as (u & s1 & E & H). apply ensure_ok in E as [-> _]. apply bind_ok in H as (ex & s1 & E & H). apply get_ok in E as [-> ->].
    apply bind_ok in H as (u2 & s1 & E & H). apply ensure_ok in E as [-> HE]. apply bind_ok in H as (s0 & s1 & E & H). apply get_ok in E as [-> ->].
    unfold id in H. cbv zeta in H. apply bind_ok in H as ([b [an closed]] & s1 & E & H).
    apply (update_keep full) in E as [E1 B1]; [|done|].
    - apply bind_ok in H as (u3 & s2 & E2 & H). apply ensure_ok in E2 as [-> _].
      apply bind_ok in H as (b3 & s3 & EW & H). apply (walk_keep full) in EW as [_ B2]; [|done|by eapply ixb_ext; [..|exact E1]].
      apply (bans_nob b3 s3 s'); [|eauto]. intros HF y. rewrite (proj2 B2). rewrite (bu_get_ext b (bu_call EvStake p b) s1 s1 y eq_refl eq_refl), (proj2 B1).
      match goal with |- context [bu_set c ?r bu_new] => rewrite (bu_get_insert bu_new (bu_set c r bu_new) c r s eq_refl y) end.
      destruct (y =? c)%N; [by destruct sc|]. rewrite bu_get_new. by apply HN.
    - assert (R0 : ref_get s c = r_zero).
      { unfold ref_exists in HE. unfold ref_get. by destruct (st_ref s !! c). }
      intros y. match goal with |- context [bu_set c ?r bu_new] => rewrite (bu_get_insert bu_new (bu_set c r bu_new) c r s eq_refl y) end.
      destruct (N.eqb_spec y c) as [->|N]; [|rewrite bu_get_new; apply HI].
      specialize (HI c). rewrite R0 in HI. destruct HI as [_ H2]. split.
      + intros H3. destruct sc; cbn in H3; unfold min_indexed in H3; lia.
      + intros HF. destruct (H2 HF) as [H3 H4]. split.
        * intros st Hs. apply H3 in Hs as [E0 Hs]. cbn in E0. unfold min_indexed in Hs. lia.
        * intros HB. destruct sc; cbn in HB; discriminate.
  Qed.
  Lemma gx_top a : okrel gx (add_top_level a).
  Proof.
    intros s s' x H HI HN. split; [by eapply ki_top|]. unfold add_top_level in H. apply (proj1 (recovered_ok _ _ _ _)) in H.
    apply bind_ok in H as (ex & s1 & E & H). apply get_ok in E as [-> ->].
    apply bind_ok in H as (u2 & s1 & E & H). apply ensure_ok in E as [-> HE]. apply bind_ok in H as (r & s1 & E & H). apply get_ok in E as [-> ->].
    match type of H with bu_commit ?b _ = _ => apply (bans_nob b s s'); [|eauto] end. intros HF y.
    match goal with |- context [bu_set a ?r bu_new] => rewrite (bu_get_insert bu_new (bu_set a r bu_new) a r s eq_refl y) end.
    destruct (y =? a)%N; [done|]. rewrite bu_get_new. by apply HN.
  Qed.
  Definition gb (b : bu) (s : St) : Prop := ixb b s /\ (full = true -> forall y, r_banished (bu_get b y s) = false).
  Lemma note_gx {A} (f : A -> addr * (rinfo -> rinfo)) l : (forall x r, r_banished (snd (f x) r) = r_banished r) ->
    forall b s s' b', note f l b s = (s', Ok b') -> gb b s -> gb b' s'.
  Proof.
    intros HF. unfold note. induction l as [|x l IH]; intros b s s' b' H HG; cbn [mfold] in H; [by apply ret_ok in H as [-> ->]|].
    apply bind_ok in H as (b1 & s1 & E & H). eapply IH; [exact H|]. clear H IH.
    apply bind_ok in E as ([b2 u] & s2 & E & E2). apply ret_ok in E2 as [-> ->]. destruct HG as [HI HB].
    pose proof E as E0. apply bu_updatem_ok in E0 as (s3 & b3 & r3 & r4 & E0 & Q & _ & ED & ES & _).
    split.
    - eapply updatem_ix; [exact E|]. intros s4 b4 r5 E4. cbv beta in E4. clear E E0 Q ED ES. apply bind_ok in E4 as (u1 & s5 & EI & E4).
      unfold set_index in EI. apply modify_ok in EI. apply ret_ok in E4 as [-> E4]. injection E4 as -> -> _. subst s5. split.
      + intros y Hy. rewrite (bu_get_ext b b s _ y) by done. eapply okx_other; [|apply HI]. intros st. cbn [st_index]. by apply reindex_other.
      + apply okx_reindex; [|by eapply okx_keep; [..|apply HI]]. intros HT HX. rewrite HF in HX. change (r_banished (bu_get b (fst (f x)) s) = true) in HX. by rewrite HB in HX.
    - intros HT y. cbv beta in E0. apply bind_ok in E0 as (u1 & s5 & EI & E0). unfold set_index in EI. apply modify_ok in EI. apply ret_ok in E0 as [-> E0]. injection E0 as -> -> _. subst s5.
      rewrite (bu_get_insert b b2 (fst (f x)) r4 s2 ED y). destruct (N.eqb_spec y (fst (f x))) as [->|N].
      + destruct Q as (st & d & ->). cbn. rewrite HF. by apply HB.
      + rewrite (bu_get_ext b b s s2 y eq_refl); [by apply HB|]. done.
  Qed.
  Lemma ref_import_gx g s s' : (full = true -> rg_banished g = []) -> ref_import g s = (s', Ok tt) -> ixs s -> nob s -> ixs s'.
  Proof.
    intros HG H HI HN. unfold ref_import in H.
    apply bind_ok in H as ([] & s1 & E & H).
    assert (okrel gx (must (mfor (rg_top g) add_top_level))) as O1 by (repeat first [progress mode_struct|apply gx_top]).
    destruct (O1 _ _ _ E HI HN) as [I1 N1]. clear E O1.
    apply bind_ok in H as ([] & s2 & E & H).
    assert (okrel gx (must (mfor (rg_other g) (fun e => mfor (snd e) (fun c => append_child_core (fst e) c true false))))) as O1 by (repeat first [progress mode_struct|apply gx_append_core]).
    destruct (O1 _ _ _ E I1 N1) as [I2 N2]. clear E O1 I1 N1.
    apply bind_ok in H as ([] & s3 & E & H).
    assert (X3 : ixs s3 /\ nob s3).
    { destruct full eqn:EF.
      - rewrite HG in E by done. cbn in E. by apply ret_ok in E as [-> _].
      - split; [|intros HF; congruence]. revert E I2. clear -EF. generalize s2. induction (rg_banished g) as [|e l IH]; intros s0 E I0; cbn [mfor] in E; [by apply ret_ok in E as [-> _]|].
        apply bind_ok in E as ([] & s4 & E1 & E). eapply IH; [exact E|]. unfold put_banished in E1. apply modify_ok in E1. subst s4.
        intros y. unfold ref_get. cbn [st_ref st_index]. split; [|congruence].
        destruct (N.eq_dec (fst e) y) as [<-|Hy].
        + cbn. rewrite lookup_insert. cbn. unfold min_indexed. lia.
        + cbn. rewrite lookup_insert_ne by done. apply I0. }
    destruct X3 as [I3 N3]. clear E I2 N2. apply (proj1 (must_ok _ _ _ _)) in H.
    assert (G0 : gb bu_new s3). { split; [by apply ixs_new|]. intros HF y. rewrite bu_get_new. by apply N3. }
    apply bind_ok in H as (b1 & s4 & E & H). apply note_gx in E; [|done|done].
    apply bind_ok in H as (b2 & s5 & E2 & H). apply note_gx in E2; [|done|done].
    apply bind_ok in H as (b3 & s6 & E3 & H). apply note_gx in E3; [|done|done].
    apply bind_ok in H as (b4 & s7 & E4 & H). apply note_gx in E4; [|done|done].
    eapply commit_ix; [exact H|]. apply E4.
  Qed.
  Lemma prof_one_ix e : okrel ix (prof_import_one e).
  Proof.
    unfold prof_import_one, nick_put, card_put. repeat first [progress mode_struct | apply okrel_nprel, ix_set_profile | apply ix_okrel; [frame|apply ki_set_active]
      | apply okrel_rel, ix_same; frame | apply ix_fields; [reflexivity|reflexivity|apply grows_same; reflexivity]].
  Qed.
  Lemma check_statuses_ix : okrel ix check_statuses.
  Proof.
    apply ix_okrel; [unfold check_statuses; quiet_go|]. intros s s' x H HI. unfold check_statuses in H.
    apply bind_ok in H as (ks & s1 & E & H). apply get_ok in E as [-> ->]. apply (proj1 (must_ok _ _ _ _)) in H.
    apply bind_ok in H as (b & s1 & E & H). eapply commit_ix; [exact H|]. apply (ixs_new full) in HI. clear H. assert (HJ : ixb bu_new s) by exact HI. clear HI. revert HJ E. generalize (keysN (st_ref s)). generalize bu_new s. clear. intros b0 s0 l. revert b0 s0.
    induction l as [|k l IH]; intros b0 s0 HI E; cbn [mfold] in E; [by apply ret_ok in E as [-> ->]|].
    apply bind_ok in E as (b2 & s2 & E2 & E). eapply IH; [|exact E]. apply bind_ok in E2 as ([b3 u] & s3 & E2 & E3). apply ret_ok in E3 as [-> ->].
    by apply (update_keep full) in E2 as [E2 _].
  Qed.
  Lemma init_ix g s s' u : (full = true -> rg_banished (g_ref g) = []) -> st_ref s = ∅ -> st_index s = ∅ -> init_genesis g s = (s', Ok u) -> ixs s'.
  Proof.
    intros HG ER EI H. assert (EA : aborts s' = aborts s) by (unfold aborts; by rewrite (init_log _ _ _ _ H)).
    assert (I0 : ixs s). { intros y. unfold ref_get. rewrite ER, EI, lookup_empty. split; [cbn; unfold min_indexed; lia|]. intros _. split; [set_solver|done]. }
    assert (N0 : nob s). { intros _ y. unfold ref_get. by rewrite ER, lookup_empty. }
    unfold init_genesis in H.
    apply bind_ok in H as ([] & s1 & E1 & H). apply bind_ok in H as ([] & s2 & E2 & H). apply bind_ok in H as ([] & s3 & E3 & H).
    apply bind_ok in H as ([] & s4 & E4 & H). apply bind_ok in H as ([] & s5 & E5 & H). apply bind_ok in H as ([] & s6 & E6 & H).
    apply bind_ok in H as (up & s7 & E7 & H). apply bind_ok in H as ([] & s8 & E8 & H). apply bind_ok in H as ([] & s9 & E9 & H). apply ret_ok in H as [-> _].
    Ltac sames Q m := assert (Q : rel grows m /\ rel (same st_ref) m /\ rel (same st_index) m)
      by (split_and!; unfold sched_import, auth_import, del_import, noding_import, val_import_one, voting_import, earn_import; quiet_go).
    sames Q1 (sched_import (g_tasks g)). sames Q2 (auth_import (g_accs g)). sames Q6 (del_import (g_del g)).
    sames Q7 (noding_import (g_active g) (g_other g)). sames Q8 (voting_import (g_vote g)). sames Q9 (earn_import (g_earn g)).
    destruct Q1 as (Q11 & Q12 & Q13), Q2 as (Q21 & Q22 & Q23), Q6 as (Q61 & Q62 & Q63), Q7 as (Q71 & Q72 & Q73), Q8 as (Q81 & Q82 & Q83), Q9 as (Q91 & Q92 & Q93).
    assert (G3 : grows s2 s3).
    { assert (X : rel grows (ref_import (g_ref g))) by (unfold ref_import, put_banished; quiet_go). by apply (run_rel _ _ _ _ _ X) in E3. }
    pose proof (run_rel _ _ _ _ _ Q11 E1) as G1. pose proof (run_rel _ _ _ _ _ Q21 E2) as G2.
    assert (I3 : ixs s3).
    { pose proof (run_rel _ _ _ _ _ Q12 E1) as R1. pose proof (run_rel _ _ _ _ _ Q22 E2) as R2. pose proof (run_rel _ _ _ _ _ Q13 E1) as X1. pose proof (run_rel _ _ _ _ _ Q23 E2) as X2.
      unfold same in *. eapply ref_import_gx; [exact HG|exact E3| |].
      - eapply ixs_fields; [..|exact I0]; congruence.
      - intros HF y. unfold ref_get. rewrite R2, R1. by apply N0. }
    assert (X4 : ix s3 s4).
    { assert (O : okrel ix (bank_init (g_bals g) (g_supply g))).
      { unfold bank_init. repeat first [progress mode_struct | apply okrel_nprel, ix_set_balance | apply ix_fields; [reflexivity|reflexivity|apply grows_same; reflexivity]]. }
      by eapply O. }
    assert (X5 : ix s4 s5).
    { assert (O : okrel ix (prof_import (g_profs g))).
      { unfold prof_import. repeat first [progress mode_struct | apply prof_one_ix | apply check_statuses_ix]. }
      by eapply O. }
    assert (X6 : ix s5 s6) by (apply (run_rel _ _ _ _ _ (ix_same full _ Q61 Q62 Q63) E6)).
    assert (X7 : ix s6 s7) by (apply (run_rel _ _ _ _ _ (ix_same full _ Q71 Q72 Q73) E7)).
    assert (X8 : ix s7 s8) by (apply (run_rel _ _ _ _ _ (ix_same full _ Q81 Q82 Q83) E8)).
    assert (X9 : ix s8 s9) by (apply (run_rel _ _ _ _ _ (ix_same full _ Q91 Q92 Q93) E9)).
    assert (XX : ix s3 s9) by (do 6 (etransitivity; [eassumption|]); reflexivity).
    destruct XX as [GX XX]. apply XX; [|exact I3]. apply grows_aborts in G1, G2, G3, GX. lia.
  Qed.
End genesis.
