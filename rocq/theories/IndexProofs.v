(** * The index of accounts by status follows the records *)
From Verif Require Export HoldProofs Spec_Network.
Open Scope Z_scope.

Section index.
  Context (full : bool).
  (** What the index says about one account: it is listed under its status, if
      that is high enough, and ([full]) nowhere else. *)
  Definition okx (r : rinfo) (x : addr) (ix : gset (Z * addr)) : Prop :=
    (min_indexed <= r_status r -> (r_status r, x) ∈ ix) /\
    (full = true -> (forall st, (st, x) ∈ ix -> r_status r = st /\ min_indexed <= st) /\
                    (r_banished r = true -> r_status r < min_indexed)).
  Lemma okx_keep r r' x ix : r_status r' = r_status r -> r_banished r' = r_banished r -> okx r x ix -> okx r' x ix.
  Proof. unfold okx. by intros -> ->. Qed.
  Lemma okx_other r x ix ix' : (forall st, (st, x) ∈ ix' <-> (st, x) ∈ ix) -> okx r x ix -> okx r x ix'.
  Proof. intros H [H1 H2]. split; [intros H3; by apply H, H1|]. intros HF. destruct (H2 HF) as [H3 H4]. split; [|done]. intros st Hs. by apply H3, H. Qed.
  Lemma reindex_other a old new ix x st : x <> a -> (st, x) ∈ reindex a old new ix <-> (st, x) ∈ ix.
  Proof. intros N. unfold reindex. destruct (old =? new); [done|]. destruct (_ <=? old), (_ <=? new); set_solver. Qed.
  Lemma okx_reindex r r' a ix : (full = true -> r_banished r' = true -> r_status r' < min_indexed) ->
    okx r a ix -> okx r' a (reindex a (r_status r) (r_status r') ix).
  Proof.
    intros HB [H1 H2]. unfold reindex. destruct (Z.eqb_spec (r_status r) (r_status r')) as [E|E].
    { split; [rewrite <- E; exact H1|]. intros HF. destruct (H2 HF) as [H3 _]. split; [rewrite <- E; exact H3|by apply HB]. }
    split.
    - intros H. destruct (Z.leb_spec min_indexed (r_status r')); [|lia]. set_solver.
    - intros HF. destruct (H2 HF) as [H3 _]. split; [|by apply HB]. intros st Hs.
      destruct (Z.leb_spec min_indexed (r_status r)) as [L1|L1], (Z.leb_spec min_indexed (r_status r')) as [L2|L2].
      + apply elem_of_union in Hs as [Hs|Hs]; [apply elem_of_singleton in Hs; injection Hs as ->; done|].
        apply elem_of_difference in Hs as [Hs Hn]. apply H3 in Hs as [<- Hs]. exfalso. apply Hn. by apply elem_of_singleton.
      + apply elem_of_difference in Hs as [Hs Hn]. apply H3 in Hs as [<- Hs]. exfalso. apply Hn. by apply elem_of_singleton.
      + apply elem_of_union in Hs as [Hs|Hs]; [apply elem_of_singleton in Hs; injection Hs as ->; done|].
        apply H3 in Hs as [<- Hs]. lia.
      + apply H3 in Hs as [<- Hs]. lia.
  Qed.

  Lemma climb_banished g r n : r_banished r = true -> climb (S n) g r 0 = Some 0.
  Proof. intros HB. cbn [climb Z.eqb]. assert (E : status_req g r (next_status 0) = Some false) by (unfold status_req; cbn; by rewrite HB). by rewrite E. Qed.
  Lemma status_check_okx b a r s s' b' r' : status_check b a r s = (s', Ok (b', r')) -> okx r a (st_index s) ->
    okx r' a (st_index s') /\ forall y st, y <> a -> (st, y) ∈ st_index s' <-> (st, y) ∈ st_index s.
  Proof.
    intros H HO. unfold status_check in H.
    destruct (if r_status r =? 8 then _ else _) as [b1 r1] eqn:E1.
    apply bind_ok in H as (u0 & s0 & EI & H). unfold set_index in EI. apply modify_ok in EI.
    assert (O1 : okx r1 a (st_index s0)).
    { subst s0. cbn [st_index]. apply okx_reindex; [|done]. intros HF HB.
      assert (HB0 : r_banished r = true) by (destruct (r_status r =? 8); injection E1 as _ <-; exact HB).
      pose proof (proj2 (proj2 HO HF) HB0) as L. unfold min_indexed in *.
      destruct (Z.eqb_spec (r_status r) 8) as [E8|E8]; injection E1 as _ <-; cbn; lia. }
    assert (X1 : forall y st, y <> a -> (st, y) ∈ st_index s0 <-> (st, y) ∈ st_index s).
    { subst s0. intros y st Hy. cbn [st_index]. by apply reindex_other. }
    clear EI E1 HO.
    apply bind_ok in H as (s1 & s2 & E & H). apply get_ok in E as [-> ->].
    apply bind_ok in H as (ok & s3 & E & H). apply lift_ok in E as [-> E].
    destruct ok; cbn [negb] in H.
    - apply bind_ok in H as (nx & s4 & EC & H). apply lift_ok in EC as [-> EC].
      destruct (Z.ltb_spec (r_status (r1 <| r_downgrade_at := None |>)) nx) as [L|L].
      + apply bind_ok in H as (u & s5 & EI & H). unfold set_index in EI. apply modify_ok in EI. apply ret_ok in H as [-> H]. injection H as -> ->.
        assert (X2 : forall y st, y <> a -> (st, y) ∈ st_index s5 <-> (st, y) ∈ st_index s0).
        { subst s5. intros y st Hy. cbn [st_index]. by apply reindex_other. }
        split; [|intros y st Hy; rewrite X2 by done; by apply X1].
        subst s5.
        refine (okx_reindex r1 (r1 <| r_downgrade_at := None |> <| r_status := nx |>) a (st_index s0) _ O1). cbn. intros HF HB. exfalso.
        assert (E0 : r_status r1 = 0).
        { unfold status_req in E. destruct (Z.eqb_spec (r_status r1) 0); [done|]. rewrite HB in E. discriminate. }
        change (r_status (r1 <| r_downgrade_at := None |>)) with (r_status r1) in EC, L. rewrite E0 in EC, L.
        rewrite climb_banished in EC by exact HB. injection EC as <-. lia.
      + apply ret_ok in H as [-> H]. injection H as -> ->. split; [|done]. by eapply okx_keep; [..|exact O1].
    - destruct (r_downgrade_at r1).
      + apply ret_ok in H as [-> H]. injection H as -> ->. done.
      + apply bind_ok in H as (u & s4 & ES & H). apply ret_ok in H as [-> H]. injection H as -> ->.
        assert (RS : rel (same st_index) (schedule_task (st_now (id s0) + 2 * one_day (id s0)) HDowngrade a)) by frame.
        specialize (RS s0). rewrite ES in RS. unfold same in RS. cbn [fst] in RS. rewrite RS. split; [|done]. by eapply okx_keep; [..|exact O1].
  Qed.

  (** ** The updater *)
  Definition ixb (b : bu) (s : St) : Prop := forall x, okx (bu_get b x s) x (st_index s).
  Lemma ixb_ext b b' s s' : bu_data b' = bu_data b -> st_ref s' = st_ref s -> st_index s' = st_index s -> ixb b s -> ixb b' s'.
  Proof. intros E1 E2 E3 H x. rewrite E3. rewrite (bu_get_ext b b' s s' x E1 E2). apply H. Qed.
  Lemma updatem_ix {A} b a check (f : bu -> rinfo -> M (bu * rinfo * A)) s s' b' x :
    bu_updatem b a check f s = (s', Ok (b', x)) ->
    (forall s1 b1 r1, f b (normalize (bu_get b a s)) s = (s1, Ok (b1, r1, x)) ->
       (forall y, y <> a -> okx (bu_get b1 y s1) y (st_index s1)) /\ okx r1 a (st_index s1)) -> ixb b' s'.
  Proof.
    intros H HF. unfold bu_updatem in H. apply (proj1 (recovered_ok _ _ _ _)) in H.
    apply bind_ok in H as (r & s0 & E & H). apply get_ok in E as [-> ->].
    apply bind_ok in H as ([[b1 r1] x1] & s1 & E1 & H).
    apply bind_ok in H as ([b2 r2] & s2 & E2 & H). apply ret_ok in H as [-> H]. injection H as -> ->.
    destruct (HF _ _ _ E1) as [O1 O2].
    assert (X : okx r2 a (st_index s2) /\ (forall y st, y <> a -> (st, y) ∈ st_index s2 <-> (st, y) ∈ st_index s1) /\ bu_data b2 = bu_data b1 /\ st_ref s2 = st_ref s1).
    { destruct check.
      - pose proof (status_check_ok _ _ _ _ _ _ _ E2) as (_ & Q2 & Q3). pose proof (status_check_okx _ _ _ _ _ _ _ E2 O2) as [Q4 Q5]. done.
      - apply ret_ok in E2 as [-> E2]. injection E2 as -> ->. done. }
    destruct X as (X1 & X2 & X3 & X4). intros y.
    rewrite (bu_get_insert b2 (bu_set a r2 b2) a r2 s2 eq_refl y). destruct (N.eqb_spec y a) as [->|N]; [exact X1|].
    rewrite (bu_get_ext b1 b2 s1 s2 y X3 X4). eapply okx_other; [|by apply O1]. intros st. by apply X2.
  Qed.
  Definition keep (r r' : rinfo) : Prop := r_status r' = r_status r /\ r_banished r' = r_banished r.
  Definition bans (b b' : bu) (s s' : St) : Prop := st_ref s' = st_ref s /\ forall y, r_banished (bu_get b' y s') = r_banished (bu_get b y s).
  Lemma bans_refl b s : bans b b s s.
  Proof. done. Qed.
  Lemma bans_trans b1 b2 b3 s1 s2 s3 : bans b1 b2 s1 s2 -> bans b2 b3 s2 s3 -> bans b1 b3 s1 s3.
  Proof. intros [H1 H2] [H3 H4]. split; [congruence|]. intros y. by rewrite H4. Qed.
  Lemma bans_data b b' s : bu_data b' = bu_data b -> bans b b' s s.
  Proof. intros E. split; [done|]. intros y. by rewrite (bu_get_ext b b' s s y E eq_refl). Qed.
  Lemma updatem_keep {A} b a check (f : bu -> rinfo -> M (bu * rinfo * A)) s s' b' x :
    bu_updatem b a check f s = (s', Ok (b', x)) -> ixb b s ->
    (forall s1 b1 r1, f b (normalize (bu_get b a s)) s = (s1, Ok (b1, r1, x)) ->
       st_ref s1 = st_ref s /\ st_index s1 = st_index s /\ bu_data b1 = bu_data b /\ keep (normalize (bu_get b a s)) r1) -> ixb b' s' /\ bans b b' s s'.
  Proof.
    intros H HI HF. split.
    - eapply updatem_ix; [exact H|]. intros s1 b1 r1 E. destruct (HF _ _ _ E) as (F1 & F2 & F3 & F4 & F5). split.
      + intros y _. rewrite (bu_get_ext b b1 s s1 y F3 F1), F2. apply HI.
      + rewrite F2. eapply okx_keep; [exact F4|exact F5|]. eapply okx_keep; [..|apply HI]; done.
    - apply bu_updatem_ok in H as (s1 & b1 & r1 & r2 & E & Q & _ & ED & ES & _). destruct (HF _ _ _ E) as (F1 & F2 & F3 & F4 & F5).
      split; [congruence|]. intros y. rewrite (bu_get_insert b1 b' a r2 s' ED y). destruct (N.eqb_spec y a) as [->|N].
      + destruct Q as (st & d & ->). cbn. rewrite F5. done.
      + by rewrite (bu_get_ext b b1 s s' y F3 ltac:(congruence)).
  Qed.
  Lemma update_keep {A} b a check (f : rinfo -> rinfo * A) s s' b' x :
    bu_update b a check f s = (s', Ok (b', x)) -> (forall r, keep r (fst (f r))) -> ixb b s -> ixb b' s' /\ bans b b' s s'.
  Proof.
    intros H HK HI. eapply updatem_keep; [exact H|exact HI|]. intros s1 b1 r1 E. cbv beta in E.
    destruct (f (normalize (bu_get b a s))) as [r' y'] eqn:Ef. apply ret_ok in E as [-> E]. injection E as -> -> ->.
    split_and!; [done..|]. specialize (HK (normalize (bu_get b a s))). by rewrite Ef in HK.
  Qed.
  Lemma walk_keep check lines f :
    (forall i a b r, keep r (snd (f i a b r)) /\ bu_data (fst (f i a b r)) = bu_data b) ->
    forall b a s s' b', walk check lines b a f s = (s', Ok b') -> ixb b s -> ixb b' s' /\ bans b b' s s'.
  Proof.
    intros HF. induction lines as [|i lines IH]; intros b a s s' b' H HI; cbn [walk] in H.
    { apply ret_ok in H as [-> ->]. done. }
    destruct (a =? nobody)%N. { apply ret_ok in H as [-> ->]. done. }
    apply bind_ok in H as ([b1 up1] & s1 & E & H).
    apply updatem_keep in E as [E1 E2]; [|done|].
    - apply IH in H as [H1 H2]; [|done]. split; [done|]. by eapply bans_trans.
    - intros s2 b2 r2 E2. destruct (HF i a b (normalize (bu_get b a s))) as [F1 F2]. cbv beta in E2. destruct (f i a b (normalize (bu_get b a s))) as [b3 r3] eqn:Ef.
      apply ret_ok in E2 as [-> E2]. injection E2 as -> -> ->. done.
  Qed.
  Lemma keep_refl r : keep r r.
  Proof. done. Qed.
  Lemma keep_move sg i src r : keep r (move_lines sg i src r).
  Proof. done. Qed.

  (** ** Single operations *)
  Definition ixs (s : St) : Prop := forall x, okx (ref_get s x) x (st_index s).
  Lemma ixs_new s : ixs s <-> ixb bu_new s.
  Proof. split; intros H x; specialize (H x); by rewrite ?bu_get_new in *. Qed.
  Lemma ixs_fields s s' : st_ref s' = st_ref s -> st_index s' = st_index s -> ixs s -> ixs s'.
  Proof. intros E1 E2 H x. unfold ref_get. rewrite E1, E2. apply H. Qed.
  Lemma commit_ix b s s' x : bu_commit b s = (s', Ok x) -> ixb b s -> ixs s'.
  Proof.
    intros H HI y. rewrite (commit_get b s s') by (by rewrite H).
    assert (RS : rel (same st_index) (bu_commit b)) by frame. specialize (RS s). rewrite H in RS. unfold same in RS. cbn [fst] in RS.
    rewrite RS. apply HI.
  Qed.
  Definition ki (s s' : St) : Prop := ixs s -> ixs s'.
  #[local] Instance ki_pre : PreOrder ki.
  Proof. split; [by intros s|]. intros s1 s2 s3 H1 H2 H. by apply H2, H1. Qed.

  Lemma ki_append_core p c sk sc : okrel ki (append_child_core p c sk sc).
  Proof.
    intros s s' x H HI. unfold append_child_core in H.
    apply bind_ok in H as (u & s1 & E & H). apply ensure_ok in E as [-> _]. apply bind_ok in H as (ex & s1 & E & H). apply get_ok in E as [-> ->].
    apply bind_ok in H as (u2 & s1 & E & H). apply ensure_ok in E as [-> HE]. apply bind_ok in H as (s0 & s1 & E & H). apply get_ok in E as [-> ->].
    unfold id in H. cbv zeta in H. apply bind_ok in H as ([b [an closed]] & s1 & E & H).
    apply update_keep in E as [E1 _]; [|done|].
    - apply bind_ok in H as (u3 & s2 & E2 & H). apply ensure_ok in E2 as [-> _].
      apply bind_ok in H as (b3 & s3 & EW & H). apply walk_keep in EW as [EW _]; [|done|by eapply ixb_ext; [..|exact E1]].
      by eapply commit_ix.
    - assert (R0 : ref_get s c = r_zero).
      { unfold ref_exists in HE. unfold ref_get. by destruct (st_ref s !! c). }
      intros y. match goal with |- context [bu_set c ?r bu_new] => rewrite (bu_get_insert bu_new (bu_set c r bu_new) c r s eq_refl y) end.
      destruct (N.eqb_spec y c) as [->|N]; [|rewrite bu_get_new; apply HI].
      specialize (HI c). rewrite R0 in HI. destruct HI as [_ H2]. split.
      + intros H3. destruct sc; cbn in H3; unfold min_indexed in H3; lia.
      + intros HF. destruct (H2 HF) as [H3 H4]. split.
        * intros st Hs. apply H3 in Hs as [E0 Hs]. cbn in E0. unfold min_indexed in Hs. lia.
        * intros HB. destruct sc; cbn in HB; discriminate.
  Qed.
  Lemma ki_append p c : okrel ki (append_child p c).
  Proof. apply ki_append_core. Qed.
  Lemma ki_top a : okrel ki (add_top_level a).
  Proof.
    intros s s' x H HI. unfold add_top_level in H. apply (proj1 (recovered_ok _ _ _ _)) in H.
    apply bind_ok in H as (ex & s1 & E & H). apply get_ok in E as [-> ->].
    apply bind_ok in H as (u2 & s1 & E & H). apply ensure_ok in E as [-> HE]. apply bind_ok in H as (r & s1 & E & H). apply get_ok in E as [-> ->].
    eapply commit_ix; [exact H|].
    assert (R0 : ref_get s a = r_zero).
    { unfold ref_exists in HE. unfold ref_get. by destruct (st_ref s !! a). }
    intros y. match goal with |- context [bu_set a ?r bu_new] => rewrite (bu_get_insert bu_new (bu_set a r bu_new) a r s eq_refl y) end.
    destruct (N.eqb_spec y a) as [->|N]; [|rewrite bu_get_new; apply HI].
    specialize (HI a). rewrite R0 in HI. destruct HI as [_ H2]. split.
    - intros H3. cbn in H3; unfold min_indexed in H3; lia.
    - intros HF. destruct (H2 HF) as [H3 H4]. split; [|done].
      intros st Hs. apply H3 in Hs as [E0 Hs]. cbn in E0. unfold min_indexed in Hs. lia.
  Qed.
  Lemma ki_compress a : okrel ki (compress a).
  Proof.
    intros s s' x H HI. unfold compress in H.
    apply bind_ok in H as (dust & s1 & E & H). apply get_ok in E as [-> ->].
    apply bind_ok in H as ([b old] & s1 & E & H).
    assert (I1 : ixb b s1).
    { eapply updatem_ix; [exact E|]. clear E H. cbv beta. rewrite bu_get_new. intros s2 b2 r2 E.
      destruct (_ =? _)%N; [discriminate E|]. cbv zeta in E.
      apply bind_ok in E as (u0 & s0 & EI & E). unfold set_index in EI. apply modify_ok in EI.
      apply bind_ok in E as (own & s3 & E3 & E). apply lift_ok in E3 as [-> _].
      apply bind_ok in E as (r4 & s4 & E4 & E). apply ret_ok in E as [-> E]. injection E as -> -> _.
      assert (X : st_ref s4 = st_ref s0 /\ st_index s4 = st_index s0 /\ r_status r4 = 1).
      { destruct (own <=? _); [|by apply ret_ok in E4 as [-> ->]].
        unfold schedule_banishment in E4. apply bind_ok in E4 as (t & s6 & E6 & E5). apply get_ok in E6 as [-> ->].
        apply bind_ok in E5 as (u & s7 & E7 & E5). apply ret_ok in E5 as [-> ->].
        assert (RS : rel (same st_ref) (schedule_task (st_now s0 + one_month s0) HBanish a)) by frame. specialize (RS s0). rewrite E7 in RS.
        assert (RI : rel (same st_index) (schedule_task (st_now s0 + one_month s0) HBanish a)) by frame. specialize (RI s0). rewrite E7 in RI. done. }
      destruct X as (X1 & X2 & X3). rewrite X2. split.
      - intros y Hy. rewrite (bu_get_ext bu_new _ s s4 y); [|done|by rewrite X1, EI]. rewrite bu_get_new.
        eapply okx_other; [|apply HI]. intros st. rewrite EI. cbn [st_index]. by apply reindex_other.
      - rewrite EI. cbn [st_index]. rewrite <- X3. apply (okx_reindex (normalize (ref_get s a)) r4).
        + intros _ _. rewrite X3. unfold min_indexed. lia.
        + by eapply okx_keep; [..|apply HI]. }
    clear E. cbv zeta in H. apply bind_ok in H as (b1 & s2 & E & H).
    assert (I2 : ixb b1 s2).
    { clear H. revert b s1 I1 E. generalize (r_referrals old). intros l. induction l as [|c l IH]; intros b s1 I1 E; cbn [mfold] in E.
      - by apply ret_ok in E as [-> ->].
      - apply bind_ok in E as (b2 & s3 & E3 & E). apply bind_ok in E3 as ([b3 []] & s4 & E4 & E3). apply ret_ok in E3 as [-> ->].
        apply update_keep in E4 as [E4 _]; [|done|done]. by eapply IH. }
    clear E I1. apply bind_ok in H as (b3 & s3 & EW & H). apply walk_keep in EW as [EW _]; [|intros; split; [|done]; by destruct (_ =? 1)%nat|done].
    by eapply commit_ix.
  Qed.
  Lemma revive_ix a b r s s' b' r' : revive a b r s = (s', Ok (b', r')) -> ixb b s ->
    ixb b' s' /\ bans b b' s s' /\ r_status r' = 1 /\ r_banished r' = false.
  Proof.
    unfold revive. intros H HI. apply bind_ok in H as (f & s1 & E & H). apply get_ok in E as [-> ->].
    apply bind_ok in H as (p & s1 & E & H). apply nearest_ok in E as [-> _]. cbv zeta in H.
    destruct (p =? nobody)%N. { apply ret_ok in H as [-> H]. injection H as -> ->. done. }
    apply bind_ok in H as ([b1 u] & s1 & E & H). apply update_keep in E as [E1 E2]; [|done|done].
    destruct (_ || _). { apply ret_ok in H as [-> H]. injection H as -> ->. done. }
    apply bind_ok in H as (b3 & s3 & EW & H). apply ret_ok in H as [-> H]. injection H as -> ->.
    apply walk_keep in EW as [E3 E4]; [|done|done]. split_and!; [done|by eapply bans_trans|done..].
  Qed.
  Lemma core_index_obc nb nd dust s0 a b r s s1 b1 r1 x : obc_body nb nd dust s0 a b r s = (s1, Ok (b1, r1, x)) ->
    ixb b s -> keep (bu_get b a s) r ->
    (forall y, y <> a -> okx (bu_get b1 y s1) y (st_index s1)) /\ okx r1 a (st_index s1).
  Proof.
    intros H HI [K1 K2]. unfold obc_body in H. destruct (r_empty r); [by apply throw_ok in H|]. cbv zeta in H.
    assert (D : forall b' r' s', bu_data b' = bu_data b -> st_ref s' = st_ref s -> st_index s' = st_index s -> keep r r' ->
      (forall y, y <> a -> okx (bu_get b' y s') y (st_index s')) /\ okx r' a (st_index s')).
    { intros b' r' s' D1 D2 D3 [D4 D5]. rewrite D3. split.
      - intros y _. rewrite (bu_get_ext b b' s s' y D1 D2). apply HI.
      - eapply okx_keep; [..|apply HI]; congruence. }
    destruct (nd - _ =? 0). { apply ret_ok in H as [-> H]. injection H as -> -> _. by apply D. }
    destruct (r_active r). { apply ret_ok in H as [-> H]. injection H as -> -> _. by apply D. }
    apply bind_ok in H as (ndi & s2 & E & H). apply lift_ok in E as [-> _]. destruct (ndi <=? dust).
    { destruct (_ && _).
      - apply bind_ok in H as (r2 & s2 & E & H). apply ret_ok in H as [-> H]. injection H as -> -> _.
        unfold schedule_banishment in E. apply bind_ok in E as (t & s6 & E6 & E5). apply get_ok in E6 as [-> ->].
        apply bind_ok in E5 as (u & s7 & E7 & E5). apply ret_ok in E5 as [-> ->].
        assert (RS : rel (same st_ref) (schedule_task (st_now s + one_month s) HBanish a)) by frame. specialize (RS s). rewrite E7 in RS.
        assert (RI : rel (same st_index) (schedule_task (st_now s + one_month s) HBanish a)) by frame. specialize (RI s). rewrite E7 in RI. by apply D.
      - apply ret_ok in H as [-> H]. injection H as -> -> _. by apply D. }
    apply bind_ok in H as (r2 & s2 & E & H).
    assert (X : st_ref s2 = st_ref s /\ st_index s2 = st_index s /\ keep r r2).
    { destruct (r_banishment_at r) as [t|]; [|by apply ret_ok in E as [-> ->]].
      apply bind_ok in E as (u & s7 & E7 & E5). apply ret_ok in E5 as [-> ->].
      assert (RS : rel (same st_ref) (delete_task t HBanish a)) by frame. specialize (RS s). rewrite E7 in RS.
      assert (RI : rel (same st_index) (delete_task t HBanish a)) by frame. specialize (RI s). rewrite E7 in RI. done. }
    destruct X as (X1 & X2 & X3 & X4). destruct (r_banished r2) eqn:EB.
    - apply bind_ok in H as ([b3 r3] & s3 & E3 & H). apply ret_ok in H as [-> H]. injection H as -> -> _.
      apply revive_ix in E3 as (R1 & [R2 R3] & R4 & R5); [|by eapply ixb_ext; [..|exact HI]].
      split; [intros y _; apply R1|]. specialize (R1 a). destruct R1 as [_ R1]. split; [cbn; rewrite R4; unfold min_indexed; lia|].
      intros HF. destruct (R1 HF) as [R6 R7]. split; [|cbn; rewrite R5; discriminate].
      assert (HB : r_banished (bu_get b3 a s3) = true).
      { rewrite R3. rewrite (bu_get_ext b (bu_call EvStake a b) s s2 a eq_refl X1). congruence. }
      specialize (R7 HB). intros st Hs. apply R6 in Hs as [Hs1 Hs2]. lia.
    - apply ret_ok in H as [-> H]. injection H as -> -> _. apply D; [done|exact X1|exact X2|split; cbn; congruence].
  Qed.
  Lemma ki_obc a s s' : on_balance_changed a s = (s', Ok tt) -> ki s s'.
  Proof.
    unfold on_balance_changed. intros H HI.
    apply bind_ok in H as (s0 & s1 & E & H). apply get_ok in E as [-> ->]. unfold id in H. cbv zeta in H.
    apply bind_ok in H as (out & s1 & E & H). apply try_ok in E.
    destruct out as [[b [[[dc dd] node] ban]]|e]; cycle 1.
    { change (bu_updatem bu_new a true (obc_body (own_coins s a) (own_deleg s a) (bp_dust (st_bp s)) s a) s = (s1, Err e)) in E.
      destruct e; try (by apply throw_ok in H). apply ret_ok in H as [-> _].
      unfold bu_updatem, recovered, bind in E. cbn [get] in E. rewrite bu_get_new in E.
      destruct (r_empty (normalize (ref_get s a))) eqn:EE.
      { unfold obc_body in E. rewrite EE in E. cbn in E. injection E as ->. exact HI. }
      exfalso. pose proof (f_obc (own_coins s a) (own_deleg s a) (bp_dust (st_bp s)) s a bu_new (normalize (ref_get s a)) EE s) as [F1 F2].
      destruct (obc_body _ _ _ _ _ _ _ s) as [s2 [[[b2 r2] x2]|e|e]]; cbn in E, F1, F2; [|congruence|congruence].
      pose proof (f_status b2 a r2 s2) as [F3 F4]. destruct (status_check b2 a r2 s2) as [s3 [[b3 r3]|e|e]]; cbn in E, F3, F4; congruence. }
    change (bu_updatem bu_new a true (obc_body (own_coins s a) (own_deleg s a) (bp_dust (st_bp s)) s a) s = (s1, Ok (b, (dc, dd, node, ban)))) in E.
    apply updatem_ix in E; cycle 1.
    { intros s2 b2 r2 E2. eapply core_index_obc; [exact E2|by apply ixs_new|done]. }
    apply bind_ok in H as (b3 & s3 & EW & H). eapply commit_ix; [exact H|]. destruct ban.
    - by apply ret_ok in EW as [-> ->].
    - apply walk_keep in EW as [EW _]; [done| |done]. intros i x b0 r. split; [done|]. cbn. by destruct (dd =? 0).
  Qed.
  Lemma ki_set_active a v c : okrel ki (set_active a v c).
  Proof.
    intros s s' x H HI. unfold set_active in H. apply bind_ok in H as (s0 & s1 & E & H). apply get_ok in E as [-> ->]. unfold id in H. cbv zeta in H.
    apply bind_ok in H as ([b o] & s1 & E & H).
    assert (EI : st_index s1 = st_index s).
    { match type of E with ?m s = _ => assert (RI : rel (same st_index) m) end.
      { unfold bu_updatem. repeat first [frame | progress rel_struct]. }
      specialize (RI s). rewrite E in RI. exact RI. }
    apply updatem_keep in E as [I1 [B1 _]]; [|by apply ixs_new|].
    2:{ rewrite bu_get_new. intros s2 b2 r2 E2. destruct (Bool.eqb _ _).
        { apply ret_ok in E2 as [-> E2]. injection E2 as -> -> _. done. }
        apply bind_ok in E2 as (r3 & s3 & E3 & E2). apply ret_ok in E2 as [-> E2]. injection E2 as -> -> _.
        destruct (r_banishment_at _) as [t|]; [|by apply ret_ok in E3 as [-> ->]]. destruct v; [|by apply ret_ok in E3 as [-> ->]].
        apply bind_ok in E3 as (u & s7 & E7 & E5). apply ret_ok in E5 as [-> ->].
        assert (RS : rel (same st_ref) (delete_task t HBanish a)) by frame. specialize (RS s). rewrite E7 in RS.
        assert (RI : rel (same st_index) (delete_task t HBanish a)) by frame. specialize (RI s). rewrite E7 in RI. done. }
    destruct o as [p|].
    - apply bind_ok in H as (b2 & s2 & EW & H). apply walk_keep in EW as [EW _]; [|intros; split; [by destruct (_ =? 1)%nat|done]|done].
      apply bind_ok in H as (u & s3 & ES & H). eapply commit_ix; [exact H|].
      assert (X : st_ref s3 = st_ref s2 /\ st_index s3 = st_index s2).
      { destruct (_ && _); [|by apply ret_ok in ES as [-> _]].
        assert (RS : rel (same st_ref) (schedule_compression (st_now s + compression_period s) a)) by frame. specialize (RS s2). rewrite ES in RS.
        assert (RI : rel (same st_index) (schedule_compression (st_now s + compression_period s) a)) by frame. specialize (RI s2). rewrite ES in RI. done. }
      destruct X. by eapply ixb_ext; [..|exact EW].
    - apply ret_ok in H as [-> _]. by apply (ixs_fields s).
  Qed.

  Lemma ki_write a r s : keep (ref_get s a) r -> ki s (s <| st_ref := <[ a := r ]> (st_ref s) |>).
  Proof.
    intros [K1 K2] HI y. change (st_index (s <| st_ref := <[a:=r]> (st_ref s) |>)) with (st_index s). unfold ref_get. cbn.
    destruct (N.eq_dec a y) as [<-|Hy].
    - rewrite lookup_insert. eapply okx_keep; [exact K1|exact K2|apply HI].
    - rewrite lookup_insert_ne by done. apply HI.
  Qed.
  Lemma ki_cancel a : rel ki (cancel_transition a).
  Proof. intros s. by apply ki_write. Qed.
  Lemma ki_set_transition a p : rel ki (set_transition a p).
  Proof. intros s. by apply ki_write. Qed.
  Lemma ki_downgrade a : okrel ki (perform_downgrade a).
  Proof.
    intros s s' x H HI. unfold perform_downgrade in H. apply (proj1 (must_ok _ _ _ _)) in H.
    apply bind_ok in H as (now & s1 & E & H). apply get_ok in E as [-> ->]. apply bind_ok in H as ([b u] & s1 & E & H).
    eapply commit_ix; [exact H|]. apply (ixb_ext b _ s1 s1); [done..|]. eapply updatem_ix; [exact E|]. rewrite bu_get_new. clear E H.
    intros s2 b2 r2 E. cbv beta in E. set (r := normalize (ref_get s a)) in *.
    assert (HR : okx r a (st_index s)) by (by eapply okx_keep; [..|apply HI]).
    assert (HS : (forall y, y <> a -> okx (bu_get bu_new y s) y (st_index s)) /\ okx r a (st_index s)).
    { split; [|done]. intros y _. rewrite bu_get_new. apply HI. }
    destruct (r_downgrade_at r) as [t|]; [destruct (_ <? t)|].
    - apply ret_ok in E as [-> E]. injection E as -> -> _. exact HS.
    - apply bind_ok in E as (u0 & s3 & EI & E). unfold set_index in EI. apply modify_ok in EI. apply ret_ok in E as [-> E]. injection E as -> -> _.
      split.
      + intros y Hy. rewrite (bu_get_ext bu_new bu_new s s3 y); [|done|by rewrite EI]. rewrite bu_get_new.
        eapply okx_other; [|apply HI]. intros st. rewrite EI. cbn [st_index]. by apply reindex_other.
      + subst s3. refine (okx_reindex r (r <| r_status := prev_status (r_status r) |> <| r_downgrade_at := None |>) a (st_index s) _ HR).
        intros HF HB. pose proof (proj2 (proj2 HR HF) HB) as HL. change (prev_status (r_status r) < min_indexed). revert HL. generalize (r_status r). clear. intros n HL.
        unfold prev_status, min_indexed in *. destruct (Z.eqb_spec (n - 1) 8); lia.
    - apply ret_ok in E as [-> E]. injection E as -> -> _. exact HS.
  Qed.
  Lemma ki_compression a : okrel ki (perform_compression a).
  Proof.
    intros s s' x H. unfold perform_compression in H. apply bind_ok in H as (r & s1 & E & H). apply get_ok in E as [-> ->].
    apply bind_ok in H as (now & s1 & E & H). apply get_ok in E as [-> ->].
    destruct (r_compression_at _); [|apply ret_ok in H as [-> _]; reflexivity]. destruct (_ <? _); [apply ret_ok in H as [-> _]; reflexivity|].
    apply (proj1 (must_ok _ _ _ _)) in H. by eapply ki_compress.
  Qed.
  (** An account that leaves the updater with a low status, and may do so *)
  Lemma low_ix b r a s s1 : ixb b s -> st_ref s1 = st_ref s -> st_index s1 = st_index s ->
    (full = true -> r_status (bu_get b a s) < min_indexed) -> r_status r < min_indexed ->
    (forall y, y <> a -> okx (bu_get b y s1) y (st_index s1)) /\ okx r a (st_index s1).
  Proof.
    intros HI E1 E2 HL L. rewrite E2. split.
    - intros y _. rewrite (bu_get_ext b b s s1 y eq_refl E1). apply HI.
    - split; [lia|]. intros HF. specialize (HL HF). destruct (HI a) as [_ HA]. destruct (HA HF) as [H3 _]. split; [|done].
      intros st Hs. apply H3 in Hs as [? ?]. lia.
  Qed.
  Lemma ki_banish a s s' : (full = true -> r_status (ref_get s a) < min_indexed) -> banish_core a s = (s', Ok tt) -> ki s s'.
  Proof.
    intros HL H HI. unfold banish_core in H. apply bind_ok in H as (dust & s1 & E & H). apply get_ok in E as [-> ->].
    apply bind_ok in H as ([b [[q c] d]] & s1 & E & H).
    assert (I1 : ixb b s1).
    { eapply updatem_ix; [exact E|]. clear E H. intros s2 b2 r2 E2. cbv beta zeta in E2.
      repeat (apply bind_ok in E2 as (? & ? & EE & E2); first [apply ensure_ok in EE as [-> _] | apply lift_ok in EE as [-> _]]; try clear EE).
      apply ret_ok in E2 as [-> E2]. injection E2 as -> -> _ _ _.
      apply (low_ix bu_new _ a s); [by apply ixs_new|done|done|by rewrite bu_get_new|cbn; unfold min_indexed; lia]. }
    clear E. apply bind_ok in H as ([b2 u] & s2 & E & H). apply update_keep in E as [I2 _]; [|done|done].
    apply bind_ok in H as (b3 & s3 & EW & H). eapply commit_ix; [exact H|].
    destruct (_ || _); [by apply ret_ok in EW as [-> ->]|]. by apply walk_keep in EW as [EW _].
  Qed.
  Lemma ki_come_back a s s' : (full = true -> r_banished (ref_get s a) = true) -> come_back a s = (s', Ok tt) -> ki s s'.
  Proof.
    intros HL H HI. unfold come_back in H. apply bind_ok in H as ([b [[q c] d]] & s1 & E & H).
    assert (I1 : ixb b s1).
    { eapply updatem_ix; [exact E|]. clear E H. intros s2 b2 r2 E2. apply bind_ok in E2 as (f & s3 & E2 & E3). apply get_ok in E2 as [-> ->].
      apply bind_ok in E3 as (p & s3 & E2 & E3). apply nearest_ok in E2 as [-> _]. apply ret_ok in E3 as [-> E3]. injection E3 as -> -> _ _ _.
      apply (low_ix bu_new _ a s); [by apply ixs_new|done|done| |cbn; unfold min_indexed; lia].
      rewrite bu_get_new. intros HF. by apply (proj2 (HI a) HF), HL. }
    clear E. apply bind_ok in H as (b3 & s3 & EW & H). eapply commit_ix; [exact H|].
    destruct (_ =? nobody)%N; [by apply ret_ok in EW as [-> ->]|]. apply bind_ok in EW as ([b2 u] & s2 & EM & EW).
    apply update_keep in EM as [I2 _]; [|done|done].
    destruct (_ || _); [by apply ret_ok in EW as [-> ->]|]. by apply walk_keep in EW as [EW _].
  Qed.
  Lemma affirm_up_ix levels src : forall b o n s s' b', affirm_up levels src b o n s = (s', Ok b') -> ixb b s -> ixb b' s'.
  Proof.
    induction levels as [|i l IH]; intros b o n s s' b' H HI; cbn [affirm_up] in H; [by apply ret_ok in H as [-> ->]|].
    destruct (_ =? n)%N; [by apply ret_ok in H as [-> ->]|].
    apply bind_ok in H as ([b1 o1] & s2 & E & H). apply bind_ok in H as ([b2 n1] & s3 & E2 & H).
    eapply IH; [exact H|].
    assert (I1 : ixb b1 s2).
    { destruct (o =? nobody)%N; [apply ret_ok in E as [-> E]; by injection E as -> _|]. by apply update_keep in E as [E _]. }
    destruct (n =? nobody)%N; [apply ret_ok in E2 as [-> E2]; by injection E2 as -> _|]. by apply update_keep in E2 as [E2 _].
  Qed.

  (** ** Histories *)
  Definition ix (s s' : St) : Prop := grows s s' /\ (aborts s' = aborts s -> ixs s -> ixs s').
  #[local] Instance ix_pre : PreOrder ix.
  Proof.
    split.
    - intros s. split; [reflexivity|done].
    - intros s1 s2 s3 [G1 A1] [G2 A2]. split; [by transitivity s2|]. intros E H. pose proof (grows_aborts _ _ G1). pose proof (grows_aborts _ _ G2).
      apply A2; [lia|]. apply A1; [lia|done].
  Qed.
  Lemma ix_ki s s' : grows s s' -> ki s s' -> ix s s'.
  Proof. intros G K. split; [done|]. intros _. exact K. Qed.
  Lemma ix_fields s s' : st_ref s' = st_ref s -> st_index s' = st_index s -> grows s s' -> ix s s'.
  Proof. intros E1 E2 G. apply ix_ki; [done|]. intros HI. by apply (ixs_fields s). Qed.
  Lemma ix_same {A} (m : M A) : rel grows m -> rel (same st_ref) m -> rel (same st_index) m -> rel ix m.
  Proof. intros G K1 K2 s. apply ix_fields; [apply K1|apply K2|apply G]. Qed.
  Lemma ix_rel {A} (m : M A) : rel grows m -> rel ki m -> rel ix m.
  Proof. intros G K s. apply ix_ki; [apply G|apply K]. Qed.
  Lemma ix_okrel {A} (m : M A) : rel grows m -> okrel ki m -> okrel ix m.
  Proof. intros G K s s' x E. apply ix_ki; [|by eapply K]. specialize (G s). by rewrite E in G. Qed.
  Lemma ix_must {A} (m : M A) : rel grows m -> okrel ki m -> nprel ix (must m).
  Proof. intros G K. apply nprel_must. by apply ix_okrel. Qed.
  Lemma ix_set_balance a c : nprel ix (set_balance a c).
  Proof.
    intros s s' r H HP. unfold set_balance in H. unfold bind at 1 in H. destruct (ensure _ _ s) as [s1 [u|e|e]] eqn:E1.
    2:{ injection H as <- <-. unfold ensure in E1. destruct (coins_valid c); [discriminate|]. injection E1 as <- _. reflexivity. }
    2:{ unfold ensure in E1. by destruct (coins_valid c). }
    apply ensure_ok in E1 as [-> _]. unfold bind at 1, modify at 1 in H.
    set (s1 := s <| st_bal := if decide (c = ∅) then base.delete a (st_bal s) else <[a:=c]> (st_bal s) |>) in *.
    assert (L1 : st_log s1 = st_log s) by done. assert (I1 : ixs s -> ixs s1) by (by apply ixs_fields).
    clearbody s1. unfold bind at 1 in H. unfold try in H.
    assert (LO : st_log (fst (on_balance_changed a s1)) = st_log s1) by apply on_balance_changed_log.
    destruct (on_balance_changed a s1) as [s2 [[]|e|e]] eqn:E2; cbn [fst] in *.
    - injection H as <- <-. split; [exists []; rewrite app_nil_r; congruence|]. intros _ HH.
      apply (ki_obc a s1 s2 E2). by apply I1.
    - cbn in H. injection H as <- <-. split; [exists [LHookFailed a]; cbn; congruence|]. rewrite aborts_app. unfold aborts at 1. rewrite LO, L1.
      fold (aborts s). cbn. lia.
    - injection H as <- <-. by destruct (HP e).
  Qed.

  Hint Extern 1 (ix _ _) => (apply ix_fields; [reflexivity|reflexivity|first [apply grows_log|apply grows_same; reflexivity]]) : frame.
  Hint Resolve ix_set_balance : frame.
  Lemma ix_subtract a c : nprel ix (subtract_coins a c).
  Proof. unfold subtract_coins. repeat first [progress mode_struct | apply ix_set_balance]. Qed.
  Lemma ix_add a c : nprel ix (add_coins a c).
  Proof. unfold add_coins. repeat first [progress mode_struct | apply ix_set_balance]. Qed.
  Ltac ix_step := repeat first [progress mode_struct | apply ix_subtract | apply ix_add | apply okrel_nprel, ix_add | frame].
  Lemma ix_send a b c : nprel ix (send_coins a b c).
  Proof. unfold send_coins. repeat first [progress mode_struct | apply ix_subtract | apply ix_add]. Qed.
  Lemma ix_io a c o : nprel ix (input_output_coins [(a, c)] o).
  Proof. unfold input_output_coins. repeat first [progress mode_struct | apply ix_subtract | apply ix_add]. Qed.
  Lemma ix_burn a c : nprel ix (burn_acc_coins a c).
  Proof. unfold burn_acc_coins, deflate. ix_step. Qed.
  Lemma ix_convert a d1 n1 d2 n2 : nprel ix (convert a d1 n1 d2 n2).
  Proof. unfold convert, new_coins, deflate, inflate. ix_step. Qed.
  Lemma ix_accrue a n : nprel ix (accrue a n).
  Proof. unfold accrue, new_coins, inflate, tx_fee. ix_step. Qed.
  Lemma ix_accrue_to_validator a n : nprel ix (accrue_to_validator a n).
  Proof. unfold accrue_to_validator, new_coins, inflate, fr. ix_step. Qed.
  Lemma ix_must_set_active a v : nprel ix (must_set_active a v).
  Proof. apply ix_must; [frame|apply ki_set_active]. Qed.
  Lemma ix_append p c : okrel ix (append_child p c).
  Proof. apply ix_okrel; [frame|apply ki_append]. Qed.
  Lemma fr_validate a p c : rel ix (validate_transition a p c) /\ rel (same st_ref) (validate_transition a p c) /\ rel (same st_index) (validate_transition a p c).
  Proof. split_and!; [apply ix_same|..]; frame. Qed.
  Lemma ix_affirm a : nprel ix (affirm_transition a).
  Proof.
    intros s s' r H HP. assert (G : rel grows (affirm_transition a)) by frame. specialize (G s). rewrite H in G. cbn [fst] in G.
    apply ix_ki; [exact G|]. clear G. intros HI. unfold affirm_transition in H.
    unfold bind at 1, get at 1 in H. cbv zeta in H.
    pose proof (fr_validate a (r_transition (ref_get s a)) false) as (_ & RR & RI).
    set (v := validate_transition a (r_transition (ref_get s a)) false) in *. clearbody v.
    unfold bind at 1 in H. specialize (RR s). specialize (RI s). unfold same in RR, RI.
    destruct (v s) as [s1 [[]|e|e]]; cbn [fst] in *; [|injection H as <- <-; by apply (ixs_fields s)..].
    unfold bind at 1, modify at 1 in H.
    match type of H with must _ ?s2 = _ => assert (I2 : ixs s2) end.
    { apply (ki_write a); [|by apply (ixs_fields s)]. unfold ref_get. rewrite RR. done. }
    unfold must in H. match type of H with (let (_, _) := ?x in _) = _ => destruct x as [s3 [[]|e|e]] eqn:E end.
    2,3: injection H as <- <-; by destruct (HP e).
    injection H as <- <-. clear HP RR RI HI. rename E into H. revert H I2. generalize (ref_get s a). clear. intros r H HI.
    apply bind_ok in H as ([b o] & s2 & E & H).
    apply updatem_keep in E as [I1 _]; [|by apply ixs_new|].
    2:{ intros s4 b4 r4 EE. apply bind_ok in EE as (u & s5 & E4 & EE). apply assert_ok in E4 as [-> _].
        apply bind_ok in EE as (u2 & s5 & E4 & EE). apply assert_ok in E4 as [-> _]. apply ret_ok in EE as [-> EE]. injection EE as -> -> _. done. }
    apply bind_ok in H as ([b2 n] & s4 & E & H). apply update_keep in E as [I2 _]; [|done|done].
    apply bind_ok in H as (b3 & s5 & E & H). eapply commit_ix; [exact H|]. by eapply affirm_up_ix.
  Qed.

  Lemma ix_abort t f s s' e : hooks (t_hook t) = Some f -> f (t_data t) (t_time t) s = (s', e) ->
    ix s (s' <| st_log := st_log s' ++ [LTaskFailed t] |>).
  Proof.
    intros Hf H. assert (G : rel grows (f (t_data t) (t_time t))) by (eapply sw_hooks; [..|exact Hf]; auto 8 with frame).
    specialize (G s). rewrite H in G. cbn in G. split; [transitivity s'; [done|apply grows_log]|].
    rewrite aborts_app. cbn [List.filter is_abort List.length]. apply grows_aborts in G. lia.
  Qed.
  Ltac ix_sweep := try apply _;
    lazymatch goal with
    | |- context [nprel _ (send_coins _ _ _)] => intros; apply ix_send
    | |- context [nprel _ (input_output_coins _ _)] => intros; apply ix_io
    | |- context [nprel _ (burn_acc_coins _ _)] => intros; apply ix_burn
    | |- context [nprel _ (convert _ _ _ _ _)] => intros; apply ix_convert
    | |- context [nprel _ (accrue _ _)] => intros; apply ix_accrue
    | |- context [nprel _ (accrue_to_validator _ _)] => intros; apply ix_accrue_to_validator
    | |- context [nprel _ (must_set_active _ _)] => intros; apply ix_must_set_active
    | |- context [nprel _ (cancel_transition _)] => intros; apply nprel_rel, ix_rel; [frame|apply ki_cancel]
    | |- context [nprel _ (affirm_transition _)] => intros; apply ix_affirm
    | |- context [nprel _ (set_transition _ _)] => intros; apply nprel_rel, ix_rel; [frame|apply ki_set_transition]
    | |- context [nprel] => intros; apply nprel_rel, ix_same; auto 8 with frame
    | |- context [rel] => intros; apply ix_same; auto 8 with frame
    | _ => intros; auto 2 with frame
    end.
  Lemma ix_ante t : nprel ix (ante t).
  Proof. apply sp_ante; ix_sweep. Qed.
  Lemma ix_noding p v e : nprel ix (noding_begin p v e).
  Proof. apply sp_noding_begin; ix_sweep. Qed.
  Lemma ix_end : nprel ix end_block.
  Proof. apply sp_end_block; ix_sweep. Qed.
  Lemma ix_set_profile a p : nprel ix (set_profile a p).
  Proof. apply sp_set_profile; ix_sweep. Qed.
  Lemma ix_on_banished a : nprel ix (on_banished a).
  Proof. apply sp_on_banished; ix_sweep. Qed.
  Lemma ix_to_module a m c : nprel ix (send_to_module a m c).
  Proof. apply sp_send_to_module; ix_sweep. Qed.

  Lemma tariff_split a g x s s' r : pay_tariff a g x s = (s', r) -> (forall e, r <> Panic e) ->
    s' = s \/
    (exists s1 (K : M unit), K s1 = (s', r) /\ nprel ix K /\
      (r_banished (ref_get s a) = false /\ s1 = s \/ r_banished (ref_get s a) = true /\ come_back a s = (s1, Ok tt))) \/
    (r_banished (ref_get s a) = true /\ forall y, r <> Ok y).
  Proof.
    intros H HP. unfold pay_tariff in H.
    unfold bind at 1 in H. assert (EG : rel eq (get_profile a)) by (unfold get_profile; repeat rel_struct).
    specialize (EG s). destruct (get_profile a s) as [s1 [p|e|e]]; cbn [fst] in EG; subst s1; [|injection H as <- <-; by left..].
    unfold bind at 1, get at 1 in H. destruct (tariff_storage _ _ _) as [b|]; [|injection H as <- <-; by left].
    unfold bind at 1 in H. match type of H with (match ?m s with _ => _ end) = _ => assert (EG : rel eq m) by (unfold fr; repeat rel_struct) end.
    specialize (EG s). match type of H with (match ?m s with _ => _ end) = _ => destruct (m s) as [s1 [base|e|e]] end; cbn [fst] in EG; subst s1; [|injection H as <- <-; by left..].
    unfold bind at 1 in H. assert (ET : rel eq (tx_fee base)) by (unfold tx_fee; repeat rel_struct).
    specialize (ET s). destruct (tx_fee base s) as [s1 [fee|e|e]]; cbn [fst] in ET; subst s1; [|injection H as <- <-; by left..].
    unfold bind at 1, get at 1 in H.
    assert (TK : forall (K : M unit) s1, K s1 = (s', r) -> nprel ix K ->
      (r_banished (ref_get s a) = false /\ s1 = s \/ r_banished (ref_get s a) = true /\ come_back a s = (s1, Ok tt)) ->
      (exists s1 (K : M unit), K s1 = (s', r) /\ nprel ix K /\
      (r_banished (ref_get s a) = false /\ s1 = s \/ r_banished (ref_get s a) = true /\ come_back a s = (s1, Ok tt)))) by eauto.
    destruct (r_banished (ref_get s a)) eqn:EB.
    - unfold bind at 1 in H. destruct (come_back a s) as [s1 [[]|e|e]] eqn:EC.
      + right. left. match type of H with ?K s1 = _ => apply (TK K s1); [exact H| |by right] end.
        clear. unfold new_coins, fr. repeat first [progress mode_struct | apply ix_io | apply ix_set_profile | apply nprel_rel, ix_same; frame].
      + right. right. split; [done|]. intros y Hy. injection H as _ <-. discriminate.
      + injection H as _ <-. by destruct (HP e).
    - unfold bind at 1, ret at 1 in H. right. left. match type of H with ?K s = _ => apply (TK K s); [exact H| |by left] end.
      clear. unfold new_coins, fr. repeat first [progress mode_struct | apply ix_io | apply ix_set_profile | apply nprel_rel, ix_same; frame].
  Qed.
  Lemma come_back_ix a s s1 : (r_banished (ref_get s a) = false /\ s1 = s \/ r_banished (ref_get s a) = true /\ come_back a s = (s1, Ok tt)) -> ix s s1.
  Proof.
    intros [[_ ->]|[EB EC]]; [reflexivity|]. apply ix_ki; [|by apply (ki_come_back a)].
    assert (G : rel grows (come_back a)) by frame. specialize (G s). by rewrite EC in G.
  Qed.
  Lemma tariff_ix a g x s s' : pay_tariff a g x s = (s', Ok tt) -> ix s s'.
  Proof.
    intros H. destruct (tariff_split _ _ _ _ _ _ H) as [->|[(s1 & K & HK & NK & HC)|[_ HN]]]; [done|reflexivity| |by destruct (HN tt)].
    transitivity s1; [by apply (come_back_ix a)|]. by apply (NK _ _ _ HK).
  Qed.
  Lemma tariff_open_ix a g x s s' r : r_banished (ref_get s a) = false -> pay_tariff a g x s = (s', r) -> (forall e, r <> Panic e) -> ix s s'.
  Proof.
    intros HB H HP. destruct (tariff_split _ _ _ _ _ _ H HP) as [->|[(s1 & K & HK & NK & HC)|[HT _]]]; [reflexivity| |congruence].
    transitivity s1; [by apply (come_back_ix a)|]. by apply (NK _ _ _ HK).
  Qed.
  Lemma refresh_ix a s s' : r_banished (ref_get s a) = false -> perform_refresh a s = (s', Ok tt) -> ix s s'.
  Proof.
    intros HB H. unfold perform_refresh in H. apply (proj1 (must_ok _ _ _ _)) in H. unfold monthly in H.
    apply bind_ok in H as (p & s1 & E & H). assert (ES : s1 = s).
    { assert (EG : rel eq (get_profile a)) by (unfold get_profile; repeat rel_struct). specialize (EG s). by rewrite E in EG. }
    subst s1. clear E. apply bind_ok in H as (now & s1 & E & H). apply get_ok in E as [-> ->].
    destruct (p_active _ p).
    { apply bind_ok in H as (pp & s1 & E & H). apply get_ok in E as [-> ->]. eapply ix_set_profile; [exact H|discriminate]. }
    destruct (p_autopay p); [|eapply ix_must_set_active; [exact H|discriminate]].
    apply bind_ok in H as (r & s1 & E & H). transitivity s1.
    - unfold try in E. destruct (pay_tariff a 0 true s) as [s2 [[]|e|e]] eqn:ET; [| |discriminate].
      + injection E as <- _. eapply tariff_open_ix; [exact HB|exact ET|discriminate].
      + injection E as <- _. eapply tariff_open_ix; [exact HB|exact ET|discriminate].
    - destruct r; [apply ret_ok in H as [-> _]; reflexivity|]. eapply ix_must_set_active; [exact H|discriminate].
  Qed.
  Lemma create_ix c a p pr s s' : msg_create_account c a p pr s = (s', Ok tt) -> ix s s'.
  Proof.
    enough (okrel ix (msg_create_account c a p pr)) by eauto. unfold msg_create_account, create_with_profile, new_coins.
    repeat first [progress mode_struct | apply okrel_nprel, ix_to_module | apply ix_append | apply okrel_nprel, ix_set_profile | apply okrel_rel, ix_same; frame].
  Qed.
  Lemma msg_ix m s s' : run_msg m s = (s', Ok tt) -> ix s s'.
  Proof.
    intros H. assert (D : (exists c a p pr, m = MCreateAccount c a p pr) \/ (exists a g, m = MPayTariff a g) \/ nprel ix (run_msg m)).
    { destruct m; cbn [run_msg].
      11: by left; eauto.
      15: by right; left; eauto.
      all: right; right.
      - apply sp_msg_send; ix_sweep.
      - apply sp_msg_burn; ix_sweep.
      - apply sp_msg_delegate; ix_sweep.
      - apply sp_msg_revoke; ix_sweep.
      - apply sp_msg_request_transition; ix_sweep.
      - apply sp_msg_resolve_transition; ix_sweep.
      - repeat first [progress mode_struct | apply nprel_rel, ix_same; frame].
      - apply nprel_rel, ix_same; frame.
      - apply nprel_rel, ix_same; frame.
      - apply sp_msg_set_earners; ix_sweep.
      - apply sp_msg_update_profile; ix_sweep.
      - apply sp_msg_set_storage_current; ix_sweep.
      - apply sp_msg_set_vpn_current; ix_sweep.
      - apply sp_msg_set_rate; ix_sweep.
      - apply sp_msg_buy_storage; ix_sweep.
      - apply sp_msg_give_storage_up; ix_sweep.
      - apply sp_msg_buy_vpn; ix_sweep.
      - apply sp_msg_buy_im; ix_sweep.
      - apply sp_msg_give_im_up; ix_sweep.
      - apply sp_msg_prolong_im; ix_sweep.
      - apply sp_msg_propose; ix_sweep.
      - apply sp_msg_vote; ix_sweep.
      - apply sp_msg_start_poll; ix_sweep.
      - apply sp_msg_answer; ix_sweep. }
    destruct D as [(c & a & p & pr & ->)|[(a & g & ->)|D]].
    - by eapply create_ix.
    - cbn [run_msg] in H. unfold msg_pay_tariff in H. apply bind_ok in H as (u & s1 & E & H). apply ensure_ok in E as [-> _]. by eapply tariff_ix.
    - eapply D; [exact H|discriminate].
  Qed.
  (** What a task must find *)
  Definition finds (t : task) (s : St) : Prop :=
    match t_hook t with
    | HRefresh => r_banished (ref_get s (t_data t)) = false
    | HBanish => full = true -> r_status (ref_get s (t_data t)) < min_indexed
    | _ => True
    end.
  Lemma hook_ix t f s s' : finds t s -> hooks (t_hook t) = Some f -> f (t_data t) (t_time t) s = (s', Ok tt) -> ix s s'.
  Proof.
    unfold finds. intros HF HH H. destruct (t_hook t); cbn in HH; try discriminate; injection HH as <-; cbv beta in H.
    - apply (ix_okrel (perform_downgrade (t_data t))) in H; [done|frame|apply ki_downgrade].
    - apply (ix_okrel (perform_compression (t_data t))) in H; [done|frame|apply ki_compression].
    - unfold perform_transition_timeout in H. apply (proj1 (must_ok _ _ _ _)) in H.
      assert (R : rel ix (cancel_transition (t_data t))) by (apply ix_rel; [frame|apply ki_cancel]). specialize (R s). by rewrite H in R.
    - by eapply refresh_ix.
    - enough (nprel ix (perform_refresh_im (t_data t))) as N by (eapply N; [exact H|discriminate]). apply sp_perform_refresh_im; ix_sweep.
    - enough (nprel ix perform_vote) as N by (eapply N; [exact H|discriminate]). apply sp_perform_vote; ix_sweep.
    - enough (nprel ix end_poll) as N by (eapply N; [exact H|discriminate]). apply sp_end_poll; ix_sweep.
    - enough (nprel ix (perform_revoking (t_data t))) as N by (eapply N; [exact H|discriminate]). apply sp_perform_revoking; ix_sweep.
    - enough (nprel ix (perform_accrue (t_data t) (t_time t))) as N by (eapply N; [exact H|discriminate]). apply sp_perform_accrue; ix_sweep.
    - unfold perform_banish in H. apply (proj1 (must_ok _ _ _ _)) in H. unfold banish in H. apply bind_ok in H as ([] & s1 & E & H).
      transitivity s1; [|eapply ix_on_banished; [exact H|discriminate]]. apply ix_ki; [|by eapply ki_banish].
      assert (G : rel grows (banish_core (t_data t))) by frame. specialize (G s). by rewrite E in G.
  Qed.
  Lemma task_ix t s : finds t s -> ix s (after_task hooks t s).
  Proof.
    intros HF. unfold after_task. destruct (hooks (t_hook t)) as [f|] eqn:EH; [|apply ix_fields; [done|done|apply grows_log]].
    destruct (f (t_data t) (t_time t) s) as [s1 [[]|e|e]] eqn:E; cbn [fst snd].
    - by eapply hook_ix.
    - by eapply ix_abort.
    - by eapply ix_abort.
  Qed.
  Lemma blocks_ix bs s s' us : times_from (st_now s) bs -> (forall t s1, (STask t, s1) ∈ steps bs s -> finds t s1) ->
    run_blocks bs s = Some (s', us) -> ix s s'.
  Proof.
    intros HT HF HR. apply (hs_blocks ix (fun x s1 => match x with STask t => finds t s1 | SMsg _ => True end)) with (bs := bs) (us := us); [..|exact HT| |exact HR].
    - intros b s0 _. apply ix_fields; [done|done|by apply grows_same].
    - intros. apply okrel_nprel, ix_noding.
    - intros. by apply task_ix.
    - intros. apply ix_fields; [done|done|by apply grows_same].
    - intros. apply okrel_nprel, ix_ante.
    - intros. by eapply msg_ix.
    - apply okrel_nprel, ix_end.
    - intros x s1 H1. destruct x; [by apply HF|exact I].
  Qed.
End index.
#[export] Existing Instance ix_pre.
