(** * Who gets a record

    Operations of the referral network write the records of the accounts they
    are given and of accounts named in records. *)
From Verif Require Export HoldProofs.
Open Scope Z_scope.

Section dom.
  Context (P : addr -> Prop).
  Definition Q (a : addr) : Prop := a = nobody \/ P a.
  Definition rg (r : rinfo) : Prop := Q (r_referrer r) /\ Q (r_transition r) /\ forall c, c ∈ r_referrals r -> P c.
  Definition bcl (b : bu) (s : St) : Prop := (forall y, is_Some (bu_data b !! y) -> P y) /\ forall y, rg (bu_get b y s).
  Definition closed (s : St) : Prop := (forall y, is_Some (st_ref s !! y) -> P y) /\ forall y, rg (ref_get s y).

  Lemma rg_zero : rg r_zero.
  Proof. split_and!; [by left|by left|]. intros c H. by apply elem_of_nil in H. Qed.
  Lemma rg_fields r r' : r_referrer r' = r_referrer r -> r_transition r' = r_transition r -> r_referrals r' = r_referrals r -> rg r -> rg r'.
  Proof. intros E1 E2 E3 (H1 & H2 & H3). unfold rg. by rewrite E1, E2, E3. Qed.
  Lemma rg_normalize r : rg r -> rg (normalize r).
  Proof. by apply rg_fields. Qed.
  Lemma rg_eqs r r' : eqs r r' -> rg r -> rg r'.
  Proof. intros (st & d & ->). by apply rg_fields. Qed.
  Lemma bcl_ext b b' s s' : bu_data b' = bu_data b -> st_ref s' = st_ref s -> bcl b s -> bcl b' s'.
  Proof.
    intros E1 E2 [H1 H2]. split; [by rewrite E1|]. intros y. rewrite (bu_get_ext b b' s s' y) by done. apply H2.
  Qed.
  Lemma bcl_new s : closed s -> bcl bu_new s.
  Proof. intros [_ H]. split; [|intros y; rewrite bu_get_new; apply H]. intros y. cbn. rewrite lookup_empty. by intros [? ?]. Qed.
  Lemma bcl_insert b b' s s' a r : P a -> rg r -> bu_data b' = <[ a := r ]> (bu_data b) -> st_ref s' = st_ref s -> bcl b s -> bcl b' s'.
  Proof.
    intros Pa R E ES [H1 H2]. split.
    - intros y. rewrite E. destruct (N.eq_dec a y) as [<-|Hy]; [done|]. rewrite lookup_insert_ne by done. apply H1.
    - intros y. rewrite (bu_get_ext b' b' s s' y) by done. rewrite (bu_get_insert b b' a r s E y). destruct (y =? a)%N; [done|apply H2].
  Qed.
  Lemma bcl_set b s a r : P a -> rg r -> bcl b s -> bcl (bu_set a r b) s.
  Proof. intros. by eapply bcl_insert. Qed.
  Lemma bcl_updatem {A} b a check (f : bu -> rinfo -> M (bu * rinfo * A)) s s' b' x : P a ->
    bu_updatem b a check f s = (s', Ok (b', x)) ->
    (forall s1 b1 r1, f b (normalize (bu_get b a s)) s = (s1, Ok (b1, r1, x)) -> bcl b1 s1 /\ rg r1) -> bcl b' s'.
  Proof.
    intros Pa H HF. apply bu_updatem_ok in H as (s1 & b1 & r1 & r2 & E & Eq & _ & ED & ES & _).
    destruct (HF _ _ _ E) as [H1 H2]. eapply (bcl_insert b1 b' s1 s'); [done|by eapply rg_eqs|done|done|done].
  Qed.
  Lemma bcl_update {A} b a check (f : rinfo -> rinfo * A) s s' b' x : P a -> bcl b s ->
    (forall r, rg r -> rg (fst (f r))) -> bu_update b a check f s = (s', Ok (b', x)) -> bcl b' s'.
  Proof.
    intros Pa B HF H. apply bu_update_ok in H as (r2 & _ & Eq & _ & ED & ES).
    eapply (bcl_insert b b' s s'); [done|eapply rg_eqs; [exact Eq|]|done|done|done]. apply HF, rg_normalize, B.
  Qed.
  Lemma bcl_walk check lines f :
    (forall i x b r, bu_data (fst (f i x b r)) = bu_data b /\ (rg r -> rg (snd (f i x b r)))) ->
    forall b a s s' b', Q a -> bcl b s -> walk check lines b a f s = (s', Ok b') -> bcl b' s'.
  Proof.
    intros HF. induction lines as [|i lines IH]; intros b a s s' b' Qa B H; cbn [walk] in H.
    { by apply ret_ok in H as [-> ->]. }
    destruct (N.eqb_spec a nobody) as [_|Ha]; [by apply ret_ok in H as [-> ->]|]. destruct Qa as [Qa|Qa]; [done|].
    apply bind_ok in H as ([b1 up] & s1 & E & H).
    assert (X : bcl b1 s1 /\ Q up).
    { split.
      - eapply bcl_updatem; [exact Qa|exact E|]. cbv beta. intros s2 b2 r2 E2. destruct (HF i a b (normalize (bu_get b a s))) as [F1 F2].
        destruct (f i a b (normalize (bu_get b a s))) as [b3 r3]. apply ret_ok in E2 as [-> E2]. injection E2 as -> -> ->. cbn [fst snd] in *.
        split; [by eapply bcl_ext|]. apply F2, rg_normalize, B.
      - apply bu_updatem_ok in E as (s2 & b2 & r2 & r3 & E & _). cbv beta in E.
        destruct (f i a b (normalize (bu_get b a s))) as [b4 r4]. apply ret_ok in E as [_ E]. injection E as -> -> ->. apply B. }
    destruct X as [B1 Q1]. by eapply IH.
  Qed.
  Lemma q_nearest fuel b a s s' q : bcl b s -> Q a -> nearest_open fuel b a s = (s', Ok q) -> s' = s /\ Q q.
  Proof.
    intros B Qa H. apply nearest_ok in H as [-> [[_ ->]|(n & -> & _)]]; (split; [done|]); [by left|].
    induction n as [|n IH]; [done|]. cbn [anc]. apply B.
  Qed.

  (** Leaves the records alone, or writes what an updater has collected *)
  Definition cmd (s0 : St) (m : M unit) (s : St) : Prop :=
    forall s' r, m s = (s', r) -> st_ref s' = st_ref s0 \/ exists b, bcl b s0 /\ st_ref s' = bu_data b ∪ st_ref s0.
  Lemma cmd_bind {A} s0 (m : M A) f s : st_ref s = st_ref s0 -> rel (same st_ref) m ->
    (forall a s1, m s = (s1, Ok a) -> st_ref s1 = st_ref s0 -> cmd s0 (f a) s1) -> cmd s0 (bind m f) s.
  Proof.
    intros E R H s' r HB. unfold bind in HB. specialize (R s). unfold same in R. destruct (m s) as [s1 [a|e|e]] eqn:Em; cbn in R.
    - eapply (H a s1); [done|congruence|exact HB].
    - injection HB as <- <-. left. congruence.
    - injection HB as <- <-. left. congruence.
  Qed.
  Lemma cmd_get {A} s0 (h : St -> A) f s : cmd s0 (f (h s)) s -> cmd s0 (bind (get h) f) s.
  Proof. intros H s' r HB. unfold bind, get in HB. by eapply H. Qed.
  Lemma cmd_ensure s0 c e f s : st_ref s = st_ref s0 -> (c = true -> cmd s0 (f tt) s) -> cmd s0 (bind (ensure c e) f) s.
  Proof. intros E H s' r HB. unfold bind, ensure, ret, fail in HB. destruct c; [by eapply H|]. injection HB as <- <-. by left. Qed.
  Lemma cmd_commit s0 b s : st_ref s = st_ref s0 -> bcl b s -> cmd s0 (bu_commit b) s.
  Proof.
    intros E B s' r H. right. exists b. split; [by eapply bcl_ext|]. pose proof (commit_ref b s) as C. rewrite H in C. cbn in C. by rewrite E in C.
  Qed.
  Lemma cmd_ret s0 s u : st_ref s = st_ref s0 -> cmd s0 (ret u) s.
  Proof. intros E s' r H. injection H as <- <-. by left. Qed.
  Lemma cmd_throw s0 s e : st_ref s = st_ref s0 -> cmd s0 (throw e) s.
  Proof. intros E s' r H. injection H as <- <-. by left. Qed.
  Lemma cmd_must s0 m s : cmd s0 m s -> cmd s0 (must m) s.
  Proof. intros H s' r HB. unfold must in HB. specialize (H (fst (m s)) (snd (m s))). rewrite <- surjective_pairing in H.
    specialize (H eq_refl). destruct (m s) as [s1 [a|e|e]]; injection HB as <- <-; exact H. Qed.
  Lemma cmd_recovered s0 m s : cmd s0 m s -> cmd s0 (recovered m) s.
  Proof. intros H s' r HB. unfold recovered in HB. specialize (H (fst (m s)) (snd (m s))). rewrite <- surjective_pairing in H.
    specialize (H eq_refl). destruct (m s) as [s1 [a|e|e]]; injection HB as <- <-; exact H. Qed.

  Lemma closed_ref s s' : st_ref s' = st_ref s -> closed s -> closed s'.
  Proof. intros E [H1 H2]. split; [by rewrite E|]. intros y. unfold ref_get. rewrite E. apply H2. Qed.
  Lemma closed_cmd m s : closed s -> cmd s m s -> closed (fst (m s)).
  Proof.
    intros C H. destruct (m s) as [s' r] eqn:E. destruct (H s' r E) as [E1|(b & [B1 B2] & E1)]; cbn [fst]; [by eapply closed_ref|].
    split.
    - intros y. rewrite E1, lookup_union. destruct (bu_data b !! y) eqn:Eb; [intros _; apply B1; eauto|].
      destruct (st_ref s !! y) eqn:Es; cbn; [intros _; apply C; eauto|by intros [? ?]].
    - intros y. rewrite (union_get b s s' y E1). apply B2.
  Qed.
  Lemma closed_write a r s : P a -> rg r -> closed s -> closed (s <| st_ref := <[ a := r ]> (st_ref s) |>).
  Proof.
    intros Pa R [H1 H2]. split.
    - intros y. cbn. destruct (N.eq_dec a y) as [<-|Hy]; [done|]. rewrite lookup_insert_ne by done. apply H1.
    - intros y. unfold ref_get. cbn. destruct (N.eq_dec a y) as [<-|Hy]; [by rewrite lookup_insert|]. rewrite lookup_insert_ne by done. apply H2.
  Qed.
  (** A record that is not the empty one is there. *)
  Lemma there s a : closed s -> ref_get s a <> r_zero -> P a.
  Proof. intros [H _] E. apply H. unfold ref_get in E. by destruct (st_ref s !! a); [eauto|]. Qed.

  (** ** The operations *)
  Lemma closed_top a : P a -> rel (keeps closed) (add_top_level a).
  Proof.
    intros Pa s C. apply closed_cmd; [done|]. unfold add_top_level. apply cmd_recovered, cmd_get, cmd_ensure; [done|]. intros _. apply cmd_get.
    apply cmd_commit; [done|]. apply bcl_set; [done| |by apply bcl_new]. split_and!; [by left|by left|]. intros c H. by apply elem_of_nil in H.
  Qed.
  Lemma rg_add_refs r l i c d : rg r -> (forall x, x ∈ l -> P x) -> rg (add_line i c d (r <| r_referrals := r_referrals r ++ l |>)).
  Proof. intros (H1 & H2 & H3) HL. split_and!; [done|done|]. intros x Hx. cbn in Hx. apply elem_of_app in Hx as [Hx|Hx]; auto. Qed.
  Lemma rg_add_line r i c d : rg r -> rg (add_line i c d r).
  Proof. by apply rg_fields. Qed.
  Lemma closed_append p c sk sc : P p -> P c -> rel (keeps closed) (append_child_core p c sk sc).
  Proof.
    intros Pp Pc s C. apply closed_cmd; [done|]. unfold append_child_core. apply cmd_ensure; [done|]. intros Hp. apply cmd_get, cmd_ensure; [done|]. intros _.
    apply cmd_get. unfold id. cbv zeta. apply cmd_bind; [done|frame|]. intros [b1 [an cl]] s1 E1 ES1. apply cmd_ensure; [done|]. intros _.
    apply cmd_bind; [done|apply sw_walk; [apply _|frame|frame]|]. intros b3 s3 EW ES3. apply cmd_commit; [done|].
    assert (B0 : bcl (bu_set c (if sc then new_rinfo p (own_coins s c) (own_deleg s c) <| r_compression_at := Some (st_now s + compression_period s) |>
        else new_rinfo p (own_coins s c) (own_deleg s c)) bu_new) s).
    { apply bcl_set; [done| |by apply bcl_new]. destruct sc; (split_and!; [by right|by left|]; intros x H; by apply elem_of_nil in H). }
    assert (QA : Q an).
    { pose proof E1 as E2. apply bu_update_ok in E2 as (r2 & EX & _). cbn [snd] in EX. injection EX as -> _. apply B0. }
    eapply bcl_walk; [|exact QA| |exact EW].
    - intros i x b r. split; [done|]. apply rg_add_line.
    - apply (bcl_ext b1 _ s1 s1); [done|done|]. eapply bcl_update; [exact Pp|exact B0| |exact E1]. intros r R. cbn [fst].
      apply rg_add_refs; [done|]. intros x Hx. apply elem_of_list_singleton in Hx. congruence.
  Qed.
  Lemma closed_compress a : rel (keeps closed) (compress a).
  Proof.
    intros s C. apply closed_cmd; [done|]. unfold compress. apply cmd_get. apply cmd_bind; [done|same_ref|]. intros [b old] s1 E1 ES1. cbv zeta.
    assert (X : bcl b s1 /\ Q (r_referrer old) /\ forall c, c ∈ r_referrals old -> P c).
    { pose proof E1 as E2. apply bu_updatem_ok in E2 as (s2 & b1 & r1 & r2 & E2 & _). rewrite bu_get_new in E2.
      assert (Pa : P a).
      { apply (there s); [done|]. intros E0. rewrite E0 in E2. discriminate E2. }
      assert (F : forall s2, st_ref s2 = st_ref s -> bcl (bu_call EvStatus a (bu_call EvStake a bu_new)) s2).
      { intros s3 ES. eapply (bcl_ext bu_new _ s); [done|exact ES|]. by apply bcl_new. }
      split_and!.
      - eapply bcl_updatem; [exact Pa|exact E1|]. cbv beta. intros s3 b3 r3 E3. destruct (_ =? _)%N; [discriminate E3|].
        apply bind_ok in E3 as (u00 & s00 & EI & E3). assert (ES0 : st_ref s00 = st_ref s) by (unfold set_index in EI; apply modify_ok in EI as ->; done). apply bind_ok in E3 as (own & s4 & E4 & E3). apply lift_ok in E4 as [-> E4].
        apply bind_ok in E3 as (r4 & s5 & E5 & E3). apply ret_ok in E3 as [-> E3]. injection E3 as -> -> Eo.
        assert (Y : st_ref s5 = st_ref s /\ r_referrer r4 = r_referrer (ref_get s a) /\ r_transition r4 = r_transition (ref_get s a) /\ r_referrals r4 = []).
        { rewrite bu_get_new in E5. destruct (own <=? _).
          - unfold schedule_banishment in E5.
            apply bind_ok in E5 as (t & s6 & E6 & E5). apply get_ok in E6 as [-> ->]. apply bind_ok in E5 as (u & s7 & E7 & E5). apply ret_ok in E5 as [-> ->].
            assert (RS : rel (same st_ref) (schedule_task (st_now s00 + one_month s00) HBanish a)) by frame. specialize (RS s00). rewrite E7 in RS. unfold same in RS; cbn [fst] in RS. by rewrite RS.
          - apply ret_ok in E5 as [-> ->]. done. }
        destruct Y as (Y1 & Y2 & Y3 & Y4). split; [by apply F|]. destruct C as [_ C]. destruct (C a) as (R1 & R2 & _).
        split_and!; [congruence|congruence|]. intros c. rewrite Y4. intros Hc. by apply elem_of_nil in Hc.
      - destruct (_ =? _)%N; [discriminate E2|]. apply bind_ok in E2 as (u00 & s00 & _ & E2). apply bind_ok in E2 as (own & s4 & E4 & E2). apply bind_ok in E2 as (r4 & s5 & E5 & E2).
        apply ret_ok in E2 as [_ E2]. injection E2 as _ _ ->. apply C.
      - destruct (_ =? _)%N; [discriminate E2|]. apply bind_ok in E2 as (u00 & s00 & _ & E2). apply bind_ok in E2 as (own & s4 & E4 & E2). apply bind_ok in E2 as (r4 & s5 & E5 & E2).
        apply ret_ok in E2 as [_ E2]. injection E2 as _ _ ->. apply C. }
    destruct X as (B & QP & HR). clear E1. apply cmd_bind; [done|apply rel_mfold; [apply _|]; intros; same_ref|]. intros b1 s2 E2 ES2.
    assert (B1 : bcl b1 s2).
    { revert E2 B. clear ES2. generalize HR. generalize (r_referrals old) at 1 2. intros l. revert b s1 ES1. induction l as [|c l IH]; intros b s1 ES1 HL E2 B; cbn [mfold] in E2.
      - by apply ret_ok in E2 as [-> ->].
      - apply bind_ok in E2 as (b2 & s3 & E3 & E2). apply bind_ok in E3 as ([b3 []] & s4 & E4 & E3). apply ret_ok in E3 as [-> ->].
        pose proof E4 as E5. apply bu_update_ok in E5 as (_ & _ & _ & _ & _ & E5).
        eapply (IH b3 s4); [congruence|intros x Hx; apply HL; by right|exact E2|].
        eapply bcl_update; [apply HL; left|exact B| |exact E4]. intros r (R1 & R2 & R3). by split_and!. }
    apply cmd_bind; [done|apply sw_walk; [apply _|frame|frame]|]. intros b3 s3 EW ES3. apply cmd_commit; [done|].
    eapply bcl_walk; [|exact QP|exact B1|exact EW]. intros k x b0 r. split; [by destruct (k =? 1)%nat|].
    intros (R1 & R2 & R3). cbn [snd]. destruct (k =? 1)%nat; (split_and!; [done|done|]).
    - intros c Hc. cbn in Hc. apply elem_of_app in Hc as [Hc|Hc]; auto.
    - exact R3.
  Qed.
  Lemma closed_set_active a v ck : P a -> rel (keeps closed) (set_active a v ck).
  Proof.
    intros Pa s C. apply closed_cmd; [done|]. unfold set_active. apply cmd_get. unfold id. cbv zeta. apply cmd_bind; [done|same_ref|].
    intros [b o] s1 E1 ES1.
    assert (X : bcl b s1 /\ match o with Some p => Q p | None => True end).
    { split.
      - eapply bcl_updatem; [exact Pa|exact E1|]. cbv beta. intros s3 b3 r3 E3. rewrite bu_get_new in E3.
        assert (B0 : forall s', st_ref s' = st_ref s -> bcl bu_new s') by (intros s' E; eapply bcl_ext; [reflexivity|exact E|by apply bcl_new]).
        destruct (Bool.eqb _ _). { apply ret_ok in E3 as [-> E3]. injection E3 as -> -> _. split; [by apply B0|]. apply rg_normalize, C. }
        apply bind_ok in E3 as (r4 & s4 & E4 & E3). apply ret_ok in E3 as [-> E3]. injection E3 as -> -> _.
        destruct (r_banishment_at _) as [t|]; [destruct v|].
        + apply bind_ok in E4 as (u & s5 & E5 & E4). apply ret_ok in E4 as [-> ->].
          assert (RS : rel (same st_ref) (delete_task t HBanish a)) by frame. specialize (RS s). rewrite E5 in RS. split; [by apply B0|]. eapply rg_fields; [..|apply (proj2 C a)]; done.
        + apply ret_ok in E4 as [-> ->]. split; [by apply B0|]. eapply rg_fields; [..|apply (proj2 C a)]; done.
        + apply ret_ok in E4 as [-> ->]. split; [by apply B0|]. eapply rg_fields; [..|apply (proj2 C a)]; done.
      - apply bu_updatem_ok in E1 as (s2 & b1 & r1 & r2 & E1 & _). rewrite bu_get_new in E1.
        destruct (Bool.eqb _ _). { apply ret_ok in E1 as [_ E1]. injection E1 as _ _ ->. done. }
        apply bind_ok in E1 as (r4 & s4 & E4 & E1). apply ret_ok in E1 as [_ E1]. injection E1 as _ _ ->. apply C. }
    destruct X as [B QO]. destruct o as [p|]; [|by apply cmd_ret].
    apply cmd_bind; [done|apply sw_walk; [apply _|frame|frame]|]. intros b3 s3 EW ES3. apply cmd_bind; [done|same_ref|]. intros [] s4 E4 ES4. apply cmd_commit; [done|].
    eapply (bcl_ext b3 b3 s3); [done|congruence|]. eapply bcl_walk; [|exact QO|exact B|exact EW]. intros i x b0 r. split; [done|]. cbn [snd].
    destruct (i =? 1)%nat; by apply rg_fields.
  Qed.
  Lemma bcl_revive a b r s s' b' r' : P a -> bcl b s -> rg r -> revive a b r s = (s', Ok (b', r')) -> bcl b' s' /\ rg r'.
  Proof.
    intros Pa B R H. unfold revive in H. apply bind_ok in H as (f & s1 & E & H). apply get_ok in E as [-> ->].
    apply bind_ok in H as (p & s1 & E & H). apply q_nearest in E as [-> QP]; [|done|apply R]. cbv zeta in H.
    assert (R' : rg (r <| r_referrer := p |> <| r_banished := false |> <| r_status := 1 |>)) by (split_and!; [exact QP|apply R|apply R]).
    destruct (N.eqb_spec p nobody) as [_|Hp]; [apply ret_ok in H as [-> H]; injection H as -> ->; done|]. destruct QP as [QP|QP]; [done|].
    apply bind_ok in H as ([b1 up] & s1 & E & H).
    assert (B1 : bcl b1 s1).
    { eapply bcl_update; [exact QP|exact B| |exact E]. intros r0 R0. cbn [fst]. apply rg_add_refs; [done|]. intros x Hx. apply elem_of_list_singleton in Hx. congruence. }
    assert (QU : Q up). { apply bu_update_ok in E as (r2 & -> & _). apply B. }
    destruct (_ || _); [apply ret_ok in H as [-> H]; injection H as -> ->; done|].
    apply bind_ok in H as (b2 & s2 & E2 & H). apply ret_ok in H as [-> H]. injection H as -> ->. split; [|done].
    eapply bcl_walk; [|exact QU|exact B1|exact E2]. intros i x b0 r0. split; [done|]. apply rg_add_line.
  Qed.
  Lemma closed_obc a : rel (keeps closed) (on_balance_changed a).
  Proof.
    intros s C. apply closed_cmd; [done|]. unfold on_balance_changed. apply cmd_get. unfold id. cbv zeta.
    change (bu_updatem bu_new a true _) with (bu_updatem bu_new a true (obc_body (own_coins s a) (own_deleg s a) (bp_dust (st_bp s)) s a)).
    apply cmd_bind; [done| |].
    { apply rel_try. apply sw_bu_updatem; [apply _|frame|frame|]. intros b r0. apply obc_body_rel. }
    intros out s1 E ES1. apply try_ok in E. destruct out as [[b [[[dc dd] node] ban]]|e]; cycle 1.
    { destruct e; first [by apply cmd_ret|by apply cmd_throw]. }
    assert (X : bcl b s1 /\ Q node).
    { assert (Pa : P a).
      { apply (there s); [done|]. intros E0. apply bu_updatem_ok in E as (s2 & b1 & r1 & r2 & E & _). rewrite bu_get_new, E0 in E.
        unfold obc_body in E. discriminate E. }
      assert (B0 : forall e s', st_ref s' = st_ref s -> bcl (bu_call e a bu_new) s' /\ bcl bu_new s').
      { intros e s' EE. split; (eapply (bcl_ext bu_new _ s); [done|exact EE|by apply bcl_new]). }
      assert (K : forall s2 b1 r1, obc_body (own_coins s a) (own_deleg s a) (bp_dust (st_bp s)) s a bu_new (normalize (ref_get s a)) s =
          (s2, Ok (b1, r1, (dc, dd, node, ban))) -> bcl b1 s2 /\ rg r1 /\ Q node).
      { intros s2 b1 r1 E2. unfold obc_body in E2. assert (RG : rg (normalize (ref_get s a))) by apply rg_normalize, C.
        destruct (r_empty _); [discriminate E2|]. cbv zeta in E2.
        set (r0 := normalize (ref_get s a)) in *. clearbody r0.
        assert (FIN : forall b r z s3, bcl b s3 -> rg r -> (s3, Ok (b, r <| r_coins := <[0%nat := own_coins s a]> (r_coins r) |> <| r_deleg := <[0%nat := own_deleg s a]> (r_deleg r) |>,
            (own_coins s a - default 0 (r_coins r0 !! 0%nat), own_deleg s a - default 0 (r_deleg r0 !! 0%nat), r_referrer r, z))) = (s2, Ok (b1, r1, (dc, dd, node, ban))) ->
            bcl b1 s2 /\ rg r1 /\ Q node).
        { intros b0 r z s3 B R E3. assert (F1 : s3 = s2) by congruence. assert (F2 : b0 = b1) by congruence. assert (F3 : r_referrer r = node) by congruence.
          assert (F4 : r1 = r <| r_coins := <[0%nat := own_coins s a]> (r_coins r) |> <| r_deleg := <[0%nat := own_deleg s a]> (r_deleg r) |>) by congruence.
          subst s3 b0 r1 node. split_and!; [done|by eapply rg_fields|apply R]. }
        destruct (_ =? 0). { eapply FIN; [| |exact E2]; [apply (B0 EvStake); reflexivity|exact RG]. }
        destruct (r_active r0). { eapply FIN; [| |exact E2]; [apply (B0 EvStake); reflexivity|exact RG]. }
        apply bind_ok in E2 as (ndi & s3 & E3 & E2). apply lift_ok in E3 as [-> E3]. destruct (ndi <=? _).
        - destruct (_ && _ && _ && _); [|eapply FIN; [| |exact E2]; [apply (B0 EvStake); reflexivity|exact RG]].
          apply bind_ok in E2 as (r4 & s4 & E4 & E2). unfold schedule_banishment in E4.
          apply bind_ok in E4 as (t & s6 & E6 & E5). apply get_ok in E6 as [-> ->]. apply bind_ok in E5 as (u & s7 & E7 & E5). apply ret_ok in E5 as [-> ->].
          assert (RS : rel (same st_ref) (schedule_task (st_now s + one_month s) HBanish a)) by frame. specialize (RS s). rewrite E7 in RS.
          eapply FIN; [| |exact E2]; [apply (B0 EvStake), RS|by eapply rg_fields].
        - apply bind_ok in E2 as (r4 & s4 & E4 & E2).
          assert (Y : st_ref s4 = st_ref s /\ rg r4).
          { destruct (r_banishment_at r0) as [t|].
            - apply bind_ok in E4 as (u & s5 & E5 & E4). apply ret_ok in E4 as [-> ->].
              assert (RS : rel (same st_ref) (delete_task t HBanish a)) by frame. specialize (RS s). rewrite E5 in RS. split; [exact RS|by eapply rg_fields].
            - by apply ret_ok in E4 as [-> ->]. }
          destruct Y as [Y1 Y2]. destruct (r_banished r4).
          + apply bind_ok in E2 as ([b5 r5] & s5 & E5 & E2). apply bcl_revive in E5 as [Z1 Z2]; [|done|by apply (B0 EvStake)|done].
            eapply FIN; [exact Z1|exact Z2|exact E2].
          + eapply FIN; [| |exact E2]; [by apply (B0 EvStake)|exact Y2]. }
      split.
      - eapply bcl_updatem; [exact Pa|exact E|]. intros s2 b1 r1 E2. rewrite bu_get_new in E2. destruct (K _ _ _ E2) as (K1 & K2 & _). done.
      - apply bu_updatem_ok in E as (s2 & b1 & r1 & r2 & E & _). rewrite bu_get_new in E. by apply K in E as (_ & _ & E). }
    destruct X as [B QN]. apply cmd_bind; [done|same_ref|]. intros b3 s3 EW ES3. apply cmd_commit; [done|]. destruct ban.
    - by apply ret_ok in EW as [-> ->].
    - eapply bcl_walk; [|exact QN|exact B|exact EW]. intros i x b0 r. split; [by destruct (dd =? 0)|]. apply rg_add_line.
  Qed.
  Lemma remove_fast_sub (l : list addr) a x : x ∈ fst (Lists.remove_fast N.compare l a) -> x ∈ l.
  Proof. destruct (remove_fast_perm l a) as [[_ ->]|H]; [done|]. intros Hx. rewrite H. by right. Qed.
  Lemma closed_banish a : rel (keeps closed) (banish_core a).
  Proof.
    intros s C. apply closed_cmd; [done|]. unfold banish_core. apply cmd_get. apply cmd_bind; [done|same_ref|]. intros [b [[p c] d]] s1 E1 ES1.
    assert (X : bcl b s1 /\ P p).
    { assert (K : forall s2 b1 r1, (let d0 := default 0 (r_deleg (normalize (ref_get s a)) !! 0%nat) in
         do! ensure (negb (r_referrer (normalize (ref_get s a)) =? nobody)%N) "it's a top-level account" in
         do! ensure (negb (r_active (normalize (ref_get s a)))) "account is active" in
         let! di := lift "Int64() out of bound" (Frac.to_int64 d0) in
         do! ensure (di <=? bp_dust (st_bp s)) "account has delegation" in
         do! ensure (negb (r_banished (normalize (ref_get s a)))) "already banished" in
         ret (bu_new, normalize (ref_get s a) <| r_banished := true |> <| r_status := 0 |> <| r_compression_at := None |>
              <| r_downgrade_at := None |> <| r_banishment_at := None |>,
         (r_referrer (normalize (ref_get s a)), default 0 (r_coins (normalize (ref_get s a)) !! 0%nat), d0))) s = (s2, Ok (b1, r1, (p, c, d))) ->
         bcl b1 s2 /\ rg r1 /\ P p /\ P a).
      { intros s2 b1 r1 E2. cbv zeta in E2. assert (RG : rg (normalize (ref_get s a))) by apply rg_normalize, C.
        apply bind_ok in E2 as (u & s3 & E3 & E2). apply ensure_ok in E3 as [-> H1]. apply bind_ok in E2 as (u1 & s3 & E3 & E2). apply ensure_ok in E3 as [-> H2].
        apply bind_ok in E2 as (u2 & s3 & E3 & E2). apply lift_ok in E3 as [-> H3]. apply bind_ok in E2 as (u3 & s3 & E3 & E2). apply ensure_ok in E3 as [-> H4].
        apply bind_ok in E2 as (u4 & s3 & E3 & E2). apply ensure_ok in E3 as [-> H5]. apply ret_ok in E2 as [-> E2]. injection E2 as -> -> -> _ _.
        apply negb_true_iff, N.eqb_neq in H1. split_and!; [by apply bcl_new|by eapply rg_fields| |].
        - destruct RG as ([RG|RG] & _); [done|exact RG].
        - apply (there s); [done|]. intros E0. rewrite E0 in H1. by apply H1. }
      split.
      - eapply bcl_updatem; [|exact E1|].
        + apply bu_updatem_ok in E1 as (s2 & b1 & r1 & r2 & E1 & _). rewrite bu_get_new in E1. by apply K in E1 as (_ & _ & _ & E1).
        + intros s2 b1 r1 E2. rewrite bu_get_new in E2. destruct (K _ _ _ E2) as (K1 & K2 & _). done.
      - apply bu_updatem_ok in E1 as (s2 & b1 & r1 & r2 & E1 & _). rewrite bu_get_new in E1. by apply K in E1 as (_ & _ & E1 & _). }
    destruct X as [B PP]. apply cmd_bind; [done|same_ref|]. intros [b2 up] s2 E2 ES2. apply cmd_bind; [done|same_ref|]. intros b3 s3 EW ES3. apply cmd_commit; [done|].
    assert (B2 : bcl b2 s2).
    { eapply bcl_update; [exact PP|exact B| |exact E2]. intros r (R1 & R2 & R3). split_and!; [done|done|]. intros x Hx. cbn in Hx. apply R3.
      by eapply remove_fast_sub. }
    destruct (_ || _); [by apply ret_ok in EW as [-> ->]|].
    eapply bcl_walk; [| |exact B2|exact EW]; [intros i x b0 r; split; [done|]; apply rg_add_line|].
    apply bu_update_ok in E2 as (r2 & -> & _). apply B.
  Qed.
  Lemma closed_come_back a : P a -> rel (keeps closed) (come_back a).
  Proof.
    intros Pa s C. apply closed_cmd; [done|]. unfold come_back. apply cmd_bind; [done|same_ref|]. intros [b [[p c] d]] s1 E1 ES1.
    assert (X : bcl b s1 /\ Q p).
    { assert (K : forall s2 b1 r1, (let! f := get fuel_for in
          let! parent := nearest_open f bu_new (r_referrer (normalize (ref_get s a))) in
          ret (bu_new, normalize (ref_get s a) <| r_referrer := parent |> <| r_banished := false |> <| r_banishment_at := None |>
              <| r_compression_at := None |> <| r_status := 1 |>,
          (parent, default 0 (r_coins (normalize (ref_get s a)) !! 0%nat), default 0 (r_deleg (normalize (ref_get s a)) !! 0%nat)))) s = (s2, Ok (b1, r1, (p, c, d))) ->
         bcl b1 s2 /\ rg r1 /\ Q p).
      { intros s2 b1 r1 E2. assert (RG : rg (normalize (ref_get s a))) by apply rg_normalize, C.
        apply bind_ok in E2 as (f & s3 & E3 & E2). apply get_ok in E3 as [-> ->]. apply bind_ok in E2 as (q & s3 & E3 & E2).
        apply q_nearest in E3 as [-> QP]; [|by apply bcl_new|apply RG]. apply ret_ok in E2 as [-> E2]. injection E2 as -> -> -> _ _.
        split_and!; [by apply bcl_new|split_and!; [exact QP|apply RG|apply RG]|exact QP]. }
      split.
      - eapply bcl_updatem; [exact Pa|exact E1|]. intros s2 b1 r1 E2. rewrite bu_get_new in E2. destruct (K _ _ _ E2) as (K1 & K2 & _). done.
      - apply bu_updatem_ok in E1 as (s2 & b1 & r1 & r2 & E1 & _). rewrite bu_get_new in E1. by apply K in E1 as (_ & _ & E1). }
    destruct X as [B QP]. apply cmd_bind; [done|same_ref|]. intros b3 s3 EW ES3. apply cmd_commit; [done|].
    destruct (N.eqb_spec p nobody) as [_|Hp]; [by apply ret_ok in EW as [-> ->]|]. destruct QP as [QP|QP]; [done|].
    apply bind_ok in EW as ([b2 up] & s2 & E2 & EW).
    assert (B2 : bcl b2 s2).
    { eapply bcl_update; [exact QP|exact B| |exact E2]. intros r0 R0. cbn [fst]. apply rg_add_refs; [done|]. intros x Hx. apply elem_of_list_singleton in Hx. congruence. }
    destruct (_ || _); [by apply ret_ok in EW as [-> ->]|].
    eapply bcl_walk; [| |exact B2|exact EW]; [intros i x b0 r; split; [done|]; apply rg_add_line|].
    apply bu_update_ok in E2 as (r2 & -> & _). apply B.
  Qed.
  Lemma closed_cancel a : P a -> rel (keeps closed) (cancel_transition a).
  Proof. intros Pa s C. apply closed_write; [done| |done]. destruct (proj2 C a) as (H1 & H2 & H3). split_and!; [done|by left|done]. Qed.
  Lemma closed_set_transition a p : P a -> Q p -> rel (keeps closed) (set_transition a p).
  Proof. intros Pa Qp s C. apply closed_write; [done| |done]. destruct (proj2 C a) as (H1 & H2 & H3). split_and!; done. Qed.
  Lemma closed_downgrade a : P a -> rel (keeps closed) (perform_downgrade a).
  Proof.
    intros Pa s C. apply closed_cmd; [done|]. apply cmd_must, cmd_get. apply cmd_bind; [done|same_ref|]. intros [b x] s1 E ES1. apply cmd_commit; [done|].
    apply (bcl_ext b _ s1 s1); [done|done|]. apply bu_downgrade_ok in E as (r2 & Eq & ED & ES).
    eapply (bcl_insert bu_new b s s1); [done|eapply rg_eqs; [exact Eq|]|done|done|apply bcl_new; exact C].
    cbv zeta. assert (R : rg (normalize (ref_get s a))) by (apply rg_normalize; apply C). revert R. generalize (normalize (ref_get s a)). intros r R.
    destruct (r_downgrade_at r) as [t|]; [|exact R]. destruct (_ <? _); [exact R|]. by eapply rg_fields.
  Qed.
  Lemma bcl_affirm_up levels src : forall b o n s s' b', Q o -> Q n -> bcl b s -> affirm_up levels src b o n s = (s', Ok b') -> bcl b' s'.
  Proof.
    induction levels as [|l levels IH]; intros b o n s s' b' Qo Qn B H; cbn [affirm_up] in H; [by apply ret_ok in H as [-> ->]|].
    destruct (o =? n)%N; [by apply ret_ok in H as [-> ->]|].
    apply bind_ok in H as ([b1 o1] & s1 & E1 & H). apply bind_ok in H as ([b2 n1] & s2 & E2 & H).
    assert (STEP : forall sg b x s s' b' x', Q x -> bcl b s -> (if (x =? nobody)%N then ret (b, x) else
        bu_update b x true (fun r => (move_lines sg l src r, r_referrer r))) s = (s', Ok (b', x')) -> bcl b' s' /\ Q x').
    { clear. intros sg b x s s' b' x' Qx B H. destruct (N.eqb_spec x nobody) as [_|Hx]; [apply ret_ok in H as [-> H]; by injection H as -> ->|].
      destruct Qx as [Qx|Qx]; [done|]. split; [|apply bu_update_ok in H as (r2 & -> & _); apply B].
      eapply bcl_update; [exact Qx|exact B| |exact H]. intros r R. by eapply rg_fields. }
    apply STEP in E1 as [B1 Q1]; [|done|done]. apply STEP in E2 as [B2 Q2]; [|done|done]. by eapply (IH b2 o1 n1).
  Qed.
  Lemma removelast_sub (l : list addr) x : x ∈ removelast l -> x ∈ l.
  Proof.
    intros H. destruct (decide (l = [])) as [E0|E0]; [subst l; cbn in H; by apply elem_of_nil in H|].
    rewrite (app_removelast_last nobody E0). apply elem_of_app. by left.
  Qed.
  Lemma closed_affirm a s : r_referrals (ref_get s nobody) = [] -> keeps closed s (fst (affirm_transition a s)).
  Proof.
    intros HN. unfold affirm_transition. apply at_get; [apply _|]. cbv zeta.
    assert (RV : rel (same st_ref) (validate_transition a (r_transition (ref_get s a)) false)) by frame.
    apply at_bind; [apply _| |].
    { intros C. eapply closed_ref; [apply RV|exact C]. }
    intros [] s1 EV. specialize (RV s). rewrite EV in RV. cbn in RV. unfold same in RV.
    set (r := ref_get s a) in *.
    assert (HT : r_transition r <> nobody).
    { unfold validate_transition in EV. apply bind_ok in EV as (u & s2 & E & _). apply ensure_ok in E as [_ E]. by apply negb_true_iff, N.eqb_neq in E. }
    intros C1. assert (C : closed s) by (by eapply closed_ref). 
    assert (Pa : P a). { apply (there s); [done|]. intros E0. apply HT. unfold r. by rewrite E0. }
    destruct (proj2 C a) as (R1 & R2 & R3). fold r in R1, R2, R3. destruct R2 as [R2|R2]; [done|].
    unfold bind at 1, modify at 1.
    set (s2 := s1 <| st_ref := <[a := r <| r_referrer := r_transition r |> <| r_transition := nobody |> ]> (st_ref s1) |>).
    assert (C2 : closed s2).
    { apply closed_write; [done| |done]. split_and!; [by right|by left|exact R3]. }
    assert (N2 : a <> nobody -> r_referrals (ref_get s2 nobody) = []).
    { intros Ha. unfold ref_get, s2. cbn. rewrite lookup_insert_ne by done. unfold ref_get in HN. by rewrite RV. }
    clearbody s2. apply closed_cmd; [done|]. apply cmd_must.
    apply cmd_bind; [done|same_ref|]. intros [b oa] s3 E3 ES3.
    assert (K : forall s4 b1 r1, (let l := r_referrals (normalize (ref_get s2 (r_referrer r))) in
      do! assert (index_of a l <? List.length l)%nat "index out of range" in
      let l := match last l with Some z => removelast (<[ index_of a l := z ]> l) | None => l end in
      let l := fst (Lists.remove_fast N.compare l a) in
      do! assert (negb ((List.length (r_coins r) <? 10)%nat || (List.length (r_deleg r) <? 10)%nat || (List.length (r_cnt r) <? 10)%nat)) "index out of range" in
      let p' := normalize (ref_get s2 (r_referrer r)) <| r_referrals := l |>
                  <| r_arefs := if r_active r then fst (Lists.remove_fast N.compare (r_arefs (normalize (ref_get s2 (r_referrer r)))) a)
                                else r_arefs (normalize (ref_get s2 (r_referrer r))) |> in
      ret (bu_new, move_lines (-1) 1 r p', r_referrer (normalize (ref_get s2 (r_referrer r))))) s2 = (s4, Ok (b1, r1, oa)) ->
      bcl b1 s4 /\ rg r1 /\ Q oa /\ P (r_referrer r)).
    { intros s4 b1 r1 E4. cbv zeta in E4. destruct (proj2 C2 (r_referrer r)) as (O1 & O2 & O3).
      apply bind_ok in E4 as (u & s5 & E5 & E4). apply assert_ok in E5 as [-> E5]. apply bind_ok in E4 as (u' & s5 & E6 & E4). apply assert_ok in E6 as [-> E6].
      apply ret_ok in E4 as [-> E4].
      assert (F2 : b1 = bu_new) by congruence. assert (F3 : oa = r_referrer (ref_get s2 (r_referrer r))) by (exact (f_equal snd E4)).
      assert (F4 : r_referrer r1 = r_referrer (ref_get s2 (r_referrer r)) /\ r_transition r1 = r_transition (ref_get s2 (r_referrer r)) /\
         forall c, c ∈ r_referrals r1 -> c ∈ r_referrals (ref_get s2 (r_referrer r))).
      { apply (f_equal (fun x => snd (fst x))) in E4. cbn [fst snd] in E4. rewrite E4. split_and!; [reflexivity|reflexivity|]. intros c Hc. cbn in Hc. apply remove_fast_sub in Hc.
        destruct (last _) as [z|] eqn:EL; [|done]. apply removelast_sub in Hc. apply elem_of_list_lookup in Hc as [i Hi].
        apply list_lookup_insert_Some in Hi as [(_ & -> & _)|[_ Hi]]; [|by eapply elem_of_list_lookup_2].
        rewrite last_lookup in EL. by eapply elem_of_list_lookup_2. }
      destruct F4 as (F5 & F6 & F7). subst b1 oa. split_and!; [by apply bcl_new|split_and!; [by rewrite F5|by rewrite F6|auto]|done|].
      destruct R1 as [R1|R1]; [|done]. destruct (decide (a = nobody)) as [Ea|Ea]; [congruence|]. specialize (N2 Ea).
      rewrite R1 in E5. change (r_referrals (normalize (ref_get s2 nobody))) with (r_referrals (ref_get s2 nobody)) in E5. rewrite N2 in E5. done. }
    assert (X : bcl b s3 /\ Q oa).
    { split.
      - eapply bcl_updatem; [|exact E3|].
        + apply bu_updatem_ok in E3 as (s4 & b1 & r1 & r2 & E3 & _). rewrite bu_get_new in E3. by apply K in E3 as (_ & _ & _ & E3).
        + intros s4 b1 r1 E4. rewrite bu_get_new in E4. destruct (K _ _ _ E4) as (K1 & K2 & _). done.
      - apply bu_updatem_ok in E3 as (s4 & b1 & r1 & r2 & E3 & _). rewrite bu_get_new in E3. by apply K in E3 as (_ & _ & E3 & _). }
    clear K E3. destruct X as [B QO]. apply cmd_bind; [done|same_ref|]. intros [b4 na] s4 E4 ES4.
    assert (QN : Q na). { pose proof E4 as E5. apply bu_update_ok in E5 as (r2 & -> & _). apply B. }
    assert (B4 : bcl b4 s4).
    { eapply bcl_update; [exact R2|exact B| |exact E4]. intros r0 (O1 & O2 & O3). split_and!; [done|done|]. intros x Hx. cbn in Hx.
      apply elem_of_app in Hx as [Hx|Hx]; [auto|]. apply elem_of_list_singleton in Hx. congruence. }
    clear E4. apply cmd_bind; [done|same_ref|]. intros b5 s5 E5 ES5. apply cmd_commit; [done|]. eapply bcl_affirm_up; [exact QO|exact QN|exact B4|exact E5].
  Qed.
End dom.
