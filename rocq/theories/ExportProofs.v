(** * What an exported file says *)
From Verif Require Import GenesisProofs NetProofs.

Lemma with_refs_spec s l e : e ∈ with_refs s l <-> fst e ∈ l /\ snd e = referrals s (fst e) /\ snd e <> [].
Proof.
  unfold with_refs. rewrite elem_of_list_In, in_flat_map. unfold referrals. split.
  - intros (a & Ha & H). destruct (r_referrals (ref_get s a)) as [|x k] eqn:E; [done|]. destruct H as [<-|[]]. cbn. rewrite E. split_and!; [by apply elem_of_list_In|done|done].
  - destruct e as [p k]. cbn. intros (H1 & H2 & H3). exists p. split; [by apply elem_of_list_In|]. rewrite <- H2. destruct k; [done|]. by left.
Qed.
Lemma levels_spec fuel s : forall lev r, levels fuel s lev = Some r ->
  (forall e, e ∈ lev -> e ∈ r) /\
  (forall e e', e ∈ r -> e' ∈ with_refs s (snd e) -> e' ∈ r) /\
  (forall e, e ∈ r -> e ∈ lev \/ exists e0, e0 ∈ r /\ e ∈ with_refs s (snd e0)).
Proof.
  assert (N : forall lev r, lev = [] -> Some [] = Some r -> (forall e, e ∈ lev -> e ∈ r) /\
    (forall e e', e ∈ r -> e' ∈ with_refs s (snd e) -> e' ∈ r) /\ (forall e, e ∈ r -> e ∈ lev \/ exists e0, e0 ∈ r /\ e ∈ with_refs s (snd e0))).
  { intros lev r -> [= <-]. split_and!; [done| |by left]. intros e e' H. by apply elem_of_nil in H. }
  induction fuel as [|n IH]; intros lev r H.
  - destruct lev; [by apply N|done].
  - destruct lev as [|e0 lev']; [by apply N|]. cbn [levels] in H. remember (e0 :: lev') as lev eqn:EL. clear EL e0 lev' N.
    destruct (levels n s _) as [r'|] eqn:E; [|done]. injection H as <-. apply IH in E as (E1 & E2 & E3). clear IH.
    assert (W : forall e e', e ∈ lev -> e' ∈ with_refs s (snd e) -> e' ∈ with_refs s (flat_map snd lev)).
    { intros e e' He. rewrite !with_refs_spec. intros (H1 & H2 & H3). split; [|done]. apply elem_of_list_In, in_flat_map.
      exists e. split; by apply elem_of_list_In. }
    split_and!.
    + intros e He. apply elem_of_app. by left.
    + intros e e' He He'. apply elem_of_app. right. apply elem_of_app in He as [He|He]; [by eapply E1, W|by eapply E2].
    + intros e He. apply elem_of_app in He as [He|He]; [by left|right]. apply E3 in He as [He|(e1 & H1 & H2)].
      * apply with_refs_spec in He as (H1 & H2). apply elem_of_list_In, in_flat_map in H1 as (e1 & H3 & H4).
        exists e1. split; [apply elem_of_app; left; by apply elem_of_list_In|]. apply with_refs_spec. split; [by apply elem_of_list_In|done].
      * exists e1. split; [apply elem_of_app; by right|done].
Qed.

Lemma filter_elem {A} (f : A -> bool) l x : x ∈ List.filter f l <-> x ∈ l /\ f x = true.
Proof. rewrite !elem_of_list_In. apply filter_In. Qed.
Lemma member_key s a : a ∈ keysN (st_ref s) <-> a ∈ members s.
Proof. rewrite elem_of_keysN. symmetry. apply members_spec. Qed.
Lemma member_get s a : ref_get s a <> r_zero -> a ∈ members s.
Proof. intros H. apply members_spec. unfold ref_get in H. destruct (st_ref s !! a); [eauto|done]. Qed.
Lemma banished_ref s a : banished s a = true -> a ∈ members s.
Proof. intros H. apply member_get. unfold banished in H. intros E. by rewrite E in H. Qed.
Lemma referrer_member s a : referrer s a <> nobody -> a ∈ members s.
Proof. intros H. apply member_get. unfold referrer in H. intros E. by rewrite E in H. Qed.
Lemma referrals_member s a : referrals s a <> [] -> a ∈ members s.
Proof. intros H. apply member_get. unfold referrals in H. intros E. by rewrite E in H. Qed.

Section export.
Context (s : St) (g : rgen) (N : network s) (H : ref_export s = (s, Ok g)).
Lemma export_parts : rg_top g = top_of s /\ rg_banished g = banished_of s /\
  (forall e, e ∈ with_refs s (rg_top g) -> e ∈ rg_other g) /\
  (forall e e', e ∈ rg_other g -> e' ∈ with_refs s (snd e) -> e' ∈ rg_other g) /\
  (forall e, e ∈ rg_other g -> e ∈ with_refs s (rg_top g) \/ exists e0, e0 ∈ rg_other g /\ e ∈ with_refs s (snd e0)) /\
  (forall a t, (a, t) ∈ rg_comp g -> a ∈ listed g) /\ (forall a t, (a, t) ∈ rg_ban g -> a ∈ listed g) /\
  (forall a st t, (a, st, t) ∈ rg_down g -> a ∈ listed g /\ st = status s a) /\
  (forall a p, (a, p) ∈ rg_trans g -> a ∈ listed g /\ p = transition_of s a /\ p <> nobody).
Proof.
  unfold ref_export in H. apply bind_ok in H as (s0 & s1 & E & H0). apply get_ok in E as [-> ->]. unfold id in H0.
  apply bind_ok in H0 as (other & s1 & E & H0). apply lift_ok in E as [-> E].
  apply ret_ok in H0 as [_ ->]. apply levels_spec in E as (E1 & E2 & E3). cbn [rg_top rg_banished rg_other rg_comp rg_ban rg_down rg_trans].
  assert (NT : forall A (f : rinfo -> option A) (l : list addr) a (t : A), (a, t) ∈ omap (fun a => match f (ref_get s a) with Some t => Some (a, t) | None => None end) l -> a ∈ l /\ f (ref_get s a) = Some t).
  { intros A f l a t Ha. apply elem_of_list_omap in Ha as (b & Hb & E). destruct (f (ref_get s b)) eqn:Ef; [|done]. injection E as -> ->. done. }
  split_and!; [done|done|done|done|done| | | |].
  - intros a t Ha. by apply NT in Ha as [Ha _].
  - intros a t Ha. by apply NT in Ha as [Ha _].
  - intros a st t Ha. apply elem_of_list_omap in Ha as (b & Hb & E). destruct (r_downgrade_at (ref_get s b)); [|done]. injection E as -> <- ->. done.
  - intros a p Ha. apply (NT _ (fun r => if (r_transition r =? nobody)%N then None else Some (r_transition r))) in Ha as [Ha E]. cbv beta in E. destruct (N.eqb_spec (r_transition (ref_get s a)) nobody); [done|]. injection E as <-. done.
Qed.
Lemma export_top a : a ∈ rg_top g <-> a ∈ members s /\ banished s a = false /\ referrer s a = nobody.
Proof.
  destruct export_parts as [-> _]. unfold top_of. rewrite filter_elem, member_key, andb_true_iff, negb_true_iff, N.eqb_eq. done.
Qed.
Lemma export_other p l : (p, l) ∈ rg_other g -> l = referrals s p /\ l <> [] /\ p ∈ listed g.
Proof.
  destruct export_parts as (_ & _ & _ & _ & H1 & _). intros Hp. apply H1 in Hp as [Hp|([q k] & Hq & Hp)].
  - apply with_refs_spec in Hp as (H2 & H3 & H4). cbn in *. split_and!; [done|done|]. apply elem_of_app. by left.
  - apply with_refs_spec in Hp as (H2 & H3 & H4). cbn in *. split_and!; [done|done|]. by eapply elem_listed.
Qed.
Lemma export_listed a : a ∈ listed g <-> a ∈ members s /\ banished s a = false.
Proof.
  split.
  - intros Ha. apply elem_of_app in Ha as [Ha|Ha].
    + apply export_top in Ha. tauto.
    + apply elem_of_list_In, in_flat_map in Ha as ([p l] & Hp & Ha). apply elem_of_list_In in Hp. apply elem_of_list_In in Ha. cbn in Ha.
      apply export_other in Hp as (-> & Hl & _).
      assert (Pn : p <> nobody) by (intros ->; by rewrite (proj2 (nw_nobody _ N)) in Hl).
      apply (nw_listed _ N p a Pn) in Ha as [Ha Hb]. split; [|done]. apply referrer_member. congruence.
  - intros [Ha Hb]. destruct (chain_rank (refg (ref_get s))) as [rk Hrk].
    + apply (nw_nobody _ N).
    + intros x. destruct (nw_ends _ N x) as [n Hn]. exists n. by rewrite <- up_anc.
    + assert (G : forall n a, (rk a < n)%nat -> a ∈ members s -> banished s a = false -> a ∈ listed g).
      { clear a Ha Hb. induction n as [|n IH]; [lia|]. intros a Hn Ha Hb. destruct (N.eq_dec (referrer s a) nobody) as [E|E].
        - apply elem_of_app. left. by apply export_top.
        - assert (Hl : a ∈ referrals s (referrer s a)) by (by apply (nw_listed _ N)). set (p := referrer s a) in *.
          assert (Hp : p ∈ listed g).
          { apply IH.
            - pose proof (Hrk a E) as X. change (refg (ref_get s) a) with p in X. lia.
            - apply referrals_member. intros X. rewrite X in Hl. by apply elem_of_nil in Hl.
            - destruct (banished s p) eqn:Eb; [|done]. apply (nw_banished _ N) in Eb as [X _]. rewrite X in Hl. by apply elem_of_nil in Hl. }
          assert (Hpl : (p, referrals s p) ∈ rg_other g).
          { assert (W : forall l, p ∈ l -> (p, referrals s p) ∈ with_refs s l).
            { intros l Hpl. apply with_refs_spec. split_and!; [done|done|]. cbn. intros X. rewrite X in Hl. by apply elem_of_nil in Hl. }
            destruct export_parts as (_ & _ & H1 & H2 & _). apply elem_of_app in Hp as [Hp|Hp]; [by apply H1, W|].
            apply elem_of_list_In, in_flat_map in Hp as (e & He & Hp). apply (H2 e); [by apply elem_of_list_In|]. apply W. by apply elem_of_list_In. }
          by eapply elem_listed. }
      apply (G (Datatypes.S (rk a))); [lia|done|done].
Qed.
Lemma export_banished a p : (a, p) ∈ rg_banished g <-> banished s a = true /\ p = referrer s a.
Proof.
  destruct export_parts as (_ & -> & _). unfold banished_of. rewrite elem_of_list_In, in_map_iff. split.
  - intros (b & E & Hb). injection E as -> <-. apply elem_of_list_In, filter_elem in Hb as [_ Hb]. done.
  - intros [Hb ->]. exists a. split; [done|]. apply elem_of_list_In, filter_elem. split; [|done]. by apply member_key, banished_ref.
Qed.
Lemma export_expelled a : a ∈ expelled g <-> banished s a = true.
Proof.
  unfold expelled. rewrite elem_of_list_In, in_map_iff. split.
  - intros ([b p] & <- & Hb). by apply elem_of_list_In, export_banished in Hb as [Hb _].
  - intros Hb. exists (a, referrer s a). split; [done|]. by apply elem_of_list_In, export_banished.
Qed.
Lemma export_everyone a : a ∈ listed g ++ expelled g <-> a ∈ members s.
Proof.
  rewrite elem_of_app, export_listed, export_expelled. split.
  - intros [[Ha _]|Ha]; [done|by apply banished_ref].
  - intros Ha. destruct (banished s a) eqn:E; [by right|by left].
Qed.
End export.

Lemma export_run s s1 g : export_genesis s = (s1, Ok g) -> s1 = s /\ ref_export s = (s, Ok (g_ref g)) /\
  g_bals g = bank_export s /\ g_profs g = prof_export s /\ g_accs g = auth_export s /\ g_tasks g = sched_export s /\ g_supply g = st_supply s /\
  g_del g = del_export s /\ g_vote g = voting_export s /\ g_earn g = earn_export s /\ g_active g = vals_export true s /\ g_other g = vals_export false s.
Proof.
  intros H. unfold export_genesis in H. apply bind_ok in H as (r & s2 & E & H). apply (proj1 (must_ok _ _ _ _)) in E.
  assert (E2 : s2 = s).
  { unfold ref_export in E. apply bind_ok in E as (s0 & s3 & E0 & E). apply get_ok in E0 as [-> _].
    apply bind_ok in E as (o & s4 & E1 & E). apply lift_ok in E1 as [-> _]. by apply ret_ok in E as [-> _]. }
  subst s2. apply bind_ok in H as (s0 & s2 & E0 & H). apply get_ok in E0 as [-> ->]. apply ret_ok in H as [-> ->].
  unfold id. cbn [g_ref g_bals g_profs g_accs g_tasks g_supply g_del g_vote g_earn g_active g_other]. by split_and!.
Qed.

Theorem export_tidy now s s1 g : settled now s -> export_genesis s = (s1, Ok g) -> tidy now g.
Proof.
  intros [N S0 SS SF ST SP] H. apply export_run in H as (_ & H & _ & HP & _). set (r := g_ref g) in *.
  destruct (export_parts s r H) as (_ & _ & _ & _ & _ & C1 & C2 & C3 & C4).
  pose proof (export_listed s r N H) as L. pose proof (export_everyone s r N H) as EV. pose proof (export_expelled s r H) as EX.
  split; fold r.
  - rewrite L. tauto.
  - intros p l Hp. apply (export_other s r H) in Hp as (-> & Hl & Hp). split; [done|]. intros Hq.
    assert (Pn : p <> nobody) by (intros ->; by rewrite (proj2 (nw_nobody _ N)) in Hl).
    apply (nw_listed _ N p p Pn) in Hq as [Hq _]. destruct (nw_ends _ N p) as [n Hn]. apply Pn. rewrite <- Hn. clear Hn.
    induction n as [|n IHn]; cbn [up]; congruence.
  - intros a p Ha. apply (export_banished s r H) in Ha as [Ha ->]. pose proof (banished_ref _ _ Ha) as Hm. split_and!.
    + intros ->. done.
    + rewrite L, Ha. by intros [_ ?].
    + apply EV. by apply SF.
  - destruct (chain_rank (refg (ref_get s))) as [rk Hrk].
    + apply (nw_nobody _ N).
    + intros x. destruct (nw_ends _ N x) as [n Hn]. exists n. by rewrite <- up_anc.
    + exists rk. intros a p Ha _. apply (export_banished s r H) in Ha as [Ha ->]. apply Hrk. apply (nw_banished _ N) in Ha. tauto.
  - exact C1.
  - exact C2.
  - intros a st t Ha. apply C3 in Ha as [Ha ->]. split; [done|]. apply L in Ha as [H1 H2]. by apply SS.
  - intros a p Ha. apply C4 in Ha as (Ha & -> & Hp). split; [done|]. apply L in Ha as [H1 H2]. apply L. by apply ST.
  - intros a p Ha. rewrite HP in Ha. unfold prof_export in Ha. apply elem_of_list_In, in_map_iff in Ha as (b & E & Hb). injection E as -> <-.
    apply elem_of_list_In, elem_of_keysN in Hb as [q Hq]. destruct (SP a q Hq) as [H1 H2]. rewrite Hq. cbn [default].
    split; [by apply EV|]. intros HA. apply L. split; [done|]. apply H2. exact HA.
Qed.

(** ** Balances *)
Lemma balance_written a c s s' : set_balance a c s = (s', Ok tt) ->
  st_bal s' = if decide (c = ∅) then base.delete a (st_bal s) else <[ a := c ]> (st_bal s).
Proof.
  intros H. unfold set_balance in H. apply bind_ok in H as ([] & s1 & E & H). apply ensure_ok in E as [-> _].
  apply bind_ok in H as ([] & s1 & E & H). apply modify_ok in E. apply (f_equal st_bal) in E.
  apply bind_ok in H as (r & s2 & E2 & H). assert (X : rel (same st_bal) (try (on_balance_changed a))) by (apply rel_try; frame).
  apply (run_rel _ _ _ _ _ X) in E2. unfold same in E2. destruct r.
  - apply ret_ok in H as [-> _]. rewrite E2, E. done.
  - apply bind_ok in H as (u & s3 & E3 & H). by apply fail_ok in H.
Qed.
Lemma balances_written (f : addr -> coins) l s s' : mfor (map (fun a => (a, f a)) l) (fun e => set_balance (fst e) (snd e)) s = (s', Ok tt) ->
  forall a, balance s' a = if decide (a ∈ l) then f a else balance s a.
Proof.
  revert s. induction l as [|b l IH]; intros s H a; cbn [map mfor] in H.
  - apply ret_ok in H as [-> _]. done.
  - apply bind_ok in H as ([] & s1 & E & H). rewrite (IH s1 H a). cbn [fst snd] in E. apply balance_written in E.
    assert (B : balance s1 a = if decide (a = b) then f a else balance s a).
    { unfold balance. rewrite E. destruct (decide (a = b)) as [->|Ne].
      - destruct (decide (f b = ∅)) as [E0|E0]; [by rewrite lookup_delete|by rewrite lookup_insert].
      - destruct (decide (f b = ∅)); [by rewrite lookup_delete_ne|by rewrite lookup_insert_ne]. }
    rewrite B. destruct (decide (a ∈ l)), (decide (a = b)), (decide (a ∈ b :: l)) as [Hb|Hb]; try done; exfalso; rewrite elem_of_cons in Hb; tauto.
Qed.

Lemma profile_bal e s s' : prof_import_one e s = (s', Ok tt) -> st_bal s' = st_bal s.
Proof.
  destruct e as [a p]. intros H. unfold prof_import_one in H. cbn [fst snd] in H.
  apply bind_ok in H as (acc & s1 & E & H). apply get_ok in E as [-> ->]. apply bind_ok in H as (n & s1 & E & H). apply lift_ok in E as [-> _].
  apply bind_ok in H as (mg & s1 & E & H). apply get_ok in E as [-> ->]. cbv zeta in H. set (q := p <| p_card := _ |>) in *. clearbody q.
  apply bind_ok in H as (nick & s1 & E & H). apply get_ok in E as [-> ->]. apply bind_ok in H as ([] & s1 & E1 & H).
  assert (T1 : st_bal s1 = st_bal s).
  { destruct (decide _); [by apply ret_ok in E1 as [-> _]|]. assert (X : rel (same st_bal) (nick_put (trim s (p_nick q)) a)) by frame. by apply (run_rel _ _ _ _ _ X) in E1. }
  apply bind_ok in H as ([] & s2 & E2 & H). assert (X : rel (same st_bal) (card_put (p_card q) a)) by frame. apply (run_rel _ _ _ _ _ X) in E2. clear X.
  apply bind_ok in H as ([] & s3 & E3 & H). apply modify_ok in E3.
  assert (T3 : st_bal s3 = st_bal s2 /\ st_prof s3 !! a = Some q) by (rewrite E3; split; [done|cbn; apply lookup_insert]).
  destruct T3 as [T3 P3]. clear E3. apply bind_ok in H as (now & s4 & E & H). apply get_ok in E as [-> ->].
  apply bind_ok in H as ([] & s4 & E4 & H). apply (proj1 (must_ok _ _ _ _)) in H.
  assert (T4 : st_bal s4 = st_bal s3 /\ st_prof s4 = st_prof s3).
  { destruct (p_active _ q); [|by apply ret_ok in E4 as [-> _]].
    assert (X1 : rel (same st_prof) (must (set_active a true false))) by (apply rel_must; frame).
    assert (X2 : rel (same st_bal) (must (set_active a true false))) by (apply rel_must; frame).
    split; [by apply (run_rel _ _ _ _ _ X2) in E4|by apply (run_rel _ _ _ _ _ X1) in E4]. }
  destruct T4 as [T4 T5]. apply set_same in H; [|by rewrite T5]. unfold tree_part in H. unfold same in *. congruence.
Qed.
(** What the later parts of the import leave alone *)
Lemma init_balances g s s' u (f : addr -> coins) l : init_genesis g s = (s', Ok u) -> blank s -> g_bals g = map (fun a => (a, f a)) l ->
  forall a, balance s' a = if decide (a ∈ l) then f a else ∅.
Proof.
  intros H F EG a. unfold init_genesis in H.
  apply bind_ok in H as ([] & s1 & E1 & H). apply bind_ok in H as ([] & s2 & E2 & H). apply bind_ok in H as ([] & s3 & E3 & H).
  apply bind_ok in H as ([] & s4 & E4 & H). apply bind_ok in H as ([] & s5 & E5 & H). apply bind_ok in H as ([] & s6 & E6 & H).
  apply bind_ok in H as (up & s7 & E7 & H). apply bind_ok in H as ([] & s8 & E8 & H). apply bind_ok in H as ([] & s9 & E9 & H). apply ret_ok in H as [-> _].
  assert (Q1 : rel (same st_bal) (sched_import (g_tasks g))) by (unfold sched_import; quiet_go).
  assert (Q2 : rel (same st_bal) (auth_import (g_accs g))) by (unfold auth_import; quiet_go).
  assert (Q3 : rel (same st_bal) (ref_import (g_ref g))) by (unfold ref_import, note, put_banished; quiet_go).
  assert (Q6 : rel (same st_bal) (del_import (g_del g))) by (unfold del_import; quiet_go).
  assert (Q7 : rel (same st_bal) (noding_import (g_active g) (g_other g))) by (unfold noding_import, val_import_one; quiet_go).
  assert (Q8 : rel (same st_bal) (voting_import (g_vote g))) by (unfold voting_import; quiet_go).
  assert (Q9 : rel (same st_bal) (earn_import (g_earn g))) by (unfold earn_import; quiet_go).
  assert (QC : rel (same st_bal) check_statuses) by (unfold check_statuses; quiet_go).
  apply (run_rel _ _ _ _ _ Q1) in E1. apply (run_rel _ _ _ _ _ Q2) in E2. apply (run_rel _ _ _ _ _ Q3) in E3. apply (run_rel _ _ _ _ _ Q6) in E6.
  apply (run_rel _ _ _ _ _ Q7) in E7. apply (run_rel _ _ _ _ _ Q8) in E8. apply (run_rel _ _ _ _ _ Q9) in E9.
  unfold prof_import in E5. apply bind_ok in E5 as ([] & s5' & E5 & E5'). apply (run_rel _ _ _ _ _ QC) in E5'.
  assert (T5 : st_bal s5' = st_bal s4).
  { clear -E5. revert s4 E5. induction (g_profs g) as [|e l IH]; intros s4 E5; cbn [mfor] in E5; [by apply ret_ok in E5 as [-> _]|].
    apply bind_ok in E5 as ([] & s1 & E & H). transitivity (st_bal s1); [by apply IH|by eapply profile_bal]. }
  unfold bank_init in E4. apply bind_ok in E4 as ([] & s4' & E4 & E4'). apply modify_ok in E4'. apply (f_equal st_bal) in E4'.
  change (st_bal s4 = st_bal s4') in E4'. apply (proj1 (must_ok _ _ _ _)) in E4. rewrite EG in E4. apply balances_written with (a := a) in E4.
  unfold same in *. assert (EB : st_bal s9 = st_bal s4') by congruence. assert (EF : st_bal s3 = ∅) by (destruct F; congruence).
  unfold balance in *. rewrite EB, E4, EF, lookup_empty. done.
Qed.
