(** * Who is on the staff changes only by decision *)
From Verif Require Export OperProofs Spec_Voting.
Open Scope Z_scope.

Definition staff_kept (s s' : St) : Prop := forall a, on_staff s' a = on_staff s a.
#[export] Instance staff_preorder : PreOrder staff_kept.
Proof. split; [intros s a; done|intros s1 s2 s3 H1 H2 a; by rewrite H2]. Qed.
Lemma staff_fields s s' : st_val s' = st_val s -> staff_kept s s'.
Proof. intros H a. unfold on_staff. by rewrite H. Qed.
#[export] Hint Extern 1 (staff_kept _ _) => (apply staff_fields; reflexivity) : frame.
Lemma staff_put s s' a y : st_val s' = <[ a := y ]> (st_val s) -> n_staff y = on_staff s a -> staff_kept s s'.
Proof.
  intros H1 H2 z. unfold on_staff at 1. rewrite H1. destruct (decide (a = z)) as [<-|Hz]; [by rewrite lookup_insert|].
  by rewrite lookup_insert_ne.
Qed.
Lemma staff_update a f : (forall x, rel aside (f x)) ->
  (forall x s s1 y, f x s = (s1, Ok (Some y)) -> n_staff y = n_staff x) -> rel staff_kept (val_update a f).
Proof.
  intros HA HF s. destruct (val_update_out a f s (HA _)) as [HH [HV|(x & s1 & y & E & E1 & HV)]].
  - by apply staff_fields.
  - eapply staff_put; [exact HV|]. unfold on_staff. rewrite E. by eapply HF.
Qed.
Lemma score_staff f d x : n_staff (fst (update_score f d x)) = n_staff x.
Proof. unfold update_score. by destruct (_ =? _). Qed.
Lemma sk_switch_on a k : rel staff_kept (switch_on a k).
Proof.
  intros s. unfold switch_on. apply at_get; [apply _|].
  do 2 (apply at_ensure; [apply _|intros _]).
  apply at_bind; [apply _|apply sw_validator_by_cons, _|]. intros [[b found] active] s1 H1.
  assert (s1 = s) as ->. { pose proof (sw_validator_by_cons eq k s) as E. by rewrite H1 in E. }
  apply at_ensure; [apply _|intros _].
  apply at_bind; [apply _|apply sw_is_qualified, _|]. intros [q d] s1 H2. apply qualified_read in H2 as ->.
  apply at_ensure; [apply _|intros _]. apply at_lift; [apply _|intros d' _]. apply at_get; [apply _|].
  apply at_bind; [apply _| |intros [] s2 _; apply staff_fields; reflexivity].
  destruct (st_val s !! a) as [x|] eqn:E.
  - apply staff_update; [intros; apply rel_ret, _|]. intros x' s0 s1 y H. apply ret_ok in H as [_ [= ->]]. by rewrite score_staff.
  - eapply staff_put; [reflexivity|]. unfold new_ninfo, on_staff. rewrite E. by rewrite score_staff.
Qed.
Lemma sk_switch_off a : rel staff_kept (switch_off a).
Proof.
  apply staff_update.
  - intros x. destruct (negb _); [apply rel_ret, _|]. apply rel_bind; [apply _|apply aside_in_lottery; intros; frame|intros; apply rel_ret, _].
  - intros x s s1 y H. destruct (negb (n_status x)); [by apply ret_ok in H as [_ ?]|].
    apply bind_ok in H as (y' & s2 & H & [-> [= ->]]%ret_ok). by apply in_lottery_exclude in H as ->.
Qed.
Lemma sk_on_status_update a : rel staff_kept (on_status_update a).
Proof.
  intros s. unfold on_status_update. apply at_get; [apply _|]. destruct (negb _); [cbn; reflexivity|].
  apply at_bind; [apply _|apply sw_is_qualified, _|]. intros [[] d] s1 H; [cbn; reflexivity|]. apply sk_switch_off.
Qed.
Lemma sk_on_stake_changed a : rel staff_kept (on_stake_changed a).
Proof.
  intros s. unfold on_stake_changed. apply at_get; [apply _|]. destruct (st_val s !! a) as [x|] eqn:E; [|cbn; reflexivity].
  apply at_bind; [apply _|apply sw_is_qualified, _|]. intros [q d] s1 H. apply qualified_read in H as ->.
  apply at_lift; [apply _|intros d' _]. apply at_get; [apply _|].
  pose proof (score_staff (st_ilog s) d' x) as HS.
  destruct (update_score (st_ilog s) d' x) as [y ch]. cbn [fst] in HS.
  destruct (n_active x && negb q).
  - apply at_bind; [apply _| |intros; cbn; reflexivity].
    pose proof (aside_in_lottery lottery_exclude (y <| n_status := false |>) ltac:(intros; frame) s) as [HV HH]. by apply staff_fields.
  - destruct ch; [|cbn; reflexivity]. unfold val_set, modify. cbn [fst]. eapply staff_put; [reflexivity|]. unfold on_staff. by rewrite E.
Qed.
Lemma sk_unjail a : rel staff_kept (unjail a).
Proof.
  intros s. unfold unjail, val_get, bind at 1. destruct (st_val s !! a) as [x|] eqn:E; [|cbn; reflexivity].
  apply at_ensure; [apply _|intros HJ]. apply at_get; [apply _|]. apply at_ensure; [apply _|intros HT].
  apply at_bind; [apply _|apply sw_is_qualified, _|]. intros [q d] s1 H. apply qualified_read in H as ->. destruct q.
  - apply at_lift; [apply _|intros d' _]. apply at_get; [apply _|]. unfold val_set, modify. cbn [fst].
    eapply staff_put; [reflexivity|]. rewrite score_staff. unfold on_staff. by rewrite E.
  - unfold val_set, modify. cbn [fst]. eapply staff_put; [reflexivity|]. unfold on_staff. by rewrite E.
Qed.
Lemma sk_general_amnesty : rel staff_kept general_amnesty.
Proof.
  intros s z. unfold general_amnesty, modify. cbn. unfold on_staff. cbn. rewrite lookup_fmap. destruct (st_val s !! z) as [x|]; [|done]. cbn.
  unfold amnesty_one. by destruct (_ && _).
Qed.
Lemma sk_proposed a : rel staff_kept (proposed a).
Proof.
  intros s. unfold proposed. apply at_bind; [apply _|by apply staff_fields|]. intros [] s1 _. apply staff_update.
  - intros x. apply rel_bind; [apply _|apply aside_in_lottery; intros; frame|intros; apply rel_ret, _].
  - intros x s0 s2 y H. apply bind_ok in H as (y' & s3 & H & [-> [= ->]]%ret_ok). by apply in_lottery_downshift in H as [n ->].
Qed.
Lemma sk_mark_tick a : rel staff_kept (mark_tick a).
Proof.
  apply staff_update; [intros x; apply rel_ret, _|]. intros x s s1 y H. apply ret_ok in H as [_ [= ->]]. by destruct (_ =? 0).
Qed.
Lemma sk_mark_stroke a : rel staff_kept (mark_stroke a).
Proof.
  intros s. unfold mark_stroke. do 2 (apply at_get; [apply _|]). apply staff_update.
  - intros x. destruct (n_jailed x); [apply rel_ret, _|]. cbv zeta. apply rel_bind; [apply _| |intros; apply rel_ret, _].
    destruct (_ <=? _); apply aside_in_lottery; intros; frame.
  - intros x s0 s1 y H. destruct (n_jailed x) eqn:EJ; [by apply ret_ok in H as [_ ?]|]. cbv zeta in H.
    apply bind_ok in H as (y' & s2 & H & [-> [= ->]]%ret_ok). destruct (_ <=? _).
    + by apply in_lottery_exclude in H as ->.
    + by apply in_lottery_downshift in H as [n ->].
Qed.
Lemma sk_mark_byzantine a e : rel staff_kept (mark_byzantine a e).
Proof.
  apply staff_update.
  - intros x. apply rel_bind; [apply _| |intros; apply rel_ret, _].
    destruct (_ <? _)%nat; apply aside_in_lottery; intros; frame.
  - intros x s s1 y H. apply bind_ok in H as (y' & s2 & H & [-> [= ->]]%ret_ok). destruct (_ <? _)%nat.
    + by apply in_lottery_exclude in H as ->.
    + by apply in_lottery_downshift in H as [n ->].
Qed.
Lemma sk_votes l : rel staff_kept (mark_strokes_and_ticks l).
Proof.
  apply rel_mfor; [apply _|intros [c b]]. apply rel_bind; [apply _|apply sw_find_validator, _|intros a].
  destruct b; [by apply sk_mark_tick|by apply sk_mark_stroke].
Qed.
Lemma sk_evidence l : rel staff_kept (punish_wrongdoers l).
Proof.
  apply rel_mfor; [apply _|intros [c b]]. apply rel_bind; [apply _|apply sw_find_validator, _|intros a]. by apply sk_mark_byzantine.
Qed.
Lemma sk_gather : rel staff_kept gather.
Proof.
  assert (HU : forall a f, (forall x, exists y, n_staff y = n_staff x /\ f x = ret (Some y)) -> rel staff_kept (val_update a f)).
  { intros a f HF. apply staff_update.
    - intros x. destruct (HF x) as (y & _ & ->). apply rel_ret, _.
    - intros x s s1 y H. destruct (HF x) as (y' & Hy & EF). rewrite EF in H. by apply ret_ok in H as [_ [= ->]]. }
  unfold gather. apply rel_bind; [apply _|apply rel_get, _|intros recs]. apply rel_bind; [apply _| |intros [active result]].
  { apply rel_mfold; [apply _|]. intros [ac res] [a x]. unfold gather_scan. destruct (n_active x).
    { apply rel_bind; [apply _|apply rel_assert, _|intros _]. apply rel_bind; [apply _|apply rel_modify; intros; by apply staff_fields|intros; apply rel_ret, _]. }
    destruct (_ =? 0); [apply rel_ret, _|]. apply rel_bind; [apply _|apply rel_assert, _|intros _].
    apply rel_bind; [apply _|apply HU|intros; apply rel_ret, _]. intros d. eexists. split; [|reflexivity]. done. }
  apply rel_bind; [apply _|apply rel_get, _|intros p]. cbv zeta. apply rel_bind; [apply _| |intros [gg result2]].
  { apply rel_mfold; [apply _|]. intros [ac res] [a x]. unfold gather_top. apply rel_bind; [apply _|apply rel_assert, _|intros _].
    apply rel_bind; [apply _|apply rel_lift, _|intros [pw g2]]. cbv zeta. apply rel_bind; [apply _| |intros y].
    { unfold if_in_lottery. destruct (_ =? 0); [apply rel_ret, _|]. apply rel_must. frame. }
    apply rel_bind; [apply _| |intros; apply rel_ret, _]. destruct (_ || _); [|apply rel_ret, _].
    apply HU. intros d. eexists. split; [|reflexivity]. done. }
  apply rel_bind; [apply _|apply rel_get, _|intros mx]. apply rel_bind; [apply _| |intros [? ?]; apply rel_ret, _].
  apply rel_mfold; [apply _|]. intros [ac res] [a x]. unfold gather_rest. destruct (_ && _).
  - apply rel_bind; [apply _|apply rel_lift, _|intros [pw g2]]. cbv zeta. destruct (_ && _); [apply rel_ret, _|].
    apply rel_bind; [apply _|apply HU|intros; apply rel_ret, _]. intros d. eexists. split; [|reflexivity]. done.
  - cbv zeta. apply rel_bind; [apply _|apply rel_assert, _|intros _]. apply rel_bind; [apply _| |intros y].
    { destruct (_ =? 0); [apply rel_must; frame|apply rel_ret, _]. }
    apply rel_bind; [apply _| |intros; apply rel_ret, _]. destruct (_ || _); [|apply rel_ret, _].
    apply HU. intros d. eexists. split; [|reflexivity]. done.
Qed.
#[export] Hint Resolve sk_switch_on sk_switch_off sk_on_status_update sk_on_stake_changed sk_unjail sk_general_amnesty sk_proposed
  sk_votes sk_evidence sk_gather | 0 : frame.

(** ** The decisions *)
Lemma sk_add a s : forall z, on_staff (fst (add_to_staff a s)) z = staff_after (PStaffAdd a) s z.
Proof.
  intros z. unfold add_to_staff, bind at 1, get at 1. cbn [staff_after]. unfold on_staff at 2.
  destruct (st_val s !! a) as [x|] eqn:E.
  - unfold val_update, val_get, bind, ret. rewrite E. destruct (n_staff x) eqn:B.
    + cbn. unfold on_staff. destruct (decide (z = a)) as [->|Hz]; [by rewrite E|done].
    + unfold val_set, modify. cbn. unfold on_staff. cbn. destruct (decide (z = a)) as [->|Hz]; [by rewrite lookup_insert|by rewrite lookup_insert_ne].
  - unfold val_set, modify. cbn. unfold on_staff. cbn. destruct (decide (z = a)) as [->|Hz]; [by rewrite lookup_insert|by rewrite lookup_insert_ne].
Qed.
Lemma sk_remove a s : forall z, on_staff (fst (remove_from_staff a s)) z = staff_after (PStaffRemove a) s z.
Proof.
  intros z. unfold remove_from_staff, bind at 1, get at 1. cbn [staff_after].
  destruct (st_val s !! a) as [x|] eqn:E.
  2: { cbn. destruct (decide (z = a)) as [->|Hz]; [unfold on_staff; by rewrite E|done]. }
  destruct (n_staff x) eqn:B; cbn [negb].
  2: { cbn. destruct (decide (z = a)) as [->|Hz]; [unfold on_staff; by rewrite E|done]. }
  unfold bind at 1, val_set, modify. set (s1 := s <| st_val := _ |>).
  assert (H1 : forall z, on_staff s1 z = if decide (z = a) then false else on_staff s z).
  { intros y. unfold on_staff, s1. cbn. destruct (decide (y = a)) as [->|Hz]; [by rewrite lookup_insert|by rewrite lookup_insert_ne]. }
  rewrite <- H1. clearbody s1. destruct (n_active x); [|done].
  assert (H2 : rel staff_kept (do! on_status_update a in on_stake_changed a)).
  { apply rel_bind; [apply _|apply sk_on_status_update|intros; apply sk_on_stake_changed]. }
  apply H2.
Qed.
