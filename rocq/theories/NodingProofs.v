(** * Proofs about noding: what can happen to a validator's record *)
From Verif Require Export DelegHist.
Open Scope Z_scope.

(** ** The changes of one record that are neither a vote nor an infraction.
    [K]: the keys the operator may use; [g]: power and last key may change too. *)
Inductive qstep (g : bool) (K : N -> Prop) (h : Z) : option ninfo -> option ninfo -> Prop :=
  | q_new_on k v : K k -> qstep g K h None (Some (n_zero <| n_status := true |> <| n_pub := k |> <| n_score := v |>))
  | q_new_staff : qstep g K h None (Some (n_zero <| n_staff := true |>))
  | q_score x v : qstep g K h (Some x) (Some (x <| n_score := v |>))
  | q_lottery x v : qstep g K h (Some x) (Some (x <| n_lottery := v |>))
  | q_on x k : K k -> n_banned x = false -> n_status x = false ->
      qstep g K h (Some x) (Some (x <| n_status := true |> <| n_pub := k |>))
  | q_off x : qstep g K h (Some x) (Some (x <| n_status := false |>))
  | q_unjail x : n_jailed x = true -> n_unjail_at x <= h -> qstep g K h (Some x) (Some (x <| n_jailed := false |>))
  | q_staff x b : qstep g K h (Some x) (Some (x <| n_staff := b |>))
  | q_proposed x v : qstep g K h (Some x) (Some (x <| n_proposed := v |>))
  | q_amnesty x : qstep g K h (Some x) (Some (x <| n_strokes := 0 |> <| n_jails := 0 |>))
  | q_power x p k : g = true -> (k = 0%N \/ k = n_pub x) -> qstep g K h (Some x) (Some (x <| n_power := p |> <| n_last_pub := k |>)).
Notation qsteps g K h := (rtc (qstep g K h)).

Definition quiet (g : bool) (K : addr -> N -> Prop) (s s' : St) : Prop :=
  st_height s' = st_height s /\ forall z, qsteps g (K z) (st_height s) (st_val s !! z) (st_val s' !! z).
#[export] Instance quiet_preorder g K : PreOrder (quiet g K).
Proof.
  split; [intros s; split; [done|intros z; apply rtc_refl]|].
  intros s1 s2 s3 [H1 Q1] [H2 Q2]. split; [congruence|]. intros z. rewrite H1 in Q2. eapply rtc_transitive; [apply Q1|apply Q2].
Qed.
Lemma quiet_fields g K s s' : st_val s' = st_val s -> st_height s' = st_height s -> quiet g K s s'.
Proof. intros H1 H2. split; [done|]. rewrite H1. intros; apply rtc_refl. Qed.
Lemma quiet_put g K s s' a y : st_height s' = st_height s -> st_val s' = <[ a := y ]> (st_val s) ->
  qsteps g (K a) (st_height s) (st_val s !! a) (Some y) -> quiet g K s s'.
Proof.
  intros H1 H2 HQ. split; [done|]. rewrite H2. intros z.
  destruct (decide (a = z)) as [<-|Hz]; [by rewrite lookup_insert|rewrite lookup_insert_ne by done; apply rtc_refl].
Qed.
#[export] Hint Extern 1 (quiet _ _ _ _) => (apply quiet_fields; reflexivity) : frame.

(** ** The operations *)
Lemma score_step g K h f d x : qsteps g K h (Some x) (Some (fst (update_score f d x))).
Proof.
  unfold update_score. destruct (_ =? n_score x); cbn; [apply rtc_refl|]. apply rtc_once, q_score.
Qed.
(** Only the lottery is touched. *)
Definition aside (s s' : St) : Prop := st_val s' = st_val s /\ st_height s' = st_height s.
#[export] Instance aside_preorder : PreOrder aside.
Proof. split; [intros s; by split|intros s1 s2 s3 [? ?] [? ?]; split; congruence]. Qed.
#[export] Hint Extern 1 (aside _ _) => (split; reflexivity) : frame.
Lemma aside_in_lottery f x : (forall x, rel aside (f x)) -> rel aside (if_in_lottery f x).
Proof. intros H. unfold if_in_lottery. destruct (_ =? 0); [apply rel_ret, _|apply rel_must, H]. Qed.
Lemma exclude_ok x s s' y : lottery_exclude x s = (s', Ok y) ->
  y = x <| n_lottery := 0 |> /\ s' = s <| st_lottery := base.delete (n_lottery x) (st_lottery s) |> /\ n_lottery x <> 0.
Proof.
  unfold lottery_exclude. destruct (n_lottery x =? 0) eqn:E; [by intros ?%fail_ok|]. intros H. mi. split_and!; [done..|lia].
Qed.
Definition next_no (m : gmap Z addr) : Z := match last (keysZ m) with Some k => k + 1 | None => 1 end.
Lemma add_new_ok a x s s' y : lottery_add_new a x s = (s', Ok y) ->
  y = x <| n_lottery := next_no (st_lottery s) |> /\
  s' = s <| st_lottery := <[ next_no (st_lottery s) := a ]> (st_lottery s) |> /\ n_lottery x = 0.
Proof.
  unfold lottery_add_new. destruct (negb (n_lottery x =? 0)) eqn:E; [by intros ?%fail_ok|]. intros H. mi.
  split_and!; [done..|lia].
Qed.
Lemma downshift_ok a x s s' y : lottery_downshift a x s = (s', Ok y) ->
  let m := base.delete (n_lottery x) (st_lottery s) in
  y = x <| n_lottery := next_no m |> /\ s' = s <| st_lottery := <[ next_no m := a ]> m |> /\ n_lottery x <> 0.
Proof.
  unfold lottery_downshift. intros H. apply bind_ok in H as (x1 & s1 & H1 & H2).
  apply exclude_ok in H1 as (-> & -> & HN). apply add_new_ok in H2 as (-> & -> & _). done.
Qed.
Lemma in_lottery_ok f x s s' y : if_in_lottery f x s = (s', Ok y) ->
  (n_lottery x = 0 /\ s' = s /\ y = x) \/ (n_lottery x <> 0 /\ f x s = (s', Ok y)).
Proof.
  unfold if_in_lottery. destruct (n_lottery x =? 0) eqn:E.
  - intros [-> ->]%ret_ok. left. split_and!; [lia|done..].
  - intros H. apply (proj1 (must_ok _ _ _ _)) in H. right. split; [lia|done].
Qed.
(** Only the lottery number of the record changes. *)
Lemma in_lottery_exclude x s s' y : if_in_lottery lottery_exclude x s = (s', Ok y) ->
  y = x <| n_lottery := 0 |>.
Proof.
  intros [(H & _ & ->)|[_ H]]%in_lottery_ok; [destruct x; cbn in *; by subst|]. by apply exclude_ok in H as (-> & _).
Qed.
Lemma in_lottery_downshift a x s s' y : if_in_lottery (lottery_downshift a) x s = (s', Ok y) ->
  exists n, y = x <| n_lottery := n |>.
Proof.
  intros [(H & _ & ->)|[_ H]]%in_lottery_ok; [exists (n_lottery x); by destruct x|].
  apply downshift_ok in H as (-> & _). eauto.
Qed.
(** A change made through [val_update] *)
Lemma val_update_out a f s : rel aside (f (default n_zero (st_val s !! a))) ->
  let s' := fst (val_update a f s) in
  st_height s' = st_height s /\
  (st_val s' = st_val s \/
   exists x s1 y, st_val s !! a = Some x /\ f x s = (s1, Ok (Some y)) /\ st_val s' = <[ a := y ]> (st_val s)).
Proof.
  intros HA. unfold val_update, val_get, bind. destruct (st_val s !! a) as [x|] eqn:E; cbn [default] in *; [|cbn; auto].
  assert (HA' : rel aside (f x)) by exact HA. destruct (HA' s) as [HV HH]. destruct (f x s) as [s1 [[y|]|e|e]] eqn:E1.
  all: cbn in *; auto. split; [done|]. right. exists x, s1, y. by rewrite HV.
Qed.
Lemma quiet_update g K a f : (forall x, rel aside (f x)) ->
  (forall x s s1 y, st_val s !! a = Some x -> f x s = (s1, Ok (Some y)) -> qsteps g (K a) (st_height s) (Some x) (Some y)) ->
  rel (quiet g K) (val_update a f).
Proof.
  intros HA HF s. destruct (val_update_out a f s (HA _)) as [HH [HV|(x & s1 & y & E & E1 & HV)]].
  - by apply quiet_fields.
  - eapply quiet_put; [done|exact HV|]. rewrite E. by eapply HF.
Qed.

Lemma read_only {A} (m : M A) : (forall R `{!PreOrder R}, rel R m) -> forall s, fst (m s) = s.
Proof. intros H s. symmetry. apply (H eq _ s). Qed.
Lemma qualified_read a s s' r : is_qualified a s = (s', r) -> s' = s.
Proof.
  intros H. pose proof (read_only (is_qualified a) (fun R P => sw_is_qualified R a) s) as E. by rewrite H in E.
Qed.

Section ops.
  Context (g : bool) (K : addr -> N -> Prop).
  Lemma qt_switch_on a k : K a k -> rel (quiet g K) (switch_on a k).
  Proof.
    intros HK s. unfold switch_on. apply at_get; [apply _|].
    apply at_ensure; [apply _|intros HB]. apply at_ensure; [apply _|intros HS].
    apply at_bind; [apply _|apply sw_validator_by_cons, _|]. intros [[b found] active] s1 H1.
    assert (s1 = s) as ->.
    { pose proof (sw_validator_by_cons eq k s) as E. by rewrite H1 in E. }
    apply at_ensure; [apply _|intros _].
    apply at_bind; [apply _|apply sw_is_qualified, _|]. intros [q d] s1 H2. apply qualified_read in H2 as ->.
    apply at_ensure; [apply _|intros _]. apply at_lift; [apply _|intros d' _]. apply at_get; [apply _|].
    apply at_bind; [apply _| |intros [] s2 _; apply quiet_fields; reflexivity].
    destruct (st_val s !! a) as [x|] eqn:E.
    - destruct (val_update_out a (fun x => ret (Some (fst (update_score (st_ilog s) d' (x <| n_status := true |> <| n_pub := k |>))))) s)
        as [HH [HV|(x' & s1 & y & E' & E1 & HV)]]; [intros ?; by split|by apply quiet_fields|].
      eapply quiet_put; [done|exact HV|]. apply ret_ok in E1 as [-> [= ->]]. rewrite E'. rewrite E in E'. injection E' as <-.
      eapply rtc_l; [|apply score_step]. apply q_on; [done|by destruct (n_banned x)|by destruct (n_status x)].
    - eapply quiet_put; [reflexivity..|]. rewrite E. apply rtc_once. unfold new_ninfo, update_score.
      destruct (_ =? _); cbn; [|by apply q_new_on].
      replace (n_zero <| n_status := true |> <| n_pub := k |>) with (n_zero <| n_status := true |> <| n_pub := k |> <| n_score := 0 |>) by done.
      by apply q_new_on.
  Qed.
  Lemma qt_switch_off a : rel (quiet g K) (switch_off a).
  Proof.
    apply quiet_update.
    - intros x. destruct (negb _); [apply rel_ret, _|]. apply rel_bind; [apply _|apply aside_in_lottery; intros; frame|intros; apply rel_ret, _].
    - intros x s s1 y E H. destruct (negb (n_status x)); [by apply ret_ok in H as [_ ?]|].
      apply bind_ok in H as (y' & s2 & H & [-> [= ->]]%ret_ok). apply in_lottery_exclude in H as ->.
      eapply rtc_l; [apply q_off|]. apply rtc_once, q_lottery.
  Qed.
  Lemma qt_on_status_update a : rel (quiet g K) (on_status_update a).
  Proof.
    intros s. unfold on_status_update. apply at_get; [apply _|]. destruct (negb _); [cbn; reflexivity|].
    apply at_bind; [apply _|apply sw_is_qualified, _|]. intros [[] d] s1 H; [cbn; reflexivity|]. apply qt_switch_off.
  Qed.
  Lemma qt_on_stake_changed a : rel (quiet g K) (on_stake_changed a).
  Proof.
    intros s. unfold on_stake_changed. apply at_get; [apply _|]. destruct (st_val s !! a) as [x|] eqn:E; [|cbn; reflexivity].
    apply at_bind; [apply _|apply sw_is_qualified, _|]. intros [q d] s1 H. apply qualified_read in H as ->.
    apply at_lift; [apply _|intros d' _]. apply at_get; [apply _|].
    pose proof (score_step g (K a) (st_height s) (st_ilog s) d' x) as HS.
    destruct (update_score (st_ilog s) d' x) as [y ch]. cbn [fst] in HS.
    destruct (n_active x && negb q).
    - apply at_bind; [apply _| |intros; cbn; reflexivity].
      pose proof (aside_in_lottery lottery_exclude (y <| n_status := false |>) ltac:(intros; frame) s) as [HV HH]. by apply quiet_fields.
    - destruct ch; [|cbn; reflexivity]. unfold val_set, modify. cbn [fst]. eapply quiet_put; [reflexivity..|]. by rewrite E.
  Qed.
  Lemma qt_unjail a : rel (quiet g K) (unjail a).
  Proof.
    intros s. unfold unjail, val_get, bind at 1. destruct (st_val s !! a) as [x|] eqn:E; [|cbn; reflexivity].
    apply at_ensure; [apply _|intros HJ]. apply at_get; [apply _|]. apply at_ensure; [apply _|intros HT].
    apply at_bind; [apply _|apply sw_is_qualified, _|]. intros [q d] s1 H. apply qualified_read in H as ->.
    assert (HQ : qsteps g (K a) (st_height s) (st_val s !! a) (Some (x <| n_jailed := false |>))).
    { rewrite E. apply rtc_once, q_unjail; [done|lia]. }
    destruct q.
    - apply at_lift; [apply _|intros d' _]. apply at_get; [apply _|]. unfold val_set, modify. cbn [fst].
      eapply quiet_put; [reflexivity..|]. eapply rtc_transitive; [exact HQ|]. apply score_step.
    - unfold val_set, modify. cbn [fst]. eapply quiet_put; [reflexivity..|]. eapply rtc_r; [exact HQ|]. apply q_off.
  Qed.
  Lemma qt_add_to_staff a : rel (quiet g K) (add_to_staff a).
  Proof.
    intros s. unfold add_to_staff. apply at_get; [apply _|]. destruct (st_val s !! a) as [x|] eqn:E.
    - apply quiet_update; [intros; apply rel_ret, _|]. intros x' s0 s1 y _ H. apply ret_ok in H as [_ H].
      destruct (n_staff x'); [done|]. injection H as ->. apply rtc_once, q_staff.
    - unfold val_set, modify. cbn [fst]. eapply quiet_put; [reflexivity..|]. rewrite E. apply rtc_once, q_new_staff.
  Qed.
  Lemma qt_remove_from_staff a : rel (quiet g K) (remove_from_staff a).
  Proof.
    intros s. unfold remove_from_staff. apply at_get; [apply _|]. destruct (st_val s !! a) as [x|] eqn:E; [|cbn; reflexivity].
    destruct (negb _); [cbn; reflexivity|]. apply at_bind; [apply _| |].
    - unfold val_set, modify. cbn [fst]. eapply quiet_put; [reflexivity..|]. rewrite E. apply rtc_once, q_staff.
    - intros [] s1 _. destruct (n_active x); [|cbn; reflexivity].
      apply at_bind; [apply _|apply qt_on_status_update|]. intros [] s2 _. apply qt_on_stake_changed.
  Qed.
  Lemma qt_general_amnesty : rel (quiet g K) general_amnesty.
  Proof.
    intros s. split; [done|]. intros z. cbn. rewrite lookup_fmap. destruct (st_val s !! z) as [x|]; [|apply rtc_refl]. cbn.
    unfold amnesty_one. destruct (_ && _); [apply rtc_refl|]. eapply rtc_l; [apply (q_score _ _ _ _ (n_score x + n_strokes x))|].
    apply rtc_once, (q_amnesty _ _ _ (x <| n_score := n_score x + n_strokes x |>)).
  Qed.
  Lemma qt_proposed a : rel (quiet g K) (proposed a).
  Proof.
    intros s. unfold proposed. apply at_bind; [apply _|by apply quiet_fields|]. intros [] s1 _. apply quiet_update.
    - intros x. apply rel_bind; [apply _|apply aside_in_lottery; intros; frame|intros; apply rel_ret, _].
    - intros x s0 s2 y E H. apply bind_ok in H as (y' & s3 & H & [-> [= ->]]%ret_ok).
      apply in_lottery_downshift in H as [n ->]. eapply rtc_l; [apply q_proposed|]. apply rtc_once, q_lottery.
  Qed.
End ops.
