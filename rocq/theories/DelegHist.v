(** * Delegation over whole histories *)
From Verif Require Export DelegProofs.
Open Scope Z_scope.

(** ** An interest payment is made once *)
Lemma at_bind (R : St -> St -> Prop) `{!PreOrder R} {A B} (m : M A) (f : A -> M B) s :
  R s (fst (m s)) -> (forall a s1, m s = (s1, Ok a) -> R s1 (fst (f a s1))) -> R s (fst (bind m f s)).
Proof.
  intros H1 H2. unfold bind. destruct (m s) as [s1 [a|e|e]]; cbn in *; [|done|done].
  transitivity s1; [done|]. by apply H2.
Qed.
Lemma at_get (R : St -> St -> Prop) `{!PreOrder R} {A B} (g : St -> A) (f : A -> M B) s :
  R s (fst (f (g s) s)) -> R s (fst (bind (get g) f s)).
Proof. done. Qed.
Lemma at_lift (R : St -> St -> Prop) `{!PreOrder R} {A B} e (o : option A) (f : A -> M B) s :
  (forall a, o = Some a -> R s (fst (f a s))) -> R s (fst (bind (lift e o) f s)).
Proof. intros H. unfold bind, lift. destruct o; [by apply H|reflexivity]. Qed.
Lemma at_ensure (R : St -> St -> Prop) `{!PreOrder R} {B} b e (f : unit -> M B) s :
  (b = true -> R s (fst (f tt s))) -> R s (fst (bind (ensure b e) f s)).
Proof. intros H. unfold bind, ensure. destruct b; [by apply H|reflexivity]. Qed.
Lemma at_assert (R : St -> St -> Prop) `{!PreOrder R} {B} b e (f : unit -> M B) s :
  (b = true -> R s (fst (f tt s))) -> R s (fst (bind (assert b e) f s)).
Proof. intros H. unfold bind, assert. destruct b; [by apply H|reflexivity]. Qed.

Section once.
  Context (z : addr) (t0 : time).
  (** The account's next interest is due after [t0]. *)
  Definition passed (s : St) : Prop := 0 < st_day s /\ t0 <= st_now s /\ forall t, next_accrual s z = Some t -> t0 < t.
  Lemma passed_fields s s' : st_del s' = st_del s -> st_now s' = st_now s -> st_day s' = st_day s -> keeps passed s s'.
  Proof. intros H1 H2 H3 (P1 & P2 & P3). unfold passed, next_accrual. rewrite H1, H2, H3. done. Qed.
  Lemma passed_put s a r : (forall t, d_next r = Some t -> passed s -> a = z -> t0 < t) ->
    keeps passed s (s <| st_del := <[ a := r ]> (st_del s) |>).
  Proof.
    intros H HP. destruct HP as (P1 & P2 & P3). split; [done|]. split; [done|]. intros t. unfold next_accrual. cbn.
    destruct (decide (a = z)) as [E|Hz]; [subst a; rewrite lookup_insert|rewrite lookup_insert_ne by done; apply P3].
    intros Ht. apply H; [done|split; [done|split; done]|done].
  Qed.
  Hint Extern 1 (keeps passed _ _) => (apply passed_fields; reflexivity) : frame.
  Ltac fr_ :=
    lazymatch goal with
    | |- rel _ _ => solve [auto 8 with frame | unfold schedule_task, delete_task; auto 8 with frame]
    | |- ?R ?s (fst (?m ?s)) => let H := fresh in assert (H : rel R m) by fr_; exact (H s)
    end.
  Lemma passed_revoke a n e : rel (keeps passed) (revoke a n e).
  Proof.
    intros s. unfold revoke, fr. destruct (n =? 0); [cbn; reflexivity|].
    apply at_get; [apply _|]. cbn [id]. apply at_ensure; [apply _|intros _].
    apply at_bind; [apply _|fr_|]. intros item s1 H1. kept st_now H1. kept st_day H1. rename K into N1, K0 into D1.
    apply at_get; [apply _|]. apply at_lift; [apply _|intros ni _]. apply at_lift; [apply _|intros burnt _].
    apply at_bind; [apply _|fr_|]. intros [] s2 H2. kept st_now H2. kept st_day H2. rename K into N2, K0 into D2.
    apply at_get; [apply _|]. apply at_lift; [apply _|intros l _].
    apply at_bind; [apply _| |].
    { destruct (l <=? bp_dust (st_bp s2)); [cbn; reflexivity|]. apply at_bind; [apply _|fr_|]. intros; cbn; reflexivity. }
    intros item' s3 H3. unfold one_day in *.
    assert (HI : d_next item' = None \/ d_next item' = Some (st_now s + st_day s)).
    { destruct (l <=? bp_dust (st_bp s2)); [apply ret_ok in H3 as [_ ->]; by left|].
      apply bind_ok in H3 as ([] & s4 & _ & [_ ->]%ret_ok). by right. }
    assert (HT : st_now s3 = st_now s2 /\ st_day s3 = st_day s2).
    { destruct (l <=? bp_dust (st_bp s2)); [by apply ret_ok in H3 as [-> _]|].
      apply bind_ok in H3 as ([] & s4 & H4 & [-> _]%ret_ok). apply schedule_task_ok in H4 as [_ ->]. done. }
    destruct HT as [N3 D3]. clear H3.
    apply at_bind; [apply _| |intros [] s4 _; fr_].
    unfold del_set, modify. cbn [fst]. apply passed_put. cbn. intros t Ht (P1 & P2 & _) _.
    destruct HI as [HI|HI]; rewrite HI in Ht; [done|]. injection Ht as <-. rewrite <- N1, <- N2, <- N3, <- D1, <- D2, <- D3. lia.
  Qed.
  Lemma passed_delegate a n : rel (keeps passed) (delegate a n).
  Proof.
    intros s. unfold delegate. apply at_get; [apply _|]. apply at_ensure; [apply _|intros _].
    apply at_bind; [apply _|unfold new_coins, bind, assert; destruct (0 <=? n); reflexivity|]. intros c s0 H0. apply new_coins_ok in H0 as (-> & _ & _).
    apply at_bind; [apply _|fr_|]. intros fee s1 H1.
    apply at_get; [apply _|]. cbn [id]. unfold one_day.
    apply at_bind; [apply _|fr_|]. intros item s2 H2. kept st_now H2. kept st_day H2. rename K into N2, K0 into D2.
    apply at_bind; [apply _|fr_|]. intros [] s3 H3. kept st_now H3. kept st_day H3. rename K into N3, K0 into D3.
    apply at_get; [apply _|]. apply at_lift; [apply _|intros b _]. apply at_get; [apply _|].
    apply at_bind; [apply _| |].
    { destruct (b <=? bp_dust (st_bp s3)); [cbn; reflexivity|]. apply at_bind; [apply _|fr_|]. intros; cbn; reflexivity. }
    intros item' s4 H4.
    assert (HI : d_next item' = None \/ d_next item' = Some (st_now s1 + st_day s1)).
    { destruct (b <=? bp_dust (st_bp s3)); [apply ret_ok in H4 as [_ ->]; by left|].
      apply bind_ok in H4 as ([] & s5 & _ & [_ ->]%ret_ok). by right. }
    assert (HT : st_now s4 = st_now s3 /\ st_day s4 = st_day s3).
    { destruct (b <=? bp_dust (st_bp s3)); [by apply ret_ok in H4 as [-> _]|].
      apply bind_ok in H4 as ([] & s5 & H5 & [-> _]%ret_ok). apply schedule_task_ok in H5 as [_ ->]. done. }
    destruct HT as [N4 D4]. clear H4. apply at_lift; [apply _|intros _ _].
    unfold del_set, modify. cbn [fst]. apply passed_put. intros t Ht (P1 & P2 & _) _.
    destruct HI as [HI|HI]; rewrite HI in Ht; [done|]. injection Ht as <-. rewrite <- N2, <- N3, <- N4, <- D2, <- D3, <- D4. lia.
  Qed.
  Lemma passed_revoking a : rel (keeps passed) (perform_revoking a).
  Proof.
    intros s. unfold perform_revoking. apply at_get; [apply _|]. destruct (st_del s !! a) as [item|] eqn:E; [|cbn; reflexivity].
    apply at_get; [apply _|]. destruct (take_due _ _) as [due rest].
    apply at_bind; [apply _| |].
    { apply rel_must, rel_mfor; [apply _|intros; fr_]. }
    intros [] s1 H1. apply (proj1 (must_ok _ _ _ _)) in H1.
    assert (K : st_del s1 = st_del s).
    { eapply (run_same st_del); [|exact H1]. apply rel_mfor; [apply _|intros; frame]. }
    destruct due; [cbn; reflexivity|]. unfold del_set, modify. cbn [fst]. apply passed_put.
    cbn. intros t Ht (_ & _ & P3) ->. apply P3. unfold next_accrual. by rewrite K, E.
  Qed.
  Lemma passed_accrue a t : rel (keeps passed) (perform_accrue a t).
  Proof.
    intros s. unfold perform_accrue, fr. apply at_get; [apply _|]. apply at_lift; [apply _|]. intros next HN.
    rewrite del_get_next in HN. apply at_assert; [apply _|]. intros HE. assert (next = t) as -> by lia. clear HE.
    apply at_get; [apply _|]. apply at_bind; [apply _|fr_|]. intros [[[pr v] vpn] st] s1 H1. kept st_del H1. kept st_day H1. rename K into D1, K0 into Y1.
    apply at_get; [apply _|]. apply at_lift; [apply _|]. intros pc _.
    apply at_bind; [apply _| |].
    { destruct (Frac.is_zero pc); [cbn; reflexivity|]. apply at_lift; [apply _|intros d _]. apply at_lift; [apply _|intros i _].
      apply at_bind; [apply _| |].
      { destruct (d_missed (del_get a s)); [|cbn; reflexivity]. do 2 (apply at_lift; [apply _|intros ? _]). cbn. reflexivity. }
      intros [i' tv] s2 _. apply at_bind; [apply _|fr_|intros [] s3 _]. apply at_bind; [apply _|fr_|intros [] s4 _].
      apply at_get; [apply _|]. apply at_bind; [apply _|fr_|intros [] s5 _]. cbn. reflexivity. }
    intros item' s2 H2. unfold del_set, modify. cbn [fst]. apply passed_put. intros t' Ht (P1 & P2 & P3) ->.
    destruct (Frac.is_zero pc). { apply ret_ok in H2 as [_ ->]. done. }
    apply bind_ok in H2 as (d & s3 & H3 & H2). apply lift_ok in H3 as [-> _].
    apply bind_ok in H2 as (i & s3 & H3 & H2). apply lift_ok in H3 as [-> _].
    apply bind_ok in H2 as ([i' tv] & s3 & H3 & H2).
    assert (s3 = s1) as ->. { clear H2. destruct (d_missed (del_get z s)); [|by apply ret_ok in H3 as [-> _]].
      apply bind_ok in H3 as (? & ? & [-> _]%lift_ok & H3). apply bind_ok in H3 as (? & ? & [-> _]%lift_ok & [-> _]%ret_ok). done. }
    apply bind_ok in H2 as ([] & s3 & H4 & H2). apply bind_ok in H2 as ([] & s4 & H5 & H2).
    apply bind_ok in H2 as (day & s5 & H6 & H2). apply get_ok in H6 as [-> ->].
    apply bind_ok in H2 as ([] & s5 & H6 & H2). apply ret_ok in H2 as [-> ->].
    apply schedule_task_ok in H6 as [_ ->]. cbn in Ht, P1, P3. injection Ht as <-.
    kept st_del H4. kept st_del H5. 
    assert (HN' : next_accrual s4 z = Some t) by (unfold next_accrual in *; by rewrite K0, K, D1).
    unfold next_accrual in P3, HN'. cbn in P3. specialize (P3 _ HN'). unfold one_day. cbn in P1. lia.
  Qed.
  Lemma passed_hook h f a t : hooks h = Some f -> rel (keeps passed) (f a t).
  Proof.
    intros H. destruct h; cbn in H; try discriminate; injection H as <-; 
      first [apply passed_revoking|apply passed_accrue|fr_|idtac].
    unfold perform_banish, banish. apply rel_must, rel_bind; [apply _|fr_|intros _]. unfold on_banished.
    apply rel_bind; [apply _|apply rel_get; apply _|intros d]. destruct (d =? 0); [apply rel_ret; apply _|apply passed_revoke].
  Qed.
  Lemma passed_msg m : rel (keeps passed) (run_msg m).
  Proof.
    destruct m; cbn [run_msg]; try (solve [fr_]).
    - unfold msg_delegate. apply rel_bind; [apply _|apply rel_ensure; apply _|intros _]. apply passed_delegate.
    - unfold msg_revoke. apply rel_bind; [apply _|apply rel_ensure; apply _|intros _]. apply passed_revoke.
    - apply rel_bind; [apply _|apply rel_ensure; apply _|intros _]. fr_.
  Qed.
  Lemma passed_blocks bs s s' us : times_from (st_now s) bs -> run_blocks bs s = Some (s', us) -> passed s -> passed s'.
  Proof.
    intros HT H. change (keeps passed s s'). eapply (bl_blocks (keeps passed) (fun _ => True)); try exact H; try done.
    - intros b s0 Hb (P1 & P2 & P3). split; [done|]. split; [cbn; lia|done].
    - intros p v e. apply okrel_rel. fr_.
    - intros t s0. apply task_rel; [apply _|intros; apply passed_fields; reflexivity|]. intros f Hf. by eapply passed_hook.
    - intros ks s0. by apply passed_fields.
    - intros t s0 _. apply tx_rel; [apply _|apply okrel_rel; fr_|]. intros m _. apply okrel_rel, passed_msg.
    - apply okrel_rel. fr_.
    - apply Forall_forall. intros b _. apply Forall_forall. done.
  Qed.
End once.

(** ** Revoked coins and pending requests *)

(** The collector of transaction fees holds main coins only. *)
Definition collector_plain (s : St) : Prop := forall d, d <> uartr -> bal s fee_collector d = 0.
(** Only main coins move, and the requests stay. *)
Definition only_main (s s' : St) : Prop :=
  collector_plain s -> (forall x d, d <> uartr -> bal s' x d = bal s x d) /\ (forall x, requests s' x = requests s x).
#[export] Instance only_main_preorder : PreOrder only_main.
Proof.
  split; [intros s _; done|]. intros x y z H1 H2 HC. destruct (H1 HC) as [A1 A2].
  destruct H2 as [B1 B2]; [intros d Hd; rewrite A1 by done; by apply HC|].
  split; [intros a d Hd; by rewrite B1, A1|intros a; by rewrite B2, A2].
Qed.
Lemma only_main_fields s s' : st_bal s' = st_bal s -> st_del s' = st_del s -> only_main s s'.
Proof.
  intros H1 H2 _. unfold bal, requests. rewrite (balance_same _ _ H1), H2. done.
Qed.
#[export] Hint Extern 1 (only_main _ _) => (apply only_main_fields; reflexivity) : frame.
Lemma only_main_put s a c : (forall d, d <> uartr -> amt c d = bal s a d) -> only_main s (upd_bal s a c).
Proof.
  intros H _. split; [|done]. intros x d Hd. unfold bal. rewrite upd_bal_balance. destruct (x =? a)%N eqn:E; [|done].
  assert (x = a) as -> by lia. by apply H.
Qed.
Lemma om_hook a s : only_main s (fst (on_balance_changed a s)).
Proof. assert (H : rel only_main (on_balance_changed a)) by frame. apply H. Qed.
Lemma om_set_balance a c s : (forall d, d <> uartr -> amt c d = bal s a d) -> only_main s (fst (set_balance a c s)).
Proof.
  intros H. destruct (set_balance_cases a c s) as [(_ & E & _)|(_ & HC)]; [rewrite E; reflexivity|]. cbn zeta in HC.
  pose proof (only_main_put s a c H) as H1. pose proof (om_hook a (upd_bal s a c)) as H2.
  destruct HC as [[E _]|[[e E]|[e E]]]; rewrite E; cbn [fst].
  - by transitivity (upd_bal s a c).
  - transitivity (upd_bal s a c); [done|]. etransitivity; [exact H2|]. by apply only_main_fields.
  - by transitivity (upd_bal s a c).
Qed.
Lemma main_amt c d : main_only c -> d <> uartr -> amt c d = 0.
Proof. intros H Hd. unfold amt. destruct (c !! d) eqn:E; [|done]. by apply H in E. Qed.
Lemma om_subtract a c : main_only c -> rel only_main (subtract_coins a c).
Proof.
  intros H s. unfold subtract_coins.
  repeat first [apply at_get; [apply _|] | apply at_ensure; [apply _|intros ?]].
  apply om_set_balance. intros d Hd. rewrite amt_sub, (main_amt c d) by done. unfold bal. lia.
Qed.
Lemma om_add a c : main_only c -> rel only_main (add_coins a c).
Proof.
  intros H s. unfold add_coins.
  repeat first [apply at_get; [apply _|] | apply at_ensure; [apply _|intros ?]].
  apply om_set_balance. intros d Hd. rewrite amt_add, (main_amt c d) by done. unfold bal. lia.
Qed.
Lemma om_send a b c : main_only c -> rel only_main (send_coins a b c).
Proof. intros H. unfold send_coins. apply rel_bind; [apply _|by apply om_subtract|intros []; by apply om_add]. Qed.
Lemma om_io i o : (forall e, e ∈ i ++ o -> main_only (snd e)) -> rel only_main (input_output_coins i o).
Proof.
  intros H. unfold input_output_coins. apply rel_bind; [apply _|apply rel_ensure; apply _|intros _].
  assert (A : forall l (f : addr -> coins -> M unit), (forall e, e ∈ l -> main_only (snd e)) ->
    (forall a c, main_only c -> rel only_main (f a c)) -> rel only_main (mfor l (fun e => f (fst e) (snd e)))).
  { clear. intros l f HL Hf. induction l as [|e l IH]; cbn; [apply rel_ret; apply _|].
    apply rel_bind; [apply _|apply Hf, HL; left|intros _; apply IH; intros; apply HL; by right]. }
  apply rel_bind; [apply _| |intros _]; apply A; auto using om_subtract, om_add; intros e He; apply H, elem_of_app; auto.
Qed.
Lemma om_burn a c : main_only c -> rel only_main (burn_acc_coins a c).
Proof.
  intros H. unfold burn_acc_coins. apply rel_bind; [apply _|by apply om_subtract|intros _]. frame.
Qed.
Lemma om_accrue a n : rel only_main (accrue a n).
Proof.
  unfold accrue. destruct (n =? 0); [apply rel_ret; apply _|]. apply rel_bind; [apply _|apply rel_get; apply _|intros [p|]]; [|apply rel_ret; apply _].
  apply bind_new; [apply _|intros n']. apply rel_bind; [apply _|frame|intros _].
  apply rel_bind; [apply _|frame|intros f].
  apply (rel_bind_post only_main main_only).
  - intros s s' em. destruct (f =? 0); [intros [_ ->]%ret_ok; apply main_of|]. intros H.
    apply bind_ok in H as (c & s1 & H1 & H). apply new_coins_ok in H1 as (-> & _ & ->).
    apply bind_ok in H as ([] & s1 & _ & H). apply bind_ok in H as ([] & s2 & _ & H). apply ret_ok in H as [_ ->].
    apply main_sub; apply main_of.
  - destruct (f =? 0); [apply rel_ret; apply _|]. apply bind_new; [apply _|intros n2].
    apply rel_bind; [apply _|apply rel_assert; apply _|intros _].
    apply rel_bind; [apply _|apply rel_must, om_add, main_of|intros _]. apply rel_ret; apply _.
  - intros em Hem. apply rel_bind; [apply _|by apply rel_must, om_add|intros _].
    apply rel_bind; [apply _|apply rel_lift; apply _|intros _]. apply rel_bind; [apply _|apply rel_lift; apply _|intros _].
    apply rel_ret; apply _.
Qed.
Lemma om_payout n fees : rel only_main (share_payout n fees).
Proof.
  unfold share_payout.
  apply (rel_bind_post only_main (fun outs => forall e, e ∈ outs -> main_only (snd e))).
  - assert (A : forall (fees : list (addr * frac)) (acc : list (addr * Z * coins)) s s' outs, (forall e, e ∈ acc -> main_only (snd e)) ->
      mfold fees acc (fun (acc : list (addr * Z * coins)) (e : addr * frac) => let! x := fr (vfee_amount (snd e) n) in
        if x =? 0 then ret acc else let! c := new_coins uartr x in ret (acc ++ [(fst e, x, c)])) s = (s', Ok outs) ->
      forall e, e ∈ outs -> main_only (snd e)).
    { clear fees. induction fees as [|e fees IH]; intros acc s s' outs HA H; cbn [mfold] in H.
      - apply ret_ok in H as [_ ->]. exact HA.
      - apply bind_ok in H as (acc' & s1 & H1 & H). unfold fr in H1.
        apply bind_ok in H1 as (x & s2 & H2 & H1). apply lift_ok in H2 as [-> _].
        destruct (x =? 0); [apply ret_ok in H1 as [-> ->]; by eapply IH|].
        apply bind_ok in H1 as (c & s2 & H2 & H1). apply new_coins_ok in H2 as (-> & _ & ->). apply ret_ok in H1 as [-> ->].
        eapply IH; [|exact H]. intros y Hy. apply elem_of_app in Hy as [Hy|Hy]; [by apply HA|].
        apply elem_of_list_singleton in Hy as ->. apply main_of. }
    intros s s' outs H. eapply (A fees []); [|exact H]. intros y Hy. by apply elem_of_nil in Hy.
  - apply rel_mfold; [apply _|intros acc e]. unfold fr. apply rel_bind; [apply _|apply rel_lift; apply _|intros x].
    destruct (x =? 0); [apply rel_ret; apply _|]. apply bind_new; [apply _|intros]. apply rel_ret; apply _.
  - intros outs HO. cbv zeta. destruct (_ =? 0); [apply rel_ret; apply _|].
    apply rel_bind; [apply _| |intros _; apply bind_new; [apply _|intros]; frame].
    revert HO. generalize outs. clear. induction outs as [|e outs IH]; intros HO; cbn; [apply rel_ret; apply _|].
    apply rel_bind; [apply _|apply rel_must, om_add, HO; left|intros _; apply IH; intros; apply HO; by right].
Qed.
Lemma om_accrue_to_validator a n : rel only_main (accrue_to_validator a n).
Proof.
  assert (A : forall F, rel only_main (payout_with F a n)).
  { intros F. unfold payout_with. destruct (n =? 0); [apply rel_ret; apply _|].
    apply rel_bind; [apply _|apply rel_get; apply _|intros [p|]]; [|apply rel_ret; apply _].
    apply rel_bind; [apply _|apply rel_get; apply _|intros fees].
    apply rel_bind; [apply _|apply rel_lift; apply _|intros fees']. apply om_payout. }
  exact (A (fun s => vfees_up 20 0 None s (r_referrer (ref_get s a)))).
Qed.
Lemma om_pay_collected a : rel only_main (pay_collected a).
Proof.
  intros s. unfold pay_collected. apply at_get; [apply _|]. destruct (decide (balance s fee_collector = ∅)); [cbn; reflexivity|].
  intros HC. assert (HM : main_only (balance s fee_collector) \/ coins_valid (balance s fee_collector) = false).
  { destruct (coins_valid (balance s fee_collector)) eqn:E; [left|by right]. intros d x Hx.
    destruct (decide (d = uartr)) as [->|Hd]; [done|]. specialize (HC d Hd). unfold bal, amt in HC. rewrite Hx in HC. cbn in HC. subst x.
    rewrite coins_valid_spec in E. apply E in Hx. lia. }
  destruct HM as [HM|HM]; [by apply om_send|].
  unfold send_coins, subtract_coins, bind, ensure, fail, get. rewrite HM. done.
Qed.
#[export] Hint Resolve om_send om_io om_burn om_accrue om_accrue_to_validator om_pay_collected | 0 : frame.

(** Interest leaves requests alone *)
Ltac omr :=
  lazymatch goal with
  | |- rel _ _ => solve [auto 8 with frame | unfold schedule_task, delete_task; auto 8 with frame]
  | |- ?R ?s (fst (?m ?s)) => let H := fresh in assert (H : rel R m) by omr; exact (H s)
  end.
Lemma only_main_del s a r : d_reqs r = requests s a -> only_main s (s <| st_del := <[ a := r ]> (st_del s) |>).
Proof.
  intros H _. split; [done|]. intros x. unfold requests at 1. cbn.
  destruct (decide (x = a)) as [->|Hx]; [by rewrite lookup_insert|by rewrite lookup_insert_ne].
Qed.
Lemma om_perform_accrue a t : rel only_main (perform_accrue a t).
Proof.
  intros s. unfold perform_accrue, fr. apply at_get; [apply _|]. apply at_lift; [apply _|]. intros next HN.
  apply at_assert; [apply _|]. intros HE.
  apply at_get; [apply _|]. apply at_bind; [apply _|omr|]. intros [[[pr v] vpn] st] s1 H1. kept st_del H1.
  apply at_get; [apply _|]. apply at_lift; [apply _|]. intros pc _.
  apply at_bind; [apply _| |].
  { destruct (Frac.is_zero pc); [cbn; reflexivity|]. apply at_lift; [apply _|intros d _]. apply at_lift; [apply _|intros i _].
    apply at_bind; [apply _| |].
    { destruct (d_missed (del_get a s)); [|cbn; reflexivity]. do 2 (apply at_lift; [apply _|intros ? _]). cbn. reflexivity. }
    intros [i' tv] s2 _. apply at_bind; [apply _|omr|intros [] s3 _]. apply at_bind; [apply _|omr|intros [] s4 _].
    apply at_get; [apply _|]. apply at_bind; [apply _|omr|intros [] s5 _]. cbn. reflexivity. }
  intros item' s2 H2. unfold del_set, modify. cbn [fst]. apply only_main_del.
  assert (HR : requests s a = d_reqs (del_get a s)) by (by rewrite del_get_reqs).
  destruct (Frac.is_zero pc). { apply ret_ok in H2 as [-> ->]. cbn. rewrite <- HR. unfold requests. by rewrite K. }
  apply bind_ok in H2 as (d & s3 & H3 & H2). apply lift_ok in H3 as [-> _].
  apply bind_ok in H2 as (i & s3 & H3 & H2). apply lift_ok in H3 as [-> _].
  apply bind_ok in H2 as ([i' tv] & s3 & H3 & H2).
  assert (s3 = s1) as ->. { clear H2. destruct (d_missed (del_get a s)); [|by apply ret_ok in H3 as [-> _]].
    apply bind_ok in H3 as (? & ? & [-> _]%lift_ok & H3). apply bind_ok in H3 as (? & ? & [-> _]%lift_ok & [-> _]%ret_ok). done. }
  apply bind_ok in H2 as ([] & s3 & H4 & H2). apply bind_ok in H2 as ([] & s4 & H5 & H2).
  apply bind_ok in H2 as (day & s5 & H6 & H2). apply get_ok in H6 as [-> ->].
  apply bind_ok in H2 as ([] & s5 & H6 & H2). apply ret_ok in H2 as [-> ->].
  apply schedule_task_ok in H6 as [_ ->]. cbn. kept st_del H4. kept st_del H5.
  rewrite <- HR. unfold requests. cbn. by rewrite K1, K0, K.
Qed.
#[export] Hint Resolve om_perform_accrue | 0 : frame.

(** Every account has as many coins in revocation as it has requested. *)
Definition matched (s : St) : Prop :=
  (collector_plain s /\ requests s fee_collector = []) /\ forall a, bal s a uartrr = requested (requests s a).
Definition keeps_matched (s s' : St) : Prop := (lost s <= lost s')%nat /\ (lost s' = lost s -> matched s -> matched s').
#[export] Instance keeps_matched_preorder : PreOrder keeps_matched.
Proof.
  split; [intros s; split; [lia|done]|]. intros x y z [H1 H2] [K1 K2]. split; [lia|].
  intros HL HM. apply K2; [lia|]. apply H2; [lia|done].
Qed.
Lemma grows_lost s s' : grows s s' -> (lost s <= lost s')%nat.
Proof. intros [l Hl]. unfold lost. rewrite Hl, List.filter_app, app_length. lia. Qed.
Lemma only_main_matched s s' : only_main s s' -> matched s -> matched s'.
Proof.
  intros H [[H1 H0] H2]. destruct (H H1) as [B R]. split.
  { split; [intros d Hd; rewrite B by done; by apply H1|by rewrite R]. }
  intros a. by rewrite B, R.
Qed.
Lemma km_rel {A} (m : M A) : rel grows m -> rel only_main m -> rel keeps_matched m.
Proof.
  intros H1 H2 s. split; [apply grows_lost, H1|]. intros _. by apply only_main_matched.
Qed.
Lemma requested_app l1 l2 : requested (l1 ++ l2) = requested l1 + requested l2.
Proof. induction l1; cbn; lia. Qed.
Lemma requested_split now l : requested (due_reqs now l) + requested (later_reqs now l) = requested l.
Proof. unfold due_reqs, later_reqs. induction l as [|q l IH]; [done|]. cbn. destruct (q_time q <=? now); cbn; lia. Qed.
Lemma matched_delegate a n s s' : a <> fee_collector -> 0 < n -> delegate a n s = (s', Ok tt) -> matched s -> matched s'.
Proof.
  intros Ha Hn H [[M1 M0] M2]. apply delegate_ok in H as (fee & I & _ & _ & _ & _ & _ & _ & B1 & B2 & _ & _ & D & _); [|done].
  split; [split|].
  - intros d Hd. destruct (decide (d = uartrd)) as [->|Hd2]; [|rewrite B2 by done; by apply M1].
    rewrite B1. unfold at_. assert ((fee_collector =? a)%N = false) as -> by lia. rewrite M1 by done. lia.
  - rewrite <- M0. unfold requests. rewrite D. by rewrite lookup_insert_ne.
  - intros x. rewrite B2, M2 by done. unfold requests at 2. rewrite D.
    destruct (decide (x = a)) as [->|Hx]; [rewrite lookup_insert; cbn; by rewrite del_get_reqs|by rewrite lookup_insert_ne].
Qed.
Lemma matched_revoke a n e s s' : a <> fee_collector -> n <> 0 -> revoke a n e s = (s', Ok tt) -> matched s -> matched s'.
Proof.
  intros Ha Hn H [[M1 M0] M2].
  apply revoke_ok in H as (burnt & I & _ & _ & _ & _ & _ & _ & _ & B1 & B2 & B3 & _ & _ & _ & D & _); [|done].
  split; [split|].
  - intros d Hd. destruct (decide (d = uartrd)) as [->|Hd2].
    { rewrite B1. unfold at_. assert ((fee_collector =? a)%N = false) as -> by lia. rewrite M1 by done. lia. }
    destruct (decide (d = uartrr)) as [->|Hd3]; [|rewrite B3 by done; by apply M1].
    rewrite B2. unfold at_. assert ((fee_collector =? a)%N = false) as -> by lia. rewrite M1 by done. lia.
  - rewrite <- M0. unfold requests. rewrite D. by rewrite lookup_insert_ne.
  - intros x. rewrite B2, M2. unfold requests at 2. rewrite D.
    destruct (decide (x = a)) as [->|Hx]; [rewrite lookup_insert|rewrite lookup_insert_ne by done].
    + cbn. rewrite requested_app. cbn. unfold at_. rewrite N.eqb_refl. lia.
    + unfold at_. assert ((x =? a)%N = false) as -> by lia. fold (requests s x). lia.
Qed.
Lemma matched_revoking a s s' : perform_revoking a s = (s', Ok tt) -> matched s -> matched s'.
Proof.
  intros H [[M1 M0] M2]. apply perform_revoking_ok in H as (G & B1 & B2 & B3 & R1 & R2 & _).
  split; [split|].
  - intros d Hd. destruct (decide (d = uartrr)) as [->|Hd3]; [|rewrite B3 by done; by apply M1].
    rewrite B2. unfold at_. destruct (fee_collector =? a)%N eqn:E; [|rewrite M1 by done; lia].
    assert (a = fee_collector) as -> by lia. rewrite M0, M1 by done. done.
  - destruct (decide (a = fee_collector)) as [->|Ha]; [|by rewrite R2].
    rewrite M0 in R1. cbn in R1. symmetry in R1. by apply Permutation_nil in R1.
  - intros x. rewrite B2, M2. unfold at_. destruct (x =? a)%N eqn:E.
    + assert (x = a) as -> by lia. rewrite (requested_perm _ _ R1). pose proof (requested_split (st_now s) (requests s a)). lia.
    + rewrite R2 by lia. lia.
Qed.

Lemma om_log s e : only_main s (s <| st_log := st_log s ++ [e] |>).
Proof. by apply only_main_fields. Qed.
Lemma only_main_other m : match m with MDelegate _ _ | MRevoke _ _ _ => False | _ => True end -> rel only_main (run_msg m).
Proof.
  intros H. destruct m; try done; cbn [run_msg]; auto 8 with frame.
  apply rel_bind; [apply _|apply rel_ensure, _|intros []; auto 8 with frame].
Qed.
Lemma km_msg m : signer m <> fee_collector -> okrel keeps_matched (run_msg m).
Proof.
  intros HS s s' [] H. assert (HG : rel grows (run_msg m)) by auto 8 with frame.
  specialize (HG s) as HGs. rewrite H in HGs. cbn in HGs.
  split; [by apply grows_lost|]. intros _ HM.
  assert (HO : match m with MDelegate _ _ | MRevoke _ _ _ => False | _ => True end -> matched s').
  { intros HO. pose proof (only_main_other m HO s) as HQ. rewrite H in HQ. by apply (only_main_matched s s'). }
  destruct m. 3,4: cbn in HS, H; unfold msg_delegate, msg_revoke in H;
    apply bind_ok in H as ([] & s1 & H1 & H); apply ensure_ok in H1 as [-> H1].
  3: apply (matched_delegate a n s s'); [done|lia|done..].
  3: apply (matched_revoke a n express s s'); [done|lia|done..].
  all: by apply HO.
Qed.

Lemma after_task_alt t s f : hooks (t_hook t) = Some f ->
  (exists s', f (t_data t) (t_time t) s = (s', Ok tt) /\ after_task hooks t s = s') \/
  (after_task hooks t s = fst (f (t_data t) (t_time t) s) <| st_log := st_log (fst (f (t_data t) (t_time t) s)) ++ [LTaskFailed t] |>).
Proof.
  intros H. unfold after_task. rewrite H. destruct (f (t_data t) (t_time t) s) as [s' [[]|e|e]]; cbn; [left; by exists s'|right; done..].
Qed.
Lemma grows_task t s : grows s (after_task hooks t s).
Proof.
  apply task_rel; [apply _|intros s' e; by exists [e]|]. intros f Hf. 
  assert (H : rel grows (f (t_data t) (t_time t))); [|apply H].
  eapply sw_hooks; [..|exact Hf]; auto 8 with frame.
Qed.
Lemma lost_task t s f : hooks (t_hook t) = Some f -> rel grows (f (t_data t) (t_time t)) ->
  (t_hook t = HRevoke \/ t_hook t = HBanish) ->
  lost (fst (f (t_data t) (t_time t) s) <| st_log := st_log (fst (f (t_data t) (t_time t) s)) ++ [LTaskFailed t] |>) <> lost s.
Proof.
  intros Hf HG HT. specialize (HG s). apply grows_lost in HG. revert HG. generalize (fst (f (t_data t) (t_time t) s)). intros s' HG.
  unfold lost at 1. cbn [st_log set]. 
  change (st_log (s' <| st_log := st_log s' ++ [LTaskFailed t] |>)) with (st_log s' ++ [LTaskFailed t]).
  rewrite List.filter_app, app_length. fold (lost s'). cbn [List.filter is_lost].
  destruct HT as [-> | ->]; cbn; lia.
Qed.
Lemma om_banish_core a : rel only_main (banish_core a).
Proof. auto 8 with frame. Qed.
Lemma km_task t s : keeps_matched s (after_task hooks t s).
Proof.
  split; [apply grows_lost, grows_task|]. intros HL HM.
  destruct (hooks (t_hook t)) as [f|] eqn:Hf.
  2:{ unfold after_task. rewrite Hf. by apply (only_main_matched s), HM. }
  assert (HG : rel grows (f (t_data t) (t_time t))) by (eapply sw_hooks; [..|exact Hf]; auto 8 with frame).
  assert (HR : rel only_main (f (t_data t) (t_time t)) -> matched (after_task hooks t s)).
  { intros HR. apply (only_main_matched s); [|done]. apply task_rel; [apply _|intros; apply om_log|].
    intros g Hg. rewrite Hf in Hg. injection Hg as <-. apply HR. }
  destruct (t_hook t) eqn:EH; cbn in Hf; try (injection Hf as <-); try (apply HR; auto 8 with frame; fail); try done.
  - destruct (after_task_alt t s (fun a _ => perform_revoking a)) as [(s' & E1 & E2)|E]; [by rewrite EH|..].
    + rewrite E2. by apply matched_revoking in E1.
    + exfalso. rewrite E in HL. revert HL. apply (lost_task t s (fun a _ => perform_revoking a)); [by rewrite EH|done|by left].
  - destruct (after_task_alt t s (fun a _ => perform_banish a)) as [(s' & E1 & E2)|E]; [by rewrite EH|..].
    + rewrite E2. unfold perform_banish in E1. apply (proj1 (must_ok _ _ _ _)) in E1. unfold banish in E1.
      apply bind_ok in E1 as ([] & s1 & E1 & E3). pose proof (om_banish_core (t_data t) s) as HB. rewrite E1 in HB. cbn in HB.
      apply (only_main_matched s s1 HB) in HM. unfold on_banished in E3. apply bind_ok in E3 as (d & s2 & E4 & E3).
      apply get_ok in E4 as [-> ->]. destruct (own_deleg s1 (t_data t) =? 0) eqn:EZ; [by apply ret_ok in E3 as [-> _]|].
      apply (matched_revoke _ _ _ _ _) in E3; [done| |lia|done].
      intros HC. rewrite HC in EZ. change (own_deleg s1 fee_collector) with (bal s1 fee_collector uartrd) in EZ.
      rewrite (proj1 (proj1 HM)) in EZ by done. done.
    + exfalso. rewrite E in HL. revert HL. apply (lost_task t s (fun a _ => perform_banish a)); [by rewrite EH|done|by right].
Qed.
Lemma km_noding p v e : rel keeps_matched (noding_begin p v e).
Proof. apply km_rel; auto 8 with frame. Qed.
Lemma km_end : rel keeps_matched end_block.
Proof. apply km_rel; auto 8 with frame. Qed.
Definition plain_tx (t : tx) : Prop := main_only (tx_fees t) /\ fee_collector ∉ tx_signers t.
Lemma km_tx t s : plain_tx t -> keeps_matched s (fst (deliver_tx t s)).
Proof.
  intros [HF HS]. apply tx_rel; [apply _| |].
  - apply okrel_rel. apply km_rel; auto 8 with frame.
  - intros m Hm. apply km_msg. intros E. apply HS. unfold tx_signers. right. rewrite <- E. by apply elem_of_list_fmap_1.
Qed.
Lemma km_blocks bs s s' us : times_from (st_now s) bs -> Forall (fun b => Forall plain_tx (b_txs b)) bs ->
  run_blocks bs s = Some (s', us) -> keeps_matched s s'.
Proof.
  apply (bl_blocks keeps_matched plain_tx).
  - intros b x _. split; [done|]. intros _. apply only_main_matched. by apply only_main_fields.
  - intros. apply okrel_rel, km_noding.
  - apply km_task.
  - intros ks x. split; [done|]. intros _. apply only_main_matched. by apply only_main_fields.
  - intros t x. apply km_tx.
  - apply okrel_rel, km_end.
Qed.

(** ** No part of a day is ever skipped *)
Definition unmissed (s : St) : Prop := forall a, d_missed (del_get a s) = None.
Lemma unmissed_fields s s' : st_del s' = st_del s -> keeps unmissed s s'.
Proof. intros H P a. specialize (P a). unfold del_get in *. by rewrite H. Qed.
#[export] Hint Extern 1 (keeps unmissed _ _) => (apply unmissed_fields; reflexivity) : frame.
Lemma unmissed_put s a r : (unmissed s -> d_missed r = None) -> keeps unmissed s (s <| st_del := <[ a := r ]> (st_del s) |>).
Proof.
  intros H P x. unfold del_get. cbn. destruct (decide (x = a)) as [->|Hx]; [rewrite lookup_insert; by apply H|].
  rewrite lookup_insert_ne by done. apply P.
Qed.
Lemma accrue_part_missed a item next s s' item' : accrue_part a item next s = (s', Ok item') ->
  d_missed item = None -> d_missed item' = None.
Proof.
  intros H HM. unfold accrue_part in H. destruct (d_next item) as [t|].
  - apply bind_ok in H as (i1 & s1 & H1 & H). apply ret_ok in H as [-> ->].
    do 4 apply bind_ok in H1 as (? & ? & _ & H1). apply bind_ok in H1 as ([[[? ?] ?] ?] & ? & _ & H1).
    repeat (apply bind_ok in H1 as (? & ? & _ & H1)). apply ret_ok in H1 as [_ ->]. done.
  - apply bind_ok in H as (i1 & s1 & H1 & H). apply ret_ok in H1 as [-> ->]. apply ret_ok in H as [_ ->]. done.
Qed.
Lemma unmissed_revoke a n e : rel (keeps unmissed) (revoke a n e).
Proof.
  intros s. unfold revoke, fr. destruct (n =? 0); [cbn; reflexivity|].
  apply at_get; [apply _|]. cbn [id]. apply at_ensure; [apply _|intros _].
  apply at_bind; [apply _|omr|]. intros item s1 H1. kept st_del H1. pose proof (accrue_part_missed _ _ _ _ _ _ H1) as M1.
  apply at_get; [apply _|]. apply at_lift; [apply _|intros ni _]. apply at_lift; [apply _|intros burnt _].
  apply at_bind; [apply _|omr|]. intros [] s2 H2. kept st_del H2.
  apply at_get; [apply _|]. apply at_lift; [apply _|intros l _].
  apply at_bind; [apply _| |].
  { destruct (l <=? bp_dust (st_bp s2)); [cbn; reflexivity|]. apply at_bind; [apply _|omr|]. intros; cbn; reflexivity. }
  intros item' s3 H3.
  assert (HI : d_missed item' = d_missed item).
  { destruct (l <=? bp_dust (st_bp s2)); [by apply ret_ok in H3 as [_ ->]|].
    by apply bind_ok in H3 as ([] & s4 & _ & [_ ->]%ret_ok). }
  assert (HT : st_del s3 = st_del s2).
  { destruct (l <=? bp_dust (st_bp s2)); [by apply ret_ok in H3 as [-> _]|].
    apply bind_ok in H3 as ([] & s4 & H4 & [-> _]%ret_ok). apply schedule_task_ok in H4 as [_ ->]. done. }
  clear H3. apply at_bind; [apply _| |intros [] s4 _; omr].
  unfold del_set, modify. cbn [fst]. apply unmissed_put. cbn. intros P. rewrite HI. apply M1.
  specialize (P a). unfold del_get in *. by rewrite <- K, <- K0, <- HT.
Qed.
Lemma unmissed_delegate a n : rel (keeps unmissed) (delegate a n).
Proof.
  intros s. unfold delegate. apply at_get; [apply _|]. apply at_ensure; [apply _|intros _].
  apply at_bind; [apply _|unfold new_coins, bind, assert; destruct (0 <=? n); reflexivity|]. intros c s0 H0. apply new_coins_ok in H0 as (-> & _ & _).
  apply at_bind; [apply _|omr|]. intros fee s1 H1.
  apply at_get; [apply _|]. cbn [id]. unfold one_day.
  apply at_bind; [apply _|omr|]. intros item s2 H2. kept st_del H2. pose proof (accrue_part_missed _ _ _ _ _ _ H2) as M1.
  apply at_bind; [apply _|omr|]. intros [] s3 H3. kept st_del H3.
  apply at_get; [apply _|]. apply at_lift; [apply _|intros b _]. apply at_get; [apply _|].
  apply at_bind; [apply _| |].
  { destruct (b <=? bp_dust (st_bp s3)); [cbn; reflexivity|]. apply at_bind; [apply _|omr|]. intros; cbn; reflexivity. }
  intros item' s4 H4.
  assert (HI : d_missed item' = d_missed item).
  { destruct (b <=? bp_dust (st_bp s3)); [by apply ret_ok in H4 as [_ ->]|].
    by apply bind_ok in H4 as ([] & s5 & _ & [_ ->]%ret_ok). }
  assert (HT : st_del s4 = st_del s3).
  { destruct (b <=? bp_dust (st_bp s3)); [by apply ret_ok in H4 as [-> _]|].
    apply bind_ok in H4 as ([] & s5 & H5 & [-> _]%ret_ok). apply schedule_task_ok in H5 as [_ ->]. done. }
  clear H4. apply at_lift; [apply _|intros _ _].
  unfold del_set, modify. cbn [fst]. apply unmissed_put. intros P. rewrite HI. apply M1.
  specialize (P a). unfold del_get in *. by rewrite <- K, <- K0, <- HT.
Qed.
Lemma unmissed_revoking a : rel (keeps unmissed) (perform_revoking a).
Proof.
  intros s. unfold perform_revoking. apply at_get; [apply _|]. destruct (st_del s !! a) as [item|] eqn:E; [|cbn; reflexivity].
  apply at_get; [apply _|]. destruct (take_due _ _) as [due rest].
  apply at_bind; [apply _| |].
  { apply rel_must, rel_mfor; [apply _|intros; omr]. }
  intros [] s1 H1. apply (proj1 (must_ok _ _ _ _)) in H1.
  assert (K : st_del s1 = st_del s).
  { eapply (run_same st_del); [|exact H1]. apply rel_mfor; [apply _|intros; frame]. }
  destruct due; [cbn; reflexivity|]. unfold del_set, modify. cbn [fst]. apply unmissed_put.
  cbn. intros P. specialize (P a). unfold del_get in P. by rewrite K, E in P.
Qed.
Lemma unmissed_accrue a t : rel (keeps unmissed) (perform_accrue a t).
Proof.
  intros s. unfold perform_accrue, fr. apply at_get; [apply _|]. apply at_lift; [apply _|]. intros next HN.
  apply at_assert; [apply _|]. intros _.
  apply at_get; [apply _|]. apply at_bind; [apply _|omr|]. intros [[[pr v] vpn] st] s1 H1. kept st_del H1.
  apply at_get; [apply _|]. apply at_lift; [apply _|]. intros pc _.
  apply at_bind; [apply _| |].
  { destruct (Frac.is_zero pc); [cbn; reflexivity|]. apply at_lift; [apply _|intros d _]. apply at_lift; [apply _|intros i _].
    apply at_bind; [apply _| |].
    { destruct (d_missed (del_get a s)); [|cbn; reflexivity]. do 2 (apply at_lift; [apply _|intros ? _]). cbn. reflexivity. }
    intros [i' tv] s2 _. apply at_bind; [apply _|omr|intros [] s3 _]. apply at_bind; [apply _|omr|intros [] s4 _].
    apply at_get; [apply _|]. apply at_bind; [apply _|omr|intros [] s5 _]. cbn. reflexivity. }
  intros item' s2 H2. unfold del_set, modify. cbn [fst]. apply unmissed_put. intros P.
  destruct (Frac.is_zero pc).
  { apply ret_ok in H2 as [-> ->]. cbn. specialize (P a). unfold del_get in *. by rewrite <- K. }
  do 2 apply bind_ok in H2 as (? & ? & _ & H2). apply bind_ok in H2 as ([? ?] & ? & _ & H2).
  do 4 apply bind_ok in H2 as (? & ? & _ & H2). by apply ret_ok in H2 as [_ ->].
Qed.
Lemma unmissed_hook h f a t : hooks h = Some f -> rel (keeps unmissed) (f a t).
Proof.
  intros H. destruct h; cbn in H; try discriminate; injection H as <-; 
    first [apply unmissed_revoking|apply unmissed_accrue|omr|idtac].
  unfold perform_banish, banish. apply rel_must, rel_bind; [apply _|omr|intros _]. unfold on_banished.
  apply rel_bind; [apply _|apply rel_get; apply _|intros d]. destruct (d =? 0); [apply rel_ret; apply _|apply unmissed_revoke].
Qed.
Lemma unmissed_msg m : rel (keeps unmissed) (run_msg m).
Proof.
  destruct m; cbn [run_msg]; try (solve [omr]).
  - unfold msg_delegate. apply rel_bind; [apply _|apply rel_ensure; apply _|intros _]. apply unmissed_delegate.
  - unfold msg_revoke. apply rel_bind; [apply _|apply rel_ensure; apply _|intros _]. apply unmissed_revoke.
  - apply rel_bind; [apply _|apply rel_ensure; apply _|intros _]. omr.
Qed.
Lemma unmissed_blocks bs s s' us : times_from (st_now s) bs -> run_blocks bs s = Some (s', us) -> unmissed s -> unmissed s'.
Proof.
  intros HT H. change (keeps unmissed s s'). eapply (bl_blocks (keeps unmissed) (fun _ => True)); try exact H; try done.
  - intros b s0 _. by apply unmissed_fields.
  - intros p v e. apply okrel_rel. omr.
  - intros t s0. apply task_rel; [apply _|intros; apply unmissed_fields; reflexivity|]. intros f Hf. by eapply unmissed_hook.
  - intros ks s0. by apply unmissed_fields.
  - intros t s0 _. apply tx_rel; [apply _|apply okrel_rel; omr|]. intros m _. apply okrel_rel, unmissed_msg.
  - apply okrel_rel. omr.
  - apply Forall_forall. intros b _. apply Forall_forall. done.
Qed.

(** ** Confirmations of earners *)
Section earner.
  Context (z : addr) (v0 st0 : option time).
  (** A stored confirmation is the given one or was dropped because it has expired. *)
  Definition stays (s : St) : Prop :=
    (fst (confirmed s z) = v0 \/ fst (confirmed s z) = None /\ counts (st_now s) (st_day s) v0 = false) /\
    (snd (confirmed s z) = st0 \/ snd (confirmed s z) = None /\ counts (st_now s) (st_day s) st0 = false).
  Lemma stays_fields s s' : st_earn s' = st_earn s -> st_now s' = st_now s -> st_day s' = st_day s -> keeps stays s s'.
  Proof. intros H1 H2 H3 P. unfold stays, confirmed. rewrite H1, H2, H3. done. Qed.
  Hint Extern 1 (keeps stays _ _) => (apply stays_fields; reflexivity) : frame.
  Lemma stays_check a : rel (keeps stays) (is_active_earner a).
  Proof.
    intros s [P1 P2]. destruct (active_earner_ok a s) as (e & -> & HO & HA). cbn [fst].
    unfold stays. change (st_now (s <| st_earn := e |>)) with (st_now s). change (st_day (s <| st_earn := e |>)) with (st_day s).
    destruct (decide (a = z)) as [E|Ha].
    - subst a. assert (HC : confirmed (s <| st_earn := e |>) z = default (None, None) (e !! z)) by done.
      rewrite HC, HA. cbn [fst snd].
      split.
      + destruct P1 as [P1|[P1 P1']]; rewrite P1; [destruct (counts _ _ v0); auto|]. cbn. auto.
      + destruct P2 as [P2|[P2 P2']]; rewrite P2; [destruct (counts _ _ st0); auto|]. cbn. auto.
    - assert (HC : confirmed (s <| st_earn := e |>) z = confirmed s z).
      { unfold confirmed. cbn. by rewrite HO. }
      rewrite HC. done.
  Qed.
  Hint Resolve stays_check | 0 : frame.
  Definition leaves_alone (m : msg) : Prop := match m with MSetEarners _ es => z ∉ map fst es | _ => True end.
  Lemma stays_set e : fst e <> z -> rel (keeps stays) (earn_set e).
  Proof.
    destruct e as [a [v st]]. cbn. intros Ha s P. unfold stays in *. cbn [modify fst].
    match goal with |- context [confirmed ?x z] => assert (HC : confirmed x z = confirmed s z) end.
    { unfold confirmed. cbn. destruct v, st; by rewrite ?lookup_insert_ne, ?lookup_delete_ne. }
    rewrite HC. done.
  Qed.
  Lemma stays_msg m : leaves_alone m -> rel (keeps stays) (run_msg m).
  Proof.
    intros H. destruct m; cbn [run_msg leaves_alone] in *; try (solve [omr]).
    - apply rel_bind; [apply _|apply rel_ensure; apply _|intros _]. omr.
    - unfold msg_set_earners. apply rel_bind; [apply _|apply rel_ensure; apply _|intros _].
      induction es as [|e es IH]; cbn; [apply rel_ret, _|]. cbn in H. rewrite not_elem_of_cons in H. destruct H as [H1 H2].
      apply rel_bind; [apply _|apply stays_set; congruence|intros []]. by apply IH.
  Qed.
  Lemma stays_blocks bs s s' us : times_from (st_now s) bs -> 0 <= st_day s ->
    Forall (fun b => Forall (fun t => Forall leaves_alone (tx_msgs t)) (b_txs b)) bs ->
    run_blocks bs s = Some (s', us) -> stays s -> stays s'.
  Proof.
    intros HT HD HF H. change (keeps stays s s'). eapply (bl_blocks (keeps stays) (fun t => Forall leaves_alone (tx_msgs t))); try exact H; try done.
    - intros b s0 Hb [P1 P2].
      assert (HC : forall t, counts (st_now s0) (st_day s0) t = false -> counts (b_time b) (st_day s0) t = false).
      { intros [t|]; [|done]. unfold counts. lia. }
      split; [destruct P1 as [P1|[P1 P1']]|destruct P2 as [P2|[P2 P2']]]; [by left|right; split; [done|by apply HC]|by left|right; split; [done|by apply HC]].
    - intros p v e. apply okrel_rel. omr.
    - intros t s0. apply task_rel; [apply _|intros; apply stays_fields; reflexivity|]. intros f Hf.
      assert (HR : rel (keeps stays) (f (t_data t) (t_time t))); [|apply HR].
      destruct (t_hook t); cbn in Hf; try discriminate; injection Hf as <-; omr.
    - intros ks s0. by apply stays_fields.
    - intros t s0 Hm. apply tx_rel; [apply _|apply okrel_rel; omr|]. intros m Hx. apply okrel_rel, stays_msg.
      rewrite Forall_forall in Hm. by apply Hm.
    - apply okrel_rel. omr.
  Qed.
End earner.

(** ** For the theorems *)
Lemma accrue_next a t s s' : perform_accrue a t s = (s', Ok tt) ->
  next_accrual s a = Some t /\ (next_accrual s' a = None \/ next_accrual s' a = Some (t + st_day s)) /\
  st_day s' = st_day s /\ st_now s' = st_now s.
Proof.
  intros H. kept st_day H. kept st_now H. unfold perform_accrue, fr in H.
  apply bind_ok in H as (item & s1 & H1 & H). apply get_ok in H1 as [-> ->].
  apply bind_ok in H as (next & s1 & H1 & H). apply lift_ok in H1 as [-> HN]. rewrite del_get_next in HN.
  apply bind_ok in H as ([] & s1 & H1 & H). apply assert_ok in H1 as [-> H1].
  assert (next = t) as -> by lia. clear H1. split; [done|]. split; [|done].
  apply bind_ok in H as (d & s1 & H1 & H). apply get_ok in H1 as [-> ->].
  apply bind_ok in H as ([[[pr v] vpn] st] & s1 & H1 & H). kept st_day H1.
  apply bind_ok in H as (pc & s2 & H2 & H). apply get_ok in H2 as [-> ->].
  apply bind_ok in H as (f & s2 & H2 & H). apply lift_ok in H2 as [-> _].
  apply bind_ok in H as (item & s2 & H2 & H). unfold del_set in H. apply modify_ok in H as ->.
  unfold next_accrual at 1 2. cbn. rewrite lookup_insert.
  destruct (Frac.is_zero f). { apply ret_ok in H2 as [_ ->]. by left. } right.
  apply bind_ok in H2 as (? & s3 & H3 & H2). apply lift_ok in H3 as [-> _].
  apply bind_ok in H2 as (? & s3 & H3 & H2). apply lift_ok in H3 as [-> _].
  apply bind_ok in H2 as ([? ?] & s3 & H3 & H2).
  assert (s3 = s1) as ->. { clear H2. destruct (d_missed (del_get a s)); [|by apply ret_ok in H3 as [-> _]].
    apply bind_ok in H3 as (? & ? & [-> _]%lift_ok & H3). apply bind_ok in H3 as (? & ? & [-> _]%lift_ok & [-> _]%ret_ok). done. }
  apply bind_ok in H2 as ([] & s3 & H4 & H2). apply bind_ok in H2 as ([] & s4 & H5 & H2).
  apply bind_ok in H2 as (day & s5 & H6 & H2). apply get_ok in H6 as [-> ->].
  apply bind_ok in H2 as ([] & s5 & H6 & H2). apply ret_ok in H2 as [_ ->].
  kept st_day H4. kept st_day H5. cbn. unfold one_day. by rewrite K3, K2, K1.
Qed.
Lemma stale_accrue a t s : next_accrual s a <> Some t -> exists e, perform_accrue a t s = (s, Panic e).
Proof.
  intros H. rewrite <- del_get_next in H. unfold perform_accrue, bind, get, lift, assert.
  destruct (d_next (del_get a s)) as [n|]; [|by eexists].
  destruct (n =? t) eqn:E; [|eexists; cbn; rewrite E; reflexivity].
  exfalso. apply H. f_equal. lia.
Qed.
Lemma accrue_once a t s s' bs s2 us : perform_accrue a t s = (s', Ok tt) -> t <= st_now s -> 0 < st_day s ->
  times_from (st_now s') bs -> run_blocks bs s' = Some (s2, us) -> exists e, perform_accrue a t s2 = (s2, Panic e).
Proof.
  intros H HT HD HB HR. apply accrue_next in H as (_ & HN & ED & EN).
  apply (passed_blocks a t) in HR as (_ & _ & P); [|done|].
  - apply stale_accrue. intros E. apply P in E. lia.
  - split; [lia|]. split; [lia|]. intros x Hx. destruct HN as [HN|HN]; rewrite HN in Hx; [done|]. injection Hx as <-. lia.
Qed.
Lemma set_earners_ok x es s s' : run_msg (MSetEarners x es) s = (s', Ok tt) -> NoDup (map fst es) ->
  (forall a c, (a, c) ∈ es -> confirmed s' a = c) /\ (forall a, a ∉ map fst es -> confirmed s' a = confirmed s a).
Proof.
  cbn [run_msg]. unfold msg_set_earners. intros H HN. apply bind_ok in H as ([] & s1 & H1 & H). apply ensure_ok in H1 as [-> _].
  revert s H HN. induction es as [|[b [v st]] es IH]; intros s H HN; cbn in H.
  - apply ret_ok in H as [-> _]. split; [intros a c Hc; by apply elem_of_nil in Hc|done].
  - match type of H with mfor _ _ ?x = _ => remember x as s1 eqn:H1 end. cbn in HN. apply NoDup_cons in HN as [HN1 HN2].
    destruct (IH _ H HN2) as [I1 I2].
    assert (C1 : confirmed s1 b = (v, st)).
    { subst s1. unfold confirmed. cbn. destruct v, st; by rewrite ?lookup_insert, ?lookup_delete. }
    assert (C2 : forall a, a <> b -> confirmed s1 a = confirmed s a).
    { intros a Ha. subst s1. unfold confirmed. cbn. destruct v, st; by rewrite ?lookup_insert_ne, ?lookup_delete_ne. }
    split.
    + intros a c Hc. apply elem_of_cons in Hc as [[= -> ->]|Hc]; [|by apply I1]. by rewrite I2.
    + intros a Ha. cbn in Ha. apply not_elem_of_cons in Ha as [Ha1 Ha2]. rewrite I2 by done. by apply C2.
Qed.
Lemma active_later z s s' v0 st0 : stays z v0 st0 s' -> st_day s' = st_day s ->
  exists s2, is_active_earner z s' = (s2, Ok (counts (st_now s') (st_day s) v0, counts (st_now s') (st_day s) st0)).
Proof.
  intros [P1 P2] HD. destruct (active_earner_ok z s') as (e & -> & _). eexists. f_equal. f_equal. rewrite <- HD.
  f_equal.
  - destruct P1 as [->|[-> ->]]; done.
  - destruct P2 as [->|[-> ->]]; done.
Qed.
Lemma day_blocks bs s s' us : times_from (st_now s) bs -> run_blocks bs s = Some (s', us) -> st_day s' = st_day s.
Proof.
  intros HT H. change (same st_day s s'). eapply (bl_blocks (same st_day) (fun _ => True)); try exact H; try done.
  - intros p v e. apply okrel_rel. frame.
  - intros t s0. apply task_rel; [apply _|intros; reflexivity|]. intros f Hf.
    assert (HR : rel (same st_day) (f (t_data t) (t_time t))); [|apply HR]. eapply sw_hooks; [..|exact Hf]; auto 8 with frame.
  - intros t s0 _. apply tx_rel; [apply _|apply okrel_rel; frame|]. intros m _. apply okrel_rel. frame.
  - apply okrel_rel. frame.
  - apply Forall_forall. intros b _. apply Forall_forall. done.
Qed.
