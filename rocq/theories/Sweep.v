(** * What each operation may change

    For any preorder [R] on states: an operation is in [R] as soon as the
    writes it is made of are.  The hypotheses of a section that a lemma does not
    need are not arguments of it, so that each lemma also tells which parts of
    the state the operation may write.  The operations of noding and referral
    that other modules call are hypotheses of the later sections, so that they
    can be treated as a whole. *)
From Verif Require Export MonadProofs App.

(** Coins of the main denomination only *)
Definition main_only (c : coins) : Prop := forall d n, c !! d = Some n -> d = uartr.
Lemma main_empty : main_only ∅.
Proof. intros d n H. by rewrite lookup_empty in H. Qed.
Lemma main_of n : main_only (coins_of uartr n).
Proof.
  intros d x. unfold coins_of. destruct (nz n); [|intros H; by rewrite lookup_empty in H].
  intros H. by apply lookup_singleton_Some in H as [<- _].
Qed.
Lemma main_sub a b : main_only a -> main_only b -> main_only (coins_sub a b).
Proof.
  intros Ha Hb d n. unfold coins_sub. rewrite lookup_merge. unfold diag_None.
  destruct (a !! d) eqn:Ea; [intros _; by eapply Ha|]. destruct (b !! d) eqn:Eb; [intros _; by eapply Hb|done].
Qed.
Lemma main_only_forallb (c : coins) : forallb (fun e => (fst e =? uartr)%N) (map_to_list c) = true -> main_only c.
Proof.
  intros H d n Hd. rewrite forallb_forall in H. apply N.eqb_eq. apply (H (d, n)).
  by apply elem_of_list_In, elem_of_map_to_list.
Qed.
Section binds.
  Context (R : St -> St -> Prop) `{!PreOrder R}.
  Lemma rel_bind_post {A B} (Q : A -> Prop) (m : M A) (f : A -> M B) :
    (forall s s' a, m s = (s', Ok a) -> Q a) -> rel R m -> (forall a, Q a -> rel R (f a)) -> rel R (bind m f).
  Proof.
    intros HQ Hm Hf s. unfold bind. specialize (Hm s). specialize (HQ s). destruct (m s) as [s1 [a|e|e]]; cbn in *; auto.
    transitivity s1; [exact Hm|]. apply Hf. by eapply HQ.
  Qed.
  Lemma bind_new {B} d n (f : coins -> M B) : (forall n, rel R (f (coins_of d n))) -> rel R (bind (new_coins d n) f).
  Proof.
    intros H s. unfold new_coins, bind, assert. destruct (0 <=? n); [exact (H n s)|reflexivity].
  Qed.
  Lemma rel_bind_ensure {B} b e (f : unit -> M B) : (b = true -> rel R (f tt)) -> rel R (bind (ensure b e) f).
  Proof. intros H s. unfold bind, ensure. destruct b; [by apply H|reflexivity]. Qed.
End binds.
Lemma pay_tx_fee_main a c s s' fee : pay_tx_fee a c s = (s', Ok fee) -> main_only fee.
Proof.
  unfold pay_tx_fee. intros E. apply bind_ok in E as (? & ? & _ & E). apply bind_ok in E as (f & ? & E1 & E).
  assert (main_only f).
  { clear E. destruct (decide (c = ∅)); [apply ret_ok in E1 as [_ ->]; apply main_empty|].
    apply bind_ok in E1 as (? & ? & _ & E). unfold new_coins in E. apply bind_ok in E as (? & ? & _ & E).
    apply ret_ok in E as [_ ->]. apply main_of. }
  apply bind_ok in E as (? & ? & _ & E). by apply ret_ok in E as [_ ->].
Qed.
Section reads.
  Context (R : St -> St -> Prop) `{!PreOrder R}.
  Lemma sw_check_key t : rel R (check_key t).
  Proof. unfold check_key. rel_auto. Qed.
  Lemma sw_val_get a : rel R (val_get a).
  Proof. intros s. unfold val_get. destruct (st_val s !! a); apply reflexivity. Qed.
  Lemma sw_validator_by_cons c : rel R (validator_by_cons c).
  Proof. unfold validator_by_cons. repeat first [progress rel_struct|apply sw_val_get]. Qed.
  Lemma sw_delegated_in_network a n : rel R (delegated_in_network a n).
  Proof. unfold delegated_in_network. repeat first [progress rel_struct|apply sw_val_get]. Qed.
  Lemma sw_is_qualified a : rel R (is_qualified a).
  Proof. unfold is_qualified. repeat first [progress rel_struct|apply sw_val_get|apply sw_delegated_in_network]. Qed.
End reads.
#[export] Hint Resolve sw_check_key sw_val_get sw_validator_by_cons sw_delegated_in_network sw_is_qualified : rel.

Section noding.
  Context (R : St -> St -> Prop) `{!PreOrder R}.
  Hypothesis W_val : forall s x, R s (s <| st_val := x |>).
  Hypothesis W_oper : forall s x, R s (s <| st_oper := x |>).
  Hypothesis W_proposers : forall s x, R s (s <| st_proposers := x |>).
  Hypothesis W_lottery : forall s x, R s (s <| st_lottery := x |>).
  Hypothesis W_np : forall s x, R s (s <| st_np := x |>).
  Local Hint Resolve W_val W_oper W_proposers W_lottery W_np : rel.
  Ltac write :=
    lazymatch goal with
    | |- rel _ (modify _) => apply rel_modify; intros ?; cbv beta; write
    | |- R _ (match ?x with _ => _ end) => destruct x; write
    | |- R ?s ?s => reflexivity
    | |- R _ _ => first [ solve [auto 2 with rel] | etransitivity; [|solve [auto 2 with rel]]; write ]
    end.
  Lemma sw_val_set a x : rel R (val_set a x).
  Proof. unfold val_set. write. Qed.
  Local Hint Resolve sw_val_set : rel.
  Lemma sw_val_update a f : (forall x, rel R (f x)) -> rel R (val_update a f).
  Proof. intros Hf. unfold val_update. rel_auto. Qed.
  Ltac step :=
    first [ progress rel_struct
          | lazymatch goal with
            | |- rel _ (if_in_lottery _ _) => unfold if_in_lottery
            | |- rel _ (new_coins _ _) => unfold new_coins
            | |- rel _ (try_all _) => unfold try_all
            | |- rel _ (fr _) => unfold fr
            | |- rel _ (logged _) => unfold logged
            end
          | write
          | solve [auto 3 with rel] ].
  Ltac go := repeat step.
  Ltac step' := first [ step | apply sw_val_update; intros ? ].
  Ltac go ::= repeat step'.

  Lemma sw_lottery_exclude x : rel R (lottery_exclude x).
  Proof. unfold lottery_exclude. go. Qed.
  Local Hint Resolve sw_lottery_exclude : rel.
  Lemma sw_lottery_add_new a x : rel R (lottery_add_new a x).
  Proof. unfold lottery_add_new. go. Qed.
  Local Hint Resolve sw_lottery_add_new : rel.
  Lemma sw_lottery_downshift a x : rel R (lottery_downshift a x).
  Proof. unfold lottery_downshift. go. Qed.
  Local Hint Resolve sw_lottery_downshift : rel.
  Lemma sw_switch_on a k : rel R (switch_on a k).
  Proof. unfold switch_on. go. Qed.
  Local Hint Resolve sw_switch_on : rel.
  Lemma sw_switch_off a : rel R (switch_off a).
  Proof. unfold switch_off. go. Qed.
  Local Hint Resolve sw_switch_off : rel.
  Lemma sw_on_status_update a : rel R (on_status_update a).
  Proof. unfold on_status_update. go. Qed.
  Local Hint Resolve sw_on_status_update : rel.
  Lemma sw_on_stake_changed a : rel R (on_stake_changed a).
  Proof. unfold on_stake_changed. go. Qed.
  Local Hint Resolve sw_on_stake_changed : rel.
  Lemma sw_unjail a : rel R (unjail a).
  Proof. unfold unjail. go. Qed.
  Local Hint Resolve sw_unjail : rel.
  Lemma sw_mark_stroke a : rel R (mark_stroke a).
  Proof. unfold mark_stroke. go. Qed.
  Local Hint Resolve sw_mark_stroke : rel.
  Lemma sw_mark_tick a : rel R (mark_tick a).
  Proof. unfold mark_tick. go. Qed.
  Local Hint Resolve sw_mark_tick : rel.
  Lemma sw_mark_byzantine a e : rel R (mark_byzantine a e).
  Proof. unfold mark_byzantine. go. Qed.
  Local Hint Resolve sw_mark_byzantine : rel.
  Lemma sw_add_to_staff a : rel R (add_to_staff a).
  Proof. unfold add_to_staff. go. Qed.
  Local Hint Resolve sw_add_to_staff : rel.
  Lemma sw_remove_from_staff a : rel R (remove_from_staff a).
  Proof. unfold remove_from_staff. go. Qed.
  Local Hint Resolve sw_remove_from_staff : rel.
  Lemma sw_general_amnesty : rel R general_amnesty.
  Proof. unfold general_amnesty. go. Qed.
  Local Hint Resolve sw_general_amnesty : rel.
  Lemma sw_gather_scan acc e : rel R (gather_scan acc e).
  Proof. unfold gather_scan. go. Qed.
  Local Hint Resolve sw_gather_scan : rel.
  Lemma sw_gather_top p acc e : rel R (gather_top p acc e).
  Proof. unfold gather_top. go. Qed.
  Local Hint Resolve sw_gather_top : rel.
  Lemma sw_gather_rest p n acc e : rel R (gather_rest p n acc e).
  Proof. unfold gather_rest. go. Qed.
  Local Hint Resolve sw_gather_rest : rel.
  Lemma sw_gather : rel R gather.
  Proof. unfold gather. go. Qed.
  Local Hint Resolve sw_gather : rel.
  Lemma sw_find_validator c : rel R (find_validator c).
  Proof. unfold find_validator. go. Qed.
  Local Hint Resolve sw_find_validator : rel.
  Lemma sw_punish_wrongdoers l : rel R (punish_wrongdoers l).
  Proof. unfold punish_wrongdoers. go. Qed.
  Local Hint Resolve sw_punish_wrongdoers : rel.
  Lemma sw_mark_strokes_and_ticks l : rel R (mark_strokes_and_ticks l).
  Proof. unfold mark_strokes_and_ticks. go. Qed.
  Local Hint Resolve sw_mark_strokes_and_ticks : rel.
  Lemma sw_set_nparams p : rel R (set_nparams p).
  Proof. unfold set_nparams. go. Qed.
  Local Hint Resolve sw_set_nparams : rel.
  Lemma sw_proposed a : rel R (proposed a).
  Proof. unfold proposed. go. Qed.
End noding.

Section referral.
  Context (R : St -> St -> Prop) `{!PreOrder R}.
  Hypothesis W_index : forall s x, R s (s <| st_index := x |>).
  Hypothesis W_ref : forall s x, R s (s <| st_ref := x |>).
  Hypothesis T_Downgrade : forall t d, rel R (schedule_task t HDowngrade d).
  Hypothesis T_Compression : forall t d, rel R (schedule_task t HCompression d).
  Hypothesis T_Banish : forall t d, rel R (schedule_task t HBanish d).
  Hypothesis D_Banish : forall t d, rel R (delete_task t HBanish d).
  Hypothesis H_on_status_update : forall a, rel R (on_status_update a).
  Hypothesis H_on_stake_changed : forall a, rel R (on_stake_changed a).
  Local Hint Resolve W_index W_ref T_Downgrade T_Compression T_Banish D_Banish H_on_status_update H_on_stake_changed : rel.
  Ltac write :=
    lazymatch goal with
    | |- rel _ (modify _) => apply rel_modify; intros ?; cbv beta; write
    | |- R _ (match ?x with _ => _ end) => destruct x; write
    | |- R ?s ?s => reflexivity
    | |- R _ _ => first [ solve [auto 2 with rel] | etransitivity; [|solve [auto 2 with rel]]; write ]
    end.
  Ltac step :=
    first [ progress rel_struct
          | lazymatch goal with
            | |- rel _ (if_in_lottery _ _) => unfold if_in_lottery
            | |- rel _ (new_coins _ _) => unfold new_coins
            | |- rel _ (try_all _) => unfold try_all
            | |- rel _ (fr _) => unfold fr
            | |- rel _ (logged _) => unfold logged
            end
          | write
          | solve [auto 3 with rel] ].
  Ltac go := repeat step.

  Lemma sw_set_index a x y : rel R (set_index a x y).
  Proof. unfold set_index. go. Qed.
  Local Hint Resolve sw_set_index : rel.
  Lemma sw_status_check b a r : rel R (status_check b a r).
  Proof. unfold status_check. go. Qed.
  Local Hint Resolve sw_status_check : rel.
  Lemma sw_bu_updatem {A} b a check (f : bu -> rinfo -> M (bu * rinfo * A)) :
    (forall b r, rel R (f b r)) -> rel R (bu_updatem b a check f).
  Proof. intros Hf. unfold bu_updatem. go. Qed.
  Lemma sw_bu_update {A} b a check (f : rinfo -> rinfo * A) : rel R (bu_update b a check f).
  Proof. unfold bu_update. apply sw_bu_updatem. intros. go. Qed.
  Local Hint Resolve sw_bu_update : rel.
  Lemma sw_run_callback c : rel R (run_callback c).
  Proof. unfold run_callback. go. Qed.
  Local Hint Resolve sw_run_callback : rel.
  Lemma sw_bu_commit b : rel R (bu_commit b).
  Proof. unfold bu_commit. go. Qed.
  Local Hint Resolve sw_bu_commit : rel.
  Lemma sw_walk check lines b a f : rel R (walk check lines b a f).
  Proof.
    revert b a. induction lines as [|i l IH]; intros b a; cbn; [go|].
    go. apply sw_bu_updatem. intros. go.
  Qed.
  Local Hint Resolve sw_walk : rel.
  Lemma sw_nearest_open fuel b a : rel R (nearest_open fuel b a).
  Proof. revert a. induction fuel as [|n IH]; intros a; cbn; go. Qed.
  Local Hint Resolve sw_nearest_open : rel.
  Lemma sw_walk_up fuel stop a : rel R (walk_up fuel stop a).
  Proof. revert a. induction fuel as [|n IH]; intros a; cbn; go. Qed.
  Local Hint Resolve sw_walk_up : rel.
  Lemma sw_affirm_up l src b o n : rel R (affirm_up l src b o n).
  Proof. revert b o n. induction l as [|x l IH]; intros b o n; cbn; go. Qed.
  Local Hint Resolve sw_affirm_up : rel.
  Ltac step' := first [ step | apply sw_bu_updatem; intros ? ? ].
  Ltac go ::= repeat step'.

  Lemma sw_schedule_compression t a : rel R (schedule_compression t a).
  Proof. unfold schedule_compression. go. Qed.
  Local Hint Resolve sw_schedule_compression : rel.
  Lemma sw_schedule_banishment a r : rel R (schedule_banishment a r).
  Proof. unfold schedule_banishment. go. Qed.
  Local Hint Resolve sw_schedule_banishment : rel.
  Lemma sw_add_top_level a : rel R (add_top_level a).
  Proof. unfold add_top_level. go. Qed.
  Local Hint Resolve sw_add_top_level : rel.
  Lemma sw_append_child_core p c x y : rel R (append_child_core p c x y).
  Proof. unfold append_child_core. go. Qed.
  Local Hint Resolve sw_append_child_core : rel.
  Lemma sw_append_child p c : rel R (append_child p c).
  Proof. unfold append_child. go. Qed.
  Local Hint Resolve sw_append_child : rel.
  Lemma sw_compress a : rel R (compress a).
  Proof. unfold compress. go. Qed.
  Local Hint Resolve sw_compress : rel.
  Lemma sw_revive a b r : rel R (revive a b r).
  Proof. unfold revive. go. Qed.
  Local Hint Resolve sw_revive : rel.
  Lemma sw_on_balance_changed a : rel R (on_balance_changed a).
  Proof. unfold on_balance_changed. go. Qed.
  Local Hint Resolve sw_on_balance_changed : rel.
  Lemma sw_set_active a v c : rel R (set_active a v c).
  Proof. unfold set_active. go. Qed.
  Local Hint Resolve sw_set_active : rel.
  Lemma sw_must_set_active a v : rel R (must_set_active a v).
  Proof. unfold must_set_active. go. Qed.
  Local Hint Resolve sw_must_set_active : rel.
  Lemma sw_validate_transition s p f : rel R (validate_transition s p f).
  Proof. unfold validate_transition. go. Qed.
  Local Hint Resolve sw_validate_transition : rel.
  Lemma sw_cancel_transition a : rel R (cancel_transition a).
  Proof. unfold cancel_transition. go. Qed.
  Local Hint Resolve sw_cancel_transition : rel.
  Lemma sw_affirm_transition a : rel R (affirm_transition a).
  Proof. unfold affirm_transition. go. Qed.
  Local Hint Resolve sw_affirm_transition : rel.
  Lemma sw_banish_core a : rel R (banish_core a).
  Proof. unfold banish_core. go. Qed.
  Local Hint Resolve sw_banish_core : rel.
  Lemma sw_come_back a : rel R (come_back a).
  Proof. unfold come_back. go. Qed.
  Local Hint Resolve sw_come_back : rel.
  Lemma sw_perform_downgrade a : rel R (perform_downgrade a).
  Proof. unfold perform_downgrade. go. Qed.
  Local Hint Resolve sw_perform_downgrade : rel.
  Lemma sw_perform_compression a : rel R (perform_compression a).
  Proof. unfold perform_compression. go. Qed.
  Local Hint Resolve sw_perform_compression : rel.
  Lemma sw_perform_transition_timeout a : rel R (perform_transition_timeout a).
  Proof. unfold perform_transition_timeout. go. Qed.
  Local Hint Resolve sw_perform_transition_timeout : rel.
End referral.

Section pay.
  Context (R : St -> St -> Prop) `{!PreOrder R}.
  Hypothesis W_supply : forall s x, R s (s <| st_supply := x |>).
  Hypothesis W_log : forall s e, R s (s <| st_log := st_log s ++ [e] |>).
  Hypothesis W_bal : forall s a c, coins_valid c = true -> R s (s <| st_bal :=
    if decide (c = ∅) then base.delete a (st_bal s) else <[ a := c ]> (st_bal s) |>).
  Hypothesis H_on_balance_changed : forall a, rel R (on_balance_changed a).
  Local Hint Resolve W_supply W_log H_on_balance_changed : rel.
  Ltac write :=
    lazymatch goal with
    | |- rel _ (modify _) => apply rel_modify; intros ?; cbv beta; write
    | |- R _ (match ?x with _ => _ end) => destruct x; write
    | |- R ?s ?s => reflexivity
    | |- R _ _ => first [ solve [auto 2 with rel] | etransitivity; [|solve [auto 2 with rel]]; write ]
    end.
  Ltac step :=
    first [ progress rel_struct
          | lazymatch goal with
            | |- rel _ (if_in_lottery _ _) => unfold if_in_lottery
            | |- rel _ (new_coins _ _) => unfold new_coins
            | |- rel _ (try_all _) => unfold try_all
            | |- rel _ (fr _) => unfold fr
            | |- rel _ (logged _) => unfold logged
            end
          | write
          | solve [auto 3 with rel] ].
  Ltac go := repeat step.

  (** The one place where balances are written *)
  Lemma sw_set_balance a c : rel R (set_balance a c).
  Proof.
    intros s. unfold set_balance. destruct (coins_valid c) eqn:Hv; [|cbn; apply reflexivity].
    cbn [ensure]. unfold bind at 1. cbn [ret]. unfold bind at 1. cbn [modify].
    match goal with |- R _ (fst (?m ?x)) => transitivity x; [by apply W_bal|]; assert (H : rel R m); [|apply H] end.
    go.
  Qed.
  Hypothesis W_set_balance : forall a c, rel R (set_balance a c).
  Local Hint Resolve W_set_balance : rel.

  Lemma sw_subtract_coins a c : rel R (subtract_coins a c).
  Proof. unfold subtract_coins. go. Qed.
  Local Hint Resolve sw_subtract_coins : rel.
  Lemma sw_add_coins a c : rel R (add_coins a c).
  Proof. unfold add_coins. go. Qed.
  Local Hint Resolve sw_add_coins : rel.
  Lemma sw_send_coins a b c : rel R (send_coins a b c).
  Proof. unfold send_coins. go. Qed.
  Local Hint Resolve sw_send_coins : rel.
  Lemma sw_input_output_coins i o : rel R (input_output_coins i o).
  Proof. unfold input_output_coins. go. Qed.
  Local Hint Resolve sw_input_output_coins : rel.
  Lemma sw_inflate c : rel R (inflate c).
  Proof. unfold inflate. go. Qed.
  Local Hint Resolve sw_inflate : rel.
  Lemma sw_deflate c : rel R (deflate c).
  Proof. unfold deflate. go. Qed.
  Local Hint Resolve sw_deflate : rel.
  Lemma sw_burn_acc_coins a c : rel R (burn_acc_coins a c).
  Proof. unfold burn_acc_coins. go. Qed.
  Local Hint Resolve sw_burn_acc_coins : rel.
  Lemma sw_tx_fee x : rel R (tx_fee x).
  Proof. unfold tx_fee. go. Qed.
  Local Hint Resolve sw_tx_fee : rel.
  Lemma sw_convert a d1 n1 d2 n2 : rel R (convert a d1 n1 d2 n2).
  Proof. unfold convert. go. Qed.
  Local Hint Resolve sw_convert : rel.
  Lemma sw_delegate_coins a n : rel R (delegate_coins a n).
  Proof. unfold delegate_coins. go. Qed.
  Local Hint Resolve sw_delegate_coins : rel.
  Lemma sw_freeze a n m : rel R (freeze a n m).
  Proof. unfold freeze. go. Qed.
  Local Hint Resolve sw_freeze : rel.
  Lemma sw_undelegate a n : rel R (undelegate a n).
  Proof. unfold undelegate. go. Qed.
  Local Hint Resolve sw_undelegate : rel.
  Lemma sw_accrue a n : rel R (accrue a n).
  Proof. unfold accrue. go. Qed.
  Local Hint Resolve sw_accrue : rel.
  Lemma sw_accrue_to_validator a n : rel R (accrue_to_validator a n).
  Proof. unfold accrue_to_validator. go. Qed.
  Local Hint Resolve sw_accrue_to_validator : rel.
End pay.

Section rest.
  Context (R : St -> St -> Prop) `{!PreOrder R}.
  Hypothesis W_now : forall s x, R s (s <| st_now := x |>).
  Hypothesis W_height : forall s x, R s (s <| st_height := x |>).
  Hypothesis W_accs : forall s a n, R s (s <| st_accs := <[ a := n ]> (st_accs s) |>).
  Hypothesis W_next_acc : forall s x, R s (s <| st_next_acc := x |>).
  Hypothesis W_bp : forall s x, R s (s <| st_bp := x |>).
  Hypothesis W_rp : forall s x, R s (s <| st_rp := x |>).
  Hypothesis W_del : forall s x, R s (s <| st_del := x |>).
  Hypothesis W_dp : forall s x, R s (s <| st_dp := x |>).
  Hypothesis W_earn : forall s x, R s (s <| st_earn := x |>).
  Hypothesis W_earn_signers : forall s x, R s (s <| st_earn_signers := x |>).
  Hypothesis W_prof : forall s x, R s (s <| st_prof := x |>).
  Hypothesis W_nick : forall s x, R s (s <| st_nick := x |>).
  Hypothesis W_card : forall s x, R s (s <| st_card := x |>).
  Hypothesis W_pp : forall s x, R s (s <| st_pp := x |>).
  Hypothesis W_gov : forall s x, R s (s <| st_gov := x |>).
  Hypothesis W_cur : forall s x, R s (s <| st_cur := x |>).
  Hypothesis W_agreed : forall s x, R s (s <| st_agreed := x |>).
  Hypothesis W_disagreed : forall s x, R s (s <| st_disagreed := x |>).
  Hypothesis W_start : forall s x, R s (s <| st_start := x |>).
  Hypothesis W_phist : forall s x, R s (s <| st_phist := x |>).
  Hypothesis W_poll : forall s x, R s (s <| st_poll := x |>).
  Hypothesis W_answers : forall s x, R s (s <| st_answers := x |>).
  Hypothesis W_yes : forall s x, R s (s <| st_yes := x |>).
  Hypothesis W_no : forall s x, R s (s <| st_no := x |>).
  Hypothesis W_pollhist : forall s x, R s (s <| st_pollhist := x |>).
  Hypothesis W_plan : forall s x, R s (s <| st_plan := x |>).
  Hypothesis W_log : forall s e, R s (s <| st_log := st_log s ++ [e] |>).
  Hypothesis T_Accrue : forall t d, rel R (schedule_task t HAccrue d).
  Hypothesis T_Revoke : forall t d, rel R (schedule_task t HRevoke d).
  Hypothesis T_Transition : forall t d, rel R (schedule_task t HTransition d).
  Hypothesis T_Refresh : forall t d, rel R (schedule_task t HRefresh d).
  Hypothesis T_RefreshIm : forall t d, rel R (schedule_task t HRefreshIm d).
  Hypothesis T_Vote : forall t d, rel R (schedule_task t HVote d).
  Hypothesis T_Poll : forall t d, rel R (schedule_task t HPoll d).
  Hypothesis D_Accrue : forall t d, rel R (delete_task t HAccrue d).
  Hypothesis D_RefreshIm : forall t d, rel R (delete_task t HRefreshIm d).
  Hypothesis D_vote : forall t, rel R (delete_all t HVote).
  Hypothesis H_switch_on : forall a k, rel R (switch_on a k).
  Hypothesis H_switch_off : forall a, rel R (switch_off a).
  Hypothesis H_unjail : forall a, rel R (unjail a).
  Hypothesis H_add_to_staff : forall a, rel R (add_to_staff a).
  Hypothesis H_remove_from_staff : forall a, rel R (remove_from_staff a).
  Hypothesis H_general_amnesty : rel R general_amnesty.
  Hypothesis H_gather : rel R gather.
  Hypothesis H_punish_wrongdoers : forall l, rel R (punish_wrongdoers l).
  Hypothesis H_mark_strokes_and_ticks : forall l, rel R (mark_strokes_and_ticks l).
  Hypothesis H_set_nparams : forall p, rel R (set_nparams p).
  Hypothesis H_proposed : forall a, rel R (proposed a).
  Hypothesis H_schedule_compression : forall t a, rel R (schedule_compression t a).
  Hypothesis H_append_child : forall p c, rel R (append_child p c).
  Hypothesis H_must_set_active : forall a v, rel R (must_set_active a v).
  Hypothesis H_validate_transition : forall s p f, rel R (validate_transition s p f).
  Hypothesis H_cancel_transition : forall a, rel R (cancel_transition a).
  Hypothesis H_affirm_transition : forall a, rel R (affirm_transition a).
  Hypothesis H_banish_core : forall a, rel R (banish_core a).
  Hypothesis H_come_back : forall a, rel R (come_back a).
  Hypothesis H_perform_downgrade : forall a, rel R (perform_downgrade a).
  Hypothesis H_perform_compression : forall a, rel R (perform_compression a).
  Hypothesis H_perform_transition_timeout : forall a, rel R (perform_transition_timeout a).
  Hypothesis H_set_transition : forall a p, rel R (set_transition a p).
  Hypothesis H_send_coins : forall a b c, main_only c -> rel R (send_coins a b c).
  Hypothesis H_input_output_coins : forall i o, (forall e, e ∈ i ++ o -> main_only (snd e)) -> rel R (input_output_coins i o).
  Hypothesis H_burn_acc_coins : forall a c, main_only c -> rel R (burn_acc_coins a c).
  Hypothesis H_delegate_coins : forall a n, rel R (delegate_coins a n).
  Hypothesis H_freeze : forall a n m, rel R (freeze a n m).
  Hypothesis H_undelegate : forall a n, rel R (undelegate a n).
  Hypothesis H_accrue : forall a n, rel R (accrue a n).
  Hypothesis H_accrue_to_validator : forall a n, rel R (accrue_to_validator a n).
  Local Hint Resolve main_of main_empty main_sub : rel.
  Local Hint Resolve W_now W_height W_accs W_next_acc W_bp W_rp W_del W_dp W_earn W_earn_signers W_prof W_nick W_card W_pp W_gov W_cur W_agreed W_disagreed W_start W_phist W_poll W_answers W_yes W_no W_pollhist W_plan W_log T_Accrue T_Revoke T_Transition T_Refresh T_RefreshIm T_Vote T_Poll D_Accrue D_RefreshIm D_vote H_switch_on H_switch_off H_unjail H_add_to_staff H_remove_from_staff H_general_amnesty H_gather H_punish_wrongdoers H_mark_strokes_and_ticks H_set_nparams H_proposed H_schedule_compression H_append_child H_must_set_active H_validate_transition H_cancel_transition H_affirm_transition H_banish_core H_come_back H_perform_downgrade H_perform_compression H_perform_transition_timeout H_set_transition H_send_coins H_input_output_coins H_burn_acc_coins H_delegate_coins H_freeze H_undelegate H_accrue H_accrue_to_validator : rel.
  Ltac write :=
    lazymatch goal with
    | |- rel _ (modify _) => apply rel_modify; intros ?; cbv beta; write
    | |- R _ (match ?x with _ => _ end) => destruct x; write
    | |- R ?s ?s => reflexivity
    | |- R _ _ => first [ solve [auto 2 with rel] | etransitivity; [|solve [auto 2 with rel]]; write ]
    end.
  Ltac step :=
    first [ lazymatch goal with |- rel _ (bind (new_coins _ _) _) => apply bind_new; [typeclasses eauto|intros ?] end | progress rel_struct
          | lazymatch goal with
            | |- rel _ (if_in_lottery _ _) => unfold if_in_lottery
            | |- rel _ (new_coins _ _) => unfold new_coins
            | |- rel _ (try_all _) => unfold try_all
            | |- rel _ (fr _) => unfold fr
            | |- rel _ (logged _) => unfold logged
            end
          | write
          | solve [auto 3 with rel] ].
  Ltac go := repeat step.

  Lemma sw_tx_fee' x : rel R (tx_fee x).
  Proof. unfold tx_fee. go. Qed.
  Local Hint Resolve sw_tx_fee' : rel.
  Lemma sw_create_account a : rel R (create_account a).
  Proof. unfold create_account. go. Qed.
  Hypothesis H_create_account : forall a, rel R (create_account a).
  Local Hint Resolve H_create_account : rel.
  Lemma sw_touch_account a : rel R (touch_account a).
  Proof. unfold touch_account. go. Qed.
  Hypothesis H_touch_account : forall a, rel R (touch_account a).
  Local Hint Resolve H_touch_account : rel.
  Lemma sw_send_to_module a b c : main_only c -> rel R (send_to_module a b c).
  Proof.
    intros. unfold send_to_module. go.
  Qed.
  Local Hint Resolve sw_send_to_module : rel.
  Lemma sw_pay_tx_fee a c : rel R (pay_tx_fee a c).
  Proof.
    intros. unfold pay_tx_fee. apply rel_bind; [typeclasses eauto|go|intros _].
    apply (rel_bind_post R main_only); [|go|].
    - intros s s' fee. destruct (decide (c = ∅)); intros E; [apply ret_ok in E as [_ ->]; apply main_empty|].
      apply bind_ok in E as (? & ? & _ & E). unfold new_coins in E. apply bind_ok in E as (? & ? & _ & E).
      apply ret_ok in E as [_ ->]. apply main_of.
    - intros fee Hfee. go.
  Qed.
  Local Hint Resolve sw_pay_tx_fee : rel.
  Lemma sw_msg_send a b c : rel R (msg_send a b c).
  Proof.
    unfold msg_send. repeat first [apply rel_bind_ensure; [typeclasses eauto|intros ?] | apply rel_bind; [typeclasses eauto|solve [go]|intros ?]].
    apply H_send_coins. by apply main_only_forallb.
  Qed.
  Local Hint Resolve sw_msg_send : rel.
  Lemma sw_msg_burn a n : rel R (msg_burn a n).
  Proof. unfold msg_burn. go. Qed.
  Local Hint Resolve sw_msg_burn : rel.
  Lemma sw_set_bparams p : rel R (set_bparams p).
  Proof. unfold set_bparams. go. Qed.
  Local Hint Resolve sw_set_bparams : rel.
  Lemma sw_add_blocked_sender a : rel R (add_blocked_sender a).
  Proof. unfold add_blocked_sender. go. Qed.
  Local Hint Resolve sw_add_blocked_sender : rel.
  Lemma sw_remove_blocked_sender a : rel R (remove_blocked_sender a).
  Proof. unfold remove_blocked_sender. go. Qed.
  Local Hint Resolve sw_remove_blocked_sender : rel.
  Lemma sw_is_active_earner a : rel R (is_active_earner a).
  Proof. unfold is_active_earner. go. Qed.
  Hypothesis H_is_active_earner : forall a, rel R (is_active_earner a).
  Local Hint Resolve H_is_active_earner : rel.
  Lemma sw_earn_set e : rel R (earn_set e).
  Proof. unfold earn_set. go. Qed.
  Hypothesis H_earn_set : forall e, rel R (earn_set e).
  Local Hint Resolve H_earn_set : rel.
  Lemma sw_msg_set_earners a es : rel R (msg_set_earners a es).
  Proof. unfold msg_set_earners. go. Qed.
  Local Hint Resolve sw_msg_set_earners : rel.
  Lemma sw_set_earn_signers l : rel R (set_earn_signers l).
  Proof. unfold set_earn_signers. go. Qed.
  Local Hint Resolve sw_set_earn_signers : rel.
  Lemma sw_add_earn_signer a : rel R (add_earn_signer a).
  Proof. unfold add_earn_signer. go. Qed.
  Local Hint Resolve sw_add_earn_signer : rel.
  Lemma sw_remove_earn_signer a : rel R (remove_earn_signer a).
  Proof. unfold remove_earn_signer. go. Qed.
  Local Hint Resolve sw_remove_earn_signer : rel.
  Lemma sw_bonus_flags a : rel R (bonus_flags a).
  Proof. unfold bonus_flags. go. Qed.
  Local Hint Resolve sw_bonus_flags : rel.
  Lemma sw_accrue_part a i n : rel R (accrue_part a i n).
  Proof. unfold accrue_part. go. Qed.
  Local Hint Resolve sw_accrue_part : rel.
  Lemma sw_del_set a r : rel R (del_set a r).
  Proof. unfold del_set. go. Qed.
  Local Hint Resolve sw_del_set : rel.
  Lemma sw_revoke a n e : rel R (revoke a n e).
  Proof. unfold revoke. go. Qed.
  Local Hint Resolve sw_revoke : rel.
  Lemma sw_delegate a n : rel R (delegate a n).
  Proof. unfold delegate. go. Qed.
  Local Hint Resolve sw_delegate : rel.
  Lemma sw_perform_revoking a : rel R (perform_revoking a).
  Proof. unfold perform_revoking. go. Qed.
  Local Hint Resolve sw_perform_revoking : rel.
  Lemma sw_perform_accrue a t : rel R (perform_accrue a t).
  Proof. unfold perform_accrue. go. Qed.
  Local Hint Resolve sw_perform_accrue : rel.
  Lemma sw_on_banished a : rel R (on_banished a).
  Proof. unfold on_banished. go. Qed.
  Local Hint Resolve sw_on_banished : rel.
  Lemma sw_banish a : rel R (banish a).
  Proof. unfold banish. go. Qed.
  Local Hint Resolve sw_banish : rel.
  Lemma sw_perform_banish a : rel R (perform_banish a).
  Proof. unfold perform_banish. go. Qed.
  Local Hint Resolve sw_perform_banish : rel.
  Lemma sw_msg_delegate a n : rel R (msg_delegate a n).
  Proof. unfold msg_delegate. go. Qed.
  Local Hint Resolve sw_msg_delegate : rel.
  Lemma sw_msg_revoke a n e : rel R (msg_revoke a n e).
  Proof. unfold msg_revoke. go. Qed.
  Local Hint Resolve sw_msg_revoke : rel.
  Lemma sw_set_dparams p : rel R (set_dparams p).
  Proof. unfold set_dparams. go. Qed.
  Local Hint Resolve sw_set_dparams : rel.
  Lemma sw_request_transition a b : rel R (request_transition a b).
  Proof. unfold request_transition. go. Qed.
  Local Hint Resolve sw_request_transition : rel.
  Lemma sw_msg_request_transition a b : rel R (msg_request_transition a b).
  Proof. unfold msg_request_transition. go. Qed.
  Local Hint Resolve sw_msg_request_transition : rel.
  Lemma sw_msg_resolve_transition a b c : rel R (msg_resolve_transition a b c).
  Proof. unfold msg_resolve_transition. go. Qed.
  Local Hint Resolve sw_msg_resolve_transition : rel.
  Lemma sw_nick_put n a : rel R (nick_put n a).
  Proof. unfold nick_put. go. Qed.
  Local Hint Resolve sw_nick_put : rel.
  Lemma sw_nick_del n : rel R (nick_del n).
  Proof. unfold nick_del. go. Qed.
  Local Hint Resolve sw_nick_del : rel.
  Lemma sw_card_put c a : rel R (card_put c a).
  Proof. unfold card_put. go. Qed.
  Local Hint Resolve sw_card_put : rel.
  Lemma sw_card_del c : rel R (card_del c).
  Proof. unfold card_del. go. Qed.
  Local Hint Resolve sw_card_del : rel.
  Lemma sw_validate_nickname a n : rel R (validate_nickname a n).
  Proof. unfold validate_nickname. go. Qed.
  Local Hint Resolve sw_validate_nickname : rel.
  Lemma sw_set_profile a p : rel R (set_profile a p).
  Proof. unfold set_profile. go. Qed.
  Hypothesis H_set_profile : forall a p, rel R (set_profile a p).
  Local Hint Resolve H_set_profile : rel.
  Lemma sw_set_pparams p : rel R (set_pparams p).
  Proof. unfold set_pparams. go. Qed.
  Hypothesis H_set_pparams : forall p, rel R (set_pparams p).
  Local Hint Resolve H_set_pparams : rel.
  Lemma sw_on_pparams f : rel R (on_pparams f).
  Proof. unfold on_pparams. go. Qed.
  Local Hint Resolve sw_on_pparams : rel.
  Lemma sw_add_creator a : rel R (add_creator a).
  Proof. unfold add_creator. go. Qed.
  Local Hint Resolve sw_add_creator : rel.
  Lemma sw_remove_creator a : rel R (remove_creator a).
  Proof. unfold remove_creator. go. Qed.
  Local Hint Resolve sw_remove_creator : rel.
  Lemma sw_add_rate_signer a : rel R (add_rate_signer a).
  Proof. unfold add_rate_signer. go. Qed.
  Local Hint Resolve sw_add_rate_signer : rel.
  Lemma sw_remove_rate_signer a : rel R (remove_rate_signer a).
  Proof. unfold remove_rate_signer. go. Qed.
  Local Hint Resolve sw_remove_rate_signer : rel.
  Lemma sw_add_vpn_signer a : rel R (add_vpn_signer a).
  Proof. unfold add_vpn_signer. go. Qed.
  Local Hint Resolve sw_add_vpn_signer : rel.
  Lemma sw_remove_vpn_signer a : rel R (remove_vpn_signer a).
  Proof. unfold remove_vpn_signer. go. Qed.
  Local Hint Resolve sw_remove_vpn_signer : rel.
  Lemma sw_add_storage_signer a : rel R (add_storage_signer a).
  Proof. unfold add_storage_signer. go. Qed.
  Local Hint Resolve sw_add_storage_signer : rel.
  Lemma sw_remove_storage_signer a : rel R (remove_storage_signer a).
  Proof. unfold remove_storage_signer. go. Qed.
  Local Hint Resolve sw_remove_storage_signer : rel.
  Lemma sw_create_with_profile a r p : rel R (create_with_profile a r p).
  Proof. unfold create_with_profile. go. Qed.
  Local Hint Resolve sw_create_with_profile : rel.
  Lemma sw_msg_create_account c a r p : rel R (msg_create_account c a r p).
  Proof. unfold msg_create_account. go. Qed.
  Local Hint Resolve sw_msg_create_account : rel.
  Lemma sw_get_profile a : rel R (get_profile a).
  Proof. unfold get_profile. go. Qed.
  Local Hint Resolve sw_get_profile : rel.
  Lemma sw_msg_update_profile a us : rel R (msg_update_profile a us).
  Proof. unfold msg_update_profile. go. Qed.
  Local Hint Resolve sw_msg_update_profile : rel.
  Lemma sw_write_profile a f : rel R (write_profile a f).
  Proof. unfold write_profile. go. Qed.
  Hypothesis H_write_profile : forall a f, rel R (write_profile a f).
  Local Hint Resolve H_write_profile : rel.
  Lemma sw_msg_set_storage_current x a v : rel R (msg_set_storage_current x a v).
  Proof. unfold msg_set_storage_current. go. Qed.
  Local Hint Resolve sw_msg_set_storage_current : rel.
  Lemma sw_msg_set_vpn_current x a v : rel R (msg_set_vpn_current x a v).
  Proof. unfold msg_set_vpn_current. go. Qed.
  Local Hint Resolve sw_msg_set_vpn_current : rel.
  Lemma sw_msg_set_rate x v : rel R (msg_set_rate x v).
  Proof. unfold msg_set_rate. go. Qed.
  Local Hint Resolve sw_msg_set_rate : rel.
  Lemma sw_pay_tariff a g x : rel R (pay_tariff a g x).
  Proof.
    unfold pay_tariff. go. all: apply H_input_output_coins; intros e He;
      try match type of He with context [if ?b then _ else _] => destruct b end; cbn [app] in He;
      repeat (apply elem_of_cons in He as [->|He]; [cbn; apply main_of|]); by apply elem_of_nil in He.
  Qed.
  Local Hint Resolve sw_pay_tariff : rel.
  Lemma sw_pay_company a n : rel R (pay_company a n).
  Proof.
    unfold pay_company. apply bind_new; [typeclasses eauto|intros n'].
    apply (rel_bind_post R main_only); [exact (pay_tx_fee_main a _)|go|]. intros fee Hfee. go.
  Qed.
  Local Hint Resolve sw_pay_company : rel.
  Lemma sw_buy_storage a x : rel R (buy_storage a x).
  Proof. unfold buy_storage. go. Qed.
  Local Hint Resolve sw_buy_storage : rel.
  Lemma sw_buy_im a x : rel R (buy_im a x).
  Proof. unfold buy_im. go. Qed.
  Local Hint Resolve sw_buy_im : rel.
  Lemma sw_buy_vpn a x : rel R (buy_vpn a x).
  Proof. unfold buy_vpn. go. Qed.
  Local Hint Resolve sw_buy_vpn : rel.
  Lemma sw_give_storage_up a x : rel R (give_storage_up a x).
  Proof. unfold give_storage_up. go. Qed.
  Local Hint Resolve sw_give_storage_up : rel.
  Lemma sw_give_im_up a x : rel R (give_im_up a x).
  Proof. unfold give_im_up. go. Qed.
  Local Hint Resolve sw_give_im_up : rel.
  Lemma sw_prolong_core a p : rel R (prolong_core a p).
  Proof. unfold prolong_core. go. Qed.
  Local Hint Resolve sw_prolong_core : rel.
  Lemma sw_prolong_im a : rel R (prolong_im a).
  Proof. unfold prolong_im. go. Qed.
  Local Hint Resolve sw_prolong_im : rel.
  Lemma sw_monthly a : rel R (monthly a).
  Proof. unfold monthly. go. Qed.
  Local Hint Resolve sw_monthly : rel.
  Lemma sw_perform_refresh a : rel R (perform_refresh a).
  Proof. unfold perform_refresh. go. Qed.
  Local Hint Resolve sw_perform_refresh : rel.
  Lemma sw_monthly_im a : rel R (monthly_im a).
  Proof. unfold monthly_im. go. Qed.
  Local Hint Resolve sw_monthly_im : rel.
  Lemma sw_perform_refresh_im a : rel R (perform_refresh_im a).
  Proof. unfold perform_refresh_im. go. Qed.
  Local Hint Resolve sw_perform_refresh_im : rel.
  Lemma sw_msg_pay_tariff a x : rel R (msg_pay_tariff a x).
  Proof. unfold msg_pay_tariff. go. Qed.
  Local Hint Resolve sw_msg_pay_tariff : rel.
  Lemma sw_msg_buy_storage a x : rel R (msg_buy_storage a x).
  Proof. unfold msg_buy_storage. go. Qed.
  Local Hint Resolve sw_msg_buy_storage : rel.
  Lemma sw_msg_give_storage_up a x : rel R (msg_give_storage_up a x).
  Proof. unfold msg_give_storage_up. go. Qed.
  Local Hint Resolve sw_msg_give_storage_up : rel.
  Lemma sw_msg_buy_vpn a x : rel R (msg_buy_vpn a x).
  Proof. unfold msg_buy_vpn. go. Qed.
  Local Hint Resolve sw_msg_buy_vpn : rel.
  Lemma sw_msg_buy_im a x : rel R (msg_buy_im a x).
  Proof. unfold msg_buy_im. go. Qed.
  Local Hint Resolve sw_msg_buy_im : rel.
  Lemma sw_msg_give_im_up a x : rel R (msg_give_im_up a x).
  Proof. unfold msg_give_im_up. go. Qed.
  Local Hint Resolve sw_msg_give_im_up : rel.
  Lemma sw_msg_prolong_im a : rel R (msg_prolong_im a).
  Proof. unfold msg_prolong_im. go. Qed.
  Local Hint Resolve sw_msg_prolong_im : rel.
  Lemma sw_try_bparams p : rel R (try_bparams p).
  Proof. unfold try_bparams. go. Qed.
  Local Hint Resolve sw_try_bparams : rel.
  Lemma sw_try_dparams p : rel R (try_dparams p).
  Proof. unfold try_dparams. go. Qed.
  Local Hint Resolve sw_try_dparams : rel.
  Lemma sw_apply_proposal p : rel R (apply_proposal p).
  Proof. unfold apply_proposal. go. Qed.
  Local Hint Resolve sw_apply_proposal : rel.
  Lemma sw_end_proposal p x : rel R (end_proposal p x).
  Proof. unfold end_proposal. go. Qed.
  Local Hint Resolve sw_end_proposal : rel.
  Lemma sw_perform_vote : rel R perform_vote.
  Proof. unfold perform_vote. go. Qed.
  Local Hint Resolve sw_perform_vote : rel.
  Lemma sw_msg_propose a n p : rel R (msg_propose a n p).
  Proof. unfold msg_propose. go. Qed.
  Local Hint Resolve sw_msg_propose : rel.
  Lemma sw_msg_vote a x : rel R (msg_vote a x).
  Proof. unfold msg_vote. go. Qed.
  Local Hint Resolve sw_msg_vote : rel.
  Lemma sw_msg_start_poll a n q x r : rel R (msg_start_poll a n q x r).
  Proof. unfold msg_start_poll. go. Qed.
  Local Hint Resolve sw_msg_start_poll : rel.
  Lemma sw_answer a y : rel R (answer a y).
  Proof. unfold answer. go. Qed.
  Local Hint Resolve sw_answer : rel.
  Lemma sw_msg_answer a y : rel R (msg_answer a y).
  Proof. unfold msg_answer. go. Qed.
  Local Hint Resolve sw_msg_answer : rel.
  Lemma sw_end_poll : rel R end_poll.
  Proof. unfold end_poll. go. Qed.
  Local Hint Resolve sw_end_poll : rel.
  Lemma sw_pay_collected a : (forall a b c, rel R (send_coins a b c)) -> rel R (pay_collected a).
  Proof. intros. unfold pay_collected. go. Qed.
  Hypothesis H_pay_collected : forall a, rel R (pay_collected a).
  Local Hint Resolve H_pay_collected : rel.
  Lemma sw_pay_proposer_reward a : rel R (pay_proposer_reward a).
  Proof. unfold pay_proposer_reward. go. Qed.
  Local Hint Resolve sw_pay_proposer_reward : rel.
  Lemma sw_pay_proposer c : rel R (pay_proposer c).
  Proof. unfold pay_proposer. go. Qed.
  Local Hint Resolve sw_pay_proposer : rel.
  Lemma sw_noding_begin p v e : rel R (noding_begin p v e).
  Proof. unfold noding_begin. go. Qed.
  Local Hint Resolve sw_noding_begin : rel.
  Lemma sw_run_msg m : rel R (run_msg m).
  Proof. unfold run_msg. go. Qed.
  Local Hint Resolve sw_run_msg : rel.
  Lemma sw_ante_main t : main_only (tx_fees t) -> rel R (ante t).
  Proof. intros. unfold ante. go. Qed.
  Hypothesis H_send_any : forall a b c, rel R (send_coins a b c).
  Local Hint Resolve H_send_any : rel.
  Lemma sw_ante t : rel R (ante t).
  Proof. unfold ante, send_to_module. go. Qed.
  Local Hint Resolve sw_ante : rel.
  Lemma sw_hooks h f a t : hooks h = Some f -> rel R (f a t).
  Proof. destruct h; cbn; intros [= <-]; go. Qed.
  Lemma sw_perform_one t : rel R (perform_one hooks t).
  Proof.
    intros s. unfold perform_one. destruct (hooks (t_hook t)) as [h|] eqn:Hh; [|cbn; write].
    pose proof (sw_hooks _ _ (t_data t) (t_time t) Hh s) as HR.
    destruct (h (t_data t) (t_time t) s) as [s' [x|e|e]]; cbn in *; [exact HR| |];
      (transitivity s'; [exact HR|write]).
  Qed.
  Local Hint Resolve sw_perform_one : rel.
  Hypothesis W_due : forall ks s, R s (s <| st_sched := foldr base.delete (st_sched s) ks |>).
  Lemma sw_perform_schedule : rel R (perform_schedule hooks).
  Proof. unfold perform_schedule. go. Qed.
  Local Hint Resolve sw_perform_schedule : rel.
  Lemma sw_begin_block b : rel R (begin_block b).
  Proof. unfold begin_block. go. Qed.
  Lemma sw_end_block : rel R end_block.
  Proof. unfold end_block. go. Qed.
  Lemma sw_run_msgs l : rel R (mfor l run_msg).
  Proof. go. Qed.
  Lemma sw_deliver_tx t s : R s (fst (deliver_tx t s)).
  Proof.
    unfold deliver_tx. pose proof (sw_ante t s) as H1. destruct (ante t s) as [s1 [x|e|e]]; cbn in *;
      [|apply reflexivity|apply reflexivity].
    pose proof (sw_run_msgs (tx_msgs t) s1) as H2.
    destruct (mfor (tx_msgs t) run_msg s1) as [s2 [y|e|e]]; cbn in *; auto. by transitivity s1.
  Qed.

  Lemma sw_deliver_txs ts s : R s (deliver_txs ts s).
  Proof.
    revert s. induction ts as [|t ts IH]; intros s; cbn; [apply reflexivity|].
    transitivity (fst (deliver_tx t s)); [apply sw_deliver_tx|apply IH].
  Qed.

  Lemma sw_run_block b s s' u : run_block b s = Some (s', u) -> R s s'.
  Proof.
    unfold run_block. pose proof (sw_begin_block b s) as H1.
    destruct (begin_block b s) as [s1 [x|e|e]]; try discriminate. cbn in H1.
    pose proof (sw_end_block (deliver_txs (b_txs b) s1)) as H2.
    destruct (end_block _) as [s2 [y|e|e]]; try discriminate. cbn in H2. intros [= <- <-].
    transitivity s1; [exact H1|]. transitivity (deliver_txs (b_txs b) s1); [apply sw_deliver_txs|exact H2].
  Qed.
  Lemma sw_run_blocks bs s s' us : run_blocks bs s = Some (s', us) -> R s s'.
  Proof.
    revert s us. induction bs as [|b bs IH]; intros s us; cbn.
    - intros [= <- <-]. apply reflexivity.
    - destruct (run_block b s) as [[s1 u]|] eqn:H1; [|discriminate].
      destruct (run_blocks bs s1) as [[s2 us']|] eqn:H2; [|discriminate]. intros [= <- <-].
      transitivity s1; [by eapply sw_run_block|by eapply IH].
  Qed.

End rest.

(** The basic writes of the schedule *)
Lemma sw_task (R : St -> St -> Prop) `{!PreOrder R} t :
  (forall s x, R s (s <| st_sched := x |>)) -> rel R (schedule_task' t).
Proof. intros H. unfold schedule_task', check_key. rel_auto. apply rel_modify. intros s. apply H. Qed.
Lemma sw_delete (R : St -> St -> Prop) `{!PreOrder R} t p :
  (forall s x, R s (s <| st_sched := x |>)) -> rel R (delete_where t p).
Proof.
  intros H. unfold delete_where, check_key. rel_auto. apply rel_modify. intros s.
  destruct (st_sched s !! t); [apply H|apply reflexivity].
Qed.
Lemma sw_schedule (R : St -> St -> Prop) t h d : rel R (schedule_task' (Task t h d)) -> rel R (schedule_task t h d).
Proof. done. Qed.
Lemma sw_delete_task (R : St -> St -> Prop) t h d :
  rel R (delete_where t (fun x => bool_decide (t_hook x = h) && bool_decide (t_data x = d))) -> rel R (delete_task t h d).
Proof. done. Qed.
Lemma sw_delete_all (R : St -> St -> Prop) t h :
  rel R (delete_where t (fun x => bool_decide (t_hook x = h))) -> rel R (delete_all t h).
Proof. done. Qed.
Lemma sw_set_transition (R : St -> St -> Prop) a p :
  (forall s x, R s (s <| st_ref := x |>)) -> rel R (set_transition a p).
Proof. intros H s. apply H. Qed.

(** [frame]: an operation does not change a component it does not write *)
Create HintDb frame.
#[export] Hint Extern 0 (PreOrder _) => typeclasses eauto : frame.
#[export] Hint Extern 1 (same _ _ _) => reflexivity : frame.
#[export] Hint Resolve sw_task sw_delete sw_schedule sw_delete_task sw_delete_all sw_set_transition : frame.
#[export] Hint Resolve sw_check_key sw_val_get sw_validator_by_cons sw_delegated_in_network sw_is_qualified sw_val_set : frame.
#[export] Hint Resolve sw_lottery_exclude sw_lottery_add_new sw_lottery_downshift sw_switch_on sw_switch_off sw_on_status_update : frame.
#[export] Hint Resolve sw_on_stake_changed sw_unjail sw_mark_stroke sw_mark_tick sw_mark_byzantine sw_add_to_staff : frame.
#[export] Hint Resolve sw_remove_from_staff sw_general_amnesty sw_gather_scan sw_gather_top sw_gather_rest sw_gather : frame.
#[export] Hint Resolve sw_find_validator sw_punish_wrongdoers sw_mark_strokes_and_ticks sw_set_nparams sw_proposed sw_set_index sw_status_check : frame.
#[export] Hint Resolve sw_bu_update sw_run_callback sw_bu_commit sw_walk sw_nearest_open sw_walk_up : frame.
#[export] Hint Resolve sw_affirm_up sw_schedule_compression sw_schedule_banishment sw_add_top_level sw_append_child_core sw_append_child : frame.
#[export] Hint Resolve sw_compress sw_revive sw_on_balance_changed sw_set_active sw_must_set_active sw_validate_transition : frame.
#[export] Hint Resolve sw_cancel_transition sw_affirm_transition sw_banish_core sw_come_back sw_perform_downgrade sw_perform_compression : frame.
#[export] Hint Resolve sw_perform_transition_timeout sw_set_balance sw_subtract_coins sw_add_coins sw_send_coins sw_input_output_coins : frame.
#[export] Hint Resolve sw_inflate sw_deflate sw_burn_acc_coins sw_tx_fee sw_convert sw_delegate_coins : frame.
#[export] Hint Resolve sw_freeze sw_undelegate sw_accrue sw_accrue_to_validator sw_tx_fee sw_create_account : frame.
#[export] Hint Resolve sw_touch_account sw_send_to_module sw_pay_tx_fee sw_msg_send sw_msg_burn sw_set_bparams : frame.
#[export] Hint Resolve sw_add_blocked_sender sw_remove_blocked_sender sw_is_active_earner sw_earn_set sw_msg_set_earners sw_set_earn_signers : frame.
#[export] Hint Resolve sw_add_earn_signer sw_remove_earn_signer sw_bonus_flags sw_accrue_part sw_del_set sw_revoke : frame.
#[export] Hint Resolve sw_delegate sw_perform_revoking sw_perform_accrue sw_on_banished sw_banish sw_perform_banish : frame.
#[export] Hint Resolve sw_msg_delegate sw_msg_revoke sw_set_dparams sw_request_transition sw_msg_request_transition sw_msg_resolve_transition : frame.
#[export] Hint Resolve sw_nick_put sw_nick_del sw_card_put sw_card_del sw_validate_nickname sw_set_profile : frame.
#[export] Hint Resolve sw_set_pparams sw_on_pparams sw_add_creator sw_remove_creator sw_add_rate_signer sw_remove_rate_signer : frame.
#[export] Hint Resolve sw_add_vpn_signer sw_remove_vpn_signer sw_add_storage_signer sw_remove_storage_signer sw_create_with_profile sw_msg_create_account : frame.
#[export] Hint Resolve sw_get_profile sw_msg_update_profile sw_write_profile sw_msg_set_storage_current sw_msg_set_vpn_current sw_msg_set_rate : frame.
#[export] Hint Resolve sw_pay_tariff sw_pay_company sw_buy_storage sw_buy_im sw_buy_vpn sw_give_storage_up : frame.
#[export] Hint Resolve sw_give_im_up sw_prolong_core sw_prolong_im sw_monthly sw_perform_refresh sw_monthly_im : frame.
#[export] Hint Resolve sw_perform_refresh_im sw_msg_pay_tariff sw_msg_buy_storage sw_msg_give_storage_up sw_msg_buy_vpn sw_msg_buy_im : frame.
#[export] Hint Resolve sw_msg_give_im_up sw_msg_prolong_im sw_try_bparams sw_try_dparams sw_apply_proposal sw_end_proposal : frame.
#[export] Hint Resolve sw_perform_vote sw_msg_propose sw_msg_vote sw_msg_start_poll sw_answer sw_msg_answer : frame.
#[export] Hint Resolve sw_end_poll sw_pay_proposer_reward sw_pay_proposer sw_noding_begin sw_run_msg sw_ante_main : frame.
#[export] Hint Resolve sw_ante sw_perform_one sw_perform_schedule sw_begin_block sw_end_block sw_run_msgs : frame.
#[export] Hint Resolve sw_pay_collected main_of main_empty : frame.
Ltac frame := solve [auto 8 with frame].
