(** * What each operation that does not panic may change

    The same as [Sweep.v] for runs without a panic, with whole payments instead
    of single writes as the basic steps; [W_abort] covers the panics of
    scheduled tasks, which are logged. *)
From Verif Require Export ModeProofs.

Section sweepP.
  Context (R : St -> St -> Prop) `{!PreOrder R}.
  Hypothesis W_now : forall s x, R s (s <| st_now := x |>).
  Hypothesis W_height : forall s x, R s (s <| st_height := x |>).
  Hypothesis W_accs : forall s a n, R s (s <| st_accs := <[ a := n ]> (st_accs s) |>).
  Hypothesis W_next_acc : forall s x, R s (s <| st_next_acc := x |>).
  Hypothesis W_bp : forall s x, R s (s <| st_bp := x |>).
  Hypothesis W_rp : forall s x, R s (s <| st_rp := x |>).
  Hypothesis W_del : forall s x, R s (s <| st_del := x |>).
  Hypothesis W_dp : forall s x, R s (s <| st_dp := x |>).
  Hypothesis W_earn : forall s x, R s (s <| st_earn := x |>).
  Hypothesis W_earn_signers : forall s x, R s (s <| st_earn_signers := x |>).
  Hypothesis W_prof : forall s x, R s (s <| st_prof := x |>).
  Hypothesis W_nick : forall s x, R s (s <| st_nick := x |>).
  Hypothesis W_card : forall s x, R s (s <| st_card := x |>).
  Hypothesis W_pp : forall s x, R s (s <| st_pp := x |>).
  Hypothesis W_gov : forall s x, R s (s <| st_gov := x |>).
  Hypothesis W_cur : forall s x, R s (s <| st_cur := x |>).
  Hypothesis W_agreed : forall s x, R s (s <| st_agreed := x |>).
  Hypothesis W_disagreed : forall s x, R s (s <| st_disagreed := x |>).
  Hypothesis W_start : forall s x, R s (s <| st_start := x |>).
  Hypothesis W_phist : forall s x, R s (s <| st_phist := x |>).
  Hypothesis W_poll : forall s x, R s (s <| st_poll := x |>).
  Hypothesis W_answers : forall s x, R s (s <| st_answers := x |>).
  Hypothesis W_yes : forall s x, R s (s <| st_yes := x |>).
  Hypothesis W_no : forall s x, R s (s <| st_no := x |>).
  Hypothesis W_pollhist : forall s x, R s (s <| st_pollhist := x |>).
  Hypothesis W_plan : forall s x, R s (s <| st_plan := x |>).
  Hypothesis W_task : forall t, rel R (schedule_task' t).
  Hypothesis W_delete : forall t p, rel R (delete_where t p).
  Hypothesis H_switch_on : forall a k, nprel R (switch_on a k).
  Hypothesis H_switch_off : forall a, nprel R (switch_off a).
  Hypothesis H_unjail : forall a, nprel R (unjail a).
  Hypothesis H_add_to_staff : forall a, nprel R (add_to_staff a).
  Hypothesis H_remove_from_staff : forall a, nprel R (remove_from_staff a).
  Hypothesis H_general_amnesty : nprel R general_amnesty.
  Hypothesis H_gather : nprel R gather.
  Hypothesis H_punish_wrongdoers : forall l, nprel R (punish_wrongdoers l).
  Hypothesis H_mark_strokes_and_ticks : forall l, nprel R (mark_strokes_and_ticks l).
  Hypothesis H_set_nparams : forall p, nprel R (set_nparams p).
  Hypothesis H_proposed : forall a, nprel R (proposed a).
  Hypothesis H_schedule_compression : forall t a, nprel R (schedule_compression t a).
  Hypothesis H_append_child : forall p c, nprel R (append_child p c).
  Hypothesis H_must_set_active : forall a v, nprel R (must_set_active a v).
  Hypothesis H_validate_transition : forall s p f, nprel R (validate_transition s p f).
  Hypothesis H_cancel_transition : forall a, nprel R (cancel_transition a).
  Hypothesis H_affirm_transition : forall a, nprel R (affirm_transition a).
  Hypothesis H_banish_core : forall a, nprel R (banish_core a).
  Hypothesis H_come_back : forall a, nprel R (come_back a).
  Hypothesis H_perform_downgrade : forall a, nprel R (perform_downgrade a).
  Hypothesis H_perform_compression : forall a, nprel R (perform_compression a).
  Hypothesis H_perform_transition_timeout : forall a, nprel R (perform_transition_timeout a).
  Hypothesis H_set_transition : forall a p, nprel R (set_transition a p).
  Hypothesis H_send_coins : forall a b c, nprel R (send_coins a b c).
  Hypothesis H_input_output_coins : forall a c o, nprel R (input_output_coins [(a, c)] o).
  Hypothesis H_burn_acc_coins : forall a c, nprel R (burn_acc_coins a c).
  Hypothesis H_convert : forall a d1 n1 d2 n2, nprel R (convert a d1 n1 d2 n2).
  Hypothesis H_accrue : forall a n, nprel R (accrue a n).
  Hypothesis H_accrue_to_validator : forall a n, nprel R (accrue_to_validator a n).
  Hypothesis W_log : forall s e, R s (s <| st_log := st_log s ++ [e] |>).
  Hypothesis W_abort : forall t f s s' e, hooks (t_hook t) = Some f ->
    f (t_data t) (t_time t) s = (s', e) -> (forall x, e <> Ok x) -> R s (s' <| st_log := st_log s' ++ [LTaskFailed t] |>).
  Hypothesis W_due : forall ks s, R s (s <| st_sched := foldr base.delete (st_sched s) ks |>).
  Local Hint Resolve W_now W_height W_accs W_next_acc W_bp W_rp W_del W_dp W_earn W_earn_signers W_prof W_nick W_card W_pp W_gov W_cur W_agreed W_disagreed W_start W_phist W_poll W_answers W_yes W_no W_pollhist W_plan W_task W_delete H_switch_on H_switch_off H_unjail H_add_to_staff H_remove_from_staff H_general_amnesty H_gather H_punish_wrongdoers H_mark_strokes_and_ticks H_set_nparams H_proposed H_schedule_compression H_append_child H_must_set_active H_validate_transition H_cancel_transition H_affirm_transition H_banish_core H_come_back H_perform_downgrade H_perform_compression H_perform_transition_timeout H_set_transition H_send_coins H_input_output_coins H_burn_acc_coins H_convert H_accrue H_accrue_to_validator W_log : rel.
  Ltac write :=
    lazymatch goal with
    | |- R _ (match ?x with _ => _ end) => destruct x; write
    | |- R ?s ?s => reflexivity
    | |- R _ _ => first [ solve [auto 2 with rel] | etransitivity; [|solve [auto 2 with rel]]; write ]
    end.
  Ltac step :=
    first [ progress mode_struct
          | match goal with
            | |- _ _ (new_coins _ _) => unfold new_coins
            | |- _ _ (schedule_task _ _ _) => unfold schedule_task
            | |- _ _ (delete_task _ _ _) => unfold delete_task
            | |- _ _ (delete_all _ _) => unfold delete_all
            | |- _ _ (fr _) => unfold fr
            | |- _ _ (logged _) => unfold logged
            end
          | write
          | solve [auto 4 with rel modes] ].
  Ltac go := repeat step.

  Lemma sp_create_account a : nprel R (create_account a).
  Proof. unfold create_account. go. Qed.
  Local Hint Resolve sp_create_account : rel.
  Lemma sp_touch_account a : nprel R (touch_account a).
  Proof. unfold touch_account. go. Qed.
  Local Hint Resolve sp_touch_account : rel.
  Lemma sp_send_to_module a b c : nprel R (send_to_module a b c).
  Proof. unfold send_to_module. go. Qed.
  Local Hint Resolve sp_send_to_module : rel.
  Lemma sp_tx_fee x : nprel R (tx_fee x).
  Proof. unfold tx_fee. go. Qed.
  Local Hint Resolve sp_tx_fee : rel.
  Lemma sp_pay_tx_fee a c : nprel R (pay_tx_fee a c).
  Proof. unfold pay_tx_fee. go. Qed.
  Local Hint Resolve sp_pay_tx_fee : rel.
  Lemma sp_msg_send a b c : nprel R (msg_send a b c).
  Proof. unfold msg_send. go. Qed.
  Local Hint Resolve sp_msg_send : rel.
  Lemma sp_msg_burn a n : nprel R (msg_burn a n).
  Proof. unfold msg_burn. go. Qed.
  Local Hint Resolve sp_msg_burn : rel.
  Lemma sp_set_bparams p : nprel R (set_bparams p).
  Proof. unfold set_bparams. go. Qed.
  Local Hint Resolve sp_set_bparams : rel.
  Lemma sp_add_blocked_sender a : nprel R (add_blocked_sender a).
  Proof. unfold add_blocked_sender. go. Qed.
  Local Hint Resolve sp_add_blocked_sender : rel.
  Lemma sp_remove_blocked_sender a : nprel R (remove_blocked_sender a).
  Proof. unfold remove_blocked_sender. go. Qed.
  Local Hint Resolve sp_remove_blocked_sender : rel.
  Lemma sp_is_active_earner a : nprel R (is_active_earner a).
  Proof. unfold is_active_earner. go. Qed.
  Local Hint Resolve sp_is_active_earner : rel.
  Lemma sp_earn_set e : nprel R (earn_set e).
  Proof. unfold earn_set. go. Qed.
  Local Hint Resolve sp_earn_set : rel.
  Lemma sp_msg_set_earners a es : nprel R (msg_set_earners a es).
  Proof. unfold msg_set_earners. go. Qed.
  Local Hint Resolve sp_msg_set_earners : rel.
  Lemma sp_set_earn_signers l : nprel R (set_earn_signers l).
  Proof. unfold set_earn_signers. go. Qed.
  Local Hint Resolve sp_set_earn_signers : rel.
  Lemma sp_add_earn_signer a : nprel R (add_earn_signer a).
  Proof. unfold add_earn_signer. go. Qed.
  Local Hint Resolve sp_add_earn_signer : rel.
  Lemma sp_remove_earn_signer a : nprel R (remove_earn_signer a).
  Proof. unfold remove_earn_signer. go. Qed.
  Local Hint Resolve sp_remove_earn_signer : rel.
  Lemma sp_delegate_coins a n : nprel R (delegate_coins a n).
  Proof. unfold delegate_coins. go. Qed.
  Local Hint Resolve sp_delegate_coins : rel.
  Lemma sp_freeze a n m : nprel R (freeze a n m).
  Proof. unfold freeze. go. Qed.
  Local Hint Resolve sp_freeze : rel.
  Lemma sp_undelegate a n : nprel R (undelegate a n).
  Proof. unfold undelegate. go. Qed.
  Local Hint Resolve sp_undelegate : rel.
  Lemma sp_bonus_flags a : nprel R (bonus_flags a).
  Proof. unfold bonus_flags. go. Qed.
  Local Hint Resolve sp_bonus_flags : rel.
  Lemma sp_accrue_part a i n : nprel R (accrue_part a i n).
  Proof. unfold accrue_part. go. Qed.
  Local Hint Resolve sp_accrue_part : rel.
  Lemma sp_del_set a r : nprel R (del_set a r).
  Proof. unfold del_set. go. Qed.
  Local Hint Resolve sp_del_set : rel.
  Lemma sp_revoke a n e : nprel R (revoke a n e).
  Proof. unfold revoke. go. Qed.
  Local Hint Resolve sp_revoke : rel.
  Lemma sp_delegate a n : nprel R (delegate a n).
  Proof. unfold delegate. go. Qed.
  Local Hint Resolve sp_delegate : rel.
  Lemma sp_perform_revoking a : nprel R (perform_revoking a).
  Proof. unfold perform_revoking. go. Qed.
  Local Hint Resolve sp_perform_revoking : rel.
  Lemma sp_perform_accrue a t : nprel R (perform_accrue a t).
  Proof. unfold perform_accrue. go. Qed.
  Local Hint Resolve sp_perform_accrue : rel.
  Lemma sp_on_banished a : nprel R (on_banished a).
  Proof. unfold on_banished. go. Qed.
  Local Hint Resolve sp_on_banished : rel.
  Lemma sp_banish a : nprel R (banish a).
  Proof. unfold banish. go. Qed.
  Local Hint Resolve sp_banish : rel.
  Lemma sp_perform_banish a : nprel R (perform_banish a).
  Proof. unfold perform_banish. go. Qed.
  Local Hint Resolve sp_perform_banish : rel.
  Lemma sp_msg_delegate a n : nprel R (msg_delegate a n).
  Proof. unfold msg_delegate. go. Qed.
  Local Hint Resolve sp_msg_delegate : rel.
  Lemma sp_msg_revoke a n e : nprel R (msg_revoke a n e).
  Proof. unfold msg_revoke. go. Qed.
  Local Hint Resolve sp_msg_revoke : rel.
  Lemma sp_set_dparams p : nprel R (set_dparams p).
  Proof. unfold set_dparams. go. Qed.
  Local Hint Resolve sp_set_dparams : rel.
  Lemma sp_request_transition a b : nprel R (request_transition a b).
  Proof. unfold request_transition. go. Qed.
  Local Hint Resolve sp_request_transition : rel.
  Lemma sp_msg_request_transition a b : nprel R (msg_request_transition a b).
  Proof. unfold msg_request_transition. go. Qed.
  Local Hint Resolve sp_msg_request_transition : rel.
  Lemma sp_msg_resolve_transition a b c : nprel R (msg_resolve_transition a b c).
  Proof. unfold msg_resolve_transition. go. Qed.
  Local Hint Resolve sp_msg_resolve_transition : rel.
  Lemma sp_nick_put n a : nprel R (nick_put n a).
  Proof. unfold nick_put. go. Qed.
  Local Hint Resolve sp_nick_put : rel.
  Lemma sp_nick_del n : nprel R (nick_del n).
  Proof. unfold nick_del. go. Qed.
  Local Hint Resolve sp_nick_del : rel.
  Lemma sp_card_put c a : nprel R (card_put c a).
  Proof. unfold card_put. go. Qed.
  Local Hint Resolve sp_card_put : rel.
  Lemma sp_card_del c : nprel R (card_del c).
  Proof. unfold card_del. go. Qed.
  Local Hint Resolve sp_card_del : rel.
  Lemma sp_validate_nickname a n : nprel R (validate_nickname a n).
  Proof. unfold validate_nickname. go. Qed.
  Local Hint Resolve sp_validate_nickname : rel.
  Lemma sp_set_profile a p : nprel R (set_profile a p).
  Proof. unfold set_profile. go. Qed.
  Local Hint Resolve sp_set_profile : rel.
  Lemma sp_set_pparams p : nprel R (set_pparams p).
  Proof. unfold set_pparams. go. Qed.
  Local Hint Resolve sp_set_pparams : rel.
  Lemma sp_on_pparams f : nprel R (on_pparams f).
  Proof. unfold on_pparams. go. Qed.
  Local Hint Resolve sp_on_pparams : rel.
  Lemma sp_add_creator a : nprel R (add_creator a).
  Proof. unfold add_creator. go. Qed.
  Local Hint Resolve sp_add_creator : rel.
  Lemma sp_remove_creator a : nprel R (remove_creator a).
  Proof. unfold remove_creator. go. Qed.
  Local Hint Resolve sp_remove_creator : rel.
  Lemma sp_add_rate_signer a : nprel R (add_rate_signer a).
  Proof. unfold add_rate_signer. go. Qed.
  Local Hint Resolve sp_add_rate_signer : rel.
  Lemma sp_remove_rate_signer a : nprel R (remove_rate_signer a).
  Proof. unfold remove_rate_signer. go. Qed.
  Local Hint Resolve sp_remove_rate_signer : rel.
  Lemma sp_add_vpn_signer a : nprel R (add_vpn_signer a).
  Proof. unfold add_vpn_signer. go. Qed.
  Local Hint Resolve sp_add_vpn_signer : rel.
  Lemma sp_remove_vpn_signer a : nprel R (remove_vpn_signer a).
  Proof. unfold remove_vpn_signer. go. Qed.
  Local Hint Resolve sp_remove_vpn_signer : rel.
  Lemma sp_add_storage_signer a : nprel R (add_storage_signer a).
  Proof. unfold add_storage_signer. go. Qed.
  Local Hint Resolve sp_add_storage_signer : rel.
  Lemma sp_remove_storage_signer a : nprel R (remove_storage_signer a).
  Proof. unfold remove_storage_signer. go. Qed.
  Local Hint Resolve sp_remove_storage_signer : rel.
  Lemma sp_create_with_profile a r p : nprel R (create_with_profile a r p).
  Proof. unfold create_with_profile. go. Qed.
  Local Hint Resolve sp_create_with_profile : rel.
  Lemma sp_msg_create_account c a r p : nprel R (msg_create_account c a r p).
  Proof. unfold msg_create_account. go. Qed.
  Local Hint Resolve sp_msg_create_account : rel.
  Lemma sp_get_profile a : nprel R (get_profile a).
  Proof. unfold get_profile. go. Qed.
  Local Hint Resolve sp_get_profile : rel.
  Lemma sp_msg_update_profile a us : nprel R (msg_update_profile a us).
  Proof. unfold msg_update_profile. go. Qed.
  Local Hint Resolve sp_msg_update_profile : rel.
  Lemma sp_write_profile a f : nprel R (write_profile a f).
  Proof. unfold write_profile. go. Qed.
  Local Hint Resolve sp_write_profile : rel.
  Lemma sp_msg_set_storage_current x a v : nprel R (msg_set_storage_current x a v).
  Proof. unfold msg_set_storage_current. go. Qed.
  Local Hint Resolve sp_msg_set_storage_current : rel.
  Lemma sp_msg_set_vpn_current x a v : nprel R (msg_set_vpn_current x a v).
  Proof. unfold msg_set_vpn_current. go. Qed.
  Local Hint Resolve sp_msg_set_vpn_current : rel.
  Lemma sp_msg_set_rate x v : nprel R (msg_set_rate x v).
  Proof. unfold msg_set_rate. go. Qed.
  Local Hint Resolve sp_msg_set_rate : rel.
  Lemma sp_pay_tariff a g x : nprel R (pay_tariff a g x).
  Proof. unfold pay_tariff. go. Qed.
  Local Hint Resolve sp_pay_tariff : rel.
  Lemma sp_pay_company a n : nprel R (pay_company a n).
  Proof. unfold pay_company. go. Qed.
  Local Hint Resolve sp_pay_company : rel.
  Lemma sp_buy_storage a x : nprel R (buy_storage a x).
  Proof. unfold buy_storage. go. Qed.
  Local Hint Resolve sp_buy_storage : rel.
  Lemma sp_buy_im a x : nprel R (buy_im a x).
  Proof. unfold buy_im. go. Qed.
  Local Hint Resolve sp_buy_im : rel.
  Lemma sp_buy_vpn a x : nprel R (buy_vpn a x).
  Proof. unfold buy_vpn. go. Qed.
  Local Hint Resolve sp_buy_vpn : rel.
  Lemma sp_give_storage_up a x : nprel R (give_storage_up a x).
  Proof. unfold give_storage_up. go. Qed.
  Local Hint Resolve sp_give_storage_up : rel.
  Lemma sp_give_im_up a x : nprel R (give_im_up a x).
  Proof. unfold give_im_up. go. Qed.
  Local Hint Resolve sp_give_im_up : rel.
  Lemma sp_prolong_core a p : nprel R (prolong_core a p).
  Proof. unfold prolong_core. go. Qed.
  Local Hint Resolve sp_prolong_core : rel.
  Lemma sp_prolong_im a : nprel R (prolong_im a).
  Proof. unfold prolong_im. go. Qed.
  Local Hint Resolve sp_prolong_im : rel.
  Lemma sp_monthly a : nprel R (monthly a).
  Proof. unfold monthly. go. Qed.
  Local Hint Resolve sp_monthly : rel.
  Lemma sp_perform_refresh a : nprel R (perform_refresh a).
  Proof. unfold perform_refresh. go. Qed.
  Local Hint Resolve sp_perform_refresh : rel.
  Lemma sp_monthly_im a : nprel R (monthly_im a).
  Proof. unfold monthly_im. go. Qed.
  Local Hint Resolve sp_monthly_im : rel.
  Lemma sp_perform_refresh_im a : nprel R (perform_refresh_im a).
  Proof. unfold perform_refresh_im. go. Qed.
  Local Hint Resolve sp_perform_refresh_im : rel.
  Lemma sp_msg_pay_tariff a x : nprel R (msg_pay_tariff a x).
  Proof. unfold msg_pay_tariff. go. Qed.
  Local Hint Resolve sp_msg_pay_tariff : rel.
  Lemma sp_msg_buy_storage a x : nprel R (msg_buy_storage a x).
  Proof. unfold msg_buy_storage. go. Qed.
  Local Hint Resolve sp_msg_buy_storage : rel.
  Lemma sp_msg_give_storage_up a x : nprel R (msg_give_storage_up a x).
  Proof. unfold msg_give_storage_up. go. Qed.
  Local Hint Resolve sp_msg_give_storage_up : rel.
  Lemma sp_msg_buy_vpn a x : nprel R (msg_buy_vpn a x).
  Proof. unfold msg_buy_vpn. go. Qed.
  Local Hint Resolve sp_msg_buy_vpn : rel.
  Lemma sp_msg_buy_im a x : nprel R (msg_buy_im a x).
  Proof. unfold msg_buy_im. go. Qed.
  Local Hint Resolve sp_msg_buy_im : rel.
  Lemma sp_msg_give_im_up a x : nprel R (msg_give_im_up a x).
  Proof. unfold msg_give_im_up. go. Qed.
  Local Hint Resolve sp_msg_give_im_up : rel.
  Lemma sp_msg_prolong_im a : nprel R (msg_prolong_im a).
  Proof. unfold msg_prolong_im. go. Qed.
  Local Hint Resolve sp_msg_prolong_im : rel.
  Lemma sp_try_bparams p : nprel R (try_bparams p).
  Proof. unfold try_bparams. go. Qed.
  Local Hint Resolve sp_try_bparams : rel.
  Lemma sp_try_dparams p : nprel R (try_dparams p).
  Proof. unfold try_dparams. go. Qed.
  Local Hint Resolve sp_try_dparams : rel.
  Lemma sp_apply_proposal p : nprel R (apply_proposal p).
  Proof. unfold apply_proposal. go. Qed.
  Local Hint Resolve sp_apply_proposal : rel.
  Lemma sp_end_proposal p x : nprel R (end_proposal p x).
  Proof. unfold end_proposal. go. Qed.
  Local Hint Resolve sp_end_proposal : rel.
  Lemma sp_perform_vote : nprel R perform_vote.
  Proof. unfold perform_vote. go. Qed.
  Local Hint Resolve sp_perform_vote : rel.
  Lemma sp_msg_propose a n p : nprel R (msg_propose a n p).
  Proof. unfold msg_propose. go. Qed.
  Local Hint Resolve sp_msg_propose : rel.
  Lemma sp_msg_vote a x : nprel R (msg_vote a x).
  Proof. unfold msg_vote. go. Qed.
  Local Hint Resolve sp_msg_vote : rel.
  Lemma sp_msg_start_poll a n q x r : nprel R (msg_start_poll a n q x r).
  Proof. unfold msg_start_poll. go. Qed.
  Local Hint Resolve sp_msg_start_poll : rel.
  Lemma sp_answer a y : nprel R (answer a y).
  Proof. unfold answer. go. Qed.
  Local Hint Resolve sp_answer : rel.
  Lemma sp_msg_answer a y : nprel R (msg_answer a y).
  Proof. unfold msg_answer. go. Qed.
  Local Hint Resolve sp_msg_answer : rel.
  Lemma sp_end_poll : nprel R end_poll.
  Proof. unfold end_poll. go. Qed.
  Local Hint Resolve sp_end_poll : rel.
  Lemma sp_pay_collected a : nprel R (pay_collected a).
  Proof. unfold pay_collected. go. Qed.
  Local Hint Resolve sp_pay_collected : rel.
  Lemma sp_pay_proposer_reward a : nprel R (pay_proposer_reward a).
  Proof. unfold pay_proposer_reward. go. Qed.
  Local Hint Resolve sp_pay_proposer_reward : rel.
  Lemma sp_pay_proposer c : nprel R (pay_proposer c).
  Proof. unfold pay_proposer. go. Qed.
  Local Hint Resolve sp_pay_proposer : rel.
  Lemma sp_noding_begin p v e : nprel R (noding_begin p v e).
  Proof. unfold noding_begin. go. Qed.
  Local Hint Resolve sp_noding_begin : rel.
  Lemma sp_run_msg m : nprel R (run_msg m).
  Proof. unfold run_msg. go. Qed.
  Local Hint Resolve sp_run_msg : rel.
  Lemma sp_ante t : nprel R (ante t).
  Proof. unfold ante. go. Qed.
  Lemma sp_hooks h f a t : hooks h = Some f -> nprel R (f a t).
  Proof. destruct h; cbn; intros [= <-]; go. Qed.
  Lemma sp_perform_one t : rel R (perform_one hooks t).
  Proof.
    intros s. unfold perform_one. destruct (hooks (t_hook t)) as [h|] eqn:Hh; [|cbn; write].
    destruct (h (t_data t) (t_time t) s) as [s' [x|e|e]] eqn:E; cbn in *.
    - eapply sp_hooks; [exact Hh|exact E|discriminate].
    - eapply W_abort; [exact Hh|exact E|discriminate].
    - eapply W_abort; [exact Hh|exact E|discriminate].
  Qed.
  Local Hint Resolve sp_perform_one : rel.
  Lemma sp_perform_schedule : nprel R (perform_schedule hooks).
  Proof. unfold perform_schedule. go. Qed.
  Local Hint Resolve sp_perform_schedule : rel.
  Lemma sp_begin_block b : nprel R (begin_block b).
  Proof. unfold begin_block. go. Qed.
  Lemma sp_end_block : nprel R end_block.
  Proof. unfold end_block. go. Qed.
  Lemma sp_deliver_tx t s : R s (fst (deliver_tx t s)).
  Proof.
    unfold deliver_tx. pose proof (sp_ante t s) as H1. destruct (ante t s) as [s1 [x|e|e]]; cbn in *;
      [|apply reflexivity|apply reflexivity].
    specialize (H1 _ _ eq_refl). assert (H1' : R s s1) by (apply H1; discriminate).
    assert (H2 : nprel R (mfor (tx_msgs t) run_msg)) by go. specialize (H2 s1).
    destruct (mfor (tx_msgs t) run_msg s1) as [s2 [y|e|e]]; cbn in *; auto.
    transitivity s1; [done|]. eapply H2; [reflexivity|discriminate].
  Qed.
  Lemma sp_deliver_txs ts s : R s (deliver_txs ts s).
  Proof.
    revert s. induction ts as [|t ts IH]; intros s; cbn; [apply reflexivity|].
    transitivity (fst (deliver_tx t s)); [apply sp_deliver_tx|apply IH].
  Qed.
  Lemma sp_run_block b s s' u : run_block b s = Some (s', u) -> R s s'.
  Proof.
    unfold run_block. pose proof (sp_begin_block b s) as H1.
    destruct (begin_block b s) as [s1 [x|e|e]]; try discriminate.
    pose proof (sp_end_block (deliver_txs (b_txs b) s1)) as H2.
    destruct (end_block _) as [s2 [y|e|e]]; try discriminate. intros [= <- <-].
    transitivity s1; [eapply H1; [reflexivity|discriminate]|].
    transitivity (deliver_txs (b_txs b) s1); [apply sp_deliver_txs|eapply H2; [reflexivity|discriminate]].
  Qed.
  Lemma sp_run_blocks bs s s' us : run_blocks bs s = Some (s', us) -> R s s'.
  Proof.
    revert s us. induction bs as [|b bs IH]; intros s us; cbn.
    - intros [= <- <-]. apply reflexivity.
    - destruct (run_block b s) as [[s1 u]|] eqn:H1; [|discriminate].
      destruct (run_blocks bs s1) as [[s2 us']|] eqn:H2; [|discriminate]. intros [= <- <-].
      transitivity s1; [by eapply sp_run_block|by eapply IH].
  Qed.
End sweepP.

Create HintDb sweepP.
#[export] Hint Resolve sp_create_account sp_touch_account sp_send_to_module sp_tx_fee sp_pay_tx_fee sp_msg_send : sweepP.
#[export] Hint Resolve sp_msg_burn sp_set_bparams sp_add_blocked_sender sp_remove_blocked_sender sp_is_active_earner sp_earn_set : sweepP.
#[export] Hint Resolve sp_msg_set_earners sp_set_earn_signers sp_add_earn_signer sp_remove_earn_signer sp_delegate_coins sp_freeze : sweepP.
#[export] Hint Resolve sp_undelegate sp_bonus_flags sp_accrue_part sp_del_set sp_revoke sp_delegate : sweepP.
#[export] Hint Resolve sp_perform_revoking sp_perform_accrue sp_on_banished sp_banish sp_perform_banish sp_msg_delegate : sweepP.
#[export] Hint Resolve sp_msg_revoke sp_set_dparams sp_request_transition sp_msg_request_transition sp_msg_resolve_transition sp_nick_put : sweepP.
#[export] Hint Resolve sp_nick_del sp_card_put sp_card_del sp_validate_nickname sp_set_profile sp_set_pparams : sweepP.
#[export] Hint Resolve sp_on_pparams sp_add_creator sp_remove_creator sp_add_rate_signer sp_remove_rate_signer sp_add_vpn_signer : sweepP.
#[export] Hint Resolve sp_remove_vpn_signer sp_add_storage_signer sp_remove_storage_signer sp_create_with_profile sp_msg_create_account sp_get_profile : sweepP.
#[export] Hint Resolve sp_msg_update_profile sp_write_profile sp_msg_set_storage_current sp_msg_set_vpn_current sp_msg_set_rate sp_pay_tariff : sweepP.
#[export] Hint Resolve sp_pay_company sp_buy_storage sp_buy_im sp_buy_vpn sp_give_storage_up sp_give_im_up : sweepP.
#[export] Hint Resolve sp_prolong_core sp_prolong_im sp_monthly sp_perform_refresh sp_monthly_im sp_perform_refresh_im : sweepP.
#[export] Hint Resolve sp_msg_pay_tariff sp_msg_buy_storage sp_msg_give_storage_up sp_msg_buy_vpn sp_msg_buy_im sp_msg_give_im_up : sweepP.
#[export] Hint Resolve sp_msg_prolong_im sp_try_bparams sp_try_dparams sp_apply_proposal sp_end_proposal sp_perform_vote : sweepP.
#[export] Hint Resolve sp_msg_propose sp_msg_vote sp_msg_start_poll sp_answer sp_msg_answer sp_end_poll : sweepP.
#[export] Hint Resolve sp_pay_collected sp_pay_proposer_reward sp_pay_proposer sp_noding_begin sp_run_msg sp_ante : sweepP.
#[export] Hint Resolve sp_perform_one sp_perform_schedule sp_begin_block sp_end_block : sweepP.
#[export] Hint Extern 0 (PreOrder _) => typeclasses eauto : sweepP.
