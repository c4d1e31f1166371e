(** * What each successful operation may change

    The same as [Sweep.v] for successful runs only, with whole payments instead
    of single writes as the basic steps.  [payer] tells whose coins may be
    taken. *)
From Verif Require Export ModeProofs.

Section sweepO.
  Context (R : St -> St -> Prop) `{!PreOrder R}.
  Context (payer : addr -> Prop).
  Hypothesis W_now : forall s x, R s (s <| st_now := x |>).
  Hypothesis W_height : forall s x, R s (s <| st_height := x |>).
  Hypothesis W_accs : forall s a n, R s (s <| st_accs := <[ a := n ]> (st_accs s) |>).
  Hypothesis W_next_acc : forall s x, R s (s <| st_next_acc := x |>).
  Hypothesis W_bp : forall s x, R s (s <| st_bp := x |>).
  Hypothesis W_rp : forall s x, R s (s <| st_rp := x |>).
  Hypothesis W_del : forall s x, R s (s <| st_del := x |>).
  Hypothesis W_dp : forall s x, R s (s <| st_dp := x |>).
  Hypothesis W_earn : forall s x, R s (s <| st_earn := x |>).
  Hypothesis W_earn_signers : forall s x, R s (s <| st_earn_signers := x |>).
  Hypothesis W_prof : forall s x, R s (s <| st_prof := x |>).
  Hypothesis W_nick : forall s x, R s (s <| st_nick := x |>).
  Hypothesis W_card : forall s x, R s (s <| st_card := x |>).
  Hypothesis W_pp : forall s x, R s (s <| st_pp := x |>).
  Hypothesis W_gov : forall s x, R s (s <| st_gov := x |>).
  Hypothesis W_cur : forall s x, R s (s <| st_cur := x |>).
  Hypothesis W_agreed : forall s x, R s (s <| st_agreed := x |>).
  Hypothesis W_disagreed : forall s x, R s (s <| st_disagreed := x |>).
  Hypothesis W_start : forall s x, R s (s <| st_start := x |>).
  Hypothesis W_phist : forall s x, R s (s <| st_phist := x |>).
  Hypothesis W_poll : forall s x, R s (s <| st_poll := x |>).
  Hypothesis W_answers : forall s x, R s (s <| st_answers := x |>).
  Hypothesis W_yes : forall s x, R s (s <| st_yes := x |>).
  Hypothesis W_no : forall s x, R s (s <| st_no := x |>).
  Hypothesis W_pollhist : forall s x, R s (s <| st_pollhist := x |>).
  Hypothesis W_plan : forall s x, R s (s <| st_plan := x |>).
  Hypothesis W_task : forall t, rel R (schedule_task' t).
  Hypothesis W_delete : forall t p, rel R (delete_where t p).
  Hypothesis H_switch_on : forall a k, okrel R (switch_on a k).
  Hypothesis H_switch_off : forall a, okrel R (switch_off a).
  Hypothesis H_unjail : forall a, okrel R (unjail a).
  Hypothesis H_add_to_staff : forall a, nprel R (add_to_staff a).
  Hypothesis H_remove_from_staff : forall a, nprel R (remove_from_staff a).
  Hypothesis H_general_amnesty : okrel R general_amnesty.
  Hypothesis H_set_nparams : forall p, okrel R (set_nparams p).
  Hypothesis H_schedule_compression : forall t a, okrel R (schedule_compression t a).
  Hypothesis H_append_child : forall p c, okrel R (append_child p c).
  Hypothesis H_must_set_active : forall a v, okrel R (must_set_active a v).
  Hypothesis H_validate_transition : forall s p f, okrel R (validate_transition s p f).
  Hypothesis H_cancel_transition : forall a, okrel R (cancel_transition a).
  Hypothesis H_affirm_transition : forall a, okrel R (affirm_transition a).
  Hypothesis H_banish_core : forall a, okrel R (banish_core a).
  Hypothesis H_come_back : forall a, okrel R (come_back a).
  Hypothesis H_set_transition : forall a p, okrel R (set_transition a p).
  Hypothesis H_send_coins : forall a b c, payer a -> okrel R (send_coins a b c).
  Hypothesis H_input_output_coins : forall a c o, payer a -> okrel R (input_output_coins [(a, c)] o).
  Hypothesis H_burn_acc_coins : forall a c, payer a -> okrel R (burn_acc_coins a c).
  Hypothesis H_convert : forall a d1 n1 d2 n2, payer a -> okrel R (convert a d1 n1 d2 n2).
  Hypothesis H_accrue : forall a n, okrel R (accrue a n).
  Hypothesis H_accrue_to_validator : forall a n, okrel R (accrue_to_validator a n).
  Local Hint Resolve W_now W_height W_accs W_next_acc W_bp W_rp W_del W_dp W_earn W_earn_signers W_prof W_nick W_card W_pp W_gov W_cur W_agreed W_disagreed W_start W_phist W_poll W_answers W_yes W_no W_pollhist W_plan W_task W_delete H_switch_on H_switch_off H_unjail H_add_to_staff H_remove_from_staff H_general_amnesty H_set_nparams H_schedule_compression H_append_child H_must_set_active H_validate_transition H_cancel_transition H_affirm_transition H_banish_core H_come_back H_set_transition H_send_coins H_input_output_coins H_burn_acc_coins H_convert H_accrue H_accrue_to_validator : rel.
  Ltac write :=
    lazymatch goal with
    | |- R _ (match ?x with _ => _ end) => destruct x; write
    | |- R ?s ?s => reflexivity
    | |- R _ _ => first [ solve [auto 2 with rel] | etransitivity; [|solve [auto 2 with rel]]; write ]
    end.
  Ltac step :=
    first [ progress mode_struct
          | match goal with
            | |- _ _ (new_coins _ _) => unfold new_coins
            | |- _ _ (schedule_task _ _ _) => unfold schedule_task
            | |- _ _ (delete_task _ _ _) => unfold delete_task
            | |- _ _ (delete_all _ _) => unfold delete_all
            | |- _ _ (fr _) => unfold fr
            | |- _ _ (logged _) => unfold logged
            end
          | write
          | solve [auto 4 with rel modes] ].
  Ltac go := repeat step.

  Lemma so_create_account a : okrel R (create_account a).
  Proof. unfold create_account. go. Qed.
  Local Hint Resolve so_create_account : rel.
  Lemma so_touch_account a : okrel R (touch_account a).
  Proof. unfold touch_account. go. Qed.
  Local Hint Resolve so_touch_account : rel.
  Lemma so_send_to_module a b c : payer a -> okrel R (send_to_module a b c).
  Proof. intros. unfold send_to_module. go. Qed.
  Local Hint Resolve so_send_to_module : rel.
  Lemma so_tx_fee x : okrel R (tx_fee x).
  Proof. unfold tx_fee. go. Qed.
  Local Hint Resolve so_tx_fee : rel.
  Lemma so_pay_tx_fee a c : payer a -> okrel R (pay_tx_fee a c).
  Proof. intros. unfold pay_tx_fee. go. Qed.
  Local Hint Resolve so_pay_tx_fee : rel.
  Lemma so_msg_send a b c : payer a -> okrel R (msg_send a b c).
  Proof. intros. unfold msg_send. go. Qed.
  Local Hint Resolve so_msg_send : rel.
  Lemma so_msg_burn a n : payer a -> okrel R (msg_burn a n).
  Proof. intros. unfold msg_burn. go. Qed.
  Local Hint Resolve so_msg_burn : rel.
  Lemma so_set_bparams p : okrel R (set_bparams p).
  Proof. unfold set_bparams. go. Qed.
  Local Hint Resolve so_set_bparams : rel.
  Lemma so_add_blocked_sender a : okrel R (add_blocked_sender a).
  Proof. unfold add_blocked_sender. go. Qed.
  Local Hint Resolve so_add_blocked_sender : rel.
  Lemma so_remove_blocked_sender a : okrel R (remove_blocked_sender a).
  Proof. unfold remove_blocked_sender. go. Qed.
  Local Hint Resolve so_remove_blocked_sender : rel.
  Lemma so_is_active_earner a : okrel R (is_active_earner a).
  Proof. unfold is_active_earner. go. Qed.
  Local Hint Resolve so_is_active_earner : rel.
  Lemma so_earn_set e : okrel R (earn_set e).
  Proof. unfold earn_set. go. Qed.
  Local Hint Resolve so_earn_set : rel.
  Lemma so_msg_set_earners a es : okrel R (msg_set_earners a es).
  Proof. unfold msg_set_earners. go. Qed.
  Local Hint Resolve so_msg_set_earners : rel.
  Lemma so_set_earn_signers l : okrel R (set_earn_signers l).
  Proof. unfold set_earn_signers. go. Qed.
  Local Hint Resolve so_set_earn_signers : rel.
  Lemma so_add_earn_signer a : okrel R (add_earn_signer a).
  Proof. unfold add_earn_signer. go. Qed.
  Local Hint Resolve so_add_earn_signer : rel.
  Lemma so_remove_earn_signer a : okrel R (remove_earn_signer a).
  Proof. unfold remove_earn_signer. go. Qed.
  Local Hint Resolve so_remove_earn_signer : rel.
  Lemma so_delegate_coins a n : payer a -> okrel R (delegate_coins a n).
  Proof. intros. unfold delegate_coins. go. Qed.
  Local Hint Resolve so_delegate_coins : rel.
  Lemma so_freeze a n m : payer a -> okrel R (freeze a n m).
  Proof. intros. unfold freeze. go. Qed.
  Local Hint Resolve so_freeze : rel.
  Lemma so_undelegate a n : payer a -> okrel R (undelegate a n).
  Proof. intros. unfold undelegate. go. Qed.
  Local Hint Resolve so_undelegate : rel.
  Lemma so_bonus_flags a : okrel R (bonus_flags a).
  Proof. unfold bonus_flags. go. Qed.
  Local Hint Resolve so_bonus_flags : rel.
  Lemma so_accrue_part a i n : okrel R (accrue_part a i n).
  Proof. unfold accrue_part. go. Qed.
  Local Hint Resolve so_accrue_part : rel.
  Lemma so_del_set a r : okrel R (del_set a r).
  Proof. unfold del_set. go. Qed.
  Local Hint Resolve so_del_set : rel.
  Lemma so_revoke a n e : payer a -> okrel R (revoke a n e).
  Proof. intros. unfold revoke. go. Qed.
  Local Hint Resolve so_revoke : rel.
  Lemma so_delegate a n : payer a -> okrel R (delegate a n).
  Proof. intros. unfold delegate. go. Qed.
  Local Hint Resolve so_delegate : rel.
  Lemma so_perform_revoking a : payer a -> okrel R (perform_revoking a).
  Proof. intros. unfold perform_revoking. go. Qed.
  Local Hint Resolve so_perform_revoking : rel.
  Lemma so_perform_accrue a t : okrel R (perform_accrue a t).
  Proof. unfold perform_accrue. go. Qed.
  Local Hint Resolve so_perform_accrue : rel.
  Lemma so_on_banished a : payer a -> okrel R (on_banished a).
  Proof. intros. unfold on_banished. go. Qed.
  Local Hint Resolve so_on_banished : rel.
  Lemma so_banish a : payer a -> okrel R (banish a).
  Proof. intros. unfold banish. go. Qed.
  Local Hint Resolve so_banish : rel.
  Lemma so_perform_banish a : payer a -> okrel R (perform_banish a).
  Proof. intros. unfold perform_banish. go. Qed.
  Local Hint Resolve so_perform_banish : rel.
  Lemma so_msg_delegate a n : payer a -> okrel R (msg_delegate a n).
  Proof. intros. unfold msg_delegate. go. Qed.
  Local Hint Resolve so_msg_delegate : rel.
  Lemma so_msg_revoke a n e : payer a -> okrel R (msg_revoke a n e).
  Proof. intros. unfold msg_revoke. go. Qed.
  Local Hint Resolve so_msg_revoke : rel.
  Lemma so_set_dparams p : okrel R (set_dparams p).
  Proof. unfold set_dparams. go. Qed.
  Local Hint Resolve so_set_dparams : rel.
  Lemma so_request_transition a b : payer a -> okrel R (request_transition a b).
  Proof. intros. unfold request_transition. go. Qed.
  Local Hint Resolve so_request_transition : rel.
  Lemma so_msg_request_transition a b : payer a -> okrel R (msg_request_transition a b).
  Proof. intros. unfold msg_request_transition. go. Qed.
  Local Hint Resolve so_msg_request_transition : rel.
  Lemma so_msg_resolve_transition a b c : okrel R (msg_resolve_transition a b c).
  Proof. unfold msg_resolve_transition. go. Qed.
  Local Hint Resolve so_msg_resolve_transition : rel.
  Lemma so_nick_put n a : okrel R (nick_put n a).
  Proof. unfold nick_put. go. Qed.
  Local Hint Resolve so_nick_put : rel.
  Lemma so_nick_del n : okrel R (nick_del n).
  Proof. unfold nick_del. go. Qed.
  Local Hint Resolve so_nick_del : rel.
  Lemma so_card_put c a : okrel R (card_put c a).
  Proof. unfold card_put. go. Qed.
  Local Hint Resolve so_card_put : rel.
  Lemma so_card_del c : okrel R (card_del c).
  Proof. unfold card_del. go. Qed.
  Local Hint Resolve so_card_del : rel.
  Lemma so_validate_nickname a n : okrel R (validate_nickname a n).
  Proof. unfold validate_nickname. go. Qed.
  Local Hint Resolve so_validate_nickname : rel.
  Lemma so_set_profile a p : payer a -> okrel R (set_profile a p).
  Proof. intros. unfold set_profile. go. Qed.
  Local Hint Resolve so_set_profile : rel.
  Lemma so_set_pparams p : okrel R (set_pparams p).
  Proof. unfold set_pparams. go. Qed.
  Local Hint Resolve so_set_pparams : rel.
  Lemma so_on_pparams f : okrel R (on_pparams f).
  Proof. unfold on_pparams. go. Qed.
  Local Hint Resolve so_on_pparams : rel.
  Lemma so_add_creator a : okrel R (add_creator a).
  Proof. unfold add_creator. go. Qed.
  Local Hint Resolve so_add_creator : rel.
  Lemma so_remove_creator a : okrel R (remove_creator a).
  Proof. unfold remove_creator. go. Qed.
  Local Hint Resolve so_remove_creator : rel.
  Lemma so_add_rate_signer a : okrel R (add_rate_signer a).
  Proof. unfold add_rate_signer. go. Qed.
  Local Hint Resolve so_add_rate_signer : rel.
  Lemma so_remove_rate_signer a : okrel R (remove_rate_signer a).
  Proof. unfold remove_rate_signer. go. Qed.
  Local Hint Resolve so_remove_rate_signer : rel.
  Lemma so_add_vpn_signer a : okrel R (add_vpn_signer a).
  Proof. unfold add_vpn_signer. go. Qed.
  Local Hint Resolve so_add_vpn_signer : rel.
  Lemma so_remove_vpn_signer a : okrel R (remove_vpn_signer a).
  Proof. unfold remove_vpn_signer. go. Qed.
  Local Hint Resolve so_remove_vpn_signer : rel.
  Lemma so_add_storage_signer a : okrel R (add_storage_signer a).
  Proof. unfold add_storage_signer. go. Qed.
  Local Hint Resolve so_add_storage_signer : rel.
  Lemma so_remove_storage_signer a : okrel R (remove_storage_signer a).
  Proof. unfold remove_storage_signer. go. Qed.
  Local Hint Resolve so_remove_storage_signer : rel.
  Lemma so_create_with_profile a r p : payer a -> okrel R (create_with_profile a r p).
  Proof. intros. unfold create_with_profile. go. Qed.
  Local Hint Resolve so_create_with_profile : rel.
  Lemma so_msg_create_account c a r p : payer c -> payer a -> okrel R (msg_create_account c a r p).
  Proof. intros. unfold msg_create_account. go. Qed.
  Local Hint Resolve so_msg_create_account : rel.
  Lemma so_get_profile a : okrel R (get_profile a).
  Proof. unfold get_profile. go. Qed.
  Local Hint Resolve so_get_profile : rel.
  Lemma so_msg_update_profile a us : payer a -> okrel R (msg_update_profile a us).
  Proof. intros. unfold msg_update_profile. go. Qed.
  Local Hint Resolve so_msg_update_profile : rel.
  Lemma so_write_profile a f : okrel R (write_profile a f).
  Proof. unfold write_profile. go. Qed.
  Local Hint Resolve so_write_profile : rel.
  Lemma so_msg_set_storage_current x a v : okrel R (msg_set_storage_current x a v).
  Proof. unfold msg_set_storage_current. go. Qed.
  Local Hint Resolve so_msg_set_storage_current : rel.
  Lemma so_msg_set_vpn_current x a v : okrel R (msg_set_vpn_current x a v).
  Proof. unfold msg_set_vpn_current. go. Qed.
  Local Hint Resolve so_msg_set_vpn_current : rel.
  Lemma so_msg_set_rate x v : okrel R (msg_set_rate x v).
  Proof. unfold msg_set_rate. go. Qed.
  Local Hint Resolve so_msg_set_rate : rel.
  Lemma so_pay_tariff a g x : payer a -> okrel R (pay_tariff a g x).
  Proof. intros. unfold pay_tariff. go. Qed.
  Local Hint Resolve so_pay_tariff : rel.
  Lemma so_pay_company a n : payer a -> okrel R (pay_company a n).
  Proof. intros. unfold pay_company. go. Qed.
  Local Hint Resolve so_pay_company : rel.
  Lemma so_buy_storage a x : payer a -> okrel R (buy_storage a x).
  Proof. intros. unfold buy_storage. go. Qed.
  Local Hint Resolve so_buy_storage : rel.
  Lemma so_buy_im a x : payer a -> okrel R (buy_im a x).
  Proof. intros. unfold buy_im. go. Qed.
  Local Hint Resolve so_buy_im : rel.
  Lemma so_buy_vpn a x : payer a -> okrel R (buy_vpn a x).
  Proof. intros. unfold buy_vpn. go. Qed.
  Local Hint Resolve so_buy_vpn : rel.
  Lemma so_give_storage_up a x : payer a -> okrel R (give_storage_up a x).
  Proof. intros. unfold give_storage_up. go. Qed.
  Local Hint Resolve so_give_storage_up : rel.
  Lemma so_give_im_up a x : payer a -> okrel R (give_im_up a x).
  Proof. intros. unfold give_im_up. go. Qed.
  Local Hint Resolve so_give_im_up : rel.
  Lemma so_prolong_core a p : payer a -> okrel R (prolong_core a p).
  Proof. intros. unfold prolong_core. go. Qed.
  Local Hint Resolve so_prolong_core : rel.
  Lemma so_prolong_im a : payer a -> okrel R (prolong_im a).
  Proof. intros. unfold prolong_im. go. Qed.
  Local Hint Resolve so_prolong_im : rel.
  Lemma so_msg_pay_tariff a x : payer a -> okrel R (msg_pay_tariff a x).
  Proof. intros. unfold msg_pay_tariff. go. Qed.
  Local Hint Resolve so_msg_pay_tariff : rel.
  Lemma so_msg_buy_storage a x : payer a -> okrel R (msg_buy_storage a x).
  Proof. intros. unfold msg_buy_storage. go. Qed.
  Local Hint Resolve so_msg_buy_storage : rel.
  Lemma so_msg_give_storage_up a x : payer a -> okrel R (msg_give_storage_up a x).
  Proof. intros. unfold msg_give_storage_up. go. Qed.
  Local Hint Resolve so_msg_give_storage_up : rel.
  Lemma so_msg_buy_vpn a x : payer a -> okrel R (msg_buy_vpn a x).
  Proof. intros. unfold msg_buy_vpn. go. Qed.
  Local Hint Resolve so_msg_buy_vpn : rel.
  Lemma so_msg_buy_im a x : payer a -> okrel R (msg_buy_im a x).
  Proof. intros. unfold msg_buy_im. go. Qed.
  Local Hint Resolve so_msg_buy_im : rel.
  Lemma so_msg_give_im_up a x : payer a -> okrel R (msg_give_im_up a x).
  Proof. intros. unfold msg_give_im_up. go. Qed.
  Local Hint Resolve so_msg_give_im_up : rel.
  Lemma so_msg_prolong_im a : payer a -> okrel R (msg_prolong_im a).
  Proof. intros. unfold msg_prolong_im. go. Qed.
  Local Hint Resolve so_msg_prolong_im : rel.
  Lemma so_try_bparams p : okrel R (try_bparams p).
  Proof. unfold try_bparams. go. Qed.
  Local Hint Resolve so_try_bparams : rel.
  Lemma so_try_dparams p : okrel R (try_dparams p).
  Proof. unfold try_dparams. go. Qed.
  Local Hint Resolve so_try_dparams : rel.
  Lemma so_apply_proposal p : okrel R (apply_proposal p).
  Proof. unfold apply_proposal. go. Qed.
  Local Hint Resolve so_apply_proposal : rel.
  Lemma so_end_proposal p x : okrel R (end_proposal p x).
  Proof. unfold end_proposal. go. Qed.
  Local Hint Resolve so_end_proposal : rel.
  Lemma so_perform_vote : okrel R perform_vote.
  Proof. unfold perform_vote. go. Qed.
  Local Hint Resolve so_perform_vote : rel.
  Lemma so_msg_propose a n p : okrel R (msg_propose a n p).
  Proof. unfold msg_propose. go. Qed.
  Local Hint Resolve so_msg_propose : rel.
  Lemma so_msg_vote a x : okrel R (msg_vote a x).
  Proof. unfold msg_vote. go. Qed.
  Local Hint Resolve so_msg_vote : rel.
  Lemma so_msg_start_poll a n q x r : okrel R (msg_start_poll a n q x r).
  Proof. unfold msg_start_poll. go. Qed.
  Local Hint Resolve so_msg_start_poll : rel.
  Lemma so_answer a y : okrel R (answer a y).
  Proof. unfold answer. go. Qed.
  Local Hint Resolve so_answer : rel.
  Lemma so_msg_answer a y : okrel R (msg_answer a y).
  Proof. unfold msg_answer. go. Qed.
  Local Hint Resolve so_msg_answer : rel.
  Lemma so_end_poll : okrel R end_poll.
  Proof. unfold end_poll. go. Qed.
  Local Hint Resolve so_end_poll : rel.
  (** Whose coins a message may take *)
  Definition msg_payers (m : msg) : list addr :=
    match m with MCreateAccount _ a _ _ => [signer m; a] | _ => [signer m] end.
  Lemma so_run_msg m : (forall a, a ∈ msg_payers m -> payer a) -> okrel R (run_msg m).
  Proof.
    intros H. assert (payer (signer m)) by (apply H; destruct m; left).
    destruct m; cbn in *; try solve [go].
    go. apply so_msg_create_account; [done|]. apply H. right; left.
  Qed.
  Lemma so_ante t : payer (tx_payer t) -> okrel R (ante t).
  Proof. intros. unfold ante. go. Qed.
End sweepO.

Create HintDb sweepO.
#[export] Hint Resolve so_create_account so_touch_account so_send_to_module so_tx_fee so_pay_tx_fee so_msg_send : sweepO.
#[export] Hint Resolve so_msg_burn so_set_bparams so_add_blocked_sender so_remove_blocked_sender so_is_active_earner so_earn_set : sweepO.
#[export] Hint Resolve so_msg_set_earners so_set_earn_signers so_add_earn_signer so_remove_earn_signer so_delegate_coins so_freeze : sweepO.
#[export] Hint Resolve so_undelegate so_bonus_flags so_accrue_part so_del_set so_revoke so_delegate : sweepO.
#[export] Hint Resolve so_perform_revoking so_perform_accrue so_on_banished so_banish so_perform_banish so_msg_delegate : sweepO.
#[export] Hint Resolve so_msg_revoke so_set_dparams so_request_transition so_msg_request_transition so_msg_resolve_transition so_nick_put : sweepO.
#[export] Hint Resolve so_nick_del so_card_put so_card_del so_validate_nickname so_set_profile so_set_pparams : sweepO.
#[export] Hint Resolve so_on_pparams so_add_creator so_remove_creator so_add_rate_signer so_remove_rate_signer so_add_vpn_signer : sweepO.
#[export] Hint Resolve so_remove_vpn_signer so_add_storage_signer so_remove_storage_signer so_create_with_profile so_msg_create_account so_get_profile : sweepO.
#[export] Hint Resolve so_msg_update_profile so_write_profile so_msg_set_storage_current so_msg_set_vpn_current so_msg_set_rate so_pay_tariff : sweepO.
#[export] Hint Resolve so_pay_company so_buy_storage so_buy_im so_buy_vpn so_give_storage_up so_give_im_up : sweepO.
#[export] Hint Resolve so_prolong_core so_prolong_im so_msg_pay_tariff so_msg_buy_storage so_msg_give_storage_up so_msg_buy_vpn : sweepO.
#[export] Hint Resolve so_msg_buy_im so_msg_give_im_up so_msg_prolong_im so_try_bparams so_try_dparams so_apply_proposal : sweepO.
#[export] Hint Resolve so_end_proposal so_perform_vote so_msg_propose so_msg_vote so_msg_start_poll so_answer : sweepO.
#[export] Hint Resolve so_msg_answer so_end_poll so_run_msg so_ante : sweepO.
#[export] Hint Extern 0 (PreOrder _) => typeclasses eauto : sweepO.
