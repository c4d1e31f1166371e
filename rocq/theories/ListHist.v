(** * The lists of referrals through histories *)
From Verif Require Export ListProofs.
From Coq Require Import Logic.ConstructiveEpsilon.
Open Scope Z_scope.

Section hist.
Context (Rk : Prop) (B Own : addr -> Prop).
Local Notation tidied := (tidied Rk B Own).

(** ** Steps that keep the lists in order and banish nobody *)
Definition orderly (s s' : St) : Prop :=
  (tidied s -> tidied s') /\ nobody_banished s s' /\ st_prof s' = st_prof s /\ st_now s' = st_now s.
#[local] Instance orderly_pre : PreOrder orderly.
Proof.
  split.
  - intros s. unfold orderly, nobody_banished. auto.
  - intros s1 s2 s3 (A1 & A2 & A3 & A4) (B1 & B2 & B3 & B4). unfold orderly. split_and!; [auto| |congruence..]. intros a H. by apply B2, A2.
Qed.
Lemma orderly_fields s s' : st_ref s' = st_ref s -> st_prof s' = st_prof s -> st_now s' = st_now s -> orderly s s'.
Proof.
  intros E1 E2 E3. split_and!; [by apply tidied_ref| |done|done]. intros a. unfold bang, ref_get. by rewrite E1.
Qed.
#[local] Hint Extern 1 (orderly _ _) => (apply orderly_fields; reflexivity) : frame.

Lemma obc_orderly a : rel orderly (on_balance_changed a).
Proof.
  intros s. split_and!; [apply obc_tidy|apply obc_bans| |].
  - assert (R : rel (same st_prof) (on_balance_changed a)) by frame. apply R.
  - assert (R : rel (same st_now) (on_balance_changed a)) by frame. apply R.
Qed.
#[local] Hint Resolve obc_orderly : frame.
Lemma bal_orderly a c : rel orderly (set_balance a c).
Proof. apply sw_set_balance; [apply _|frame|intros; apply orderly_fields; reflexivity|apply obc_orderly]. Qed.
#[local] Hint Resolve bal_orderly : frame.

Lemma send_orderly a b c : rel orderly (send_coins a b c).
Proof. frame. Qed.
Lemma module_orderly a b c : rel orderly (send_to_module a b c).
Proof. unfold send_to_module. repeat first [progress rel_struct | frame]. Qed.
Lemma io_orderly i o : rel orderly (input_output_coins i o).
Proof. frame. Qed.
Lemma company_orderly a n : rel orderly (pay_company a n).
Proof. frame. Qed.
Lemma touch_orderly a : rel orderly (touch_account a).
Proof. frame. Qed.
Lemma task_orderly t h d : rel orderly (schedule_task t h d).
Proof. frame. Qed.
Lemma undo_orderly t h d : rel orderly (delete_task t h d).
Proof. frame. Qed.

(** ** Profiles *)
Lemma at_orderly {A C} (m : M A) (f : A -> M C) s : rel orderly m ->
  (forall x s1, m s = (s1, Ok x) -> orderly s s1 -> keeps tidied s1 (fst (f x s1))) -> keeps tidied s (fst (bind m f s)).
Proof.
  intros HM HF R0. unfold bind. specialize (HM s). destruct (m s) as [s1 [x|e|e]]; cbn in HM |- *; [|by apply HM..].
  apply (HF x s1 eq_refl HM). by apply HM.
Qed.
Lemma tidied_must_active a v s : (v = true -> bang (ref_get s) a = false) -> keeps tidied s (fst (must_set_active a v s)).
Proof.
  intros H R. unfold must_set_active, must. pose proof (set_active_tidy a v true s R H) as X.
  by destruct (set_active a v true s) as [s1 [x|e|e]].
Qed.
Lemma tidied_set_profile a p s :
  (p_active (st_now s) p = true -> (exists o, st_prof s !! a = Some o /\ p_active (st_now s) o = true) \/ bang (ref_get s) a = false) ->
  keeps tidied s (fst (set_profile a p s)).
Proof.
  intros HA. unfold set_profile. apply at_get; [apply _|]. apply at_get; [apply _|].
  apply at_orderly; [frame|]. intros [] s1 _ S1.
  apply at_orderly.
  { destruct (st_prof s !! a) as [o|]; repeat first [progress rel_struct | apply module_orderly | frame]; unfold new_coins; repeat progress rel_struct. }
  intros p' s2 E S2. assert (EP : p_until p' = p_until p).
  { destruct (st_prof s !! a) as [o|].
    - apply bind_ok in E as (u & s3 & _ & E). destruct (p_card p =? 0); [by apply ret_ok in E as [_ ->]|].
      apply bind_ok in E as (u' & s4 & _ & E). by apply ret_ok in E as [_ ->].
    - apply bind_ok in E as (u & s3 & _ & E). apply bind_ok in E as (u' & s4 & _ & E). by apply ret_ok in E as [_ ->]. }
  clear E. assert (S : orderly s s2) by (by transitivity s1). destruct S as (_ & SB & SP & SN). clear S1 S2.
  set (s3 := s2 <| st_prof := <[ a := p' ]> (st_prof s2) |>).
  intros R. unfold bind at 1, modify. fold s3.
  assert (R3 : tidied s3) by (eapply tidied_ref; [|exact R]; reflexivity).
  revert R3. apply at_orderly; [frame|]. intros [] s4 _ S4. destruct S4 as (_ & B4 & P4 & N4).
  apply at_get; [apply _|]. cbv zeta.
  assert (EN : st_now s4 = st_now s) by (rewrite N4; exact SN). rewrite EN.
  assert (AP : p_active (st_now s) p' = p_active (st_now s) p) by (unfold p_active; by rewrite EP). rewrite AP.
  match goal with |- context [Bool.eqb ?w ?v] => destruct (Bool.eqb_spec w v) as [EW|EW] end; [intros R4; exact R4|].
  apply tidied_must_active. intros EA. specialize (HA EA). rewrite EA in EW.
  apply B4. change (bang (ref_get s3) a) with (bang (ref_get s2) a). apply SB.
  destruct HA as [(o & Eo & Ho)|HB]; [|done]. rewrite Eo in EW. congruence.
Qed.
(** The profile is written with the same end of the subscription. *)
Lemma tidied_same_end a p q s s1 : st_prof s !! a = Some p -> orderly s s1 -> p_until q = p_until p ->
  keeps tidied s1 (fst (set_profile a q s1)).
Proof.
  intros E (_ & _ & EP & EN) EU. apply tidied_set_profile. intros HA. left. exists p. rewrite EP. split; [done|].
  unfold p_active in *. by rewrite <- EU.
Qed.
Ltac pure_orderly := repeat first [progress rel_struct | unfold fr | frame].
Lemma tidied_update a us s : keeps tidied s (fst (msg_update_profile a us s)).
Proof.
  unfold msg_update_profile. at_pure. apply at_profile; [apply _|intros p E].
  eapply tidied_same_end; [exact E|reflexivity|apply until_upds].
Qed.
Lemma tidied_buy_storage a x s : keeps tidied s (fst (buy_storage a x s)).
Proof.
  unfold buy_storage. apply at_profile; [apply _|intros p E]. do 4 at_pure. at_pure. unfold fr. do 2 at_pure.
  apply at_orderly; [pure_orderly|]. intros [] s1 _ S1. apply at_orderly; [frame|]. intros [] s2 _ S2.
  eapply tidied_same_end; [exact E|by transitivity s1|]. by destruct (_ <? _).
Qed.
Lemma tidied_buy_im a x s : keeps tidied s (fst (buy_im a x s)).
Proof.
  unfold buy_im. apply at_profile; [apply _|intros p E]. do 2 at_pure. cbv zeta.
  apply at_orderly; [pure_orderly|]. intros part s1 _ S1. unfold fr. at_pure.
  apply at_orderly; [pure_orderly|]. intros [] s2 _ S2. apply at_orderly; [frame|]. intros [] s3 _ S3.
  assert (S : orderly s s3) by (transitivity s1; [done|by transitivity s2]).
  destruct (im_active _ p); [by eapply tidied_same_end|].
  at_pure. apply at_orderly; [frame|]. intros [] s4 _ S4. eapply tidied_same_end; [exact E|by transitivity s3|done].
Qed.
Lemma tidied_buy_vpn a x s : keeps tidied s (fst (buy_vpn a x s)).
Proof.
  unfold buy_vpn. apply at_profile; [apply _|intros p E]. do 3 at_pure. unfold fr. at_pure.
  apply at_orderly; [pure_orderly|]. intros [] s2 _ S2. apply at_orderly; [frame|]. intros [] s3 _ S3.
  eapply tidied_same_end; [exact E|by transitivity s2|done].
Qed.
Lemma tidied_give_storage a x s : keeps tidied s (fst (give_storage_up a x s)).
Proof.
  unfold give_storage_up. apply at_profile; [apply _|intros p E]. do 3 at_pure. eapply tidied_same_end; [exact E|reflexivity|done].
Qed.
Lemma tidied_give_im a x s : keeps tidied s (fst (give_im_up a x s)).
Proof.
  unfold give_im_up. apply at_profile; [apply _|intros p E]. do 2 at_pure. cbv zeta. destruct (x =? 0).
  - at_pure. apply at_orderly; [frame|]. intros [] s1 _ S1. eapply tidied_same_end; [exact E|exact S1|done].
  - eapply tidied_same_end; [exact E|reflexivity|done].
Qed.
Lemma prolong_orderly a p : rel orderly (prolong_core a p).
Proof. frame. Qed.
Lemma tidied_must {A} (m : M A) s : keeps tidied s (fst (m s)) -> keeps tidied s (fst (must m s)).
Proof. unfold must. by destruct (m s) as [s1 [x|e|e]]. Qed.
Lemma tidied_prolong a s : keeps tidied s (fst (prolong_im a s)).
Proof.
  unfold prolong_im. apply at_profile; [apply _|intros p E]. apply at_orderly; [apply prolong_orderly|]. intros q s1 EQ S1.
  apply tidied_must. eapply tidied_same_end; [exact E|exact S1|by eapply prolong_until].
Qed.
Lemma tidied_monthly_im a s : keeps tidied s (fst (perform_refresh_im a s)).
Proof.
  apply tidied_must. unfold monthly_im. apply at_profile; [apply _|intros p E]. apply at_orderly.
  { destruct (p_im_autopay p); [apply rel_try, prolong_orderly|apply rel_ret, _]. }
  intros q s1 EQ S1. destruct q as [q|e]; [|eapply tidied_same_end; [exact E|exact S1|done]].
  eapply tidied_same_end; [exact E|exact S1|]. destruct (p_im_autopay p).
  - apply (proj1 (try_ok _ _ _ _)) in EQ. eapply prolong_until. exact EQ.
  - apply ret_ok in EQ as [_ EQ]. discriminate.
Qed.

(** *** Payments for the subscription *)
Lemma tidied_pay_tariff a g auto s : keeps tidied s (fst (pay_tariff a g auto s)).
Proof.
  unfold pay_tariff. apply at_profile; [apply _|intros p EP]. at_pure.
  destruct (tariff_storage (st_pp s) p g) as [b|]; [|intros R; exact R]. unfold fr. at_pure.
  apply at_orderly; [frame|]. intros fee s0 _ S0. at_pure.
  (* the return of a banished account *)
  assert (HB : forall s1, st_prof s1 = st_prof s0 -> st_now s1 = st_now s0 -> bang (ref_get s1) a = false -> forall f : unit -> M unit,
    (forall s1, st_prof s1 = st_prof s -> st_now s1 = st_now s -> bang (ref_get s1) a = false -> keeps tidied s1 (fst (f tt s1))) ->
    keeps tidied s1 (fst (f tt s1))).
  { intros s1 E1 E2 E3 f Hf. destruct S0 as (_ & _ & S1 & S2). apply Hf; congruence. }
  match goal with |- keeps tidied s0 (fst (bind (if _ then _ else _) ?f s0)) =>
    assert (HF : forall s1, st_prof s1 = st_prof s -> st_now s1 = st_now s -> bang (ref_get s1) a = false -> keeps tidied s1 (fst (f tt s1))) end.
  { clear S0 s0 HB. intros s1 E1 E2 E3. do 2 at_pure. unfold fr. do 3 at_pure. cbv zeta.
    apply at_orderly; [unfold new_coins; pure_orderly|]. intros c1 s2 _ S2. apply at_orderly; [unfold new_coins; pure_orderly|]. intros c2 s3 _ S3.
    apply at_orderly; [unfold new_coins; pure_orderly|]. intros c3 s4 _ S4. apply at_orderly; [apply io_orderly|]. intros [] s5 _ S5. at_pure.
    apply at_orderly; [destruct (negb _ && negb auto); pure_orderly|]. intros q s6 _ S6. at_pure. apply at_orderly; [frame|]. intros [] s7 _ S7.
    assert (S : orderly s1 s7).
    { transitivity s2; [done|]. transitivity s3; [done|]. transitivity s4; [done|]. transitivity s5; [done|]. by transitivity s6. }
    destruct S as (_ & SB & SP & SN). clear S2 S3 S4 S5 S6 S7.
    assert (BB : bang (ref_get s7) a = false) by (by apply SB).
    assert (RP : keeps tidied s7 (fst (set_profile a q s7))) by (apply tidied_set_profile; auto).
    apply at_bind; [apply _|exact RP|]. intros [] s8 _. do 2 at_pure. intros R8; exact R8. }
  clear HB. destruct (r_banished (ref_get s0 a)) eqn:Eb.
  - intros R0. unfold bind at 1. pose proof (come_back_tidy a s0 R0 Eb) as RC.
    destruct (come_back a s0) as [s1 [[]|e|e]] eqn:EC; [|exact RC|exact RC]. cbn [fst] in RC.
    apply back_facts in EC as (B1 & B2 & B3). destruct S0 as (_ & _ & S1 & S2). apply HF; [congruence|congruence|done|done].
  - intros R0. unfold bind at 1, ret. cbv beta iota. destruct S0 as (_ & _ & S1 & S2). by apply HF.
Qed.
Lemma tidied_refresh a s : keeps tidied s (fst (perform_refresh a s)).
Proof.
  apply tidied_must. unfold monthly. apply at_profile; [apply _|intros p EP]. at_pure.
  destruct (p_active (st_now s) p). { at_pure. eapply tidied_same_end; [exact EP|reflexivity|apply until_reset]. }
  destruct (p_autopay p); [|by apply tidied_must_active]. intros R. unfold bind, try. pose proof (tidied_pay_tariff a 0 true s R) as RP.
  destruct (pay_tariff a 0 true s) as [s1 [x|e|e]]; cbn [fst] in RP; [exact RP| |exact RP].
  revert RP. by apply tidied_must_active.
Qed.

(** ** Everything else *)
Lemma keeps_lists s s' : st_ref s' = st_ref s -> keeps tidied s s'.
Proof. intros E. exact (tidied_ref s s' E). Qed.
#[local] Hint Extern 1 (keeps tidied _ _) => (apply keeps_lists; reflexivity) : frame.
Lemma orderly_tidied {A} (m : M A) : rel orderly m -> rel (keeps tidied) m.
Proof. intros H s. exact (proj1 (H s)). Qed.
Lemma obc_lists a : rel (keeps tidied) (on_balance_changed a).
Proof. apply orderly_tidied, obc_orderly. Qed.
Lemma bal_lists a c : rel (keeps tidied) (set_balance a c).
Proof. apply orderly_tidied, bal_orderly. Qed.
#[local] Hint Resolve obc_lists bal_lists : frame.

(** Writing one record that differs only in what the network does not depend on *)
Lemma write_tidied a r s : like (ref_get s a) r -> tidied s -> tidied (s <| st_ref := <[ a := r ]> (st_ref s) |>).
Proof.
  intros L. apply tidy_like. intros y. unfold ref_get at 2. cbn. destruct (N.eq_dec a y) as [->|Hy].
  - rewrite lookup_insert. exact L.
  - rewrite lookup_insert_ne by done. apply like_refl.
Qed.
Lemma tidied_cancel a : rel (keeps tidied) (cancel_transition a).
Proof. intros s R0. apply write_tidied; [by split|done]. Qed.
Lemma tidied_set_transition a p : rel (keeps tidied) (set_transition a p).
Proof. intros s R0. apply write_tidied; [by split|done]. Qed.
Lemma tidied_downgrade a : rel (keeps tidied) (perform_downgrade a).
Proof.
  intros s. apply tidied_must. intros R. apply tidied_cm; [|done]. apply cm_get.
  apply cm_bind; [done|same_ref|]. intros [b x] s1 E ES1. apply bu_downgrade_ok in E as (r2 & Q & ED & _).
  apply tidied_commit; [done|]. eapply tidy_like; [|exact R]. intros y.
  rewrite (bu_get_ext b (bu_call EvStatus a b) s s1 y) by done.
  rewrite (bu_get_insert bu_new b a r2 s) by done. rewrite bu_get_new. destruct (N.eqb_spec y a) as [->|]; [|apply like_refl].
  eapply like_trans; [|apply eqs_like, Q]. eapply like_trans; [apply normalize_like|].
  cbv zeta. cbn [r_downgrade_at normalize]. destruct (r_downgrade_at _) as [t|]; [|apply like_refl]. destruct (_ <? _); [apply like_refl|by split].
Qed.
Lemma tidied_compression a : rel (keeps tidied) (perform_compression a).
Proof.
  intros s. unfold perform_compression. do 2 (apply at_get; [apply _|]).
  destruct (r_compression_at (ref_get s a)) as [t|] eqn:E; [|intros R; exact R]. destruct (_ <? _); [intros R; exact R|].
  apply tidied_must. intros R. by apply compress_tidy.
Qed.
Lemma tidied_timeout a : rel (keeps tidied) (perform_transition_timeout a).
Proof. intros s. apply tidied_must, tidied_cancel. Qed.
Lemma tidied_banish a s : (Rk -> forall p, refsg (ref_get s) p <> [] -> B p) -> keeps tidied s (fst (perform_banish a s)).
Proof.
  intros HB.  apply tidied_must. unfold banish. apply at_bind; [apply _|intros R; by apply banish_tidy|]. intros [] s1 _.
  assert (RB : rel (keeps tidied) (on_banished a)) by frame. apply RB.
Qed.
Lemma tidied_create c a r p : (Rk -> ~ B a) -> (Rk -> r = a -> Own a) -> rel (keeps tidied) (msg_create_account c a r p).
Proof.
  intros HB HO s. unfold msg_create_account. apply at_ensure; [apply _|]. intros HN.
  apply andb_true_iff in HN as [HN _]. apply andb_true_iff in HN as [_ HN]. apply negb_true_iff, N.eqb_neq in HN.
  do 3 at_pure. apply at_bind; [apply _| |].
  { assert (RB : rel (keeps tidied) (if (0 <? pp_rename_price (st_pp s)) && negb (bool_decide (c ∈ pp_creators (st_pp s)))
       then let! c0 := new_coins uartr (pp_rename_price (st_pp s)) in send_to_module c fee_collector c0 else ret tt)).
    { unfold new_coins. repeat first [progress rel_struct | apply orderly_tidied, module_orderly | frame]. }
    apply RB. }
  intros [] s1 _. unfold create_with_profile. apply at_orderly; [frame|]. intros n s2 _ _.
  intros R2. unfold bind at 1. pose proof (append_tidy r a false true s2 HN HB HO R2) as RA.
  change (append_child_core r a false true s2) with (append_child r a s2) in RA.
  destruct (append_child r a s2) as [s3 [[]|e|e]] eqn:EA; [|exact RA|exact RA]. cbn [fst] in RA.
  assert (HBa : bang (ref_get s3) a = false).
  { pose proof (append_child_ok r a s2 s3 EA) as (HP & _ & _ & HR & HL & _ & HOP). destruct (N.eq_dec r a) as [E|Har].
    - rewrite E in HOP, HR. destruct HOP as [HOP|[HOP _]]; [congruence|exact HOP].
    - destruct (HL Har) as [_ HL2]. assert (HI : a ∈ refsg (ref_get s3) r).
      { unfold refsg. change (r_referrals (ref_get s3 r)) with (referrals s3 r). rewrite HL2. apply elem_of_app. right. left. }
      by apply (td_list RA) in HI as [_ HI]. }
  revert RA.
  at_pure. apply at_orderly; [frame|]. intros [] s4 _ S4. at_pure. apply tidied_set_profile. intros _. right. by apply S4.
Qed.
Lemma tidied_resolve x a b : okrel (keeps tidied) (msg_resolve_transition x a b).
Proof.
  unfold msg_resolve_transition. intros s s' [] H R. minv. destruct b.
  - eapply affirm_tidy; [exact R|exact H].
  - pose proof (tidied_cancel a s R) as RC. by rewrite H in RC.
Qed.

(** ** Messages and tasks *)
Lemma tidied_at {A} (m : M A) s s' x : (forall s, keeps tidied s (fst (m s))) -> m s = (s', Ok x) -> keeps tidied s s'.
Proof. intros H E. specialize (H s). by rewrite E in H. Qed.
Lemma tidied_request a b : rel (keeps tidied) (msg_request_transition a b).
Proof.
  unfold msg_request_transition, request_transition, new_coins.
  repeat first [progress rel_struct | apply orderly_tidied, module_orderly | apply tidied_set_transition | frame].
Qed.
Definition may_msg (m : msg) : Prop :=
  match m with MCreateAccount _ a r _ => Rk -> ~ B a /\ (r = a -> Own a) | _ => True end.
Lemma tidied_msg m s s' : may_msg m -> run_msg m s = (s', Ok tt) -> keeps tidied s s'.
Proof.
  intros HM. destruct m; cbn [run_msg may_msg] in *;
    try (apply tidied_at; intros s0;
         match goal with |- keeps tidied s0 (fst (?m s0)) => assert (RM : rel (keeps tidied) m) by frame; apply RM end).
  - apply tidied_at, tidied_request.
  - apply tidied_resolve.
  - apply tidied_at. intros s0. apply at_ensure; [apply _|intros _]. assert (RM : rel (keeps tidied) (switch_on a key)) by frame. apply RM.
  - apply tidied_at. apply tidied_create; intros HR; by apply HM.
  - apply tidied_at, tidied_update.
  - apply tidied_at. intros s0. unfold msg_pay_tariff, msg_buy_storage, msg_give_storage_up, msg_buy_vpn, msg_buy_im, msg_give_im_up.
    apply at_ensure; [apply _|intros _]. apply tidied_pay_tariff.
  - apply tidied_at. intros s0. unfold msg_pay_tariff, msg_buy_storage, msg_give_storage_up, msg_buy_vpn, msg_buy_im, msg_give_im_up.
    apply at_ensure; [apply _|intros _]. apply tidied_buy_storage.
  - apply tidied_at. intros s0. unfold msg_pay_tariff, msg_buy_storage, msg_give_storage_up, msg_buy_vpn, msg_buy_im, msg_give_im_up.
    apply at_ensure; [apply _|intros _]. apply tidied_give_storage.
  - apply tidied_at. intros s0. unfold msg_pay_tariff, msg_buy_storage, msg_give_storage_up, msg_buy_vpn, msg_buy_im, msg_give_im_up.
    apply at_ensure; [apply _|intros _]. apply tidied_buy_vpn.
  - apply tidied_at. intros s0. unfold msg_pay_tariff, msg_buy_storage, msg_give_storage_up, msg_buy_vpn, msg_buy_im, msg_give_im_up.
    apply at_ensure; [apply _|intros _]. apply tidied_buy_im.
  - apply tidied_at. intros s0. unfold msg_pay_tariff, msg_buy_storage, msg_give_storage_up, msg_buy_vpn, msg_buy_im, msg_give_im_up.
    apply at_ensure; [apply _|intros _]. apply tidied_give_im.
  - apply tidied_at, tidied_prolong.
Qed.
Lemma tidied_task t s : (Rk -> forall p, refsg (ref_get s) p <> [] -> B p) -> keeps tidied s (after_task hooks t s).
Proof.
  intros HB. apply task_rel; [apply _|intros; apply keeps_lists; reflexivity|]. intros f Hf.
  destruct (t_hook t) eqn:EH; cbn in Hf; try discriminate Hf; injection Hf as <-.
  - apply tidied_downgrade.
  - apply tidied_compression.
  - apply tidied_timeout.
  - apply tidied_refresh.
  - apply tidied_monthly_im.
  - assert (RM : rel (keeps tidied) perform_vote) by frame. apply RM.
  - assert (RM : rel (keeps tidied) end_poll) by frame. apply RM.
  - assert (RM : rel (keeps tidied) (perform_revoking (t_data t))) by frame. apply RM.
  - assert (RM : rel (keeps tidied) (perform_accrue (t_data t) (t_time t))) by frame. apply RM.
  - by apply tidied_banish.
Qed.
(** What is neither a message nor a task *)
Lemma tidied_noding p v e : rel (keeps tidied) (noding_begin p v e).
Proof. frame. Qed.
Lemma tidied_ante t : rel (keeps tidied) (ante t).
Proof. frame. Qed.
Lemma tidied_end : rel (keeps tidied) end_block.
Proof. frame. Qed.
End hist.

(** ** Records are never deleted *)
Definition grow (s s' : St) : Prop := forall a, is_Some (st_ref s !! a) -> is_Some (st_ref s' !! a).
#[export] Instance grow_pre : PreOrder grow.
Proof. split; [by intros s a|]. intros s1 s2 s3 H1 H2 a H. by apply H2, H1. Qed.
Lemma grow_fields s s' : st_ref s' = st_ref s -> grow s s'.
Proof. intros E a. by rewrite E. Qed.
Lemma grow_commit b s : grow s (s <| st_ref := bu_data b ∪ st_ref s |>).
Proof. intros a [r H]. cbn. rewrite lookup_union. rewrite H. by destruct (bu_data b !! a); eexists. Qed.
Lemma grow_write x r s : grow s (s <| st_ref := <[ x := r ]> (st_ref s) |>).
Proof. intros a H. cbn. apply lookup_insert_is_Some. destruct (decide (x = a)); auto. Qed.
#[export] Hint Extern 1 (grow _ _) => (apply grow_fields; reflexivity) : frame.
#[export] Hint Extern 1 (grow _ _) => (apply grow_commit) : frame.
#[export] Hint Extern 1 (grow _ _) => (apply grow_write) : frame.
Ltac grow_mod :=
  lazymatch goal with
  | |- rel _ (modify _) => apply rel_modify; intros ?; cbv beta; grow_mod
  | |- grow _ (match ?x with _ => _ end) => destruct x; grow_mod
  | |- grow ?s ?s => reflexivity
  | |- grow _ _ => first [apply grow_fields; reflexivity | apply grow_commit | apply grow_write
                         | etransitivity; [|first [apply grow_fields; reflexivity | apply grow_commit | apply grow_write]]; grow_mod]
  end.
Ltac grows := repeat first [progress rel_struct | progress cbv zeta | frame | grow_mod | progress unfold new_coins, fr
  | apply sw_bu_updatem; [apply _|frame|frame|intros] | lazymatch goal with |- rel _ (match ?x with _ => _ end) => destruct x end].
Lemma grow_commits b : rel grow (bu_commit b).
Proof. unfold bu_commit. grows. Qed.
#[export] Hint Resolve grow_commits : frame.
Lemma grow_append p c sk sc : rel grow (append_child_core p c sk sc).
Proof. unfold append_child_core. grows. Qed.
Lemma grow_compress a : rel grow (compress a).
Proof. unfold compress. grows. Qed.
Lemma grow_obc a : rel grow (on_balance_changed a).
Proof. unfold on_balance_changed. grows. Qed.
Lemma grow_set_active a v ck : rel grow (set_active a v ck).
Proof. unfold set_active. grows. Qed.
Lemma grow_cancel a : rel grow (cancel_transition a).
Proof. unfold cancel_transition. grows. Qed.
Lemma grow_set_transition a p : rel grow (set_transition a p).
Proof. intros s. apply grow_write. Qed.
Lemma grow_affirm a : rel grow (affirm_transition a).
Proof. unfold affirm_transition. grows. Qed.
Lemma grow_banish a : rel grow (banish_core a).
Proof. unfold banish_core. grows. Qed.
Lemma grow_come_back a : rel grow (come_back a).
Proof. unfold come_back. grows. Qed.
Lemma grow_downgrade a : rel grow (perform_downgrade a).
Proof. unfold perform_downgrade. grows. Qed.
#[export] Hint Resolve grow_append grow_compress grow_obc grow_set_active grow_cancel grow_set_transition grow_affirm grow_banish grow_come_back grow_downgrade : frame.
Lemma grow_set_balance a c : rel grow (set_balance a c).
Proof. frame. Qed.
Lemma grow_append_child p c : rel grow (append_child p c).
Proof. apply grow_append. Qed.
Lemma grow_must_active a v : rel grow (must_set_active a v).
Proof. unfold must_set_active. grows. Qed.
Lemma grow_to_module a m c : rel grow (send_to_module a m c).
Proof. unfold send_to_module. grows. Qed.
Lemma grow_compression a : rel grow (perform_compression a).
Proof. unfold perform_compression. grows. Qed.
Lemma grow_timeout a : rel grow (perform_transition_timeout a).
Proof. unfold perform_transition_timeout. grows. Qed.
#[export] Hint Resolve grow_append_child grow_must_active grow_to_module grow_compression grow_timeout : frame.
Lemma grow_set_profile a p : rel grow (set_profile a p).
Proof. unfold set_profile. grows. Qed.
#[export] Hint Resolve grow_set_profile : frame.
Lemma grow_msg m : rel grow (run_msg m).
Proof. destruct m; cbn [run_msg]; try frame; unfold fr; grows. Qed.
Lemma grow_task t s : grow s (after_task hooks t s).
Proof.
  apply task_rel; [apply _|intros; apply grow_fields; reflexivity|]. intros f Hf.
  destruct (t_hook t) eqn:EH; cbn in Hf; try discriminate Hf; injection Hf as <-;
    match goal with |- grow s (fst (?m s)) => assert (RM : rel grow m) by (try frame; grows); apply RM end.
Qed.
(** Somebody who gets registered had no record. *)
Lemma create_unknown c a r p s s' : msg_create_account c a r p s = (s', Ok tt) -> st_ref s !! a = None.
Proof.
  unfold msg_create_account, create_with_profile. intros H.
  apply bind_ok in H as (u & s1 & E & H). apply ensure_ok in E as [-> _]. apply bind_ok in H as (ex & s1 & E & H). apply get_ok in E as [-> ->].
  apply bind_ok in H as (u2 & s1 & E & H). apply ensure_ok in E as [-> _]. apply bind_ok in H as (pp & s1 & E & H). apply get_ok in E as [-> ->].
  apply bind_ok in H as (u3 & s1 & E1 & H). apply bind_ok in H as (n & s2 & E2 & H). apply bind_ok in H as ([] & s3 & E3 & H).
  apply append_child_ok in E3 as (_ & E3 & _).
  assert (G1 : grow s s1).
  { assert (RB : rel grow (if (0 <? pp_rename_price (st_pp s)) && negb (bool_decide (c ∈ pp_creators (st_pp s)))
       then let! c0 := new_coins uartr (pp_rename_price (st_pp s)) in send_to_module c fee_collector c0 else ret tt)).
    { unfold new_coins. grows. }
    specialize (RB s). by rewrite E1 in RB. }
  assert (G2 : grow s1 s2). { assert (RB : rel grow (create_account a)) by frame. specialize (RB s1). by rewrite E2 in RB. }
  destruct (st_ref s !! a) eqn:ES; [|done]. assert (K : is_Some (st_ref s !! a)) by (by eexists). apply G1, G2 in K as [x K]. congruence.
Qed.

(** ** Histories *)
Theorem tidied_history bs s s' us : times_from (st_now s) bs -> run_blocks bs s = Some (s', us) ->
  tidied False (fun _ => True) (fun _ => True) s -> tidied False (fun _ => True) (fun _ => True) s'.
Proof.
  set (td := tidied False (fun _ => True) (fun _ => True)).
  intros HT H. change (keeps td s s'). eapply (hs_blocks (keeps td) (fun _ _ => True)); [..|exact HT|done|exact H].
  - intros. apply keeps_lists. reflexivity.
  - intros. apply okrel_rel, tidied_noding.
  - intros. by apply tidied_task.
  - intros. apply keeps_lists. reflexivity.
  - intros. apply okrel_rel, tidied_ante.
  - intros m s0 s1 _. apply tidied_msg. by destruct m.
  - apply okrel_rel, tidied_end.
Qed.

(** With the chains of referrers: they end, or lead to one that is its own referrer *)
Section chains.
  Context (Own : addr -> Prop).
  Definition member (s : St) (a : addr) : Prop := is_Some (st_ref s !! a).
  Definition chained (s : St) : Prop := tidied True (member s) Own s.
  Definition goes (s s' : St) : Prop := grow s s' /\ keeps chained s s'.
  #[local] Instance goes_pre : PreOrder goes.
  Proof.
    split; [by intros s; split|]. intros s1 s2 s3 [G1 K1] [G2 K2]. split; [by transitivity s2|]. intros H. by apply K2, K1.
  Qed.
  Lemma goes_step s s' : grow s s' -> keeps (tidied True (member s) Own) s s' -> goes s s'.
  Proof.
    intros G K. split; [done|]. intros H. specialize (K H). unfold chained, ListProofs.tidied in *. destruct K as [T1 T2 T3 T4 T5 T6 T7 T8 T9]. split; try done.
    intros HR x Hx. destruct (T8 HR x Hx) as [E|E]; [by left|right]. by apply G.
  Qed.
  Lemma goes_rel {A} (m : M A) : rel grow m -> (forall B, rel (keeps (tidied True B Own)) m) -> okrel goes m.
  Proof. intros G K. apply okrel_rel. intros s. apply goes_step; [apply G|apply K]. Qed.
  Theorem chained_history bs s s' us : times_from (st_now s) bs -> run_blocks bs s = Some (s', us) ->
    (forall c a p s1, (SMsg (MCreateAccount c a a p), s1) ∈ steps bs s -> Own a) -> chained s -> chained s'.
  Proof.
    intros HT H HO. enough (goes s s') as [_ K] by exact K.
    eapply (hs_blocks goes (fun x _ => match x with SMsg (MCreateAccount _ a r _) => r = a -> Own a | _ => True end)); [..|exact HT| |exact H].
    - intros. apply goes_step; [apply grow_fields; reflexivity|apply keeps_lists; reflexivity].
    - intros. apply goes_rel; [|intros; apply tidied_noding]. frame.
    - intros t s0 _. apply goes_step; [apply grow_task|]. apply tidied_task. intros _ p HP. unfold member, refsg, ref_get in *.
      destruct (st_ref s0 !! p); [by eexists|]. by destruct HP.
    - intros. apply goes_step; [apply grow_fields; reflexivity|apply keeps_lists; reflexivity].
    - intros. apply goes_rel; [|intros; apply tidied_ante]. frame.
    - intros m s0 s1 HM E. apply goes_step.
      + pose proof (grow_msg m s0) as G. by rewrite E in G.
      + eapply tidied_msg; [|exact E]. destruct m; try done. cbn [may_msg]. intros _. split; [|exact HM].
        cbn [run_msg] in E. apply create_unknown in E. unfold member. rewrite E. by intros [x Hx].
    - apply goes_rel; [|intros; apply tidied_end]. frame.
    - intros x s0 Hx. destruct x as [|m]; [done|]. destruct m; try done. intros ->. by eapply HO.
  Qed.
End chains.

(** ** Where chains go round *)
Lemma ranked_loops ref : ranked ref -> forall a n, (1 <= n)%nat -> anc ref n a = a -> ref a = a.
Proof.
  intros [rk K] a n Hn E. destruct n as [|n]; [lia|]. rewrite anc_S in E. pose proof (rank_anc ref rk K n (ref a)) as L. rewrite E in L.
  destruct (K a) as [|L']; [done|lia].
Qed.
Lemma ranked_ends ref : ranked ref -> forall a, exists n, ref (anc ref n a) = anc ref n a.
Proof.
  intros [rk K] a. remember (rk a) as k eqn:Ek. revert a Ek. induction k as [k IH] using lt_wf_ind. intros a ->.
  destruct (K a) as [E|L]; [by exists 0%nat|]. destruct (IH _ L _ eq_refl) as [n Hn]. exists (Datatypes.S n). by rewrite anc_S.
Qed.
Lemma ends_ranked (ref : addr -> addr) : (forall a, exists n, ref (anc ref n a) = anc ref n a) -> ranked ref.
Proof.
  intros H. set (P a n := ref (anc ref n a) = anc ref n a).
  assert (D : forall a n, {P a n} + {~ P a n}) by (intros; unfold P; apply N.eq_dec).
  exists (fun a => proj1_sig (epsilon_smallest (P a) (D a) (H a))).
  intros x. destruct (epsilon_smallest _ (D x) (H x)) as (n & Hn & Hmin).
  destruct (epsilon_smallest _ (D (ref x)) (H (ref x))) as (m & Hm & Hmin'). cbn.
  destruct n as [|n]; [by left|right]. assert (Hn' : P (ref x) n) by (unfold P in *; by rewrite anc_S in Hn). specialize (Hmin' n Hn'). lia.
Qed.
(** The search of [validate_transition] does not end only if the chain of the
    destination goes round. *)
Lemma walk_up_panic f stop : forall a s s' e, walk_up f stop a s = (s', Panic e) -> forall n, (n <= f)%nat -> up s n a <> nobody.
Proof.
  assert (US : forall s n a, up s (Datatypes.S n) a = up s n (referrer s a)).
  { intros s. induction n as [|n IH]; intros a; [done|]. cbn [up] in *. by rewrite <- IH. }
  induction f as [|f IH]; intros a s s' e; cbn [walk_up];
    (destruct (N.eqb_spec a nobody) as [|Ha]; [discriminate|]; destruct (a =? stop)%N; [discriminate|]).
  - intros _ n Hn. by replace n with 0%nat by lia.
  - unfold bind, get. intros H n Hn. destruct n as [|n]; [done|]. rewrite US. eapply IH; [exact H|lia].
Qed.
Lemma long_loops s a : (forall n, (n <= fuel_for s)%nat -> up s n a <> nobody) ->
  exists n m, (1 <= m)%nat /\ up s n a <> nobody /\ up s (m + n) a = up s n a.
Proof.
  intros H. set (k := size (st_ref s)). set (l := map (fun m => up s m a) (seq 0 (Datatypes.S k))).
  destruct (decide (NoDup l)) as [Hl|Hl].
  - exfalso. assert (Hd : forall x, x ∈ l -> x ∈ dom (st_ref s)).
    { intros x Hx. apply elem_of_list_fmap in Hx as (m & -> & Hm). apply elem_of_seq in Hm.
      assert (HS : up s (Datatypes.S m) a <> nobody) by (apply H; unfold fuel_for; lia). cbn [up] in HS. apply elem_of_dom.
      unfold referrer, ref_get in HS. destruct (st_ref s !! up s m a); [by eexists|done]. }
    assert (L : (List.length l <= k)%nat).
    { rewrite <- (size_list_to_set (C := gset N)) by done. unfold k. rewrite <- size_dom. apply subseteq_size.
      intros x Hx. apply elem_of_list_to_set in Hx. auto. }
    unfold l in L. rewrite map_length, seq_length in L. lia.
  - assert (X : exists i j, (i < j <= k)%nat /\ up s i a = up s j a).
    { destruct (decide (Exists (fun i => Exists (fun j => (i < j)%nat /\ up s i a = up s j a) (seq 0 (Datatypes.S k))) (seq 0 (Datatypes.S k)))) as [X|X].
      - apply Exists_exists in X as (i & Hi & X). apply Exists_exists in X as (j & Hj & X1 & X2).
        apply elem_of_seq in Hi, Hj. exists i, j. split; [lia|done].
      - exfalso. apply Hl. apply NoDup_fmap_2_strong; [|apply NoDup_seq]. intros i j Hi Hj E. destruct (decide (i = j)) as [|N0]; [done|].
        exfalso. apply X. destruct (decide (i < j)%nat).
        + apply Exists_exists. exists i. split; [done|]. apply Exists_exists. by exists j.
        + apply Exists_exists. exists j. split; [done|]. apply Exists_exists. exists i. split; [done|]. split; [lia|done]. }
    destruct X as (i & j & Hij & E). exists i, (j - i)%nat. split_and!; [lia|apply H; unfold fuel_for; lia|].
    by replace (j - i + i)%nat with j by lia.
Qed.
Lemma validate_loops subject parent fresh s s' e : validate_transition subject parent fresh s = (s', Panic e) ->
  exists n m, (1 <= m)%nat /\ up s n parent <> nobody /\ up s (m + n) parent = up s n parent.
Proof.
  intros H. assert (US : forall n a, up s (Datatypes.S n) a = up s n (referrer s a)).
  { induction n as [|n IH]; intros a; [done|]. cbn [up] in *. by rewrite <- IH. }
  enough (X : forall n, (n <= fuel_for s)%nat -> up s n (referrer s parent) <> nobody).
  { apply long_loops in X as (n & m & Hm & H1 & H2). exists (Datatypes.S n), m. rewrite !US.
    replace (m + Datatypes.S n)%nat with (Datatypes.S (m + n)) by lia. by rewrite US. }
  revert H. unfold validate_transition, bind, ensure, get, ret, fail.
  destruct (negb (parent =? nobody)%N); [|discriminate]. destruct (negb (subject =? parent)%N); [|discriminate].
  destruct fresh; (destruct (r_transition _ =? _)%N; [|discriminate]); (destruct (negb (r_referrer _ =? parent)%N); [|discriminate]);
    (destruct (negb (registration_closed _ _)); [|discriminate]); apply walk_up_panic.
Qed.
