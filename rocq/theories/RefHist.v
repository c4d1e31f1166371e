(** * The referral network through histories *)
From Verif Require Export RefMove History Spec_Network.
Open Scope Z_scope.

(** ** Steps that keep the records right and banish nobody *)
Definition nobody_banished (s s' : St) : Prop := forall a, bang (ref_get s) a = false -> bang (ref_get s') a = false.
Definition steady (s s' : St) : Prop :=
  (right s -> right s') /\ nobody_banished s s' /\ st_prof s' = st_prof s /\ st_now s' = st_now s.
#[export] Instance steady_pre : PreOrder steady.
Proof.
  split.
  - intros s. unfold steady, nobody_banished. auto.
  - intros s1 s2 s3 (A1 & A2 & A3 & A4) (B1 & B2 & B3 & B4). unfold steady. split_and!; [auto| |congruence..]. intros a H. by apply B2, A2.
Qed.
Lemma steady_fields s s' : st_ref s' = st_ref s -> st_prof s' = st_prof s -> st_now s' = st_now s -> steady s s'.
Proof.
  intros E1 E2 E3. split_and!; [by apply right_ref| |done|done]. intros a. unfold bang, ref_get. by rewrite E1.
Qed.
#[export] Hint Extern 1 (steady _ _) => (apply steady_fields; reflexivity) : frame.

Lemma obc_bans a s : nobody_banished s (fst (on_balance_changed a s)).
Proof.
  destruct (on_balance_changed a s) as [s' r] eqn:E. cbn [fst].
  assert (C : cm s (fun b => forall y, r_banished (ref_get s y) = false -> r_banished (bu_get b y s) = false) (on_balance_changed a) s).
  { clear E. unfold on_balance_changed. apply cm_get. unfold id. cbv zeta.
    change (bu_updatem bu_new a true _) with (bu_updatem bu_new a true (obc_body (own_coins s a) (own_deleg s a) (bp_dust (st_bp s)) s a)).
    apply cm_bind; [done| |].
    { apply rel_try. apply sw_bu_updatem; [apply _|frame|frame|]. intros b r0. apply obc_body_rel. }
    intros out s1 E ES1. apply try_ok in E. destruct out as [[b [[[dc dd] node] ban]]|e]; cycle 1.
    { destruct e; first [by apply cm_ret|by apply cm_fail]. }
    apply bu_updatem_ok in E as (s2 & b1 & r1 & r2 & E & Q & _ & ED & ES & _). rewrite bu_get_new in E.
    apply obc_body_ok in E as (_ & r0 & -> & X & H1).
    assert (K : forall y, r_banished (ref_get s y) = false -> r_banished (bu_get b y s1) = false).
    { assert (Q2 : r_banished r2 = r_banished r0) by (destruct Q as (st & d & ->); done). clear Q X.
      destruct H1 as [(ba & -> & D1 & C1 & _)|(A1 & A2 & _ & _ & ba & b4 & s4 & D4 & C4 & H1)].
      - intros y Hy. rewrite (bu_get_ext b b s s1 y); [|done|congruence]. rewrite (bu_get_insert bu_new b a r2 s); [|by rewrite ED, D1].
        rewrite bu_get_new. destruct (N.eqb_spec y a) as [E0|]; [subst y; by rewrite Q2|done].
      - assert (E4 : st_ref s4 = st_ref s) by (unfold core_of in C4; congruence).
        assert (G4 : forall y, bu_get b4 y s4 = ref_get s4 y).
        { intros y. rewrite <- bu_get_new. by apply bu_get_ext. }
        apply revive_ok in H1 as (E1 & Z1 & _ & Z2); [|done|unfold referrer, ref_get; by rewrite E4].
        intros y Hy. rewrite (bu_get_ext b b s2 s1 y) by done. rewrite (bu_get_insert b1 b a r2 s2) by done.
        destruct (N.eqb_spec y a) as [E0|]; [by rewrite Q2|].
        assert (E5 : ref_get s4 y = ref_get s y) by (unfold ref_get; by rewrite E4). rewrite <- E5 in Hy.
        destruct Z2 as [(_ & _ & Z2)|(n' & _ & _ & _ & _ & _ & Z2)]; specialize (Z2 y).
        + apply shape_inj in Z2 as (_ & _ & -> & _). done.
        + destruct (N.eqb_spec y (up s4 n' a)) as [E0|]; apply shape_inj in Z2 as (_ & _ & -> & _); [subst y; exact Hy|done]. }
    clear H1 X Q ED. apply cm_bind; [done|same_ref|]. intros b3 s3 EW ES3. apply cm_commit; [done|]. intros y Hy. specialize (K y Hy).
    assert (EB : r_banished (bu_get b3 y s3) = r_banished (bu_get b y s1)).
    { destruct ban; [apply ret_ok in EW as [-> ->]; done|].
      apply (walk_lines true (seq 1 10) dc dd (fun x b => if dd =? 0 then b else bu_call EvStake x b)) in EW as [_ EW].
      - specialize (EW y). by apply shape_inj in EW as (_ & _ & -> & _).
      - intros x b0. by destruct (_ =? 0). }
    rewrite (bu_get_ext b3 b3 s3 s y) by done. congruence. }
  destruct (C s' r E) as [E1|(b & P & G)]; intros y Hy.
  - unfold bang, ref_get. rewrite E1. exact Hy.
  - unfold bang. rewrite G. by apply P.
Qed.
Lemma obc_steady a : rel steady (on_balance_changed a).
Proof.
  intros s. split_and!; [apply obc_right|apply obc_bans| |].
  - assert (R : rel (same st_prof) (on_balance_changed a)) by frame. apply R.
  - assert (R : rel (same st_now) (on_balance_changed a)) by frame. apply R.
Qed.
#[export] Hint Resolve obc_steady : frame.
Lemma bal_steady a c : rel steady (set_balance a c).
Proof. apply sw_set_balance; [apply _|frame|intros; apply steady_fields; reflexivity|apply obc_steady]. Qed.
#[export] Hint Resolve bal_steady : frame.

Lemma send_steady a b c : rel steady (send_coins a b c).
Proof. frame. Qed.
Lemma module_steady a b c : rel steady (send_to_module a b c).
Proof. unfold send_to_module. repeat first [progress rel_struct | frame]. Qed.
Lemma io_steady i o : rel steady (input_output_coins i o).
Proof. frame. Qed.
Lemma company_steady a n : rel steady (pay_company a n).
Proof. frame. Qed.
Lemma touch_steady a : rel steady (touch_account a).
Proof. frame. Qed.
Lemma task_steady t h d : rel steady (schedule_task t h d).
Proof. frame. Qed.
Lemma undo_steady t h d : rel steady (delete_task t h d).
Proof. frame. Qed.

(** ** Profiles *)
Lemma at_steady {A B} (m : M A) (f : A -> M B) s : rel steady m ->
  (forall x s1, m s = (s1, Ok x) -> steady s s1 -> keeps right s1 (fst (f x s1))) -> keeps right s (fst (bind m f s)).
Proof.
  intros HM HF R. unfold bind. specialize (HM s). destruct (m s) as [s1 [x|e|e]]; cbn in HM |- *; [|by apply HM..].
  apply (HF x s1 eq_refl HM). by apply HM.
Qed.
Lemma right_must_active a v s : (v = true -> bang (ref_get s) a = false) -> keeps right s (fst (must_set_active a v s)).
Proof.
  intros H R. unfold must_set_active, must. pose proof (set_active_right a v true s R H) as X.
  by destruct (set_active a v true s) as [s1 [x|e|e]].
Qed.
Lemma right_set_profile a p s :
  (p_active (st_now s) p = true -> (exists o, st_prof s !! a = Some o /\ p_active (st_now s) o = true) \/ bang (ref_get s) a = false) ->
  keeps right s (fst (set_profile a p s)).
Proof.
  intros HA. unfold set_profile. apply at_get; [apply _|]. apply at_get; [apply _|].
  apply at_steady; [frame|]. intros [] s1 _ S1.
  apply at_steady.
  { destruct (st_prof s !! a) as [o|]; repeat first [progress rel_struct | apply module_steady | frame]; unfold new_coins; repeat progress rel_struct. }
  intros p' s2 E S2. assert (EP : p_until p' = p_until p).
  { destruct (st_prof s !! a) as [o|].
    - apply bind_ok in E as (u & s3 & _ & E). destruct (p_card p =? 0); [by apply ret_ok in E as [_ ->]|].
      apply bind_ok in E as (u' & s4 & _ & E). by apply ret_ok in E as [_ ->].
    - apply bind_ok in E as (u & s3 & _ & E). apply bind_ok in E as (u' & s4 & _ & E). by apply ret_ok in E as [_ ->]. }
  clear E. assert (S : steady s s2) by (by transitivity s1). destruct S as (_ & SB & SP & SN). clear S1 S2.
  set (s3 := s2 <| st_prof := <[ a := p' ]> (st_prof s2) |>).
  intros R. unfold bind at 1, modify. fold s3.
  assert (R3 : right s3) by (eapply right_ref; [|exact R]; reflexivity).
  revert R3. apply at_steady; [frame|]. intros [] s4 _ S4. destruct S4 as (_ & B4 & P4 & N4).
  apply at_get; [apply _|]. cbv zeta.
  assert (EN : st_now s4 = st_now s) by (rewrite N4; exact SN). rewrite EN.
  assert (AP : p_active (st_now s) p' = p_active (st_now s) p) by (unfold p_active; by rewrite EP). rewrite AP.
  match goal with |- context [Bool.eqb ?w ?v] => destruct (Bool.eqb_spec w v) as [EW|EW] end; [intros R4; exact R4|].
  apply right_must_active. intros EA. specialize (HA EA). rewrite EA in EW.
  apply B4. change (bang (ref_get s3) a) with (bang (ref_get s2) a). apply SB.
  destruct HA as [(o & Eo & Ho)|HB]; [|done]. rewrite Eo in EW. congruence.
Qed.
(** The profile is written with the same end of the subscription. *)
Lemma right_same_end a p q s s1 : st_prof s !! a = Some p -> steady s s1 -> p_until q = p_until p ->
  keeps right s1 (fst (set_profile a q s1)).
Proof.
  intros E (_ & _ & EP & EN) EU. apply right_set_profile. intros HA. left. exists p. rewrite EP. split; [done|].
  unfold p_active in *. by rewrite <- EU.
Qed.
Lemma until_upds us p : p_until (fold_left apply_upd us p) = p_until p.
Proof. revert p. induction us as [|u us IH]; intros p; cbn; [done|]. rewrite IH. by destruct u. Qed.
Lemma until_reset pp p : p_until (reset_limits pp p) = p_until p.
Proof. unfold reset_limits. cbv zeta. repeat match goal with |- context [if ?c then _ else _] => destruct c end; done. Qed.

Lemma at_profile (R : St -> St -> Prop) `{!PreOrder R} {B} a (f : profile -> M B) s :
  (forall p, st_prof s !! a = Some p -> R s (fst (f p s))) -> R s (fst (bind (get_profile a) f s)).
Proof.
  intros H. unfold bind, get_profile, bind, get, lift. destruct (st_prof s !! a) as [p|]; [by apply H|cbn; reflexivity].
Qed.
Ltac at_pure := first [ apply at_get; [apply _|] | apply at_ensure; [apply _|intros ?] | apply at_lift; [apply _|intros ? ?] ].
Ltac pure_steady := repeat first [progress rel_struct | unfold fr | frame].
Lemma right_update a us s : keeps right s (fst (msg_update_profile a us s)).
Proof.
  unfold msg_update_profile. at_pure. apply at_profile; [apply _|intros p E].
  eapply right_same_end; [exact E|reflexivity|apply until_upds].
Qed.
Lemma right_buy_storage a x s : keeps right s (fst (buy_storage a x s)).
Proof.
  unfold buy_storage. apply at_profile; [apply _|intros p E]. do 4 at_pure. at_pure. unfold fr. do 2 at_pure.
  apply at_steady; [pure_steady|]. intros [] s1 _ S1. apply at_steady; [frame|]. intros [] s2 _ S2.
  eapply right_same_end; [exact E|by transitivity s1|]. by destruct (_ <? _).
Qed.
Lemma right_buy_im a x s : keeps right s (fst (buy_im a x s)).
Proof.
  unfold buy_im. apply at_profile; [apply _|intros p E]. do 2 at_pure. cbv zeta.
  apply at_steady; [pure_steady|]. intros part s1 _ S1. unfold fr. at_pure.
  apply at_steady; [pure_steady|]. intros [] s2 _ S2. apply at_steady; [frame|]. intros [] s3 _ S3.
  assert (S : steady s s3) by (transitivity s1; [done|by transitivity s2]).
  destruct (im_active _ p); [by eapply right_same_end|].
  at_pure. apply at_steady; [frame|]. intros [] s4 _ S4. eapply right_same_end; [exact E|by transitivity s3|done].
Qed.
Lemma right_buy_vpn a x s : keeps right s (fst (buy_vpn a x s)).
Proof.
  unfold buy_vpn. apply at_profile; [apply _|intros p E]. do 3 at_pure. unfold fr. at_pure.
  apply at_steady; [pure_steady|]. intros [] s2 _ S2. apply at_steady; [frame|]. intros [] s3 _ S3.
  eapply right_same_end; [exact E|by transitivity s2|done].
Qed.
Lemma right_give_storage a x s : keeps right s (fst (give_storage_up a x s)).
Proof.
  unfold give_storage_up. apply at_profile; [apply _|intros p E]. do 3 at_pure. eapply right_same_end; [exact E|reflexivity|done].
Qed.
Lemma right_give_im a x s : keeps right s (fst (give_im_up a x s)).
Proof.
  unfold give_im_up. apply at_profile; [apply _|intros p E]. do 2 at_pure. cbv zeta. destruct (x =? 0).
  - at_pure. apply at_steady; [frame|]. intros [] s1 _ S1. eapply right_same_end; [exact E|exact S1|done].
  - eapply right_same_end; [exact E|reflexivity|done].
Qed.
Lemma prolong_steady a p : rel steady (prolong_core a p).
Proof. frame. Qed.
Lemma prolong_until a p s s' q : prolong_core a p s = (s', Ok q) -> p_until q = p_until p.
Proof.
  unfold prolong_core. destruct (p_im_until p); [|intros H; by apply fail_ok in H]. intros H. minv. done.
Qed.
Lemma right_must {A} (m : M A) s : keeps right s (fst (m s)) -> keeps right s (fst (must m s)).
Proof. unfold must. by destruct (m s) as [s1 [x|e|e]]. Qed.
Lemma right_prolong a s : keeps right s (fst (prolong_im a s)).
Proof.
  unfold prolong_im. apply at_profile; [apply _|intros p E]. apply at_steady; [apply prolong_steady|]. intros q s1 EQ S1.
  apply right_must. eapply right_same_end; [exact E|exact S1|by eapply prolong_until].
Qed.
Lemma right_monthly_im a s : keeps right s (fst (perform_refresh_im a s)).
Proof.
  apply right_must. unfold monthly_im. apply at_profile; [apply _|intros p E]. apply at_steady.
  { destruct (p_im_autopay p); [apply rel_try, prolong_steady|apply rel_ret, _]. }
  intros q s1 EQ S1. destruct q as [q|e]; [|eapply right_same_end; [exact E|exact S1|done]].
  eapply right_same_end; [exact E|exact S1|]. destruct (p_im_autopay p).
  - apply (proj1 (try_ok _ _ _ _)) in EQ. eapply prolong_until. exact EQ.
  - apply ret_ok in EQ as [_ EQ]. discriminate.
Qed.

(** *** Payments for the subscription *)
Definition tasks_of (s : St) := (st_prof s, st_now s).
Lemma back_facts a s s1 : come_back a s = (s1, Ok tt) -> bang (ref_get s1) a = false /\ st_prof s1 = st_prof s /\ st_now s1 = st_now s.
Proof.
  intros E. assert (R1 : rel (same st_prof) (come_back a)) by frame. assert (R2 : rel (same st_now) (come_back a)) by frame.
  specialize (R1 s). specialize (R2 s). rewrite E in R1, R2. split; [|done].
  apply come_back_ok in E as (E & _). apply E.
Qed.
Lemma right_pay_tariff a g auto s : keeps right s (fst (pay_tariff a g auto s)).
Proof.
  unfold pay_tariff. apply at_profile; [apply _|intros p EP]. at_pure.
  destruct (tariff_storage (st_pp s) p g) as [b|]; [|intros R; exact R]. unfold fr. at_pure.
  apply at_steady; [frame|]. intros fee s0 _ S0. at_pure.
  (* the return of a banished account *)
  assert (HB : forall s1, st_prof s1 = st_prof s0 -> st_now s1 = st_now s0 -> bang (ref_get s1) a = false -> forall f : unit -> M unit,
    (forall s1, st_prof s1 = st_prof s -> st_now s1 = st_now s -> bang (ref_get s1) a = false -> keeps right s1 (fst (f tt s1))) ->
    keeps right s1 (fst (f tt s1))).
  { intros s1 E1 E2 E3 f Hf. destruct S0 as (_ & _ & S1 & S2). apply Hf; congruence. }
  match goal with |- keeps right s0 (fst (bind (if _ then _ else _) ?f s0)) =>
    assert (HF : forall s1, st_prof s1 = st_prof s -> st_now s1 = st_now s -> bang (ref_get s1) a = false -> keeps right s1 (fst (f tt s1))) end.
  { clear S0 s0 HB. intros s1 E1 E2 E3. do 2 at_pure. unfold fr. do 3 at_pure. cbv zeta.
    apply at_steady; [unfold new_coins; pure_steady|]. intros c1 s2 _ S2. apply at_steady; [unfold new_coins; pure_steady|]. intros c2 s3 _ S3.
    apply at_steady; [unfold new_coins; pure_steady|]. intros c3 s4 _ S4. apply at_steady; [apply io_steady|]. intros [] s5 _ S5. at_pure.
    apply at_steady; [destruct (negb _ && negb auto); pure_steady|]. intros q s6 _ S6. at_pure. apply at_steady; [frame|]. intros [] s7 _ S7.
    assert (S : steady s1 s7).
    { transitivity s2; [done|]. transitivity s3; [done|]. transitivity s4; [done|]. transitivity s5; [done|]. by transitivity s6. }
    destruct S as (_ & SB & SP & SN). clear S2 S3 S4 S5 S6 S7.
    assert (BB : bang (ref_get s7) a = false) by (by apply SB).
    assert (RP : keeps right s7 (fst (set_profile a q s7))) by (apply right_set_profile; auto).
    apply at_bind; [apply _|exact RP|]. intros [] s8 _. do 2 at_pure. intros R8; exact R8. }
  clear HB. destruct (r_banished (ref_get s0 a)) eqn:Eb.
  - intros R0. unfold bind at 1. pose proof (come_back_right a s0 R0 Eb) as RC.
    destruct (come_back a s0) as [s1 [[]|e|e]] eqn:EC; [|exact RC|exact RC]. cbn [fst] in RC.
    apply back_facts in EC as (B1 & B2 & B3). destruct S0 as (_ & _ & S1 & S2). apply HF; [congruence|congruence|done|done].
  - intros R0. unfold bind at 1, ret. cbv beta iota. destruct S0 as (_ & _ & S1 & S2). by apply HF.
Qed.
Lemma right_refresh a s : keeps right s (fst (perform_refresh a s)).
Proof.
  apply right_must. unfold monthly. apply at_profile; [apply _|intros p EP]. at_pure.
  destruct (p_active (st_now s) p). { at_pure. eapply right_same_end; [exact EP|reflexivity|apply until_reset]. }
  destruct (p_autopay p); [|by apply right_must_active]. intros R. unfold bind, try. pose proof (right_pay_tariff a 0 true s R) as RP.
  destruct (pay_tariff a 0 true s) as [s1 [x|e|e]]; cbn [fst] in RP; [exact RP| |exact RP].
  revert RP. by apply right_must_active.
Qed.

(** ** Everything else *)
Lemma keeps_fields s s' : st_ref s' = st_ref s -> keeps right s s'.
Proof. intros E. exact (right_ref s s' E). Qed.
#[export] Hint Extern 1 (keeps right _ _) => (apply keeps_fields; reflexivity) : frame.
Lemma steady_right {A} (m : M A) : rel steady m -> rel (keeps right) m.
Proof. intros H s. exact (proj1 (H s)). Qed.
Lemma obc_keeps a : rel (keeps right) (on_balance_changed a).
Proof. apply steady_right, obc_steady. Qed.
Lemma bal_keeps a c : rel (keeps right) (set_balance a c).
Proof. apply steady_right, bal_steady. Qed.
#[export] Hint Resolve obc_keeps bal_keeps : frame.

(** Writing one record that differs only in what the network does not depend on *)
Lemma write_right a r s : like (ref_get s a) r -> right s -> right (s <| st_ref := <[ a := r ]> (st_ref s) |>).
Proof.
  intros L. apply sane_like. intros y. unfold ref_get at 2. cbn. destruct (N.eq_dec a y) as [->|Hy].
  - rewrite lookup_insert. exact L.
  - rewrite lookup_insert_ne by done. apply like_refl.
Qed.
Lemma right_cancel a : rel (keeps right) (cancel_transition a).
Proof. intros s R. apply write_right; [by split|done]. Qed.
Lemma right_set_transition a p : rel (keeps right) (set_transition a p).
Proof. intros s R. apply write_right; [by split|done]. Qed.
Lemma right_downgrade a : rel (keeps right) (perform_downgrade a).
Proof.
  intros s. apply right_must. intros R. apply right_cm; [|done]. apply cm_get.
  apply cm_bind; [done|same_ref|]. intros [b x] s1 E ES1. apply bu_downgrade_ok in E as (r2 & Q & ED & _).
  apply cm_commit'; [done|]. eapply sane_like; [|exact R]. intros y.
  rewrite (bu_get_ext b (bu_call EvStatus a b) s s1 y) by done.
  rewrite (bu_get_insert bu_new b a r2 s) by done. rewrite bu_get_new. destruct (N.eqb_spec y a) as [->|]; [|apply like_refl].
  eapply like_trans; [|apply eqs_like, Q]. eapply like_trans; [apply normalize_like|].
  cbv zeta. cbn [r_downgrade_at normalize]. destruct (r_downgrade_at _) as [t|]; [|apply like_refl]. destruct (_ <? _); [apply like_refl|by split].
Qed.
Lemma right_compression a : rel (keeps right) (perform_compression a).
Proof.
  intros s. unfold perform_compression. do 2 (apply at_get; [apply _|]).
  destruct (r_compression_at (ref_get s a)) as [t|] eqn:E; [|intros R; exact R]. destruct (_ <? _); [intros R; exact R|].
  apply right_must. intros R. destruct (sn_comp R a t E) as [H1 H2]. by apply compress_right.
Qed.
Lemma right_timeout a : rel (keeps right) (perform_transition_timeout a).
Proof. intros s. apply right_must, right_cancel. Qed.
(** A banishment, of an account nobody is under. *)
Lemma right_banish a s : refsg (ref_get s) a = [] -> keeps right s (fst (perform_banish a s)).
Proof.
  intros HR. apply right_must. unfold banish. apply at_bind; [apply _|intros R; by apply banish_right|]. intros [] s1 _.
  assert (RB : rel (keeps right) (on_banished a)) by frame. apply RB.
Qed.
Lemma right_create c a r p : a <> r -> rel (keeps right) (msg_create_account c a r p).
Proof.
  intros Har s. unfold msg_create_account. apply at_ensure; [apply _|]. intros HN.
  apply andb_true_iff in HN as [HN _]. apply andb_true_iff in HN as [_ HN]. apply negb_true_iff, N.eqb_neq in HN.
  do 3 at_pure. apply at_bind; [apply _| |].
  { assert (RB : rel (keeps right) (if (0 <? pp_rename_price (st_pp s)) && negb (bool_decide (c ∈ pp_creators (st_pp s)))
       then let! c0 := new_coins uartr (pp_rename_price (st_pp s)) in send_to_module c fee_collector c0 else ret tt)).
    { unfold new_coins. repeat first [progress rel_struct | apply steady_right, module_steady | frame]. }
    apply RB. }
  intros [] s1 _. unfold create_with_profile. apply at_steady; [frame|]. intros n s2 _ _.
  intros R2. unfold bind at 1. pose proof (append_right r a s2 (not_eq_sym Har) HN R2) as RA.
  destruct (append_child r a s2) as [s3 [[]|e|e]] eqn:EA; [|exact RA|exact RA]. cbn [fst] in RA.
  assert (HB : bang (ref_get s3) a = false).
  { pose proof (append_child_ok r a s2 s3 EA) as (HP & _ & _ & _ & HL & _). destruct (HL (not_eq_sym Har)) as [_ HL2].
    assert (HI : a ∈ refsg (ref_get s3) r).
    { unfold refsg. change (r_referrals (ref_get s3 r)) with (referrals s3 r). rewrite HL2. apply elem_of_app. right. left. }
    by apply (f_list (sn_forest RA)) in HI as [_ HI]. }
  revert RA.
  at_pure. apply at_steady; [frame|]. intros [] s4 _ S4. at_pure. apply right_set_profile. intros _. right. by apply S4.
Qed.
Lemma right_resolve x a b : okrel (keeps right) (msg_resolve_transition x a b).
Proof.
  unfold msg_resolve_transition. intros s s' [] H R. minv. destruct b.
  - eapply affirm_right; [exact R|exact H].
  - pose proof (right_cancel a s R) as RC. by rewrite H in RC.
Qed.

(** ** Histories *)
Lemma right_at {A} (m : M A) s s' x : (forall s, keeps right s (fst (m s))) -> m s = (s', Ok x) -> keeps right s s'.
Proof. intros H E. specialize (H s). by rewrite E in H. Qed.
Lemma right_request a b : rel (keeps right) (msg_request_transition a b).
Proof.
  unfold msg_request_transition, request_transition, new_coins.
  repeat first [progress rel_struct | apply steady_right, module_steady | apply right_set_transition | frame].
Qed.
Lemma right_msg m s s' : network_step (SMsg m) s -> run_msg m s = (s', Ok tt) -> keeps right s s'.
Proof.
  intros HS. destruct m; cbn [run_msg network_step] in *;
    try (apply right_at; intros s0;
         match goal with |- keeps right s0 (fst (?m s0)) => assert (RM : rel (keeps right) m) by frame; apply RM end).
  - apply right_at, right_request.
  - apply right_resolve.
  - apply right_at. intros s0. apply at_ensure; [apply _|intros _]. assert (RM : rel (keeps right) (switch_on a key)) by frame. apply RM.
  - apply right_at. by apply right_create.
  - apply right_at, right_update.
  - apply right_at. intros s0. unfold msg_pay_tariff, msg_buy_storage, msg_give_storage_up, msg_buy_vpn, msg_buy_im, msg_give_im_up.
    apply at_ensure; [apply _|intros _]. apply right_pay_tariff.
  - apply right_at. intros s0. unfold msg_pay_tariff, msg_buy_storage, msg_give_storage_up, msg_buy_vpn, msg_buy_im, msg_give_im_up.
    apply at_ensure; [apply _|intros _]. apply right_buy_storage.
  - apply right_at. intros s0. unfold msg_pay_tariff, msg_buy_storage, msg_give_storage_up, msg_buy_vpn, msg_buy_im, msg_give_im_up.
    apply at_ensure; [apply _|intros _]. apply right_give_storage.
  - apply right_at. intros s0. unfold msg_pay_tariff, msg_buy_storage, msg_give_storage_up, msg_buy_vpn, msg_buy_im, msg_give_im_up.
    apply at_ensure; [apply _|intros _]. apply right_buy_vpn.
  - apply right_at. intros s0. unfold msg_pay_tariff, msg_buy_storage, msg_give_storage_up, msg_buy_vpn, msg_buy_im, msg_give_im_up.
    apply at_ensure; [apply _|intros _]. apply right_buy_im.
  - apply right_at. intros s0. unfold msg_pay_tariff, msg_buy_storage, msg_give_storage_up, msg_buy_vpn, msg_buy_im, msg_give_im_up.
    apply at_ensure; [apply _|intros _]. apply right_give_im.
  - apply right_at, right_prolong.
Qed.
Lemma right_task t s : network_step (STask t) s -> keeps right s (after_task hooks t s).
Proof.
  intros HS. apply task_rel; [apply _|intros; apply keeps_fields; reflexivity|]. intros f Hf.
  destruct (t_hook t) eqn:EH; cbn in Hf; try discriminate Hf; injection Hf as <-; cbn [network_step] in HS.
  - apply right_downgrade.
  - apply right_compression.
  - apply right_timeout.
  - apply right_refresh.
  - apply right_monthly_im.
  - assert (RM : rel (keeps right) perform_vote) by frame. apply RM.
  - assert (RM : rel (keeps right) end_poll) by frame. apply RM.
  - assert (RM : rel (keeps right) (perform_revoking (t_data t))) by frame. apply RM.
  - assert (RM : rel (keeps right) (perform_accrue (t_data t) (t_time t))) by frame. apply RM.
  - apply right_banish. by apply HS.
Qed.
Theorem right_history bs s s' us : times_from (st_now s) bs -> (forall x s1, (x, s1) ∈ steps bs s -> network_step x s1) ->
  run_blocks bs s = Some (s', us) -> right s -> right s'.
Proof.
  intros HT HG H. change (keeps right s s'). eapply (hs_blocks (keeps right) network_step); [..|exact HT|exact HG|exact H].
  - intros. apply keeps_fields. reflexivity.
  - intros. apply okrel_rel. frame.
  - apply right_task.
  - intros. apply keeps_fields. reflexivity.
  - intros. apply okrel_rel. frame.
  - apply right_msg.
  - apply okrel_rel. frame.
Qed.
