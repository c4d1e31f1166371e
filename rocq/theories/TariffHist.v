(** * The price of a subscription; who pays for activity *)
From Coq Require Import QArith Qround.
From Verif Require Import Spec_Pure FracProofs FeeProofs DelegProofs PureLemmas.
From Verif Require Export NameHist.
Open Scope Z_scope.

Lemma oget_some {A B} (o : option A) (f : A -> option B) y : oget o f = Some y -> exists x, o = Some x /\ f x = Some y.
Proof. unfold oget, Frac.obind. destruct o; [eauto|discriminate]. Qed.
Lemma asked_ok s p g b : tariff_storage (st_pp s) p g = Some b -> b = storage_asked s p g.
Proof.
  unfold tariff_storage, storage_asked. destruct (g =? 0); [congruence|]. destruct (g <? _); [done|]. destruct (_ <? _); [done|]. congruence.
Qed.
Lemma quo_den n d z : Frac.quo n d = Some z -> d <> 0.
Proof. unfold Frac.quo. destruct (Z.eqb_spec d 0); [done|done]. Qed.
Lemma reduce_den x r : Frac.reduce x = Some r -> Frac.fden r <> 0 -> Frac.fden x <> 0.
Proof.
  intros H Hr E. unfold Frac.reduce in H. rewrite E in H. cbn in H. rewrite Z.gcd_0_r in H. unfold Frac.quo in H.
  destruct (Z.abs (Frac.fnum x) =? 0); [discriminate|]. cbn in H. injection H as <-. cbn in Hr. done.
Qed.
Lemma mul_den x y r : Frac.mul x y = Some r -> Frac.fden r <> 0 -> Frac.fden x <> 0 /\ Frac.fden y <> 0.
Proof. intros H Hr. apply reduce_den in H; [|done]. cbn in H. lia. Qed.
Lemma base_price s base : oget (Frac.mul_int (pp_token_rate (st_pp s)) (pp_sub_price (st_pp s))) Frac.big_int = Some base ->
  Frac.fden (pp_token_rate (st_pp s)) <> 0 /\ base = month_price s.
Proof.
  intros H. apply oget_some in H as (r & Hr & Hb).
  assert (HD : Frac.fden (pp_token_rate (st_pp s)) <> 0).
  { unfold Frac.mul_int in Hr. apply mul_den in Hr as [? _]; [done|]. unfold Frac.big_int in Hb. by apply quo_den in Hb. }
  split; [done|]. destruct (mul_int_qval _ (pp_sub_price (st_pp s)) HD) as (r' & Hr' & HP & HV). assert (r' = r) as -> by congruence.
  rewrite c03_truncation in Hb by lia. injection Hb as <-. unfold month_price. by apply trunc_eq.
Qed.
Lemma extra_price s p b sf extra : Frac.fden (pp_token_rate (st_pp s)) <> 0 -> storage_fits s p b ->
  tariff_storage_fee s p b = Some sf -> Frac.big_int sf = Some extra -> extra = surcharge s p b.
Proof.
  intros HD (HDay & HB & HL & HBase & HProd & HU). unfold tariff_storage_fee.
  assert (HRange : - 2^63 <= b - pp_base_storage (st_pp s) * gb < 2^63) by lia.
  rewrite (wrap64_id b) by lia. rewrite (wrap64_id (b - _)) by lia. rewrite (wrap64_id (_ * _)) by lia.
  rewrite (wrap64_id (p_storage_limit p)) by lia. rewrite (wrap64_id (b - p_storage_limit p)) by lia.
  destruct (mul_int_qval _ ((b - pp_base_storage (st_pp s) * gb) * pp_storage_price (st_pp s)) HD) as (f1 & E1 & P1 & V1).
  rewrite E1. cbn [oget Frac.obind].
  destruct (div_int_qval f1 gb ltac:(lia) ltac:(done)) as (f2 & E2 & P2 & V2). rewrite E2. cbn [oget Frac.obind].
  destruct (reduce_qval f2 ltac:(lia)) as (f3 & E3 & P3 & _ & V3). rewrite E3. cbn [oget Frac.obind].
  assert (VN : (qval f3 == storage_price s (b - pp_base_storage (st_pp s) * gb))%Q).
  { rewrite V3, V2, V1. unfold storage_price. rewrite inject_Z_mult. field. done. }
  assert (HT : forall f, f = sf -> (qval f == storage_price s (b - pp_base_storage (st_pp s) * gb))%Q -> 0 < Frac.fden f ->
    Frac.big_int sf = Some extra -> extra = trunc (storage_price s (b - pp_base_storage (st_pp s) * gb))).
  { intros f <- HV HP H. rewrite c03_truncation in H by lia. injection H as <-. by apply trunc_eq. }
  unfold surcharge, active_now. destruct (p_until p) as [t|] eqn:EU; [|intros [= <-] H; by eapply HT].
  destruct (Z.ltb_spec (st_now s) t) as [HA|HA]; cbn [andb]; [|intros [= <-] H; by eapply HT].
  destruct (negb (b =? p_storage_limit p)); [|intros [= <-] H; by eapply HT]. clear HT.
  unfold month_part. specialize (HU t eq_refl).
  assert (HS : sat64 (t - st_now s) = t - st_now s) by (unfold sat64; lia). rewrite HS.
  assert (HM : one_month s <> 0) by (unfold one_month, one_day; lia).
  destruct (reduce_qval (Frac.new_fraction (t - st_now s) (one_month s)) HM) as (part & Ep & Pp & _ & Vp).
  rewrite Ep. cbn [oget Frac.obind].
  destruct (mul_int_qval _ (b - p_storage_limit p) HD) as (g1 & G1 & Q1 & W1). rewrite G1. cbn [oget Frac.obind].
  destruct (div_int_qval g1 gb ltac:(lia) ltac:(done)) as (g2 & G2 & Q2 & W2). rewrite G2. cbn [oget Frac.obind].
  destruct (reduce_qval g2 ltac:(lia)) as (g3 & G3 & Q3 & _ & W3). rewrite G3. cbn [oget Frac.obind].
  destruct (mul_int_qval g3 (pp_storage_price (st_pp s)) ltac:(lia)) as (g4 & G4 & Q4 & W4). rewrite G4. cbn [oget Frac.obind].
  destruct (mul_qval g4 part ltac:(lia) ltac:(lia)) as (g5 & G5 & Q5 & _ & W5). rewrite G5. cbn [oget Frac.obind].
  destruct (reduce_qval g5 ltac:(lia)) as (g6 & G6 & Q6 & _ & W6). rewrite G6. cbn [oget Frac.obind].
  destruct (add_qval f3 g6 ltac:(lia) ltac:(lia)) as (h & H1 & HP & HV). rewrite H1. cbn [oget Frac.obind].
  assert (VH : (qval h == storage_price s (b - pp_base_storage (st_pp s) * gb)
    + storage_price s (b - p_storage_limit p) * (inject_Z (t - st_now s) / inject_Z (one_month s)))%Q).
  { rewrite HV, VN, W6, W5, W4, W3, W2, W1, Vp. unfold storage_price, qval, Frac.new_fraction. cbn [Frac.fnum Frac.fden].
    field. repeat split; by apply inj_nz. }
  intros [= <-] HX. rewrite <-(Qfloor_comp _ _ VH). clear VN V3 V2 V1 W6 W5 W4 W3 W2 W1 Vp HV VH.
  destruct (Frac.is_negative h) eqn:EN.
  - apply is_negative_spec in EN; [|lia]. cbn in HX. injection HX as <-.
    assert (Qfloor (qval h) < 0); [|lia]. rewrite Zlt_Qlt. eapply Qle_lt_trans; [apply Qfloor_le|exact EN].
  - assert (HN : (0 <= qval h)%Q).
    { destruct (Qlt_le_dec (qval h) 0) as [H|H]; [|done]. apply is_negative_spec in H; [congruence|lia]. }
    rewrite c03_truncation in HX by lia. injection HX as <-. unfold trunc. rewrite (proj2 (Qle_bool_iff _ _) HN).
    assert (0 <= Qfloor (qval h)); [|lia]. change 0 with (Qfloor 0). by apply Qfloor_resp_le.
Qed.

(** ** A payment *)
Lemma calm_touch a : rel calm (touch_account a).
Proof.
  intros s. pose proof (op_touch a s) as HO. unfold touch_account in *. rewrite run_get in *. destruct (acc_exists s a); [cbn; reflexivity|].
  by apply calm_fields.
Qed.
Lemma calm_active a v : rel calm (must_set_active a v).
Proof. frame. Qed.
Lemma until_renewed s p b auto u : p_until (renewed s p b auto u) = Some u.
Proof. unfold renewed, reset_limits. cbv zeta. repeat match goal with |- context [if ?c then _ else _] => destruct c end; done. Qed.
Lemma active_same s p : p_active (st_now s) p = active_now s p.
Proof. done. Qed.
Lemma calm_money s s' : calm s s' -> st_bal s' = st_bal s /\ st_supply s' = st_supply s /\ st_rp s' = st_rp s.
Proof.
  intros [_ E]. split_and!.
  - exact (f_equal (fun v => v.1.1.1.1.1.1) E).
  - exact (f_equal (fun v => v.1.1.1.1.1.2) E).
  - exact (f_equal (fun v => v.1.1.2) E).
Qed.
Lemma pay_tariff_paid a g auto s s' r : pay_tariff a g auto s = (s', r) ->
  (opens s s' /\ forall x, r <> Ok x) \/
  exists p, st_prof s !! a = Some p /\
    ((st_prof s' = st_prof s /\ forall x, r <> Ok x) \/ tariff_paid s s' a p g auto).
Proof.
  intros H.
  apply pay_tariff_out in H as [H|(p & b & base & fee & sf & extra & s1 & s2 & s3 & u & EP & EB & EBase & EFee & ESf & EX & HF & C1 & HIO & O2 & C3 & EU & ES & EOk)]; [by left|].
  right. exists p. split; [done|].
  assert (O : opens s s3) by (transitivity s1; [apply C1|]; transitivity s2; [done|apply C3]).
  assert (EP3 : st_prof s3 !! a = Some p) by (by rewrite (opens_prof _ _ O)).
  pose proof (core_renewed s p b auto u) as HC. pose proof (until_renewed s p b auto u) as HU. set (p' := renewed s p b auto u) in *. clearbody p'.
  assert (EN : p_nick p' = p_nick p) by exact (f_equal fst HC). assert (EC : p_card p' = p_card p) by exact (f_equal snd HC).
  destruct (set_profile_two calm a p p' s3 (calm_touch a) (calm_active a) EP3 EN EC) as [[E EE]|E]; rewrite <- ES in E.
  - left. split; [rewrite E; by apply opens_prof|]. intros x Hr. specialize (EOk x Hr). apply (EE tt). by rewrite EOk.
  - right. unfold tariff_paid. cbv zeta. apply asked_ok in EB. subst b. apply base_price in EBase as [HD EB]. subst base.
    apply io_ok in HIO as (_ & HB & _ & HS & _).
    destruct (calm_money _ _ C1) as (B1 & S1 & R1). destruct (calm_money _ _ C3) as (B3 & S3 & R3). destruct (calm_money _ _ E) as (B4 & S4 & R4).
    cbn in B4, S4, R4.
    assert (BB : forall x d, bal s' x d = bal s2 x d) by (intros x d; unfold bal, balance; by rewrite B4, B3).
    assert (BB1 : forall x d, bal s1 x d = bal s x d) by (intros x d; unfold bal, balance; by rewrite B1).
    exists (month_price s + extra), fee, p'. split_and!; try done; try lia.
    + intros Hfit. f_equal. by eapply extra_price.
    + unfold paid. split_and!.
      * intros x. rewrite BB, HB, BB1. cbn [share fst snd]. rewrite !amt_coins_of. destruct (Z.eqb_spec fee 0) as [->|Hf]; cbn [share]; rewrite ?amt_coins_of, ?N.eqb_refl; unfold at_; repeat (destruct (_ =? _)%N; try lia).
      * intros x d Hd. rewrite BB, HB, BB1. cbn [share fst snd]. rewrite !amt_coins_of. destruct (Z.eqb_spec fee 0) as [->|Hf]; cbn [share]; rewrite ?amt_coins_of, ?(proj2 (N.eqb_neq d uartr) Hd); unfold at_; repeat (destruct (_ =? _)%N; try lia).
      * unfold supply. rewrite S4, S3, HS, S1. done.
    + apply opens_parts in O as (_ & O & _). destruct E as [(_ & E & _)%opens_parts _]. cbn in E. by rewrite E, O.
    + rewrite HU. symmetry. exact EU.
Qed.

(** ** Who is active: histories *)
Definition asteps : St -> St -> Prop := rtc astep.
#[export] Instance asteps_preorder : PreOrder asteps.
Proof. unfold asteps. split; [intros s; apply rtc_refl|intros x y z; apply rtc_transitive]. Qed.
Lemma same_until s s' : kept_all s s' -> forall a, until s' a = until s a.
Proof.
  intros (_ & _ & _ & P) a. specialize (P a). unfold until.
  destruct (st_prof s !! a) as [p|], (st_prof s' !! a) as [p'|]; try discriminate; [|done]. cbn in P. by injection P.
Qed.
Lemma astep_kept s s' : kept_all s s' -> asteps s s'.
Proof. intros H. apply rtc_once, A_same. by apply same_until. Qed.
Lemma astep_rel {A} (m : M A) : rel kept_all m -> rel asteps m.
Proof. intros H s. apply astep_kept, H. Qed.
Lemma astep_tariff a g auto : rel asteps (pay_tariff a g auto).
Proof.
  intros s. destruct (pay_tariff a g auto s) as [s' r] eqn:H. cbn.
  apply pay_tariff_paid in H as [[H _]|(p & EP & [[H _]|H])].
  - by apply astep_kept, all_opens.
  - apply rtc_once, A_same. intros x. unfold until. by rewrite H.
  - apply rtc_once, (A_pay _ _ a); [by exists p, g, auto|]. destruct H as (? & ? & p' & _ & _ & _ & _ & E & _).
    intros y Hy. unfold until. by rewrite E, lookup_insert_ne.
Qed.
Lemma core3_reset pp p : core3 (reset_limits pp p) = core3 p.
Proof. unfold reset_limits. cbv zeta. repeat match goal with |- context [if ?c then _ else _] => destruct c end; done. Qed.
Lemma astep_monthly a : rel asteps (monthly a).
Proof.
  intros s. unfold monthly. apply at_profile; [apply _|intros p E]. apply at_get; [apply _|].
  destruct (p_active _ p). { apply at_get; [apply _|]. apply astep_kept. eapply ka_set_profile; [exact E|apply core3_reset]. }
  destruct (p_autopay p); [|apply astep_rel, rel_all, op_must_active].
  apply at_bind; [apply _| |].
  - unfold try. pose proof (astep_tariff a 0 true s) as H. destruct (pay_tariff a 0 true s) as [s1 [x|e|e]]; exact H.
  - intros [x|e] s1 _; [cbn; reflexivity|apply astep_rel, rel_all, op_must_active].
Qed.
Lemma astep_hook h f a t : hooks h = Some f -> rel asteps (f a t).
Proof.
  assert (HM : forall m : M unit, rel asteps m -> rel asteps (must m)).
  { intros m H s. specialize (H s). unfold must. by destruct (m s) as [s1 [x|e|e]]. }
  intros H. destruct h; try discriminate; injection H as <-; try (apply astep_rel; cbv beta; frame).
  - apply HM, astep_monthly.
  - apply HM, astep_rel, ka_monthly_im.
Qed.
Lemma astep_msg m s s' : names_ok s -> msg_unpaid m -> run_msg m s = (s', Ok tt) -> asteps s s'.
Proof.
  intros HN HU H.
  assert (HR : forall A (n : M A) x, rel asteps n -> n s = (s', x) -> asteps s s') by (intros A n x Hn E; specialize (Hn s); by rewrite E in Hn).
  destruct m; cbn [run_msg] in H; try (eapply HR; [|exact H]; apply astep_rel; frame).
  - eapply HR; [|exact H]. apply astep_rel. apply rel_bind; [apply _|apply rel_ensure, _|intros []]. frame.
  - apply names_create in H as (EX & s1 & p' & n & O1 & EP' & _ & _ & _ & _ & _ & EP & _); [|done].
    apply rtc_once, A_same. intros x. unfold until. rewrite EP, (opens_prof _ _ O1). destruct (decide (a = x)) as [<-|Hx]; [|by rewrite lookup_insert_ne].
    rewrite lookup_insert, EX, EP'. cbn. cbn in HU. by destruct p.
  - apply names_update in H as (o & Eo & _ & _ & EP & _); [|done]. apply rtc_once, A_same. intros x. unfold until. rewrite EP.
    destruct (decide (a = x)) as [<-|Hx]; [|by rewrite lookup_insert_ne]. rewrite lookup_insert, Eo.
    clear. revert o. induction us as [|u us IH]; intros o; [done|]. cbn [fold_left]. rewrite IH. by destruct u.
  - eapply HR; [|exact H]. apply astep_rel. unfold msg_set_storage_current. apply rel_bind; [apply _|apply rel_get, _|intros pp]. apply rel_bind; [apply _|apply rel_ensure, _|intros []].
    by apply ka_write_profile.
  - eapply HR; [|exact H]. apply astep_rel. unfold msg_set_vpn_current. apply rel_bind; [apply _|apply rel_get, _|intros pp]. apply rel_bind; [apply _|apply rel_ensure, _|intros []].
    by apply ka_write_profile.
  - eapply HR; [|exact H]. apply rel_bind; [apply _|apply rel_ensure, _|intros []]. apply astep_tariff.
  - eapply HR; [|exact H]. apply astep_rel. apply rel_bind; [apply _|apply rel_ensure, _|intros []]. apply ka_buy_storage.
  - eapply HR; [|exact H]. apply astep_rel. apply rel_bind; [apply _|apply rel_ensure, _|intros []]. apply ka_give_storage_up.
  - eapply HR; [|exact H]. apply astep_rel. apply rel_bind; [apply _|apply rel_ensure, _|intros []]. apply ka_buy_vpn.
  - eapply HR; [|exact H]. apply astep_rel. apply rel_bind; [apply _|apply rel_ensure, _|intros []]. apply ka_buy_im.
  - eapply HR; [|exact H]. apply astep_rel. apply rel_bind; [apply _|apply rel_ensure, _|intros []]. apply ka_give_im_up.
  - eapply HR; [|exact H]. apply astep_rel. apply ka_prolong_im.
Qed.
Definition time_rel (s s' : St) : Prop := names_ok s -> names_ok s' /\ asteps s s'.
#[export] Instance time_rel_preorder : PreOrder time_rel.
Proof.
  split; [by intros s|]. intros s1 s2 s3 H1 H2 H. destruct (H1 H) as (N1 & R1). destruct (H2 N1) as (N2 & R2).
  split; [done|]. by etransitivity.
Qed.
Lemma time_kept s s' : kept_all s s' -> time_rel s s'.
Proof. intros K H. split; [eapply names_kept; [by apply kept_weaken|done]|by apply astep_kept]. Qed.
Lemma time_blocks bs s s' us : times_from (st_now s) bs -> Forall (fun b => Forall tx_unpaid (b_txs b)) bs ->
  run_blocks bs s = Some (s', us) -> time_rel s s'.
Proof.
  intros HT HU. apply (bl_blocks time_rel tx_unpaid); [..|done|done].
  - intros b s0 _. apply time_kept. by apply kept_all_fields.
  - intros p v e s0 s1 x H. apply time_kept. assert (HR : rel kept_all (noding_begin p v e)) by frame. specialize (HR s0). by rewrite H in HR.
  - intros t s0 HN. split; [eapply names_kept; [apply kn_task|done]|].
    apply task_rel; [apply _|intros; by apply astep_kept, kept_all_fields|]. intros f Hf. by eapply astep_hook.
  - intros ks s0. apply time_kept. by apply kept_all_fields.
  - intros t s0 Ht. apply tx_rel; [apply _| |].
    + intros s1 s2 x H. apply time_kept. assert (HR : rel kept_all (ante t)).
      { unfold ante. apply rel_bind; [apply _|apply rel_ensure, _|intros []]. apply rel_bind; [apply _|apply rel_get, _|intros ok].
        do 2 (apply rel_bind; [apply _|apply rel_ensure, _|intros []]). case_decide; [apply rel_ret, _|].
        unfold send_to_module. apply rel_bind; [apply _|apply ka_touch|intros []]. frame. }
      specialize (HR s1). by rewrite H in HR.
    + intros m Hm s1 s2 [] H HN. split; [by apply (names_msg m s1 s2 tt H)|]. eapply astep_msg; [done| |exact H].
      unfold tx_unpaid in Ht. rewrite Forall_forall in Ht. by apply Ht.
  - intros s0 s1 x H. apply time_kept. assert (HR : rel kept_all end_block) by frame. specialize (HR s0). by rewrite H in HR.
Qed.
(** A change of the paid time of one account shows a payment by it. *)
Lemma astep_change s s' a : rtc astep s s' -> until s' a <> until s a ->
  exists s1 s2, rtc astep s s1 /\ pays a s1 s2 /\ rtc astep s2 s'.
Proof.
  induction 1 as [s|s s1 s' H HR IH]; [done|]. intros HN.
  destruct (decide (until s1 a = until s a)) as [E|E].
  - rewrite <-E in HN. destruct (IH HN) as (x & y & H1 & H2 & H3). exists x, y. split; [by eapply rtc_l|done].
  - destruct H as [H|b Hb H].
    + by specialize (H a).
    + assert (b = a) as -> by (destruct (decide (b = a)); [done|]; by destruct E; apply H). by exists s, s1.
Qed.

(** ** The storage and the traffic after a payment *)
Lemma tariff_storage_ok a g s s' p : pay_tariff a g false s = (s', Ok tt) -> st_prof s !! a = Some p ->
  active_now s p = true -> g <> 0 -> exists p', st_prof s' !! a = Some p' /\ p_storage_limit p' = g * gb.
Proof.
  intros H EP HA Hg.
  apply pay_tariff_out in H as [[_ H]|(p0 & b & base & fee & sf & extra & s1 & s2 & s3 & u & EP0 & EB & _ & _ & _ & _ & _ & C1 & _ & O2 & C3 & _ & _ & EOk)]; [by destruct (H tt)|].
  assert (p0 = p) as -> by congruence.
  assert (O : opens s s3) by (transitivity s1; [apply C1|]; transitivity s2; [done|apply C3]).
  specialize (EOk tt eq_refl). apply set_profile_ok in EOk as (_ & E & _).
  2: { intros o. rewrite (opens_prof _ _ O), EP. intros [= <-]. exact (f_equal snd (core_renewed s p b false u)). }
  eexists. rewrite E, lookup_insert. split; [done|]. unfold renewed. rewrite active_same, HA. cbn [negb andb].
  apply asked_ok in EB. unfold storage_asked in EB. destruct (Z.eqb_spec g 0); [done|].
  destruct (Z.eqb_spec b (p_storage_limit p)); cbn; congruence.
Qed.
Lemma reset_vpn s p : vpn_fits s p ->
  p_vpn_limit (reset_limits (st_pp s) p) = vpn_after s p /\ p_vpn_cur (reset_limits (st_pp s) p) = 0.
Proof.
  intros (H1 & H2 & H3). unfold reset_limits, vpn_after. cbv zeta. set (base := pp_base_vpn (st_pp s) * gb) in *.
  assert (0 <= base) by (unfold base, gb; lia).
  assert (HS : forall q, p_vpn_limit (if p_storage_limit q =? 0 then q <| p_storage_limit := pp_base_storage (st_pp s) * gb |> else q) = p_vpn_limit q /\
    p_vpn_cur (if p_storage_limit q =? 0 then q <| p_storage_limit := pp_base_storage (st_pp s) * gb |> else q) = p_vpn_cur q) by (intros q; by destruct (_ =? _)).
  match goal with |- p_vpn_limit (if p_storage_limit ?q =? 0 then _ else _) = _ /\ _ => destruct (HS q) as [-> ->] end. clear HS.
  destruct (Z.ltb_spec base (p_vpn_cur p)).
  - cbn [p_vpn_limit p_vpn_cur set]. 
    assert (w64 (p_vpn_limit p - (p_vpn_cur p - base)) = p_vpn_limit p - (p_vpn_cur p - base)) as HW by (unfold w64; apply Z.mod_small; lia).
    cbn. rewrite HW. destruct (Z.ltb_spec (p_vpn_limit p - (p_vpn_cur p - base)) base); cbn; lia.
  - cbn. destruct (Z.ltb_spec (p_vpn_limit p) base); cbn; lia.
Qed.
Lemma renewed_vpn s p b auto u : vpn_fits s p ->
  (p_vpn_limit (renewed s p b auto u) = p_vpn_limit p /\ p_vpn_cur (renewed s p b auto u) = p_vpn_cur p) \/
  (p_vpn_limit (renewed s p b auto u) = vpn_after s p /\ p_vpn_cur (renewed s p b auto u) = 0).
Proof.
  intros HF. unfold renewed. cbv zeta.
  match goal with |- context [reset_limits (st_pp s) ?q] => set (p2 := q) end.
  assert (E : p_vpn_limit p2 = p_vpn_limit p /\ p_vpn_cur p2 = p_vpn_cur p) by (subst p2; by destruct (_ && negb (b =? _))).
  clearbody p2. destruct E as [E1 E2].
  assert (HR : p_vpn_limit (reset_limits (st_pp s) p2) = vpn_after s p /\ p_vpn_cur (reset_limits (st_pp s) p2) = 0).
  { assert (HV : vpn_after s p = vpn_after s p2) by (unfold vpn_after; by rewrite E1, E2). rewrite HV. apply reset_vpn.
    unfold vpn_fits. by rewrite E1, E2. }
  destruct (_ && negb auto); [by right|]. destruct auto; [by right|by left].
Qed.
Lemma set_profile_vpn a o p s : st_prof s !! a = Some o -> core p = core o ->
  exists q, st_prof (fst (set_profile a p s)) !! a = Some q /\ (q = o \/ q = p).
Proof.
  intros E EC. assert (EN : p_nick p = p_nick o) by exact (f_equal fst EC). assert (EC' : p_card p = p_card o) by exact (f_equal snd EC).
  destruct (set_profile_two calm a o p s (calm_touch a) (calm_active a) E EN EC') as [[-> _]|H].
  - exists o. auto.
  - destruct H as [(_ & H & _)%opens_parts _]. rewrite H. cbn. rewrite lookup_insert. eauto.
Qed.
Lemma tariff_vpn a g auto s p : st_prof s !! a = Some p -> vpn_fits s p ->
  exists q, st_prof (fst (pay_tariff a g auto s)) !! a = Some q /\ (vpn_same p q \/ vpn_reset s p q).
Proof.
  intros EP HF. destruct (pay_tariff a g auto s) as [s' r] eqn:H. cbn.
  apply pay_tariff_out in H as [[H _]|(p0 & b & base & fee & sf & extra & s1 & s2 & s3 & u & EP0 & _ & _ & _ & _ & _ & _ & C1 & _ & O2 & C3 & _ & -> & _)].
  { exists p. rewrite (opens_prof _ _ H). split; [done|]. by left. }
  assert (p0 = p) as -> by congruence.
  assert (O : opens s s3) by (transitivity s1; [apply C1|]; transitivity s2; [done|apply C3]).
  assert (EP3 : st_prof s3 !! a = Some p) by (by rewrite (opens_prof _ _ O)).
  destruct (set_profile_vpn a p (renewed s p b auto u) s3 EP3 (core_renewed s p b auto u)) as (q & Eq & [->| ->]); eexists; (split; [exact Eq|]).
  - by left.
  - by apply renewed_vpn.
Qed.
Lemma monthly_vpn a s p : st_prof s !! a = Some p -> vpn_fits s p ->
  exists q, st_prof (fst (monthly a s)) !! a = Some q /\ (vpn_same p q \/ vpn_reset s p q).
Proof.
  intros EP HF. unfold monthly, get_profile. rewrite (run_of _ _ s s p) by (rewrite run_get, EP; done). rewrite run_get.
  destruct (p_active _ p).
  { rewrite run_get. destruct (set_profile_vpn a p (reset_limits (st_pp s) p) s EP (core_reset _ _)) as (q & Eq & [->| ->]); eexists; (split; [exact Eq|]).
    - by left.
    - right. by apply reset_vpn. }
  assert (HM : forall s1, st_prof (fst (must_set_active a false s1)) = st_prof s1) by (intros s1; apply opens_prof, op_must_active).
  destruct (p_autopay p); [|exists p; rewrite HM; split; [done|by left]].
  destruct (tariff_vpn a 0 true s p EP HF) as (q & Eq & Hq). exists q. split; [|done].
  unfold bind, try. destruct (pay_tariff a 0 true s) as [s1 [x|e|e]]; cbn [fst] in *; [done|by rewrite HM|done].
Qed.

(** ** A failed renewal *)
Lemma fee_taken_none s s' a : st_bal s' = st_bal s -> fee_taken s s' a 0.
Proof. intros E. assert (HB : forall x d, bal s' x d = bal s x d) by (intros; unfold bal, balance; by rewrite E). split; intros x; rewrite ?HB; [|done]. unfold at_. repeat destruct (_ =? _)%N; lia. Qed.
Lemma send_err a b c s s' e : bal_ok s -> send_coins a b c s = (s', Err e) -> s' = s \/ (aborts s < aborts s')%nat.
Proof.
  intros Hok H. unfold send_coins, bind in H. destruct (subtract_coins a c s) as [s1 [[]|e1|e1]] eqn:E1.
  - pose proof (run_keeps _ _ _ _ _ (bal_ok_subtract a c) E1 Hok) as Hok1.
    apply subtract_ok in E1 as (V & _ & _ & _ & _ & L). apply add_err in H; [|done..].
    right. rewrite <- (aborts_same s s1); done.
  - injection H as -> _. apply subtract_err in E1 as [->|]; auto.
  - discriminate.
Qed.
Lemma touch_money a : rel (same (fun s => (st_bal s, st_log s))) (touch_account a).
Proof. intros s. unfold touch_account. rewrite run_get. by destruct (acc_exists s a). Qed.
Lemma fee_err a c s s' e : bal_ok s -> pay_tx_fee a c s = (s', Err e) -> st_bal s' = st_bal s \/ (aborts s < aborts s')%nat.
Proof.
  intros Hok H. unfold pay_tx_fee in H.
  unfold bind at 1, assert in H. destruct (forallb _ _); [|discriminate]. cbn [ret] in H.
  match goal with H : bind ?m _ s = _ |- _ => assert (HR : rel eq m) end.
  { destruct (decide (c = ∅)); [apply rel_ret, _|]. unfold tx_fee. apply rel_bind; [apply _| |].
    - apply rel_bind; [apply _|apply rel_get, _|intros f; apply rel_lift, _].
    - intros f. unfold new_coins. apply rel_bind; [apply _|apply rel_assert, _|intros []; apply rel_ret, _]. }
  match goal with H : bind ?m _ s = _ |- _ => specialize (HR s); destruct (m s) as [s1 [f|e1|e1]] eqn:H1; [rewrite (run_of _ _ _ _ _ H1) in H|rewrite (run_err _ _ _ _ _ H1) in H; injection H as <- _; left; by rewrite HR|rewrite (run_panic _ _ _ _ _ H1) in H; discriminate] end.
  cbn in HR. subst s1. destruct (decide (f = ∅)); [discriminate|]. unfold bind at 1 in H. destruct (send_to_module a splitter f s) as [s1 [[]|e1|e1]] eqn:H2; try discriminate.
  injection H as <- _. unfold send_to_module in H2. pose proof (touch_money splitter s) as HT.
  destruct (touch_account splitter s) as [s2 [[]|e2|e2]] eqn:H3; unfold same in HT; cbn in HT; injection HT as HB HL.
  - rewrite (run_of _ _ _ _ _ H3) in H2. destruct (send_err a splitter f s2 s1 e1) as [->|HA]; [|done|by left|].
    + unfold bal_ok in *. by rewrite HB.
    + right. by rewrite <-(aborts_same s s2).
  - rewrite (run_err _ _ _ _ _ H3) in H2. injection H2 as -> _. left. done.
  - rewrite (run_panic _ _ _ _ _ H3) in H2. discriminate.
Qed.
Lemma company_err a n s s' e : bal_ok s -> pay_company a n s = (s', Err e) ->
  (aborts s < aborts s')%nat \/ exists f, 0 <= f /\ (f = 0 \/ fee_of n s = Some f) /\ fee_taken s s' a f.
Proof.
  intros Hok H. unfold pay_company in H. unfold bind at 1, new_coins, bind at 1, assert at 1 in H.
  destruct (0 <=? n); [|discriminate]. cbn [ret] in H.
  unfold bind at 1 in H. destruct (pay_tx_fee a (coins_of uartr n) s) as [s1 [f|e1|e1]] eqn:H1; try discriminate.
  2: { injection H as -> _. apply fee_err in H1 as [H1|H1]; [|by left|done]. right. exists 0. split; [lia|]. split; [by left|]. by apply fee_taken_none. }
  assert (Hok1 : bal_ok s1) by (eapply (run_keeps _ (pay_tx_fee a (coins_of uartr n))); [auto 8 with frame|exact H1|done]).
  apply pay_tx_fee_ok in H1 as (x & Hx & H0 & -> & _ & HB & _ & _ & HL).
  unfold bind at 1, assert in H. destruct (coins_ge _ _); [|discriminate]. cbn [ret] in H. rewrite run_get in H.
  apply send_err in H as [->|H]; [|left; by rewrite <-(aborts_same s s1)|done].
  right. exists x. split; [done|]. split.
  - destruct (decide (coins_of uartr n = ∅)); [by left|]. right. by rewrite amt_coins_of, N.eqb_refl in Hx.
  - split; intros y; [|intros d Hd]; rewrite HB, amt_coins_of; [by rewrite N.eqb_refl|]. rewrite (proj2 (N.eqb_neq d uartr) Hd). unfold at_. repeat destruct (_ =? _)%N; lia.
Qed.
Lemma prolong_err a p s s' e : bal_ok s -> prolong_core a p s = (s', Err e) ->
  (aborts s < aborts s')%nat \/ exists f, 0 <= f /\ (f = 0 \/ exists n, 0 < n /\ fee_of n s = Some f /\
     (0 <= p_im_extra p < 2^63 -> - 2^63 <= p_im_extra p * pp_storage_price (st_pp s) < 2^63 -> - 2^63 <= im_price s p < 2^63 -> n = im_price s p)) /\ fee_taken s s' a f.
Proof.
  intros Hok H.
  assert (Z0 : exists f, 0 <= f /\ (f = 0 \/ exists n, 0 < n /\ fee_of n s = Some f /\
     (0 <= p_im_extra p < 2^63 -> - 2^63 <= p_im_extra p * pp_storage_price (st_pp s) < 2^63 -> - 2^63 <= im_price s p < 2^63 -> n = im_price s p)) /\ fee_taken s s a f).
  { exists 0. split; [lia|]. split; [by left|]. by apply fee_taken_none. }
  unfold prolong_core in H. destruct (p_im_until p) as [u|]; [|injection H as <- _; by right].
  unfold bind at 1, ensure in H. destruct (negb _); [|injection H as <- _; by right]. cbn [ret] in H. rewrite run_get in H.
  unfold bind at 1, fr, lift in H. destruct (oget _ _) as [n|] eqn:EN; [|discriminate]. cbn [ret] in H.
  unfold bind at 1, assert in H. destruct (Z.ltb_spec 0 n) as [Hn|Hn]; [|discriminate]. cbn [ret] in H.
  unfold bind at 1 in H. destruct (pay_company a n s) as [s1 [[]|e1|e1]] eqn:H1; try discriminate.
  - exfalso. rewrite run_get in H. unfold delete_task, delete_where in H.
    unfold bind at 1, bind at 1 in H. unfold check_key at 1, assert at 1 in H. destruct (key_ok u); [|discriminate]. cbn [ret modify] in H.
    unfold schedule_task, schedule_task' in H. unfold bind at 1, bind at 1 in H. unfold check_key, assert in H.
    destruct (key_ok _); discriminate.
  - injection H as -> _. apply company_err in H1; [|done].
    destruct H1 as [H1|(f & H0 & Hf & HT)]; [by left|]. right. exists f. split; [done|]. split; [|done].
      destruct Hf as [Hf|Hf]; [by left|]. right. exists n. split; [done|]. split; [done|].
      intros HX HP HI. apply oget_some in EN as (r & Er & Ei). rewrite (wrap64_id (p_im_extra p)), wrap64_id in Er by lia.
      assert (HD : Frac.fden (pp_token_rate (st_pp s)) <> 0).
      { unfold Frac.mul_int in Er. apply mul_den in Er as [? _]; [done|]. apply oget_some in Ei as (b & Eb & _). unfold Frac.big_int in Eb. by apply quo_den in Eb. }
      destruct (mul_int_qval _ (p_im_extra p * pp_storage_price (st_pp s)) HD) as (r' & Er' & HP' & HV). assert (r' = r) as -> by congruence.
      unfold Frac.int64 in Ei. rewrite c03_truncation in Ei by lia. cbn [Frac.obind] in Ei. injection Ei as <-.
      rewrite (trunc_eq _ _ HV). rewrite wrap64_id; [done|exact HI].
Qed.
Lemma renewal_failed a s s' p q : bal_ok s -> st_prof s !! a = Some p -> perform_refresh_im a s = (s', Ok tt) -> aborts s' = aborts s ->
  st_prof s' !! a = Some q -> p_im_until q = None ->
  exists f, 0 <= f /\ (f = 0 \/ exists n, 0 < n /\ fee_of n s = Some f /\
     (0 <= p_im_extra p < 2^63 -> - 2^63 <= p_im_extra p * pp_storage_price (st_pp s) < 2^63 -> - 2^63 <= im_price s p < 2^63 -> n = im_price s p)) /\
    fee_taken s s' a f.
Proof.
  intros Hok EP H HA EQ HU. unfold perform_refresh_im, must in H. destruct (monthly_im a s) as [s0 [[]|e|e]] eqn:H0; try discriminate. injection H as ->.
  unfold monthly_im, get_profile in H0. rewrite (run_of _ _ s s p) in H0 by (rewrite run_get, EP; done).
  assert (HS : forall s1 p' , st_prof s1 = st_prof s -> core p' = core p -> set_profile a p' s1 = (s', Ok tt) -> q = p' /\ st_bal s' = st_bal s1 /\ (aborts s1 <= aborts s')%nat).
  { intros s1 p' E1 EC H. assert (EP1 : st_prof s1 !! a = Some p) by (by rewrite E1).
    assert (EN : p_nick p' = p_nick p) by exact (f_equal fst EC). assert (EC' : p_card p' = p_card p) by exact (f_equal snd EC).
    assert (HL : st_log s' = st_log s1).
    { assert (L1 : rel (same st_log) (touch_account a)) by frame. assert (L2 : forall v, rel (same st_log) (must_set_active a v)) by (intros v; frame).
      destruct (set_profile_two (same st_log) a p p' s1 L1 L2 EP1 EN EC') as [[_ X]|X]; rewrite H in X; [by destruct (X tt)|]. exact X. }
    split; [|split; [|by rewrite (aborts_same s1 s')]].
    - apply set_profile_ok in H as (_ & E & _); [|intros o Eo; congruence]. rewrite E, lookup_insert in EQ. by injection EQ.
    - destruct (set_profile_two calm a p p' s1 (calm_touch a) (calm_active a) EP1 EN EC') as [[_ X]|X]; rewrite H in X; [by destruct (X tt)|].
      cbn in X. by apply calm_money in X as (? & _). }
  destruct (p_im_autopay p).
  - unfold bind at 1, try in H0. destruct (prolong_core a p s) as [s1 [p'|e|e]] eqn:H1; try discriminate.
    + exfalso. destruct (prolong_core_core _ _ _ _ _ H1) as [t ->].
      apply HS in H0 as (-> & _); [discriminate|exact (rel_prof _ _ _ _ (op_prolong a p) H1)|done].
    + apply HS in H0 as (_ & HB & HL); [|exact (rel_prof _ _ _ _ (op_prolong a p) H1)|done].
      apply prolong_err in H1 as [H1|(f & Hf & Hn & HT)]; [lia| |done]. exists f. split; [done|]. split; [done|].
      destruct HT as [T1 T2]. split; intros x; unfold bal, balance; rewrite HB; [apply T1|apply T2].
  - rewrite run_ret in H0. apply HS in H0 as (_ & HB & _); [|done..]. exists 0. split; [lia|]. split; [by left|]. by apply fee_taken_none.
Qed.
