(** * The end of a month goes through *)
From Coq Require Import QArith.
From Verif Require Import MonadProofs Sweep BankProofs Spec_Pure FracProofs FeeProofs PriceProofs NameProofs NameHist TariffHist TariffProofs RefProofs LiveProofs LiveRevoke LiveBuy LiveFirst Spec_Live.
Open Scope Z_scope.

Lemma remove_ordered_in (l : list addr) x y : y ∈ fst (Lists.remove_ordered N.compare l x) -> y ∈ l.
Proof.
  induction l as [|z l IH]; cbn [Lists.remove_ordered]; [done|]. destruct (Lists.eqk N.compare z x); [by right|].
  destruct (Lists.remove_ordered N.compare l x) as [l' b]. cbn [fst] in *. intros H. apply elem_of_cons in H as [->|H]; [by left|right; by apply IH].
Qed.

(** The ancestors count the account out. *)
Definition count_out (a : addr) (i : nat) (x : addr) (b : bu) (r : rinfo) : bu * rinfo :=
  (b, if (i =? 1)%nat then r <| r_cnt := add_cnt i (-1) (r_cnt r) |> <| r_arefs := fst (Lists.remove_ordered N.compare (r_arefs r) a) |>
      else r <| r_cnt := add_cnt i (-1) (r_cnt r) |>).
Lemma wp_walk_out a lines : forall b x s, clock s -> goodb b s -> ownb b s ->
  wp (walk true lines b x (count_out a)) (fun b' s' => still s s' /\ goodb b' s' /\ ownb b' s') s.
Proof.
  induction lines as [|i lines IH]; intros b x s HC HG HO; cbn [walk]; [apply wp_ret; split; [apply still_refl|done]|].
  destruct (x =? nobody)%N; [apply wp_ret; split; [apply still_refl|done]|].
  apply wp_bind. eapply wp_mono; [apply (wp_updatem b x true _ s (fun _ b' r' => bu_data b' = bu_data b /\
     line (r_deleg r') 0 = line (r_deleg (bu_get b x s)) 0)); [done..|]|].
  - unfold count_out. apply wp_ret. split; [apply still_refl|].
    destruct (HG x) as (F & L & K). pose proof (larger_normalize (bu_get b x s)) as (L1 & L2). set (r := normalize (bu_get b x s)) in *.
    set (r1 := if (i =? 1)%nat then _ else _).
    assert (R1 : r_deleg r1 = r_deleg r /\ r_status r1 = r_status r /\ List.length (r_cnt r1) = List.length (r_cnt r) /\ (forall y, y ∈ r_arefs r1 -> y ∈ r_arefs r)).
    { unfold r1. destruct (i =? 1)%nat; cbn; rewrite cnt_length; (split_and!; [done..|]); [apply remove_ordered_in|done]. }
    destruct R1 as (R1 & R2 & R3 & R4). clearbody r1. split; [exact HG|]. split.
    { destruct (fit_normalize _ F) as [F1 F2]. split; [by rewrite R2|]. intros n Hn. specialize (F2 n Hn). unfold upto in *. by rewrite R1. }
    split; [split; [by rewrite R3|by rewrite R1]|]. split.
    { intros y Hy. apply R4 in Hy. by apply K. }
    split; [unfold long; rewrite R1; apply pad_length|]. split; [done|]. rewrite R1. apply line_pad.
  - intros [b2 up] s2 (S2 & G2 & b' & r' & r2 & (Q1 & Q2) & [E M] & D). cbn [fst snd] in *.
    assert (R2 : st_ref s2 = st_ref s) by (by destruct S2 as (sc & ix & ->)).
    assert (BG : forall y, bu_get b2 y s2 = if (y =? x)%N then r2 else bu_get b y s).
    { intros y. rewrite (bu_get_insert b' b2 x r2) by done. destruct (y =? x)%N; [done|]. by apply bu_get_ext. }
    destruct E as (st & d & ->).
    eapply wp_mono; [apply IH; [by eapply still_fields|exact G2|]|].
    + intros y. rewrite BG. assert (DE : delegation s2 y = delegation s y) by (by destruct S2 as (sc & ix & ->)). rewrite DE.
      destruct (N.eqb_spec y x) as [->|Hy]; [|apply HO]. rewrite <- HO. exact Q2.
    + intros b3 s3 (S3 & G3 & O3). split; [by eapply still_trans|done].
Qed.
Lemma wp_sleep a s : healthy s -> st_now s + 60 * st_day s < time_limit -> wp (must_set_active a false) (fun _ => healthy) s.
Proof.
  intros H HT. unfold must_set_active, set_active. apply wp_must. apply wp_bind, wp_get. cbn [id]. apply wp_bind.
  set (r := ref_get s a). set (rn := normalize r). pose proof (larger_normalize r) as (L1 & L2).
  eapply wp_mono; [apply (wp_updatem bu_new a false _ s (fun o b' r' => bu_data b' = ∅ /\
     line (r_deleg r') 0 = line (r_deleg r) 0))|].
  - apply (hl_clock s H).
  - by apply healthy_goodb.
  - rewrite bu_get_new. fold r. fold rn.
    assert (G : forall r' : rinfo, r_deleg r' = r_deleg rn -> r_status r' = r_status rn -> List.length (r_cnt r') = List.length (r_cnt rn) -> r_arefs r' = r_arefs rn ->
      goodb bu_new s /\ fit r' /\ larger (bu_get bu_new a s) r' /\ counters (fun z => bu_get bu_new z s) r' /\ long r' /\
      (bu_data bu_new = ∅ /\ line (r_deleg r') 0 = line (r_deleg r) 0)).
    { intros r' E1 E2 E3 E4. rewrite bu_get_new. split; [by apply healthy_goodb|]. split.
      { destruct (fit_normalize _ (healthy_fit s a H)) as [F1 F2]. split; [by rewrite E2|]. intros n Hn. specialize (F2 n Hn). unfold upto in *. by rewrite E1. }
      split; [split; [by rewrite E3|by rewrite E1]|]. split.
      { intros x Hx. rewrite bu_get_new. rewrite E4 in Hx. by apply (hl_counters s H a). }
      split; [unfold long; rewrite E1; apply pad_length|]. split; [done|]. rewrite E1. apply line_pad. }
    destruct (Bool.eqb (r_active rn) false); [apply wp_ret; split; [apply still_refl|by apply G]|].
    apply wp_bind. destruct (r_banishment_at rn) as [t|] eqn:ET; apply wp_ret; apply wp_ret; (split; [apply still_refl|]);
      apply G; try done; exact (cnt_length 0 (-1) (r_cnt rn)).
  - intros [b o] s1 ((sc & ix & ->) & G1 & b' & r' & r2 & (Q1 & Q2) & [(st & d & ->) M] & D). cbn [fst snd] in *.
    set (s1 := s <| st_sched := sc |> <| st_index := ix |>) in *.
    destruct o as [parent|]; [|apply wp_ret; by apply (healthy_more s)].
    assert (BG : forall y, bu_get b y s1 = if (y =? a)%N then r' <| r_status := st |> <| r_downgrade_at := d |> else ref_get s y).
    { intros y. rewrite (bu_get_insert b' b a _ s1 D). destruct (y =? a)%N; [done|]. unfold bu_get. rewrite Q1, lookup_empty. done. }
    assert (O1 : ownb b s1).
    { intros y. rewrite BG. change (delegation s1 y) with (delegation s y). rewrite <- (hl_own s H). destruct (N.eqb_spec y a) as [->|Hy]; [exact Q2|done]. }
    apply wp_bind. eapply wp_mono; [apply (wp_walk_out a (seq 1 10) b parent s1 (hl_clock s H) G1 O1)|].
    intros b3 s3 ((sc3 & ix3 & ->) & G3 & O3). set (s3 := s1 <| st_sched := sc3 |> <| st_index := ix3 |>) in *.
    assert (WS : wp (if negb (parent =? nobody)%N && negb false then schedule_compression (st_now s + compression_period s) a else ret tt) (fun _ => still s3) s3).
    { destruct (negb (parent =? nobody)%N && negb false); [|apply wp_ret, still_refl]. apply wp_schedule. pose proof (hl_clock s H) as (C1 & C2 & _).
      unfold compression_period, one_month, one_day. lia. }
    apply wp_bind. eapply wp_mono; [exact WS|]. intros [] s4 (sc4 & ix4 & ->). set (s4 := s3 <| st_sched := sc4 |> <| st_index := ix4 |>) in *.
    eapply wp_mono; [apply wp_commit; [apply (hl_clock s H)|apply (hl_balances s H)|apply (hl_validators s H)|by apply (goodb_ext b3 b3 s3)|exact O3]|].
    by intros [] s5 [H5 R5].
Qed.

(** ** The automatic payment *)
Lemma io_short a c T f s : a <> nobody -> c <> nobody -> 0 <= f < T -> bal s a uartr < T ->
  exists e, input_output_coins [(a, coins_of uartr T)] ((c, coins_of uartr (T - f)) :: if f =? 0 then [] else [(splitter, coins_of uartr f)]) s = (s, Err e).
Proof.
  intros Ha Hc Hf HT. unfold input_output_coins.
  assert (V : forallb io_item_valid [(a, coins_of uartr T)] && forallb io_item_valid ((c, coins_of uartr (T - f)) :: if f =? 0 then [] else [(splitter, coins_of uartr f)])
     && bool_decide (io_total [(a, coins_of uartr T)] = io_total ((c, coins_of uartr (T - f)) :: if f =? 0 then [] else [(splitter, coins_of uartr f)])) = true).
  { cbn [forallb]. rewrite !item_main by (done || lia). rewrite bool_decide_true.
    - destruct (Z.eqb_spec f 0); cbn [forallb]; [done|]. rewrite item_main by (done || lia). done.
    - unfold io_total. destruct (Z.eqb_spec f 0) as [->|N]; cbn [fold_left snd]; [by rewrite Z.sub_0_r|].
      change (∅ : coins) with (coins_of uartr 0). rewrite !main_add by lia. f_equal. lia. }
  rewrite V. rewrite (run_bind _ _ s s tt) by done. cbn [mfor fst snd]. unfold subtract_coins.
  assert (G : coins_ge (balance s a) (coins_of uartr T) = false).
  { apply not_true_is_false. intros G. rewrite coins_ge_spec in G. specialize (G uartr T). unfold coins_of, nz in G.
    destruct (Z.eqb_spec T 0); [lia|]. rewrite lookup_singleton in G. specialize (G eq_refl). unfold bal in HT. lia. }
  eexists. unfold bind at 1 2 3. rewrite coins_of_valid by lia. cbn [ensure ret]. unfold bind, get. rewrite G. cbn. reflexivity.
Qed.
Lemma auto_start a p u f s (b := storage_asked s p 0) (T := month_price s + surcharge s p b) :
  st_prof s !! a = Some p -> p_until p = Some u -> u <= st_now s ->
  r_banished (ref_get s a) = false -> Frac.fden (pp_token_rate (st_pp s)) <> 0 -> storage_fits s p b ->
  fee_of (month_price s) s = Some f -> 0 <= f < T ->
  exists K : unit -> M unit, pay_tariff a 0 true s =
    bind (input_output_coins [(a, coins_of uartr T)] ((rp_company (st_rp s), coins_of uartr (T - f)) :: if f =? 0 then [] else [(splitter, coins_of uartr f)])) K s /\
    forall s1 s2 s3 p1, p1 = reset_limits (st_pp s) (p <| p_until := Some (u + one_month s) |>) -> one_month s1 = one_month s ->
      schedule_task (u + one_month s) HRefresh a s1 = (s2, Ok tt) -> set_profile a p1 s2 = (s3, Ok tt) -> T < 2^64 -> K tt s1 = (s3, Ok tt).
Proof.
  intros E U UL HB HR HF EF Hf.
  destruct (tariff_some s p b HR ltac:(apply HF)) as (sf & Esf & Dsf). destruct (big_some sf Dsf) as [extra Eex].
  pose proof (extra_price s p b sf extra HR HF Esf Eex) as ->.
  assert (PA : p_active (st_now s) p = false) by (unfold p_active; rewrite U; lia).
  assert (NC : forall n, 0 <= n -> new_coins uartr n s = (s, Ok (coins_of uartr n))).
  { intros n Hn. unfold new_coins, bind, assert. by rewrite (proj2 (Z.leb_le 0 n) Hn). }
  eexists. split.
  - unfold pay_tariff.
    rewrite (run_bind _ _ s s p) by (unfold get_profile; unfold bind, get, lift; by rewrite E).
    rewrite (run_bind _ _ s s (st_pp s)) by done. rewrite (asked_some s p 0) by (by left). fold b.
    rewrite (run_bind _ _ s s (month_price s)) by (by rewrite month_base).
    rewrite (run_bind _ _ s s f) by (unfold tx_fee, bind, get; by rewrite EF).
    rewrite (run_bind _ _ s s false) by (unfold get; by rewrite HB). rewrite (run_bind _ _ s s tt) by done.
    rewrite (run_bind _ _ s s (st_now s)) by done. rewrite (run_bind _ _ s s (Some sf)) by (unfold get; by rewrite Esf).
    rewrite (run_bind _ _ s s sf) by done. rewrite PA. cbn [andb negb].
    rewrite (run_bind _ _ s s (surcharge s p b)) by (by rewrite Eex). cbv zeta. fold T.
    rewrite (run_bind _ _ s s (rp_company (st_rp s))) by done.
    rewrite (run_bind _ _ s s (coins_of uartr (T - f))) by (apply NC; lia).
    rewrite (run_bind _ _ s s (coins_of uartr f)) by (apply NC; lia).
    rewrite (run_bind _ _ s s (coins_of uartr T)) by (apply NC; lia).
    reflexivity.
  - intros s1 s2 s3 p1 E1 M1 W2 E3 HT. cbv beta.
    destruct (reset_same (st_pp s) (p <| p_until := Some (u + one_month s) |>)) as (R1 & R2 & R3). rewrite <- E1 in R1, R2, R3.
    rewrite (run_bind _ _ s1 s1 (one_month s)) by (unfold get; by rewrite M1).
    rewrite (run_bind _ _ s1 s1 p1) by (rewrite U, E1; done).
    rewrite (run_bind _ _ s1 s1 (u + one_month s)) by (by rewrite R3). rewrite (run_bind _ _ s1 s2 tt) by done. rewrite (run_bind _ _ s2 s3 tt) by done.
    unfold Frac.to_uint64, Frac.is_uint64.
    rewrite (run_bind _ _ s3 s3 (T - f)). 2: { match goal with |- context [if ?c then _ else _] => assert (c = true) as -> by lia end. done. }
    rewrite (run_bind _ _ s3 s3 T). 2: { match goal with |- context [if ?c then _ else _] => assert (c = true) as -> by lia end. done. }
    done.
Qed.
Lemma auto_short a p u f s (b := storage_asked s p 0) (T := month_price s + surcharge s p b) :
  st_prof s !! a = Some p -> p_until p = Some u -> u <= st_now s -> a <> nobody -> rp_company (st_rp s) <> nobody ->
  r_banished (ref_get s a) = false -> Frac.fden (pp_token_rate (st_pp s)) <> 0 -> storage_fits s p b ->
  fee_of (month_price s) s = Some f -> 0 <= f < T -> bal s a uartr < T -> exists e, pay_tariff a 0 true s = (s, Err e).
Proof.
  intros E U UL Ha Hc HB HR HF EF Hf HT. destruct (auto_start a p u f s E U UL HB HR HF EF Hf) as (K & -> & _).
  destruct (io_short a (rp_company (st_rp s)) T f s Ha Hc Hf HT) as [e Ee]. exists e. unfold bind. subst T b. by rewrite Ee.
Qed.
Lemma auto_paid a p u f s (b := storage_asked s p 0) (T := month_price s + surcharge s p b) :
  healthy s -> names_ok s -> due_ok s a -> 0 <= u -> u + one_month s < time_limit -> T < 2^64 ->
  st_prof s !! a = Some p -> p_until p = Some u -> u <= st_now s -> a <> nobody -> rp_company (st_rp s) <> nobody ->
  r_banished (ref_get s a) = false -> Frac.fden (pp_token_rate (st_pp s)) <> 0 -> storage_fits s p b ->
  fee_of (month_price s) s = Some f -> 0 <= f < T -> T <= bal s a uartr -> exists s', pay_tariff a 0 true s = (s', Ok tt).
Proof.
  intros H HN HD U0 U1 HT E U UL Ha Hc HB HR HF EF Hf HL. destruct (auto_start a p u f s E U UL HB HR HF EF Hf) as (K & -> & HK).
  fold b in HK. fold T in HK. fold b. fold T.
  pose proof (hl_clock s H) as (C0 & C1 & C2).
  pose proof (wp_io a (rp_company (st_rp s)) T f s H Ha Hc Hf HL) as W. apply wp_run in W as (s1 & [] & W1 & H1 & K1).
  assert (O1 : opens s s1). { pose proof (op_io [(a, coins_of uartr T)] ((rp_company (st_rp s), coins_of uartr (T - f)) :: if f =? 0 then [] else [(splitter, coins_of uartr f)]) s) as R. by rewrite W1 in R. }
  assert (D1 : st_day s1 = st_day s).
  { assert (R : rel (same st_day) (input_output_coins [(a, coins_of uartr T)] ((rp_company (st_rp s), coins_of uartr (T - f)) :: if f =? 0 then [] else [(splitter, coins_of uartr f)]))) by frame.
    specialize (R s). rewrite W1 in R. exact R. }
  assert (N1 : st_now s1 = st_now s).
  { assert (R : rel (same st_now) (input_output_coins [(a, coins_of uartr T)] ((rp_company (st_rp s), coins_of uartr (T - f)) :: if f =? 0 then [] else [(splitter, coins_of uartr f)]))) by frame.
    specialize (R s). rewrite W1 in R. exact R. }
  assert (M1 : one_month s1 = one_month s) by (unfold one_month, one_day; by rewrite D1).
  assert (HN1 : names_ok s1) by (eapply names_kept; [by apply kept_opens|done]).
  assert (P1 : st_prof s1 = st_prof s) by (by apply opens_prof).
  assert (DD1 : due_ok s1 a). { intros t Ht. apply HD. destruct (K1 a) as (_ & _ & _ & X & _). by rewrite <- X. }
  assert (HM : 0 < one_month s) by (destruct HF as (HF & _); unfold one_month, one_day; lia).
  pose proof (wp_schedule (u + one_month s) HRefresh a s1 ltac:(lia)) as W. apply wp_run in W as (s2 & [] & W2 & S2).
  assert (N2 : st_now s2 = st_now s) by (destruct S2 as (x & i & ->); exact N1).
  assert (H2 : healthy s2) by (destruct S2 as (x & i & ->); by apply (healthy_more s1)).
  assert (DD2 : due_ok s2 a) by (destruct S2 as (x & i & ->); exact DD1).
  apply still_names in S2 as [HN2 P2]; [|done].
  assert (PA : p_active (st_now s2) p = false) by (unfold p_active; rewrite U, N2; lia).
  pose (p1 := reset_limits (st_pp s) (p <| p_until := Some (u + one_month s) |>)).
  destruct (reset_same (st_pp s) (p <| p_until := Some (u + one_month s) |>)) as (R1 & R2 & R3). fold p1 in R1, R2, R3.
  assert (E3 : exists s3, set_profile a p1 s2 = (s3, Ok tt)).
  { destruct (p_active (st_now s2) p1) eqn:PA1.
    - apply (set_wake a p p1 s2); try done; by rewrite ?P2, ?P1.
    - apply (set_still a p p1 s2); try done; by rewrite ?P2, ?P1, ?PA, ?PA1. }
  destruct E3 as [s3 E3]. exists s3. rewrite (run_bind _ _ s s1 tt) by exact W1. by eapply HK.
Qed.

(** ** The task *)
Lemma written a o p s s' : st_prof s !! a = Some o -> p_nick p = p_nick o -> p_card p = p_card o -> set_profile a p s = (s', Ok tt) ->
  st_prof s' = <[ a := p ]> (st_prof s).
Proof.
  intros E N1 N2 H. assert (RT : rel (same st_prof) (touch_account a)) by frame. assert (RA : forall v, rel (same st_prof) (must_set_active a v)) by (intros v; frame).
  destruct (set_profile_two (same st_prof) a o p s RT RA E N1 N2) as [[_ X]|X]; rewrite H in X; [by destruct (X tt)|exact X].
Qed.
Lemma wrote a o p s s' u : st_prof s !! a = Some o -> p_nick p = p_nick o -> p_card p = p_card o -> set_profile a p s = (s', Ok tt) ->
  p_until p = p_until o -> p_until o = Some u -> until s' a = Some u.
Proof. intros E N1 N2 H N3 U. unfold until. rewrite (written a o p s s' E N1 N2 H), lookup_insert. by rewrite N3. Qed.
Lemma live_end a p u f s (T := month_price s + surcharge s p (storage_asked s p 0)) : healthy s -> names_ok s -> st_prof s !! a = Some p -> p_until p = Some u ->
  0 <= u -> u + one_month s < time_limit -> st_now s + 60 * st_day s < time_limit ->
  (p_autopay p = true -> u <= st_now s -> due_ok s a /\ a <> nobody /\ rp_company (st_rp s) <> nobody /\ r_banished (ref_get s a) = false /\
     Frac.fden (pp_token_rate (st_pp s)) <> 0 /\ storage_fits s p (storage_asked s p 0) /\ fee_of (month_price s) s = Some f /\ 0 <= f < T /\ T < 2^64) ->
  exists s', perform_refresh a s = (s', Ok tt) /\
    until s' a = if negb (active_now s p) && p_autopay p && (T <=? bal s a uartr) then Some (u + one_month s) else Some u.
Proof.
  intros H HN E U U0 U1 HT HP. unfold perform_refresh, monthly.
  assert (AN : active_now s p = (st_now s <? u)) by (unfold active_now; by rewrite U).
  assert (SL : exists s', must_set_active a false s = (s', Ok tt) /\ until s' a = Some u).
  { pose proof (wp_sleep a s H HT) as W. apply wp_run in W as (s' & [] & W & _). exists s'. split; [done|].
    assert (R : rel (same st_prof) (must_set_active a false)) by frame. specialize (R s). rewrite W in R. unfold same in R. cbn in R. unfold until. by rewrite R, E. }
  assert (MU : forall (m : M unit) s', m s = (s', Ok tt) -> must m s = (s', Ok tt)) by (intros m s' Hm; unfold must; by rewrite Hm).
  assert (PA : p_active (st_now s) p = (st_now s <? u)) by (unfold p_active; by rewrite U).
  assert (G1 : get_profile a s = (s, Ok p)) by (unfold get_profile; unfold bind, get, lift; by rewrite E).
  rewrite AN. destruct (Z.ltb_spec (st_now s) u) as [L|L]; cbn [negb andb].
  - destruct (reset_same (st_pp s) p) as (R1 & R2 & R3).
    destruct (set_same a p (reset_limits (st_pp s) p) s HN E R1 R2 R3) as [s' ES]. exists s'. split.
    + apply MU. rewrite (run_bind _ _ s s p G1). rewrite (run_bind _ _ s s (st_now s)) by done. rewrite PA.
      rewrite (run_bind _ _ s s (st_pp s)) by done. exact ES.
    + by eapply (wrote a p).
  - destruct (p_autopay p) eqn:AP; cbn [andb].
    + destruct (HP eq_refl L) as (HD & Ha & Hc & HB & HR & HF & EF & Hf & HT2). destruct (Z.leb_spec T (bal s a uartr)) as [HL|HL].
      * destruct (auto_paid a p u f s) as [s' ES]; try done. exists s'. split.
        -- apply MU. rewrite (run_bind _ _ s s p G1). rewrite (run_bind _ _ s s (st_now s)) by done. rewrite PA, AP.
           rewrite (run_bind _ _ s s' (inl tt)) by (unfold try; by rewrite ES). done.
        -- pose proof (pay_tariff_paid _ _ _ _ _ _ ES) as [[_ X]|(p0 & E0 & [[_ X]|X])]; [by destruct (X tt)|by destruct (X tt)|].
           assert (p0 = p) as -> by congruence. destruct X as (tt1 & fee & p' & _ & _ & _ & _ & EP & EU). unfold until. rewrite EP, lookup_insert.
           rewrite EU, U. rewrite andb_false_r. done.
      * destruct (auto_short a p u f s) as [e ES]; try done. destruct SL as (s' & SL & SU). exists s'. split; [|done].
        apply MU. rewrite (run_bind _ _ s s p G1). rewrite (run_bind _ _ s s (st_now s)) by done. rewrite PA, AP.
        rewrite (run_bind _ _ s s (inr e)) by (unfold try; by rewrite ES). exact SL.
    + destruct SL as (s' & SL & SU). exists s'. split; [|done].
      apply MU. rewrite (run_bind _ _ s s p G1). rewrite (run_bind _ _ s s (st_now s)) by done. by rewrite PA, AP.
Qed.

(** ** The end of the month of the extra storage *)
Lemma send_short a b n s : 0 < n -> bal s a uartr < n -> exists e, send_coins a b (coins_of uartr n) s = (s, Err e).
Proof.
  intros Hn HT. unfold send_coins, subtract_coins.
  assert (G : coins_ge (balance s a) (coins_of uartr n) = false).
  { apply not_true_is_false. intros G. rewrite coins_ge_spec in G. specialize (G uartr n). unfold coins_of, nz in G.
    destruct (Z.eqb_spec n 0) as [->|N]; [lia|]. rewrite lookup_singleton in G. specialize (G eq_refl). unfold bal in HT. lia. }
  eexists. unfold bind at 1 2 3. rewrite coins_of_valid by lia. cbn [ensure ret]. unfold bind, get. rewrite G. cbn. reflexivity.
Qed.
Lemma pay_short a n f s : healthy s -> a <> splitter -> 0 < n -> fee_of n s = Some f -> 0 <= f <= n -> bal s a uartr < n ->
  exists s1 e, pay_company a n s = (s1, Err e).
Proof.
  intros H Ha Hn HF Hf HL. unfold pay_company. rewrite (run_bind _ _ s s (coins_of uartr n)).
  2: { unfold new_coins, bind, assert. by rewrite (proj2 (Z.leb_le 0 n) ltac:(lia)). }
  destruct (Z.leb_spec f (bal s a uartr)) as [L|L].
  - pose proof (wp_pay_fee a n f s H Hn HF ltac:(lia)) as W. apply wp_run in W as (s1 & fee & E & [H1 _] & ->).
    rewrite (run_bind _ _ s s1 (coins_of uartr f)) by exact E. rewrite (run_bind _ _ s1 s1 tt).
    2: { unfold assert. rewrite ge_main; [done|lia|]. rewrite amt_coins_of, N.eqb_refl. lia. }
    rewrite (run_bind _ _ s1 s1 (rp_company (st_rp s1))) by done. rewrite main_sub by lia.
    assert (B : bal s1 a uartr < n - f).
    { apply pay_tx_fee_ok in E as (f' & Hf' & Hp & Ec & _ & B & _). rewrite B.
      assert (EA : amt (coins_of uartr f) uartr = amt (coins_of uartr f') uartr) by (by rewrite Ec).
      rewrite !amt_coins_of, N.eqb_refl in EA. subst f'. rewrite ?amt_coins_of, ?N.eqb_refl. unfold at_.
      rewrite N.eqb_refl. destruct (N.eqb_spec a splitter); [done|lia]. }
    destruct (Z.ltb_spec 0 (n - f)) as [P|P].
    + destruct (send_short a (rp_company (st_rp s1)) (n - f) s1 P B) as [e Ee]. by exists s1, e.
    + lia.
  - assert (W : exists s1 e, pay_tx_fee a (coins_of uartr n) s = (s1, Err e)).
    { unfold pay_tx_fee. rewrite (run_bind _ _ s s tt) by (unfold assert; by rewrite main_only).
      rewrite (run_bind _ _ s s (coins_of uartr f)).
      2: { destruct (decide (coins_of uartr n = ∅)) as [X|_]; [apply LiveProofs.coins_of_empty in X; lia|].
           rewrite (run_bind _ _ s s f). { unfold new_coins, bind, assert. by rewrite (proj2 (Z.leb_le 0 f) ltac:(lia)). }
           unfold tx_fee, bind, get. rewrite amt_coins_of, N.eqb_refl. by rewrite HF. }
      assert (W : wp (touch_account splitter) (fun _ s' => st_bal s' = st_bal s) s) by (eapply wp_mono; [by apply wp_touch|]; by intros [] s' (_ & X & _)).
      apply wp_run in W as (s1 & [] & W & EB).
      assert (P : 0 < f). { pose proof (bal_ok_nonneg s a uartr (hl_balances s H)). lia. }
      destruct (decide (coins_of uartr f = ∅)) as [X|_]; [apply LiveProofs.coins_of_empty in X; lia|].
      destruct (send_short a splitter f s1 P) as [e Ee]; [unfold bal, balance in *; by rewrite EB|].
      exists s1, e. unfold bind at 1. unfold send_to_module. rewrite (run_bind _ _ s s1 tt) by exact W. by rewrite Ee. }
    destruct W as (s1 & e & W). exists s1, e. unfold bind at 1. by rewrite W.
Qed.

Lemma live_im_end a p s (n := gb_price s (pp_storage_price (st_pp s)) (p_im_extra p) 1) : healthy s -> names_ok s -> st_prof s !! a = Some p ->
  (p_im_autopay p = true -> a <> splitter /\ fair_fee s /\ Frac.fden (pp_token_rate (st_pp s)) <> 0 /\
     (forall t, p_im_until p = Some t -> 0 <= t /\ t + one_month s < time_limit) /\
     0 <= p_im_extra p < 2^63 /\ gb_fits s (pp_storage_price (st_pp s)) (p_im_extra p) 1 /\ (p_im_extra p <> 0 -> 0 < n)) ->
  exists s', perform_refresh_im a s = (s', Ok tt) /\
    st_prof s' !! a = Some (match p_im_until p with
      | Some t => if p_im_autopay p && negb (p_im_extra p =? 0) && (n <=? bal s a uartr) then p <| p_im_until := Some (t + one_month s) |>
                  else p <| p_im_extra := 0 |> <| p_im_until := None |> <| p_im_autopay := false |>
      | None => p <| p_im_extra := 0 |> <| p_im_until := None |> <| p_im_autopay := false |>
      end).
Proof.
  intros H HN E HP. unfold perform_refresh_im, monthly_im.
  assert (MU : forall (m : M unit) s', m s = (s', Ok tt) -> must m s = (s', Ok tt)) by (intros m s' Hm; unfold must; by rewrite Hm).
  assert (G1 : get_profile a s = (s, Ok p)) by (unfold get_profile; unfold bind, get, lift; by rewrite E).
  set (p0 := p <| p_im_extra := 0 |> <| p_im_until := None |> <| p_im_autopay := false |>).
  assert (EN : forall s1 e, (if p_im_autopay p then try (prolong_core a p) else ret (inr (ErrMsg "disabled"))) s = (s1, Ok (inr e)) ->
    names_ok s1 -> st_prof s1 = st_prof s -> exists s', must (let! p := get_profile a in
      let! r := (if p_im_autopay p then try (prolong_core a p) else ret (inr (ErrMsg "disabled"))) in
      match r with inl p' => set_profile a p'
      | inr _ => set_profile a (p <| p_im_extra := 0 |> <| p_im_until := None |> <| p_im_autopay := false |>) end) s = (s', Ok tt) /\ st_prof s' !! a = Some p0).
  { intros s1 e Er HN1 P1. assert (E1 : st_prof s1 !! a = Some p) by (by rewrite P1).
    destruct (set_same a p p0 s1 HN1 E1) as [s2 E2]; [done..|]. exists s2. split.
    - apply MU. rewrite (run_bind _ _ s s p G1). rewrite (run_bind _ _ s s1 (inr e)) by exact Er. exact E2.
    - rewrite (written a p p0 s1 s2 E1 eq_refl eq_refl E2). apply lookup_insert. }
  destruct (p_im_autopay p) eqn:AP; cbn [andb].
  2: { destruct (EN s (ErrMsg "disabled")) as (s' & X & Y); try done. exists s'. split; [exact X|]. by destruct (p_im_until p). }
  destruct (HP eq_refl) as (Ha & HF & HR & HT & HX & HG & HZ).
  assert (OP : forall s1 e, prolong_core a p s = (s1, Err e) -> names_ok s1 /\ st_prof s1 = st_prof s).
  { intros s1 e Er. pose proof (op_prolong a p s) as O. rewrite Er in O. split; [eapply names_kept; [by apply kept_opens|done]|by apply opens_prof]. }
  assert (FA : forall s1 e, prolong_core a p s = (s1, Err e) -> exists s', must (let! p := get_profile a in
      let! r := (if p_im_autopay p then try (prolong_core a p) else ret (inr (ErrMsg "disabled"))) in
      match r with inl p' => set_profile a p'
      | inr _ => set_profile a (p <| p_im_extra := 0 |> <| p_im_until := None |> <| p_im_autopay := false |>) end) s = (s', Ok tt) /\ st_prof s' !! a = Some p0).
  { intros s1 e Er. destruct (OP s1 e Er) as [HN1 P1]. apply (EN s1 e); try done. unfold try. by rewrite Er. }
  destruct (p_im_until p) as [t|] eqn:U.
  2: { eapply FA. unfold prolong_core. rewrite U. reflexivity. }
  destruct (Z.eqb_spec (p_im_extra p) 0) as [Z|Z]; cbn [negb andb].
  { eapply FA. unfold prolong_core. rewrite U. unfold bind at 1. rewrite Z. reflexivity. }
  specialize (HZ Z). destruct (HT t eq_refl) as [T1 T2]. destruct (HF n) as (f & F1 & F2); [split; [lia|apply HG]|].
  assert (PR : exists k : unit -> M profile, prolong_core a p s = bind (pay_company a n) k s /\ forall s1 s2 s3, one_month s1 = one_month s ->
     delete_task t HRefreshIm a s1 = (s2, Ok tt) -> schedule_task (t + one_month s) HRefreshIm a s2 = (s3, Ok tt) ->
     k tt s1 = (s3, Ok (p <| p_im_until := Some (t + one_month s) |>))).
  { eexists. split.
    - unfold prolong_core. rewrite U.
      rewrite (run_bind _ _ s s tt) by (unfold ensure; assert (negb (p_im_extra p =? 0) = true) as -> by lia; done).
      rewrite (run_bind _ _ s s (st_pp s)) by done.
      rewrite (run_bind _ _ s s n) by (rewrite (wrap64_id (p_im_extra p)) by lia; rewrite (gb_some1 s _ (p_im_extra p)) by done; done).
      rewrite (run_bind _ _ s s tt) by (unfold assert; assert (0 <? n = true) as -> by lia; done). reflexivity.
    - intros s1 s2 s3 M1 E2 E3. cbv beta. rewrite (run_bind _ _ s1 s1 (one_month s)) by (unfold get; by rewrite M1).
      rewrite (run_bind _ _ s1 s2 tt) by done. rewrite (run_bind _ _ s2 s3 tt) by done. done. }
  destruct PR as (k & EK & HK). destruct (Z.leb_spec n (bal s a uartr)) as [L|L].
  - destruct (wp_company a n f s H HN ltac:(lia) F1 F2 L) as (s1 & E1 & H1 & HN1 & P1 & D1 & N1).
    assert (M1 : one_month s1 = one_month s) by (unfold one_month, one_day; by rewrite D1).
    pose proof (hl_clock s H) as (_ & C & _). assert (0 <= one_month s) by (unfold one_month, one_day; lia).
    pose proof (wp_delete t HRefreshIm a s1 ltac:(lia)) as W1. apply wp_run in W1 as (s2 & [] & W1 & S1).
    pose proof (wp_schedule (t + one_month s) HRefreshIm a s2 ltac:(lia)) as W. apply wp_run in W as (s3 & [] & W2 & S2).
    apply still_names in S1 as [HN2 P2]; [|done]. apply still_names in S2 as [HN3 P3]; [|done].
    assert (E3 : st_prof s3 !! a = Some p) by (by rewrite P3, P2, P1).
    destruct (set_same a p (p <| p_im_until := Some (t + one_month s) |>) s3 HN3 E3) as [s4 E4]; [done..|].
    exists s4. split.
    + apply MU. rewrite (run_bind _ _ s s p G1). rewrite AP.
      rewrite (run_bind _ _ s s3 (inl (p <| p_im_until := Some (t + one_month s) |>))); [exact E4|].
      unfold try. rewrite EK. rewrite (run_bind _ _ s s1 tt) by exact E1. by rewrite (HK s1 s2 s3).
    + pose proof (fun N1 N2 => written _ _ _ _ _ E3 N1 N2 E4) as WR. rewrite WR by done. apply lookup_insert.
  - destruct (pay_short a n f s H Ha ltac:(lia) F1 F2 L) as (s1 & e & E1). apply (FA s1 e). rewrite EK. unfold bind. by rewrite E1.
Qed.
