(** * Software upgrades: C96- *)
From Verif Require Props_Noding.
From Verif Require Import Schedule Blocks Spec_Upgrade Spec_Noding Spec_Profile Props_Network LiveProofs UpgradeProofs UpgradeMore Witness Upgrade.
Open Scope Z_scope.

(** ** C96: no upgrade creates or destroys coins *)
Lemma bal_of_map (m : gmap addr coins) s a d : st_bal s = m -> bal s a d = amt (default ∅ (m !! a)) d.
Proof. unfold bal, balance. by intros ->. Qed.
#[local] Instance version_eq_dec : EqDecision version.
Proof. solve_decision. Defined.
Lemma moved_dec s a : moved (records s) a \/ ~ moved (records s) a.
Proof.
  destruct (st_ref s !! a) as [r|] eqn:E.
  - destruct (moved_coins r) eqn:M.
    + left. exists r. by rewrite elem_records.
    + right. intros (r' & H & M'). apply elem_records in H. congruence.
  - right. intros (r' & H & M'). apply elem_records in H. congruence.
Qed.
Lemma all_delegated_bal s s' a : balance s' a = all_delegated (balance s a) ->
  bal s' a uartr = 0 /\ bal s' a uartrr = 0 /\ bal s' a uartrd = holding s a /\
  (forall d, d <> uartr -> d <> uartrd -> d <> uartrr -> bal s' a d = bal s a d).
Proof.
  intros E. unfold bal at 1 2 3 4. rewrite E. pose proof (all_delegated_amt (balance s a)) as A. rewrite !A. cbn. split_and!; try done.
  intros d D1 D2 D3. rewrite A. unfold bal.
  rewrite (proj2 (N.eqb_neq _ _) D1), (proj2 (N.eqb_neq _ _) D2), (proj2 (N.eqb_neq _ _) D3). done.
Qed.
Theorem C96_coins : forall plan company v s s', upgrade plan company v s = (s', Ok tt) ->
  (v = V252 -> rp_company (st_rp s) ∉ [earning_acc; vpn_acc; storage_acc]) ->
  (* what is in circulation stays equal to what the accounts have *)
  (forall d, supply s' d - sum_bal s' d = supply s d - sum_bal s d) /\
  (* the total over the three denominations stays what it was *)
  supply s' uartr + supply s' uartrd + supply s' uartrr = supply s uartr + supply s uartrd + supply s uartrr /\
  (* nobody gains or loses, except that the collectors of x/earning were emptied in favour of the company *)
  (v <> V252 -> forall a, holding s' a = holding s a /\
     (forall d, d <> uartr -> d <> uartrd -> d <> uartrr -> bal s' a d = bal s a d)) /\
  (v = V252 -> forall a d, bal s' a d =
     let company := rp_company (st_rp s) in
     if (a =? company)%N then bal s company d + bal s earning_acc d + bal s vpn_acc d + bal s storage_acc d
     else if bool_decide (a ∈ [earning_acc; vpn_acc; storage_acc]) then 0 else bal s a d).
Proof.
  intros plan company v s s' H N. destruct (decide (v = V252)) as [->|N2]; [|destruct (decide (v = V221)) as [->|N1]].
  - cbn [upgrade] in H. specialize (N eq_refl). apply not_elem_of_cons in N as [X1 N]. apply not_elem_of_cons in N as [X2 N]. apply not_elem_of_cons in N as [X3 _].
    apply collectors_ok in H as (S & B & C); try done. split_and!; try done.
    + intros d. rewrite B. unfold supply. by rewrite S.
    + unfold supply. by rewrite S.
    + intros _ a d. rewrite C. cbv zeta. destruct (a =? rp_company (st_rp s))%N; [done|].
      destruct (bool_decide _) eqn:E.
      * apply bool_decide_eq_true in E. apply elem_of_cons in E as [->|E]; [done|]. apply elem_of_cons in E as [->|E]; [done|].
        apply elem_of_list_singleton in E as ->. done.
      * apply bool_decide_eq_false in E. apply not_elem_of_cons in E as [Y1 E]. apply not_elem_of_cons in E as [Y2 E]. apply not_elem_of_cons in E as [Y3 _].
        by rewrite !(proj2 (N.eqb_neq _ _)).
  - cbn [upgrade] in H. apply bind_ok in H as ([] & s1 & H1 & H2).
    apply fgd_ok in H1 as (x & s0 & J & B & _ & _ & SS & _). apply refresh_ok in H2 as (Q & _).
    assert (Qb : st_bal s' = st_bal s1 /\ st_supply s' = st_supply s1) by (unfold quiet in Q; split; congruence).
    destruct Qb as [Qb Qs].
    assert (SS' : forall d, supply s' d - sum_bal s' d = supply s d - sum_bal s d).
    { intros d. rewrite <- SS. unfold supply, sum_bal. by rewrite Qb, Qs. }
    destruct J as (_ & _ & _ & SB & MV & NM).
    assert (SB' : forall d, sum_bal s' d = sum_bal s d + delta x d).
    { intros d. rewrite <- SB. unfold sum_bal. by rewrite Qb, B. }
    assert (EB : forall a, balance s' a = balance s0 a) by (intros a; unfold balance; by rewrite Qb, B).
    split_and!; try done.
    + pose proof (SS' uartr) as A1. pose proof (SS' uartrd) as A2. pose proof (SS' uartrr) as A3. rewrite !SB' in A1, A2, A3. unfold delta in A1, A2, A3. cbn in A1, A2, A3. lia.
    + intros _ a. destruct (moved_dec s a) as [M|M].
      * destruct (MV a M) as [E _]. rewrite <- EB in E. apply all_delegated_bal in E as (E1 & E2 & E3 & E4). unfold holding at 1. fold (bal s' a uartr) (bal s' a uartrd) (bal s' a uartrr). split; [lia|done].
      * destruct (NM a M) as [E _]. assert (E' : balance s' a = balance s a) by (rewrite EB; unfold balance; by rewrite E).
        unfold holding, bal. by rewrite E'.
  - pose proof (money_others plan company v N1 N2 s) as F. rewrite H in F. unfold same, money in F. cbn in F. injection F as F1 F2.
    assert (EB : forall a, balance s' a = balance s a) by (intros a; unfold balance; by rewrite F1).
    split_and!; try done.
    + intros d. unfold supply, sum_bal. by rewrite F1, F2.
    + unfold supply. by rewrite F2.
    + intros _ a. unfold holding, bal. by rewrite EB.
Qed.
Print Assumptions C96_coins.

(** Before 2.2.1 someone has delegated a part, is revoking some of it and holds
    the rest. *)
Definition before_upgrade : St := after [blk (T0 + day_ns) [tx1 (MDelegate 11 15000000000); tx1 (MDelegate 13 1000000000)];
  blk (T0 + 2 * day_ns) [tx1 (MRevoke 11 4000000000 false)]] w0.
Definition plan0 : time := T0 + 2 * day_ns.
Definition upgraded (v : version) : St := exec (upgrade plan0 10 v) before_upgrade.
(** Before 2.5.2 the collectors have something (earlier versions filled them). *)
Definition before_252 : St := before_upgrade <| st_bal := <[ earning_acc := uc 3000000 ]> (<[ vpn_acc := uc 5000000 ]> (st_bal before_upgrade)) |>
  <| st_supply := coins_add (st_supply before_upgrade) (uc 8000000) |>.
Example C96_witness :
  (* 2.2.1 *)
  (exists s', upgrade plan0 10 V221 before_upgrade = (s', Ok tt) /\ supply s' uartr <> supply before_upgrade uartr /\
     bal before_upgrade 11 uartr = 5019926708 /\ bal before_upgrade 11 uartrd = 10990000001 /\ bal before_upgrade 11 uartrr = 3800000000 /\
     bal s' 11 uartr = 0 /\ bal s' 11 uartrd = 19809926709 /\ bal s' 11 uartrr = 0) /\
  (* 2.5.2 *)
  rp_company (st_rp before_252) ∉ [earning_acc; vpn_acc; storage_acc] /\
  (exists s', upgrade plan0 10 V252 before_252 = (s', Ok tt) /\ rp_company (st_rp before_252) = 10%N /\
     bal s' 10 uartr = bal before_252 10 uartr + 8000000 /\ bal s' earning_acc uartr = 0 /\ bal s' vpn_acc uartr = 0).
Proof.
  split; [|split].
  - exists (upgraded V221). split; [apply exec_ok; by vm_compute|]. split; [by vm_compute|]. split_and!; by vm_compute.
  - apply (bool_decide_unpack _). vm_compute. exact I.
  - exists (exec (upgrade plan0 10 V252) before_252). split; [apply exec_ok; by vm_compute|]. split_and!; by vm_compute.
Qed.

(** ** C97: the upgrade to 2.2.1 delegates everything that the members have *)
Theorem C97_global_delegation : forall plan company s s', upgrade plan company V221 s = (s', Ok tt) -> own_lines s -> (forall a d, 0 <= bal s a d) ->
  (* a member ends with everything delegated; everyone else keeps what it has *)
  (forall a, member s a -> bal s' a uartr = 0 /\ bal s' a uartrr = 0 /\ bal s' a uartrd = holding s a) /\
  (forall a d, ~ member s a -> bal s' a d = bal s a d) /\
  (* a member that was revoking is revoking no longer: no request is left and no payment will be made for one *)
  (forall a, member s a -> 0 < bal s a uartr + bal s a uartrr -> requests s' a = [] /\
     forall q, q ∈ requests s a -> ~ waiting s' (q_time q) HRevoke a) /\
  (* interest: members that were earning go on at the same instant; the others start within a day if the delegation is above the dust *)
  (forall a, member s a -> 0 < bal s a uartr + bal s a uartrr ->
     (next_accrual s a <> None -> next_accrual s' a = next_accrual s a) /\
     (next_accrual s a = None -> bp_dust (st_bp s) < bal s' a uartrd ->
        exists t, next_accrual s' a = Some t /\ t < plan + one_day s /\ waiting s' t HAccrue a)) /\
  (forall t a, waiting s t HAccrue a -> waiting s' t HAccrue a) /\
  (* the records of the members say so, for all ten lines below them too *)
  (forall a i, member s a -> (i <= 10)%nat -> line (r_deleg (ref_get s' a)) i = line (r_coins (ref_get s a)) i /\
     line (r_coins (ref_get s' a)) i = line (r_coins (ref_get s a)) i).
Proof.
  intros plan company s s' H OL NN. cbn [upgrade] in H. apply bind_ok in H as ([] & s1 & H1 & H2).
  apply fgd_ok in H1 as (x & s0 & J & B & D & T1 & _ & R1 & G1). apply refresh_ok in H2 as (Q & T2 & R2 & G2).
  assert (Qb : st_bal s' = st_bal s0 /\ st_del s' = st_del s0) by (unfold quiet in Q; split; congruence).
  destruct Qb as [Qb Qd].
  destruct J as (F & T0 & _ & SB & MV & NM). clear B D Q SB.
  assert (T : tasks_step s0 s') by (by transitivity s1).
  assert (EB : forall a, balance s' a = balance s0 a) by (intros a; unfold balance; by rewrite Qb).
  assert (EN : forall a, next_accrual s' a = next_accrual s0 a) by (intros a; unfold next_accrual; by rewrite Qd).
  assert (ER : forall a, requests s' a = requests s0 a) by (intros a; unfold requests; by rewrite Qd).
  assert (MM : forall a, moved (records s) a <-> member s a /\ bal s a uartr + bal s a uartrr <> 0).
  { intros a. split.
    - intros (r & Hr & Hm). apply elem_records in Hr. unfold moved_coins in Hm. apply andb_true_iff in Hm as [M1 M2].
      apply negb_true_iff in M1, M2. apply Z.eqb_neq in M2.
      assert (Hg : ref_get s a = r) by (unfold ref_get; by rewrite Hr).
      assert (MA : member s a). { split; [by exists r|]. unfold banished. by rewrite Hg. }
      split; [done|]. destruct (OL a MA) as [L1 L2]. rewrite Hg in L1, L2. rewrite !nth_line in M2. lia.
    - intros [[[r Hr] Hb] Hn]. exists r. rewrite elem_records. split; [done|]. unfold banished in Hb.
      assert (Hg : ref_get s a = r) by (unfold ref_get; by rewrite Hr). rewrite Hg in Hb.
      unfold moved_coins. rewrite Hb. cbn. apply negb_true_iff, Z.eqb_neq. rewrite !nth_line.
      assert (MA : member s a). { split; [by exists r|]. unfold banished. by rewrite Hg. }
      destruct (OL a MA) as [L1 L2]. rewrite Hg in L1, L2. lia. }
  split_and!.
  - intros a MA. destruct (moved_dec s a) as [M|M].
    + destruct (MV a M) as [E _]. rewrite <- EB in E. apply all_delegated_bal in E as (E1 & E2 & E3 & _). done.
    + destruct (NM a M) as [E _]. assert (E' : balance s' a = balance s a) by (rewrite EB; unfold balance; by rewrite E).
      rewrite MM in M. pose proof (NN a uartr). pose proof (NN a uartrr).
      assert (bal s a uartr + bal s a uartrr = 0). { destruct (Z.eq_dec (bal s a uartr + bal s a uartrr) 0); [done|]. exfalso. by apply M. }
      unfold holding, bal in *. rewrite E'. lia.
  - intros a d N. destruct (NM a) as [E _]; [by rewrite MM; intros []|]. unfold bal. rewrite EB. unfold balance. by rewrite E.
  - intros a MA P. destruct (MV a) as (_ & E & W & _); [rewrite MM; split; [done|lia]|]. rewrite ER. split; [done|].
    intros q Hq C. apply (W q Hq). by apply T.
  - intros a MA P. destruct (MV a) as (_ & _ & _ & N1 & N2 & _); [rewrite MM; split; [done|lia]|]. rewrite !EN. split; [done|].
    intros E1 E2. unfold bal in E2. rewrite EB in E2. destruct (N2 E1 E2) as (t & X1 & X2 & X3). exists t. split_and!; [done..|]. by apply T.
  - intros t a W. apply T, T0, W.
  - intros a i [[r Hr] Hb] Hi. destruct (R1 a r Hr) as (E1 & E2 & E3).
    assert (Hg : ref_get s a = r) by (unfold ref_get; by rewrite Hr). unfold banished in Hb. rewrite Hg in *.
    assert (S1 : is_Some (st_ref s1 !! a)) by (by apply G1; exists r). destruct S1 as [r1 Hr1].
    assert (Hg1 : ref_get s1 a = r1) by (unfold ref_get; by rewrite Hr1). rewrite Hg1 in *.
    destruct (R2 a r1 Hr1) as (st & dn & ->). cbn. rewrite !line_pad, E1. split; [by apply E3|done].
Qed.
Print Assumptions C97_global_delegation.

Definition own_check (s : St) : Prop := Forall (fun a =>
  line (r_coins (ref_get s a)) 0 = bal s a uartr + bal s a uartrd + bal s a uartrr /\ line (r_deleg (ref_get s a)) 0 = bal s a uartrd) (members s).
#[local] Instance own_check_dec s : Decision (own_check s).
Proof. unfold own_check. apply _. Defined.
Lemma own_checked s : own_check s -> own_lines s.
Proof.
  intros H a [[r Hr] _]. unfold own_check in H. rewrite Forall_forall in H. apply H. apply elem_of_list_fmap. exists (a, r). split; [done|]. by apply elem_of_map_to_list.
Qed.
Definition positive_check (s : St) : Prop := Forall (fun p : addr * coins => Forall (fun q : N * Z => 0 <= snd q) (map_to_list (snd p))) (map_to_list (st_bal s)).
#[local] Instance positive_check_dec s : Decision (positive_check s).
Proof. unfold positive_check. apply _. Defined.
Lemma positive_checked s : positive_check s -> forall a d, 0 <= bal s a d.
Proof.
  intros H a d. unfold positive_check in H. rewrite Forall_forall in H. unfold bal, balance. destruct (st_bal s !! a) as [c|] eqn:E; cbn; [|done].
  apply elem_of_map_to_list in E. pose proof (H _ E) as X. cbn in X. rewrite Forall_forall in X. unfold amt. destruct (c !! d) as [n|] eqn:En; cbn; [|done].
  apply elem_of_map_to_list in En. apply (X _ En).
Qed.
Example C97_witness : own_lines before_upgrade /\ (forall a d, 0 <= bal before_upgrade a d) /\
  upgrade plan0 10 V221 before_upgrade = (upgraded V221, Ok tt) /\ member before_upgrade 11 /\
  0 < bal before_upgrade 11 uartr + bal before_upgrade 11 uartrr /\
  requests before_upgrade 11 = [{| q_time := 1601382400000000000; q_amount := 3800000000 |}] /\ next_accrual before_upgrade 11 = Some 1600259200000000000 /\
  next_accrual before_upgrade 12 = None /\ next_accrual (upgraded V221) 12 = Some 1600259198000000000.
Proof.
  split; [apply own_checked, (bool_decide_unpack _); vm_compute; exact I|].
  split; [apply positive_checked, (bool_decide_unpack _); vm_compute; exact I|].
  split; [apply exec_ok; by vm_compute|]. split; [split; [by vm_compute; eexists|by vm_compute]|]. split_and!; by vm_compute.
Qed.

(** ** C98: the upgrade to 2.0.1 makes the lists of active referrals right *)
Theorem C98_active_lists : forall plan company s s', upgrade plan company V201 s = (s', Ok tt) ->
  (forall a x, x ∈ active_referrals s' a <-> x ∈ referrals s' a /\ active s' x = true) /\
  (* nothing else about the network changes (the statuses are evaluated again) *)
  (forall a, registered s' a <-> registered s a) /\
  (forall a, referrer s' a = referrer s a /\ referrals s' a = referrals s a /\ active s' a = active s a /\ banished s' a = banished s a) /\
  (forall a k, stored_coins s' a k = stored_coins s a k /\ stored_deleg s' a k = stored_deleg s a k /\ stored_active s' a k = stored_active s a k).
Proof.
  intros plan company s s' H. cbn [upgrade] in H. apply recalc_ok in H as [H G].
  assert (D : forall a, is_Some (st_ref s !! a) \/ (ref_get s a = r_zero /\ ref_get s' a = r_zero)).
  { intros a. destruct (st_ref s !! a) eqn:E; [left; eauto|right]. unfold ref_get. rewrite E. destruct (st_ref s' !! a) eqn:E'; [|done].
    destruct (proj2 (G a)) as [? X]; [rewrite E'; eauto|congruence]. }
  assert (A : forall a, active s' a = active s a).
  { intros a. unfold active. destruct (D a) as [[r Hr]|[-> ->]]; [|done]. destruct (H a r Hr) as (_ & _ & X & _). unfold ref_get at 2. by rewrite X, Hr. }
  split_and!.
  - intros a x. unfold active_referrals, referrals. rewrite A. destruct (D a) as [[r Hr]|[_ ->]].
    + destruct (H a r Hr) as (_ & X & _ & _ & _ & Y). rewrite Y, X. done.
    + cbn. rewrite elem_of_nil. naive_solver.
  - intros a. symmetry. apply G.
  - intros a. unfold referrer, referrals, banished. rewrite A. destruct (D a) as [[r Hr]|[-> ->]]; [|done].
    assert (E : ref_get s a = r) by (unfold ref_get; by rewrite Hr). rewrite E. by destruct (H a r Hr) as (X1 & X2 & X3 & X4 & _).
  - intros a k. unfold stored_coins, stored_deleg, stored_active. destruct (D a) as [[r Hr]|[-> ->]]; [|done].
    assert (E : ref_get s a = r) by (unfold ref_get; by rewrite Hr). rewrite E. by destruct (H a r Hr) as (_ & _ & _ & _ & X & _).
Qed.
Print Assumptions C98_active_lists.
(** An earlier version forgot an active referral of 11 and kept a wrong one. *)
Definition before_201 : St := w0 <| st_ref := <[ 11%N := ref_get w0 11 <| r_arefs := [15%N] |> ]> (<[ 14%N := ref_get w0 14 <| r_active := true |> ]> (st_ref w0)) |>.
Example C98_witness : upgrade plan0 10 V201 before_201 = (exec (upgrade plan0 10 V201) before_201, Ok tt) /\
  active_referrals before_201 11 = [15%N] /\ referrals before_201 11 = [13; 14]%N /\
  active_referrals (exec (upgrade plan0 10 V201) before_201) 11 = [14%N].
Proof. split; [apply exec_ok; by vm_compute|]. split_and!; by vm_compute. Qed.

(** ** C99: the upgrade to 2.2.0 *)
Theorem C99_validators : forall plan company s s', upgrade plan company V220 s = (s', Ok tt) ->
  (* a validator goes on if and only if it is qualified; the qualified ones keep their records *)
  (forall a, is_validator s' a = true <-> is_validator s a = true /\ qualified s a) /\
  (forall a, qualified s' a <-> qualified s a) /\
  (forall a, qualified s a -> st_val s' !! a = st_val s !! a) /\
  (* polls last as long as votes *)
  st_pperiod s' = st_vperiod s.
Proof.
  intros plan company s s' H. cbn [upgrade] in H. apply bind_ok in H as ([] & s1 & H1 & H). unfold init_poll_period in H1. apply modify_ok in H1.
  apply force_callback_ok in H as (P & Q & V & K).
  assert (Q1 : forall a, qualified s1 a <-> qualified s a) by (intros a; by subst s1).
  assert (V1 : st_val s1 = st_val s) by (by subst s1).
  assert (V2 : forall a, is_validator s1 a = is_validator s a) by (intros a; unfold is_validator; by rewrite V1).
  split_and!.
  - intros a. by rewrite V, Q1, V2.
  - intros a. by rewrite Q, Q1.
  - intros a Ha. rewrite <- V1. apply K. by apply Q1.
  - rewrite P. by subst s1.
Qed.
Print Assumptions C99_validators.
Definition before_220 : St := after [blk (T0 + 4 * 1000000000) [tx1 (MRevoke 13 12990000001 false)]] Props_Noding.wn1.
Example C99_witness : upgrade plan0 10 V220 before_220 = (exec (upgrade plan0 10 V220) before_220, Ok tt) /\
  is_validator before_220 13 = true /\ is_validator before_220 10 = true /\
  is_validator (exec (upgrade plan0 10 V220) before_220) 13 = false /\ is_validator (exec (upgrade plan0 10 V220) before_220) 10 = true.
Proof. split; [apply exec_ok; by vm_compute|]. split_and!; by vm_compute. Qed.

(** ** C100: the upgrade to 2.4.5 schedules the banishments that were missing *)
Theorem C100_missing_banishments : forall plan company s s', upgrade plan company V245 s = (s', Ok tt) ->
  (* everyone that was overlooked is scheduled, at the recorded time and not before the given delay *)
  (forall a, overlooked s a -> exists t, r_banishment_at (ref_get s' a) = Some t /\ st_now s + st_day s / 24 <= t /\ waiting s' t HBanish a) /\
  (* nobody else *)
  (forall a, ~ overlooked s a -> r_banishment_at (ref_get s' a) = r_banishment_at (ref_get s a)) /\
  (forall t a, waiting s' t HBanish a -> waiting s t HBanish a \/ overlooked s a) /\
  (* no task is lost and the rest of the network stays *)
  tasks_kept s s' /\
  (forall a, registered s' a <-> registered s a) /\
  (forall a, referrer s' a = referrer s a /\ referrals s' a = referrals s a /\ active_referrals s' a = active_referrals s a /\
             active s' a = active s a /\ banished s' a = banished s a).
Proof.
  intros plan company s s' H. cbn [upgrade] in H. apply schedule_missing_ok in H as (K & H & G & W).
  assert (D : forall a, is_Some (st_ref s !! a) \/ (ref_get s a = r_zero /\ ref_get s' a = r_zero)).
  { intros a. destruct (st_ref s !! a) eqn:E; [left; eauto|right]. unfold ref_get. rewrite E. destruct (st_ref s' !! a) eqn:E'; [|done].
    destruct (proj2 (G a)) as [? X]; [rewrite E'; eauto|congruence]. }
  split_and!.
  - intros a O. destruct O as [[[r Hr] HB] O'] eqn:EO. destruct (H a r Hr) as (X & _). by apply X.
  - intros a NO. destruct (D a) as [[r Hr]|[-> ->]]; [|done]. destruct (H a r Hr) as (_ & X & _). rewrite (X NO). unfold ref_get. by rewrite Hr.
  - done.
  - done.
  - intros a. symmetry. apply G.
  - intros a. unfold referrer, referrals, active_referrals, active, banished. destruct (D a) as [[r Hr]|[-> ->]]; [|done].
    assert (E : ref_get s a = r) by (unfold ref_get; by rewrite Hr). rewrite E. by destruct (H a r Hr) as (_ & _ & X1 & X2 & X3 & X4 & X5 & _).
Qed.
Print Assumptions C100_missing_banishments.
(** 15 stopped paying long ago, was compressed, and was forgotten. *)
Definition before_245 : St := w0 <| st_ref := <[ 15%N := ref_get w0 15 <| r_active := false |> <| r_compression_at := None |> <| r_banishment_at := None |> ]> (st_ref w0) |>.
Example C100_witness : upgrade plan0 10 V245 before_245 = (exec (upgrade plan0 10 V245) before_245, Ok tt) /\ overlooked before_245 15 /\
  r_banishment_at (ref_get (exec (upgrade plan0 10 V245) before_245) 15) = Some (T0 + 3600000000000 + 15000000000).
Proof.
  split; [apply exec_ok; by vm_compute|]. split; [|by vm_compute].
  split; [split; [by vm_compute; eexists|by vm_compute]|]. split; [by vm_compute|]. split; [by vm_compute|]. split; [by vm_compute|].
  assert (X : r_compression_at (ref_get before_245 15) = None) by (by vm_compute). intros c Hc. rewrite X in Hc. discriminate Hc.
Qed.

(** ** C101: the upgrades to 2.4.3 and 2.4.4 and the schedule *)

(** As stated (no task is lost) the property fails.  The version before 2.4.3
    scheduled the downgrade of a status a month ahead; 2.4.3 shortens the time
    written in the task, but keeps it at the old instant; 2.4.4 puts it at an
    instant of its own, where it replaces the tasks that are there.  Here 12 has
    just delegated; its interest would be due at that instant, and is never paid. *)
Definition month_ahead : St := exec (schedule_task (T0 + 30 * day_ns) HDowngrade 11)
  (w0 <| st_ref := <[ 11%N := ref_get w0 11 <| r_downgrade_at := Some (T0 + 30 * day_ns) |> ]> (st_ref w0) |>).
Definition after_243 : St := exec (upgrade T0 10 V243) month_ahead.
Definition blocks_244 : list block := [blk (T0 + 4 * day_ns + 15000000000) [tx1 (MDelegate 12 15000000000)]; blk (T0 + 5 * day_ns) []].
Definition before_244 : St := after blocks_244 after_243.
Definition after_244 : St := exec (upgrade T0 10 V244) before_244.
Theorem C101_refuted : exists s s1 s2 s3 bs us a t, upgrade T0 10 V243 s = (s1, Ok tt) /\ run_blocks bs s1 = Some (s2, us) /\
  upgrade T0 10 V244 s2 = (s3, Ok tt) /\
  next_accrual s2 a = Some t /\ waiting s2 t HAccrue a /\ next_accrual s3 a = Some t /\ ~ waiting s3 t HAccrue a.
Proof.
  destruct (after_runs blocks_244 after_243) as [us HR]; [by vm_compute|].
  exists month_ahead, after_243, before_244, after_244, blocks_244, us, 12%N, (T0 + 5 * day_ns + 15000000000).
  split; [apply exec_ok; by vm_compute|]. split; [exact HR|]. clear HR. split; [apply exec_ok; by vm_compute|].
  split; [by vm_compute|]. split; [|split; [by vm_compute|]].
  - exists (Task (T0 + 5 * day_ns + 15000000000) HAccrue 12). split; [apply (bool_decide_unpack _); vm_compute; exact I|done].
  - assert (X : Forall (fun x => t_hook x <> HAccrue) (tasks_at after_244 (T0 + 5 * day_ns + 15000000000))).
    { apply (bool_decide_unpack _). vm_compute. exact I. }
    rewrite Forall_forall in X. intros (x & Hx & Hh & _). by apply (X x Hx).
Qed.
Print Assumptions C101_refuted.
(** If nothing is scheduled at the instants the tasks are moved to, 2.4.4 loses
    no task: those that went astray are moved to later instants, all the others
    stay.  (Missing: the property without that condition.) *)
Theorem C101_partial : forall plan company s s', upgrade plan company V244 s = (s', Ok tt) ->
  0 < shift_interval s -> (forall k, 0 < k <= strays s -> tasks_at s (st_now s + k * shift_interval s) = []) ->
  (forall t x, x ∈ tasks_at s t -> ~ astray s t x -> x ∈ tasks_at s' t) /\
  (forall t x, x ∈ tasks_at s t -> astray s t x -> exists t', st_now s < t' /\ x ∈ tasks_at s' t').
Proof.
  intros plan company s s' H HS HE. cbn [upgrade] in H. apply bind_ok in H as ([] & s1 & H1 & H).
  assert (E : (st_sched s1, st_now s1, st_day s1) = (st_sched s, st_now s, st_day s)).
  { unfold init_max_fee in H1. apply bind_ok in H1 as (p & s2 & E & H1). apply get_ok in E as [-> ->]. unfold set_bparams in H1. minv. done. }
  injection E as E1 E2 E3.
  assert (T : forall t, tasks_at s1 t = tasks_at s t) by (intros t; unfold tasks_at; by rewrite E1).
  assert (SI : shift_interval s1 = shift_interval s) by (unfold shift_interval; by rewrite E3).
  assert (AE : forall t x, astray s1 t x <-> astray s t x) by (intros t x; unfold astray; by rewrite E2).
  assert (M : forall t x, misplaced (st_now s1) t x = true <-> astray s t x) by (intros t x; by rewrite astray_misplaced, AE).
  assert (SS : strays s1 = strays s).
  { unfold strays. do 2 f_equal. rewrite E1. rewrite (list_filter_iff _ (fun e => astray s e.1 e.2)); [|intros e; apply AE]. f_equal.
    apply flat_map_ext. intros t. by rewrite T. }
  apply fix_ok in H as [A B]; [|by rewrite SI|intros k Hk; rewrite T, E2, SI; apply HE; by rewrite <- SS].
  split; intros t x Hx Ha.
  - apply A; [by rewrite T|]. destruct (misplaced (st_now s1) t x) eqn:X; [|done]. by apply M in X.
  - rewrite <- E2. apply B with t; [by rewrite T|]. by apply M.
Qed.
Print Assumptions C101_partial.
Definition quiet_244 : St := after [blk (T0 + 5 * day_ns) []] after_243.
Example C101_witness : upgrade T0 10 V244 quiet_244 = (exec (upgrade T0 10 V244) quiet_244, Ok tt) /\ shift_interval quiet_244 = 15000000000 /\
  (forall k, 0 < k <= strays quiet_244 -> tasks_at quiet_244 (st_now quiet_244 + k * shift_interval quiet_244) = []) /\
  (exists x, x ∈ tasks_at quiet_244 (T0 + 30 * day_ns) /\ astray quiet_244 (T0 + 30 * day_ns) x) /\
  tasks_at (exec (upgrade T0 10 V244) quiet_244) (T0 + 30 * day_ns) = [] /\
  map t_hook (tasks_at (exec (upgrade T0 10 V244) quiet_244) (T0 + 5 * day_ns + 15000000000)) = [HDowngrade].
Proof.
  split; [apply exec_ok; by vm_compute|]. split; [by vm_compute|]. split; [|split; [|split; by vm_compute]].
  - assert (X : strays quiet_244 = 1) by (by vm_compute). rewrite X. intros k Hk. assert (k = 1) as -> by lia. by vm_compute.
  - exists (Task (T0 + 2 * day_ns) HDowngrade 11). split; [apply (bool_decide_unpack _); vm_compute; exact I|]. split_and!; by vm_compute.
Qed.

(** ** C102: the upgrade to 2.3.2 moves members away from banished accounts *)

(** As stated (everyone that is moved is among the referrals of its new
    referrer) the property fails: 7 is moved from 15 to 13; then 13 is moved, and
    its record is replaced by the one it had before. *)
Definition before_232 : St := let s := after [blk (T0 + day_ns) [tx1 (MCreateAccount 10 7 15 None)]] w0 in
  s <| st_ref := <[ 11%N := ref_get s 11 <| r_banished := true |> ]> (<[ 15%N := ref_get s 15 <| r_banished := true |> ]> (st_ref s)) |>.
Definition after_232 : St := exec (upgrade T0 10 V232) before_232.
Theorem C102_refuted : exists s s' a q, upgrade T0 10 V232 s = (s', Ok tt) /\
  (forall p x, x ∈ members s -> p = referrer s x -> p <> nobody -> x ∈ referrals s p) /\
  member s a /\ member s' a /\ referrer s a <> q /\ referrer s' a = q /\ member s' q /\ a ∉ referrals s' q.
Proof.
  exists before_232, after_232, 7%N, 13%N. split; [apply exec_ok; by vm_compute|]. split.
  - assert (X : Forall (fun x => referrer before_232 x <> nobody -> x ∈ referrals before_232 (referrer before_232 x)) (members before_232)).
    { apply (bool_decide_unpack _). vm_compute. exact I. }
    rewrite Forall_forall in X. intros p x Hx -> Hp. by apply X.
  - split; [split; [vm_compute; by eexists|by vm_compute]|]. split; [split; [vm_compute; by eexists|by vm_compute]|].
    split; [by vm_compute|]. split; [by vm_compute|]. split; [split; [vm_compute; by eexists|by vm_compute]|].
    apply (bool_decide_unpack _). vm_compute. exact I.
Qed.
Print Assumptions C102_refuted.
(** What holds: unless the step gives up altogether and changes nothing,
    afterwards no member is under a banished account (other than a top-level
    one), nobody is banished or pardoned, and the banished accounts stay where
    they are.  (Missing: the lists of referrals.) *)
Theorem C102_partial : forall s s', transfer_from_banished s = (s', Ok tt) -> s' = s \/
  ((forall a, member s' a -> referrer s' a = nobody \/ registered s' (referrer s' a) /\
       (banished s' (referrer s' a) = false \/ referrer s' (referrer s' a) = nobody)) /\
   (forall a, registered s' a <-> registered s a) /\ (forall a, banished s' a = banished s a) /\
   (forall a, banished s a = true -> referrer s' a = referrer s a)).
Proof. intros s s' H. apply transfer_ok in H as [->|(A & B & C & D)]; [by left|right]. by split_and!. Qed.
Print Assumptions C102_partial.
Example C102_witness : transfer_from_banished before_232 = (exec transfer_from_banished before_232, Ok tt) /\
  member before_232 14 /\ referrer before_232 14 = 11%N /\ banished before_232 11 = true /\
  referrer (exec transfer_from_banished before_232) 14 = 10%N /\ referrals (exec transfer_from_banished before_232) 10 = [11; 12; 13; 14]%N.
Proof. split; [apply exec_ok; by vm_compute|]. split; [split; [vm_compute; by eexists|by vm_compute]|]. split_and!; by vm_compute. Qed.

(** ** C103: the upgrade to 2.3.2 brings back the banished accounts with a delegation *)
Lemma open_closed s a : open s a <-> registered s a /\ registration_closed s (ref_get s a) = false.
Proof.
  unfold open, registration_closed, referrer, banished, active. split.
  - intros [R H]. split; [done|]. destruct (N.eqb_spec (r_referrer (ref_get s a)) nobody) as [E|E]; [done|]. cbn.
    destruct H as [H|(H1 & H2)]; [done|]. rewrite H1. cbn. destruct (r_active (ref_get s a)); [done|]. cbn.
    destruct H2 as [H2|(t & H2 & H3)]; [done|]. rewrite H2. apply Z.ltb_ge. lia.
  - intros [R H]. split; [done|]. destruct (N.eqb_spec (r_referrer (ref_get s a)) nobody) as [E|E]; [by left|right]. cbn in H.
    apply orb_false_iff in H as [H1 H2]. split; [done|]. destruct (r_active (ref_get s a)); [by left|right]. cbn in H2.
    destruct (r_compression_at (ref_get s a)) as [t|]; [|done]. exists t. split; [done|]. by apply Z.ltb_ge.
Qed.
(** As stated (they come back under the nearest open account above them) the
    property fails: 15 comes back under nobody, though 11 is open, because the
    loop that looks for it gives up after the first closed account. *)
Definition before_un : St := let s := after [blk (T0 + day_ns) [tx1 (MDelegate 15 15000000000); tx1 (MDelegate 14 15000000000)]] w0 in
  s <| st_ref := <[ 13%N := ref_get s 13 <| r_banished := true |> <| r_referrals := [] |> ]> (<[ 15%N := ref_get s 15 <| r_banished := true |> ]>
        (<[ 14%N := ref_get s 14 <| r_banished := true |> ]> (<[ 11%N := ref_get s 11 <| r_referrals := [] |> ]> (st_ref s)))) |>.
Definition after_un : St := exec (upgrade T0 10 V232) before_un.
Theorem C103_refuted : exists s s' a q, upgrade T0 10 V232 s = (s', Ok tt) /\
  banished s a = true /\ bp_dust (st_bp s) < bal s a uartrd /\ first_open s a q /\
  banished s' a = false /\ referrer s' a = nobody /\ a ∉ referrals s' q.
Proof.
  exists before_un, after_un, 15%N, 11%N. split; [apply exec_ok; by vm_compute|]. split; [by vm_compute|]. split; [by vm_compute|]. split.
  - exists 2%nat. split; [lia|]. split; [by vm_compute|]. split; [done|]. split.
    + apply open_closed. split; [vm_compute; by eexists|by vm_compute].
    + intros k Hk. assert (k = 1)%nat as -> by lia. rewrite open_closed. intros [_ X]. revert X. vm_compute. discriminate.
  - split; [by vm_compute|]. split; [by vm_compute|]. apply (bool_decide_unpack _). vm_compute. exact I.
Qed.
Print Assumptions C103_refuted.
(** What holds: unless the step gives up altogether and changes nothing, the
    banished accounts with a delegation above the dust, and only they, are
    pardoned, start anew, and come back under their referrer if it is open.
    (Missing: those whose referrer is not open.) *)
Theorem C103_partial : forall s s', unbanish_delegated s = (s', Ok tt) -> s' = s \/
  (forall a, banished s' a = true <-> banished s a = true /\ bal s a uartrd <= bp_dust (st_bp s)) /\
  (forall a, banished s a = true -> bp_dust (st_bp s) < bal s a uartrd ->
     status s' a = 1 /\ r_banishment_at (ref_get s' a) = None /\ r_compression_at (ref_get s' a) = None /\
     (referrer s a = nobody -> referrer s' a = nobody) /\
     (referrer s a <> nobody -> open s (referrer s a) -> referrer s' a = referrer s a /\ a ∈ referrals s' (referrer s a))) /\
  (forall a, banished s a = false \/ bal s a uartrd <= bp_dust (st_bp s) -> referrer s' a = referrer s a).
Proof.
  intros s s' H. apply unbanish_ok in H as [->|(F & G & H)]; [by left|right].
  assert (D : forall a, (exists r r', st_ref s !! a = Some r /\ st_ref s' !! a = Some r' /\ ref_get s a = r /\ ref_get s' a = r') \/ (ref_get s a = r_zero /\ ref_get s' a = r_zero)).
  { intros a. unfold ref_get. destruct (st_ref s !! a) as [r|] eqn:E.
    - destruct (proj2 (G a)) as [r' E']; [rewrite E; eauto|]. left. exists r, r'. by rewrite E'.
    - right. destruct (st_ref s' !! a) eqn:E'; [|done]. destruct (proj1 (G a)) as [? X]; [rewrite E'; eauto|congruence]. }
  assert (KK : forall a r, st_ref s !! a = Some r -> a ∈ keysN (st_ref s)) by (intros a r E; apply elem_of_keysN; eauto).
  assert (RI : forall a r, rich s a r = true <-> r_banished r = true /\ bp_dust (st_bp s) < bal s a uartrd).
  { intros a r. unfold rich. by rewrite andb_true_iff, Z.ltb_lt. }
  split_and!.
  - intros a. unfold banished. destruct (D a) as [(r & r' & E1 & E2 & -> & ->)|[-> ->]]; [|naive_solver].
    destruct (H a r r' E1 E2) as (_ & _ & X3 & _ & X5). destruct (rich s a r) eqn:R.
    + destruct (X5 (KK _ _ E1) eq_refl) as (Y & _). rewrite Y. apply RI in R as [R1 R2]. split; [done|]. intros [_ ?]. lia.
    + destruct (X3 eq_refl) as [-> _]. split; [|by intros []]. intros B. split; [done|]. destruct (Z.le_gt_cases (bal s a uartrd) (bp_dust (st_bp s))); [done|].
      assert (rich s a r = true) by (apply RI; split; [done|lia]). congruence.
  - intros a HB HD. unfold banished, status, referrer in *. destruct (D a) as [(r & r' & E1 & E2 & G1 & G2)|[Z _]]; [|by rewrite Z in HB].
    rewrite G1, G2 in *. destruct (H a r r' E1 E2) as (_ & _ & _ & X4 & X5). destruct (X5 (KK _ _ E1)) as (_ & Y2 & Y3 & Y4 & _ & Y6); [by apply RI|].
    split_and!; try done. intros HN HO. apply open_closed in HO as [[p Hp] HC]. assert (EP : ref_get s (r_referrer r) = p) by (unfold ref_get; by rewrite Hp). rewrite EP in HC.
    destruct (Y6 p Hp HC HN) as (Z1 & p' & Z2 & Z3). split; [done|]. unfold referrals, ref_get. by rewrite Z2.
  - intros a HO. unfold banished, referrer in *. destruct (D a) as [(r & r' & E1 & E2 & G1 & G2)|[-> ->]]; [|done].
    rewrite G1, G2 in *. destruct (H a r r' E1 E2) as (_ & _ & X3 & _ & _). apply X3. destruct (rich s a r) eqn:R; [|done]. apply RI in R as [R1 R2].
    destruct HO; [congruence|lia].
Qed.
Print Assumptions C103_partial.
Example C103_witness : unbanish_delegated before_un = (exec unbanish_delegated before_un, Ok tt) /\ banished before_un 14 = true /\
  bp_dust (st_bp before_un) < bal before_un 14 uartrd /\ referrer before_un 14 = 11%N /\ open before_un 11 /\
  referrals before_un 11 = [] /\ referrals (exec unbanish_delegated before_un) 11 = [14%N] /\
  banished before_un 13 = true /\ banished (exec unbanish_delegated before_un) 13 = true.
Proof.
  split; [apply exec_ok; by vm_compute|]. split; [by vm_compute|]. split; [by vm_compute|]. split; [by vm_compute|].
  split; [apply open_closed; split; [vm_compute; by eexists|by vm_compute]|]. split_and!; by vm_compute.
Qed.

(** ** C104: the upgrade to 2.5.8 deactivates the top-level accounts *)

(** As stated (the figures of the network stay right) the property fails: the
    counters of active accounts still count them. *)
Definition before_258 : St := after [blk (T0 + day_ns) [tx1 (MPayTariff 12 0); tx1 (MPayTariff 12 0); tx1 (MPayTariff 12 0); tx1 (MPayTariff 12 0)]] w0.
Definition after_258 : St := exec (upgrade T0 10 V258) before_258.
Theorem C104_refuted : exists s s' a, upgrade T0 10 V258 s = (s', Ok tt) /\ network s /\ a <> nobody /\
  active s a = true /\ stored_active s a 0 = 1 /\ active s' a = false /\ stored_active s' a 0 = 1 /\ ~ network s'.
Proof.
  exists before_258, after_258, 10%N. split; [apply exec_ok; by vm_compute|]. split; [apply network_checked, (bool_decide_unpack _); vm_compute; exact I|].
  split; [done|]. split; [by vm_compute|]. split; [by vm_compute|]. split; [by vm_compute|]. split; [by vm_compute|].
  intros N. pose proof (nw_count _ N 10%N 0%nat) as X.
  assert (Y : stored_active after_258 10 0 = 1) by (by vm_compute). rewrite Y in X.
  assert (Z : Z.of_nat (List.length (filter (fun x => active after_258 x = true) (at_line after_258 0 10))) = 0) by (by vm_compute). rewrite Z in X.
  assert (1 = 0); [|lia]. apply X; [done|lia].
Qed.
Print Assumptions C104_refuted.
(** What holds: the top-level accounts, and only they, become inactive, and their
    subscriptions end.  (Missing: the counters.) *)
Theorem C104_partial : forall plan company s s', upgrade plan company V258 s = (s', Ok tt) -> 0 < one_month s ->
  (forall a, registered s' a <-> registered s a) /\
  (forall a, registered s a -> referrer s a = nobody -> active s' a = false /\ until s' a = None) /\
  (forall a, referrer s a <> nobody -> active s' a = active s a /\ until s' a = until s a) /\
  (forall a, referrer s' a = referrer s a /\ referrals s' a = referrals s a /\ banished s' a = banished s a /\ status s' a = status s a).
Proof.
  intros plan company s s' H HM. cbn [upgrade] in H. apply bind_ok in H as ([] & s1 & H1 & H). apply deactivate_ok in H1 as (A & B & C & D).
  injection D as D1 D2 D3. assert (OM : one_month s1 = one_month s) by (unfold one_month, one_day; by rewrite D2).
  apply add_refresh_ok in H as (_ & R & P & _); [|by rewrite OM].
  assert (G : forall a, ref_get s' a = ref_get s1 a) by (intros a; unfold ref_get; by rewrite R). split_and!.
  - intros a. unfold registered. by rewrite R, B.
  - intros a RA RN. unfold active, until. rewrite G, A, P, C, RN. rewrite bool_decide_eq_true_2 by done. cbn. done.
  - intros a RN. unfold active, until. rewrite G, A, P, C. apply N.eqb_neq in RN. rewrite RN, andb_false_r. done.
  - intros a. unfold referrer, referrals, banished, status. rewrite G, A. fold (referrer s a). by destruct (_ && _).
Qed.
Print Assumptions C104_partial.
Example C104_witness : upgrade T0 10 V258 before_258 = (after_258, Ok tt) /\ 0 < one_month before_258 /\ registered before_258 10 /\
  referrer before_258 10 = nobody /\ active before_258 10 = true /\ until before_258 10 <> None /\ active after_258 10 = false /\ until after_258 10 = None /\
  active before_258 12 = true /\ active after_258 12 = true.
Proof. split; [apply exec_ok; by vm_compute|]. split; [by vm_compute|]. split; [vm_compute; by eexists|]. split_and!; by vm_compute. Qed.

(** ** C105: the upgrade to 2.5.8 adds the missing monthly tasks *)
Theorem C105_monthly_tasks : forall plan company s s', upgrade plan company V258 s = (s', Ok tt) -> 0 < one_month s ->
  (* everyone below the top level that has paid for more than a month ahead has a task for each month *)
  (forall a u k, ~ (registered s a /\ referrer s a = nobody) -> until s a = Some u -> 0 <= k -> st_now s + one_month s < u - k * one_month s ->
     waiting s' (u - k * one_month s) HRefresh a) /\
  (* no task is lost, and no other is added *)
  tasks_kept s s' /\
  (forall t x, x ∈ tasks_at s' t -> x ∈ tasks_at s t \/
     exists a u k, until s a = Some u /\ 0 <= k /\ t = u - k * one_month s /\ st_now s + one_month s < t /\ x = Task t HRefresh a).
Proof.
  intros plan company s s' H HM. cbn [upgrade] in H. apply bind_ok in H as ([] & s1 & H1 & H). apply deactivate_ok in H1 as (A & B & C & D).
  injection D as D1 D2 D3. assert (OM : one_month s1 = one_month s) by (unfold one_month, one_day; by rewrite D2).
  assert (TS : forall t, tasks_at s1 t = tasks_at s t) by (intros t; unfold tasks_at; by rewrite D3).
  apply add_refresh_ok in H as (K & R & P & X & Y); [|by rewrite OM]. rewrite OM, D1 in *. split_and!.
  - intros a u k NT HU Hk HL. unfold until in HU. destruct (st_prof s !! a) as [p|] eqn:EP; [|done].
    exists (Task (u - k * one_month s) HRefresh a). split; [|done]. apply (X a p u k); try done. rewrite C, EP.
    destruct (bool_decide (registered s a) && (referrer s a =? nobody)%N) eqn:E; [|done].
    apply andb_true_iff in E as [E1 E2]. apply bool_decide_eq_true in E1. apply N.eqb_eq in E2. by destruct NT.
  - intros t x Hx. apply K. by rewrite TS.
  - intros t x Hx. apply Y in Hx as [Hx|(a & p & u & k & P1 & P2 & P3 & P4 & P5 & P6)]; [left; by rewrite <- TS|right].
    exists a, u, k. split_and!; try done. unfold until. rewrite C in P1.
    destruct (_ && _); [injection P1 as <-; done|]. by rewrite P1.
Qed.
Print Assumptions C105_monthly_tasks.
(** The tasks of 12 for the months ahead have been lost by an earlier version. *)
Definition lost_258 : St := before_258 <| st_sched := ∅ |>.
Example C105_witness : upgrade T0 10 V258 lost_258 = (exec (upgrade T0 10 V258) lost_258, Ok tt) /\ 0 < one_month lost_258 /\
  referrer lost_258 12 = 10%N /\ until lost_258 12 = Some 1610454400000000000 /\
  st_now lost_258 + one_month lost_258 < 1610454400000000000 - 2 * one_month lost_258 /\
  map t_hook (tasks_at (exec (upgrade T0 10 V258) lost_258) (1610454400000000000 - 2 * one_month lost_258)) = [HRefresh].
Proof. split; [apply exec_ok; by vm_compute|]. split_and!; by vm_compute. Qed.
