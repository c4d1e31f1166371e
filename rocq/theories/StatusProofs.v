(** * Statuses, registration and parts_paid: single operations *)
From Coq Require Import QArith.
From Verif Require Export Spec_Referral RefProofs FeeProofs QualProofs.
From Verif Require Import Spec_Pure.
Open Scope Z_scope.

(** ** Registration *)
Lemma open_iff s a : registration_closed s (ref_get s a) = false <-> open_account s a.
Proof.
  unfold registration_closed, open_account, referrer, banished, active.
  destruct (N.eqb_spec (r_referrer (ref_get s a)) nobody) as [E|E]; cbn; [tauto|].
  destruct (r_banished (ref_get s a)); cbn; [split; [done|intros [?|[? _]]; done]|].
  destruct (r_active (ref_get s a)); cbn; [tauto|].
  destruct (r_compression_at (ref_get s a)) as [t|].
  - split.
    + intros H. right. split; [done|]. right. exists t. split; [done|lia].
    + intros [?|[_ [?|(t' & H1 & H2)]]]; [done..|]. injection H1 as <-. lia.
  - split; [done|]. intros [?|[_ [?|(t' & H1 & H2)]]]; done.
Qed.
Lemma up_anc s n a : up s n a = anc (refg (ref_get s)) n a.
Proof. induction n as [|n IH]; cbn; [done|]. by rewrite IH. Qed.

(** ** Requirements *)
Lemma sum_fold l : sum l = fold_right Z.add 0 l.
Proof. done. Qed.
Lemma coins_req_spec r lines coins c : coins_req r lines coins = Some c -> (c = true <-> delegated_to r lines coins).
Proof.
  unfold coins_req, delegated_to. destruct (sum_upto lines (r_deleg r)) as [d|] eqn:E; [|done].
  apply sum_upto_spec in E. unfold Frac.to_uint64. destruct (Frac.is_uint64 d) eqn:U; [|done]. intros [= <-].
  rewrite sum_fold, <- E. rewrite Z.leb_le. split; intros H.
  - pose proof (Z.mul_div_le d 1000000 ltac:(lia)). lia.
  - apply Z.div_le_lower_bound; lia.
Qed.
Lemma filter_cons_len {A} (P : A -> Prop) `{!forall x, Decision (P x)} x l :
  List.length (filter P (x :: l)) = ((if decide (P x) then 1 else 0) + List.length (filter P l))%nat.
Proof. rewrite filter_cons. by destruct (decide (P x)). Qed.
Lemma count_wide_spec g size count l : forall found n, count_wide g size count found l = Some n ->
  ((count <= n)%nat <-> (count <= found + List.length (filter (fun x => (size <= line (r_cnt (g x)) 1)%Z) l))%nat).
Proof.
  induction l as [|a l IH]; intros found n; cbn [count_wide].
  - intros [= <-]. cbn. lia.
  - destruct (Nat.leb_spec count found); [intros [= <-]; lia|].
    destruct (r_cnt (g a) !! 1%nat) as [m|] eqn:E; [|done]. intros H0. apply IH in H0.
    assert (EL : line (r_cnt (g a)) 1 = m) by (unfold line; by rewrite E). rewrite H0, filter_cons_len, EL.
    destruct (Z.leb_spec size m), (decide (size <= m)); cbn; lia.
Qed.
Lemma reaches_spec leg : forall l sm, 0 <= sm -> Forall (fun n => 0 <= n) l -> sm + sum l < 2 ^ 64 ->
  reaches leg sm l = negb (bool_decide (l = [])) && (leg <=? sm + sum l).
Proof.
  induction l as [|n l IH]; intros sm H0 HF HS; [done|].
  apply Forall_cons in HF as [Hn HF]. cbn [reaches sum fold_right] in *. fold (sum l) in *.
  assert (0 <= sum l). { clear -HF. induction HF; cbn; [lia|]. unfold sum in IHHF. lia. }
  unfold u64. rewrite Z.mod_small by lia. rewrite IH by (done || lia).
  rewrite (bool_decide_false (n :: l = [])) by done. cbn.
  destruct (bool_decide_reflect (l = [])) as [E0|]; cbn [negb andb].
  - subst l. cbn. rewrite orb_false_r. f_equal. lia.
  - destruct (Z.leb_spec leg (sm + n)), (Z.leb_spec leg (sm + n + sum l)), (Z.leb_spec leg (sm + (n + sum l))); cbn; lia.
Qed.
Lemma reaches_sum leg l : 0 < leg -> Forall (fun n => 0 <= n) l -> sum l < 2 ^ 64 -> reaches leg 0 l = (leg <=? sum l).
Proof.
  intros H HF HS. rewrite reaches_spec by (done || lia). rewrite Z.add_0_l. destruct (bool_decide_reflect (l = [])) as [E0|]; [|done].
  subst l. cbn. destruct (Z.leb_spec leg 0); lia.
Qed.
Lemma scan_core_spec g leg l : 0 < leg ->
  (forall x, x ∈ l -> Forall (fun n => 0 <= n) (r_cnt (g x)) /\ sum (r_cnt (g x)) < 2 ^ 64) ->
  forall w t w' t', scan_core g leg w t l = Some (w', t') ->
  ((3 <= w')%nat <-> (3 <= w + List.length (filter (fun x => (3 <= line (r_cnt (g x)) 1)%Z) l))%nat) /\
  ((3 <= t')%nat <-> (3 <= t + List.length (filter (fun x => (leg <= sum (r_cnt (g x)))%Z) l))%nat).
Proof.
  intros Hl. induction l as [|a l IH]; intros HC w t w' t'; cbn [scan_core].
  - intros [= <- <-]. cbn. lia.
  - assert (HC' : forall x, x ∈ l -> Forall (fun n => 0 <= n) (r_cnt (g x)) /\ sum (r_cnt (g x)) < 2 ^ 64).
    { intros x Hx. apply HC. by right. }
    destruct (HC a ltac:(left)) as [C1 C2].
    rewrite reaches_sum by done. rewrite !filter_cons_len.
    destruct (Nat.leb_spec 3 w); cbn [andb].
    + destruct (Nat.leb_spec 3 t); [intros [= <- <-]; lia|]. intros H'. apply IH in H' as [H1 H2]; [|done]. rewrite H1, H2.
      destruct (Z.leb_spec leg (sum (r_cnt (g a)))), (decide (leg <= sum (r_cnt (g a)))); lia.
    + destruct (r_cnt (g a) !! 1%nat) as [m|] eqn:E; [|done].
      assert (EL : line (r_cnt (g a)) 1 = m) by (unfold line; by rewrite E). rewrite EL.
      intros H'. apply IH in H' as [H1 H2]; [|done]. rewrite H1, H2.
      destruct (Nat.leb_spec 3 t), (Z.leb_spec leg (sum (r_cnt (g a)))), (decide (leg <= sum (r_cnt (g a)))), (Z.leb_spec 3 m), (decide (3 <= m)); lia.
Qed.
Lemma req_xbyx_spec g r lines coins count x : req_xbyx g r lines coins count (Z.of_nat count) = Some x ->
  (x = true <-> xbyx g r lines coins count).
Proof.
  unfold req_xbyx, xbyx, wide. destruct (coins_req r lines coins) as [c|] eqn:E; [|done]. apply coins_req_spec in E.
  destruct (count_wide _ _ _ _ _) as [n|] eqn:E2; [|done]. apply count_wide_spec in E2. rewrite Nat.add_0_l in E2.
  intros [= <-]. rewrite andb_true_iff, Nat.leb_le. by rewrite E, E2.
Qed.
Lemma req_core_spec g r lines coins leg x : 0 < leg -> counted g r -> req_core g r lines coins leg = Some x ->
  (x = true <-> core g r lines coins leg).
Proof.
  intros Hl HC. unfold req_core, core, wide, teams. destruct (coins_req r lines coins) as [c|] eqn:E; [|done]. apply coins_req_spec in E.
  destruct (scan_core _ _ _ _ _) as [[w t]|] eqn:E2; [|done]. apply scan_core_spec in E2 as [W T]; [|done|exact HC].
  rewrite Nat.add_0_l in W, T.
  intros H. assert (x = c && (3 <=? w)%nat && (3 <=? t)%nat) as -> by congruence.
  rewrite !andb_true_iff, !Nat.leb_le. rewrite E, W, T. tauto.
Qed.
Lemma status_req_spec g r st x : counted g r -> status_req g r st = Some x -> (x = true <-> meets g r st).
Proof.
  intros HC. unfold status_req.
  destruct (Z.eqb_spec st 0) as [->|]; [intros [= <-]; done|].
  assert (D : st = 1 \/ st = 2 \/ st = 3 \/ st = 4 \/ st = 5 \/ st = 6 \/ st = 7 \/ st = 9 \/
    (st <> 1 /\ st <> 2 /\ st <> 3 /\ st <> 4 /\ st <> 5 /\ st <> 6 /\ st <> 7 /\ st <> 9)) by lia.
  destruct (r_banished r) eqn:B.
  - intros [= <-]. split; [done|]. intros H. exfalso. unfold meets in H.
    repeat (destruct D as [->|D]; [cbn in H; first [congruence|destruct H as [H _]; congruence]|]).
    destruct st as [|p|p]; try tauto. repeat (destruct p as [p|p|]; try tauto); first [congruence|destruct H as [H _]; congruence|lia].
  - repeat (destruct D as [->|D]; [cbn [Z.eqb Pos.eqb]; intros H; unfold meets; rewrite ?B|]).
    + injection H as <-. tauto.
    + apply (req_xbyx_spec g r 4 20000 2) in H. tauto.
    + apply (req_xbyx_spec g r 6 50000 3) in H. tauto.
    + apply req_core_spec in H; [tauto|lia|done].
    + apply req_core_spec in H; [tauto|lia|done].
    + apply req_core_spec in H; [tauto|lia|done].
    + apply req_core_spec in H; [tauto|lia|done].
    + apply req_core_spec in H; [tauto|lia|done].
    + rewrite !(proj2 (Z.eqb_neq st _)) by lia. discriminate.
Qed.
Lemma climb_spec g r fuel : counted g r -> forall st n, st <> 8 -> climb fuel g r st = Some n -> reaches_to g r st n /\ st <= n.
Proof.
  intros HC. induction fuel as [|fuel IH]; intros st n H8; cbn [climb]; [discriminate|].
  destruct (Z.eqb_spec st 9) as [->|H9].
  { intros [= <-]. split; [|lia]. exists 0%nat. split_and!; [done| |by left]. intros m Hm. lia. }
  assert (EN : next_status st = ladder st).
  { unfold next_status, ladder. destruct (Z.eqb_spec (st + 1) 8), (Z.eqb_spec st 7); lia. }
  destruct (status_req g r (next_status st)) as [[|]|] eqn:E; [| |discriminate].
  - intros H. apply IH in H as [(k & H1 & H2 & H3) H4].
    + apply (status_req_spec _ _ _ _ HC) in E. assert (E' : meets g r (ladder st)) by (rewrite <- EN; by apply E).
      split; [|revert H4; unfold next_status; destruct (Z.eqb_spec (st + 1) 8); lia].
      assert (IT : forall m, Nat.iter m ladder (next_status st) = Nat.iter (S m) ladder st).
      { intros m. rewrite Nat.iter_succ_r. by rewrite EN. }
      exists (S k). split_and!; [by rewrite <- IT| |done]. intros m Hm. destruct m as [|[|m]]; [lia|exact E'|].
      rewrite <- IT. apply H2. lia.
    + unfold next_status. destruct (Z.eqb_spec (st + 1) 8); lia.
  - intros [= <-]. assert (EP : prev_status (next_status st) = st).
    { unfold prev_status, next_status. destruct (Z.eqb_spec (st + 1) 8).
      - destruct (Z.eqb_spec (9 - 1) 8); lia.
      - destruct (Z.eqb_spec (st + 1 - 1) 8); lia. }
    rewrite EP. split; [|lia]. exists 0%nat. split_and!; [done|intros m Hm; lia|].
    right. apply (status_req_spec _ _ _ _ HC) in E. rewrite <- EN. intros M. apply E in M. discriminate.
Qed.

(** The check of the status after an update *)
Lemma status_check_spec b a r s s' b' r' :
  let g := fun x => bu_get b x s in counted g r ->
  status_check b a r s = (s', Ok (b', r')) ->
  (meets g r (new_number (r_status r)) /\ reaches_to g r (new_number (r_status r)) (r_status r') /\
     new_number (r_status r) <= r_status r' /\ r_downgrade_at r' = None) \/
  (~ meets g r (new_number (r_status r)) /\ r_status r' = new_number (r_status r) /\
     r_downgrade_at r' = match r_downgrade_at r with Some t => Some t | None => Some (st_now s + two_days s) end).
Proof.
  cbv zeta. intros HC H. unfold status_check in H.
  destruct (if r_status r =? 8 then _ else _) as [b1 r1] eqn:E1.
  assert (Q1 : bu_data b1 = bu_data b /\ r1 = r <| r_status := new_number (r_status r) |>).
  { unfold new_number. destruct (r_status r =? 8) eqn:E8; injection E1 as <- <-; (split; [done|]); [done|]. by destruct r. }
  destruct Q1 as [Q1 Q2]. clear E1.
  assert (HG : forall x, bu_get b1 x s = bu_get b x s) by (intros x; unfold bu_get; by rewrite Q1).
  assert (N8 : r_status r1 <> 8). { rewrite Q2. cbn. unfold new_number. destruct (Z.eqb_spec (r_status r) 8); lia. }
  assert (ES : r_status r1 = new_number (r_status r)) by (rewrite Q2; done).
  assert (EB : r_banished r1 = r_banished r) by (rewrite Q2; done).
  assert (ED : r_deleg r1 = r_deleg r) by (rewrite Q2; done).
  assert (EA : r_arefs r1 = r_arefs r) by (rewrite Q2; done).
  assert (EW : r_downgrade_at r1 = r_downgrade_at r) by (rewrite Q2; done).
  clear Q2.
  apply bind_ok in H as (u0 & s0 & E & H). unfold set_index, modify in E. injection E as <- _.
  apply bind_ok in H as (s1 & s2 & E & H). apply get_ok in E as [-> ->]. unfold id in H.
  match type of H with context [status_req ?f] => change f with (fun x => bu_get b1 x s) in H end.
  set (g1 := fun x => bu_get b1 x s) in *. set (g := fun x => bu_get b x s) in *.
  assert (WE : forall r2 n, r_arefs r2 = r_arefs r -> wide g1 r2 n = wide g r n).
  { intros r2 n E. unfold wide. rewrite E. f_equal. apply list_filter_iff. intros x. unfold g1, g. by rewrite HG. }
  assert (TE : forall r2 n, r_arefs r2 = r_arefs r -> teams g1 r2 n = teams g r n).
  { intros r2 n E. unfold teams. rewrite E. f_equal. apply list_filter_iff. intros x. unfold g1, g. by rewrite HG. }
  assert (DE : forall r2 l n, r_deleg r2 = r_deleg r -> delegated_to r2 l n <-> delegated_to r l n).
  { intros r2 l n E. unfold delegated_to. by rewrite E. }
  assert (ME : forall r2 st, r_arefs r2 = r_arefs r -> r_deleg r2 = r_deleg r -> r_banished r2 = r_banished r -> meets g1 r2 st <-> meets g r st).
  { intros r2 st X1 X2 X3. unfold meets, xbyx, core.
    destruct st as [|p|p]; [tauto| |tauto]. repeat (destruct p as [p|p|]; try tauto); rewrite ?X3, ?(WE r2 _ X1), ?(TE r2 _ X1), ?(DE r2 _ _ X2); tauto. }
  assert (HC1 : forall r2, r_arefs r2 = r_arefs r -> counted g1 r2).
  { intros r2 E x. rewrite E. unfold g1. rewrite HG. apply HC. }
  apply bind_ok in H as (ok & s3 & E & H). apply lift_ok in E as [-> E].
  apply (status_req_spec _ _ _ _ (HC1 r1 EA)) in E. rewrite (ME r1 _ EA ED EB), ES in E.
  destruct ok; cbn [negb] in H.
  - left. split; [by apply E|]. apply bind_ok in H as (nx & s4 & E2 & H). apply lift_ok in E2 as [-> E2].
    set (r2 := r1 <| r_downgrade_at := None |>) in *.
    assert (A2 : r_arefs r2 = r_arefs r) by (rewrite <- EA; done).
    assert (D2 : r_deleg r2 = r_deleg r) by (rewrite <- ED; done).
    assert (B2 : r_banished r2 = r_banished r) by (rewrite <- EB; done).
    assert (S2 : r_status r2 = new_number (r_status r)) by (rewrite <- ES; done).
    apply (climb_spec _ _ _ (HC1 r2 A2)) in E2 as [(k & K1 & K2 & K3) L2]; [|by rewrite S2, <- ES].
    rewrite S2 in K1, K2, L2, H.
    assert (RT : reaches_to g r (new_number (r_status r)) nx).
    { exists k. split_and!; [done| |]. - intros m Hm. apply (ME r2 _ A2 D2 B2). by apply K2.
      - destruct K3 as [K3|K3]; [by left|right]. by rewrite (ME r2 _ A2 D2 B2) in K3. }
    assert (D3 : r_downgrade_at r2 = None) by done.
    destruct (Z.ltb_spec (new_number (r_status r)) nx); [apply bind_ok in H as (? & ? & _ & H)|]; apply ret_ok in H as [_ H]; injection H as -> ->.
    + split_and!; [done|cbn; lia|done].
    + assert (nx = new_number (r_status r)) as -> by lia. rewrite S2. split_and!; [done|lia|done].
  - right. split; [intros M; apply E in M; discriminate|].
    rewrite <- EW. destruct (r_downgrade_at r1) as [t|] eqn:EQ.
    + apply ret_ok in H as [_ H]. injection H as -> ->. done.
    + apply bind_ok in H as (u & s4 & _ & H). apply ret_ok in H as [_ H]. injection H as -> ->. done.
Qed.

(** ** The share of the validators *)
Lemma permille_rank st i : permille st (S i) = match vfee_rank st i 6 with Some j => Z.of_nat j + 1 | None => 0 end.
Proof.
  unfold permille. cbn [vfee_rank vfee_table lookup list_lookup].
  repeat match goal with |- context [(?n <=? st) && (S i <=? ?m)%nat] =>
    change (i <? m)%nat with (S i <=? m)%nat; destruct ((n <=? st) && (S i <=? m)%nat); [done|] end. done.
Qed.
Lemma vfees_shares n : forall i h s x, (forall j, h = Some j -> (j < 6)%nat) ->
  vfees_up n i h s (referrer s x) =
  Some (map (fun e => (fst e, Frac.Fr (snd e) 1000)) (parts_paid s (S i) (base_of h) (ancestors s n x))).
Proof.
  induction n as [|n IH]; intros i h s x Hh; [done|]. cbn [vfees_up ancestors].
  destruct (referrer s x =? nobody)%N; [done|]. set (a := referrer s x).
  cbn [parts_paid]. unfold entitled at 1 2 3. rewrite permille_rank. unfold status.
  fold (referrer s a). destruct (is_active_validator s a); cycle 1.
  { rewrite IH by done. destruct (Z.ltb_spec (base_of h) 0) as [L|]; [|done]. destruct h; cbn in L; lia. }
  destruct (vfee_rank (r_status (ref_get s a)) i 6) as [j|] eqn:ER; cycle 1.
  { rewrite IH by done. destruct (Z.ltb_spec (base_of h) 0) as [L|]; [|done]. destruct h; cbn in L; lia. }
  apply vfee_rank_spec in ER as [Hj _].
  destruct h as [h|]; cbn [base_of].
  - specialize (Hh h eq_refl). destruct (Nat.ltb_spec h j), (Z.ltb_spec (Z.of_nat h + 1) (Z.of_nat j + 1)); try lia; [|by rewrite IH by congruence].
    rewrite vfee_sub_spec by done. rewrite IH by congruence. cbn [map fst snd base_of]. do 3 f_equal. f_equal. lia.
  - rewrite vfee_ratio_spec by done. rewrite IH by congruence. cbn [map fst snd base_of].
    destruct (Z.ltb_spec 0 (Z.of_nat j + 1)); [|lia]. cbn [map fst snd]. do 3 f_equal. f_equal. lia.
Qed.
Lemma permille_bound st i : 0 <= permille st i <= 6.
Proof. unfold permille. repeat destruct (_ && _); lia. Qed.
Lemma entitled_bound s i b : 0 <= entitled s i b <= 6.
Proof. unfold entitled. destruct (is_active_validator s b); [apply permille_bound|lia]. Qed.
Lemma shares_sum s : forall l i t, t + fold_right (fun e t => snd e + t) 0 (parts_paid s i t l) <= Z.max t 6 /\
  Z.of_nat (List.length (parts_paid s i t l)) <= Z.max 0 (6 - t) /\
  (forall b k, (b, k) ∈ parts_paid s i t l -> 0 < k) .
Proof.
  induction l as [|b l IH]; intros i t; cbn [parts_paid].
  { split_and!; [cbn; lia|cbn; lia|]. intros ? ? H. by apply elem_of_nil in H. }
  destruct (Z.ltb_spec t (entitled s i b)) as [L|L]; [|apply IH].
  destruct (IH (S i) (entitled s i b)) as (H1 & H2 & H3). pose proof (entitled_bound s i b).
  cbn [fold_right snd List.length]. split_and!; [lia|lia|]. intros c k [[= -> ->]|H0]%elem_of_cons; [lia|by eapply H3].
Qed.
Lemma shares_who s x : forall n i t b k, 0 <= t -> (b, k) ∈ parts_paid s (S i) t (ancestors s n (up s i x)) ->
  exists j, (i < j <= i + n)%nat /\ b = up s j x /\ b <> nobody /\ is_active_validator s b = true /\ 0 < k <= permille (status s b) j.
Proof.
  induction n as [|n IH]; intros i t b k Ht; cbn [ancestors parts_paid]; [by intros H%elem_of_nil|].
  change (referrer s (up s i x)) with (up s (S i) x).
  destruct (N.eqb_spec (up s (S i) x) nobody) as [|Hn]; [by intros H%elem_of_nil|]. cbn [parts_paid].
  destruct (Z.ltb_spec t (entitled s (S i) (up s (S i) x))) as [L|L].
  - intros [[= -> ->]|H]%elem_of_cons.
    + exists (S i). unfold entitled in L |- *. destruct (is_active_validator s (up s (S i) x)) eqn:EA; [|lia].
      cbn [up] in *. split_and!; [lia|lia|done|done|done|rewrite EA; lia|rewrite EA; lia].
    + apply IH in H as (j & H1 & H2); [|lia]. exists j. split; [lia|done].
  - intros H. apply IH in H as (j & H1 & H2); [|done]. exists j. split; [lia|done].
Qed.

(** ** What a walk does not change *)
Lemma walk_proj {A} (p : rinfo -> A) check lines f :
  (forall r r', eqs r r' -> p r' = p r) -> (forall r, p (normalize r) = p r) ->
  (forall i x b r, p (snd (f i x b r)) = p r /\ bu_data (fst (f i x b r)) = bu_data b) ->
  forall b a s s' b', walk check lines b a f s = (s', Ok b') ->
  st_ref s' = st_ref s /\ forall y, p (bu_get b' y s') = p (bu_get b y s).
Proof.
  intros HE HN HF. induction lines as [|i lines IH]; intros b a s s' b' H; cbn [walk] in H.
  { apply ret_ok in H as [-> ->]. done. }
  destruct (a =? nobody)%N; [apply ret_ok in H as [-> ->]; done|].
  apply bind_ok in H as ([b1 u] & s1 & E1 & H).
  apply bu_updatem_ok in E1 as (s2 & b2 & r1 & r2 & E1 & Q & _ & ED & ES & _). cbv beta in E1.
  destruct (f i a b (normalize (bu_get b a s))) as [b3 r3] eqn:Ef.
  apply ret_ok in E1 as [-> E1]. injection E1 as -> -> ->.
  destruct (HF i a b (normalize (bu_get b a s))) as [F1 F2]. rewrite Ef in F1, F2. cbn in F1, F2. rewrite F2 in ED.
  apply IH in H as [H1 H2]. split; [congruence|]. intros y. rewrite H2.
  rewrite (bu_get_ext b1 b1 s s1 y) by done. rewrite (bu_get_insert b b1 a r2 s ED).
  destruct (N.eqb_spec y a) as [E0|]; [|done]. subst y. rewrite (HE _ _ Q), F1. apply HN.
Qed.
(** The structural part of a record *)
Definition shape (r : rinfo) := (r_referrer r, r_referrals r, r_banished r, r_active r, r_arefs r, r_compression_at r).
Lemma shape_eqs r r' : eqs r r' -> shape r' = shape r.
Proof. intros (st & d & ->). done. Qed.
Lemma shape_add_line i c d r : shape (add_line i c d r) = shape r.
Proof. done. Qed.
Lemma walk_lines check lines c d (cb : addr -> bu -> bu) b a s s' b' :
  (forall x b, bu_data (cb x b) = bu_data b) ->
  walk check lines b a (fun i x b r => (cb x b, add_line i c d r)) s = (s', Ok b') ->
  st_ref s' = st_ref s /\ forall y, shape (bu_get b' y s') = shape (bu_get b y s).
Proof.
  intros HC. apply walk_proj; [apply shape_eqs|done|]. intros i x b0 r. cbn. auto.
Qed.

Lemma append_child_ok parent child s s' : append_child parent child s = (s', Ok tt) ->
  parent <> nobody /\ st_ref s !! child = None /\ open_account s parent /\
  referrer s' child = parent /\ (parent <> child -> referrals s' child = [] /\ referrals s' parent = referrals s parent ++ [child]) /\
  (forall y, y <> child -> referrer s' y = referrer s y /\ (y <> parent -> referrals s' y = referrals s y)) /\
  open_account s' parent.
Proof.
  assert (RN : rel (same st_now) (append_child parent child) /\ rel (same st_day) (append_child parent child)) by (split; frame).
  intros H. destruct RN as [RN RD]. specialize (RN s). specialize (RD s). rewrite H in RN, RD. cbn in RN, RD.
  revert H. unfold append_child, append_child_core. intros H.
  apply bind_ok in H as (u & s1 & E & H). apply ensure_ok in E as [-> E]. apply negb_true_iff, N.eqb_neq in E.
  split; [done|].
  apply bind_ok in H as (ex & s1 & E1 & H). apply get_ok in E1 as [-> ->].
  apply bind_ok in H as (u1 & s1 & E1 & H). apply ensure_ok in E1 as [-> E1].
  assert (EN : st_ref s !! child = None). { unfold ref_exists in E1. by destruct (st_ref s !! child). }
  split; [done|].
  apply bind_ok in H as (s0 & s1 & E2 & H). apply get_ok in E2 as [-> ->]. unfold id in H. cbv zeta in H.
  set (r0 := new_rinfo parent _ _ <| r_compression_at := _ |>) in H.
  assert (R0 : r_referrer r0 = parent /\ r_referrals r0 = []) by done. clearbody r0.
  apply bind_ok in H as ([b [an closed]] & s1 & E2 & H).
  apply bu_update_ok in E2 as (r2 & E2 & Q & _ & ED & ES). cbn [fst snd] in E2, Q. injection E2 as -> ->.
  apply bind_ok in H as (u2 & s2 & E3 & H). apply ensure_ok in E3 as [-> E3]. cbn [negb andb] in E3. apply negb_true_iff in E3.
  apply bind_ok in H as (b' & s3 & EW & H).
  apply walk_lines in EW as [EW1 EW2]; [|done].
  pose proof (commit_ref b' s3) as EC. rewrite H in EC. cbn [fst] in EC.
  assert (G : forall y, ref_get s' y = bu_get b' y s3) by (intros y; by apply union_get). clear H EC.
  assert (G0 : forall y, bu_get (bu_set child r0 bu_new) y s = if (y =? child)%N then r0 else ref_get s y).
  { intros y. rewrite (bu_get_insert bu_new (bu_set child r0 bu_new) child r0 s) by done. by rewrite bu_get_new. }
  assert (G1 : forall y, shape (ref_get s' y) = if (y =? parent)%N
     then shape (normalize (bu_get (bu_set child r0 bu_new) parent s) <| r_referrals := r_referrals (normalize (bu_get (bu_set child r0 bu_new) parent s)) ++ [child] |>)
     else shape (bu_get (bu_set child r0 bu_new) y s)).
  { intros y. rewrite G, EW2. rewrite (bu_get_ext b _ s s1 y) by done. rewrite (bu_get_insert _ b parent r2 s ED).
    destruct (N.eqb_spec y parent) as [E0|]; [|done]. rewrite (shape_eqs _ _ Q). by rewrite shape_add_line. }
  assert (OP : open_account s parent).
  { destruct (N.eq_dec parent child) as [->|Hpc].
    - left. unfold referrer, ref_get. by rewrite EN.
    - apply open_iff. revert E3. rewrite G0, (proj2 (N.eqb_neq parent child) Hpc). done. }
  split; [done|]. unfold referrer, referrals.
  assert (SH : forall r r', shape r = shape r' -> r_referrer r = r_referrer r' /\ r_referrals r = r_referrals r').
  { intros r r' HS. unfold shape in HS. injection HS as ? ? _ _ _ _. done. }
  split; [|split; [|split]].
  - specialize (G1 child). destruct (N.eqb_spec child parent) as [E0|Hc].
    + apply SH in G1 as [G1 _]. rewrite G1. cbn. rewrite <- E0, G0, N.eqb_refl. destruct R0 as [R0 _]. congruence.
    + rewrite G0, N.eqb_refl in G1. apply SH in G1 as [G1 _]. rewrite G1. apply R0.
  - intros Hpc. pose proof (G1 child) as Gc. rewrite (proj2 (N.eqb_neq child parent)) in Gc by congruence. rewrite G0, N.eqb_refl in Gc.
    apply SH in Gc as [_ Gc]. specialize (G1 parent). rewrite N.eqb_refl in G1. apply SH in G1 as [_ G1].
    split; [rewrite Gc; apply R0|]. rewrite G1. cbn. by rewrite G0, (proj2 (N.eqb_neq parent child) Hpc).
  - intros y Hy. specialize (G1 y). destruct (N.eqb_spec y parent) as [E0|Hyp].
    + subst y. apply SH in G1 as [G1 _]. cbn in G1. rewrite G0, (proj2 (N.eqb_neq parent child) Hy) in G1. done.
    + rewrite G0, (proj2 (N.eqb_neq y child) Hy) in G1. by apply SH in G1 as [-> ->].
  - apply open_iff. specialize (G1 parent). rewrite N.eqb_refl in G1. unfold shape in G1. injection G1 as G1 _ G2 G3 _ G4.
    rewrite <- E3. unfold registration_closed, one_month, one_day, same in *. rewrite RN, RD, G1, G2, G3, G4. done.
Qed.

Lemma remove_fast_perm (l : list addr) x :
  (x ∉ l /\ fst (Lists.remove_fast N.compare l x) = l) \/ l ≡ₚ x :: fst (Lists.remove_fast N.compare l x).
Proof.
  induction l as [|y l IH]; cbn [Lists.remove_fast].
  { left. split; [apply not_elem_of_nil|done]. }
  unfold Lists.eqk. destruct (N.compare_spec y x) as [->|L|L].
  - right. cbn [fst]. apply perm_skip. destruct (rev l) as [|z t] eqn:E.
    + apply (f_equal (@rev _)) in E. rewrite rev_involutive in E. by rewrite E.
    + apply (f_equal (@rev _)) in E. rewrite rev_involutive in E. rewrite E. cbn. rewrite Permutation_app_comm. done.
  - destruct (Lists.remove_fast N.compare l x) as [r' b]. cbn [fst] in *. destruct IH as [[H1 H2]|H].
    + left. split; [|congruence]. apply not_elem_of_cons. split; [lia|done].
    + right. rewrite H at 1. apply perm_swap.
  - destruct (Lists.remove_fast N.compare l x) as [r' b]. cbn [fst] in *. destruct IH as [[H1 H2]|H].
    + left. split; [|congruence]. apply not_elem_of_cons. split; [lia|done].
    + right. rewrite H at 1. apply perm_swap.
Qed.

Lemma default_deleg r : default 0 (r_deleg (normalize r) !! 0%nat) = line (r_deleg r) 0.
Proof. apply ln_pad. Qed.
Lemma to_int64_ok z x : Frac.to_int64 z = Some x -> x = z.
Proof. unfold Frac.to_int64. destruct (Frac.is_int64 z); [by intros [= <-]|done]. Qed.
Lemma shape_inj r r' : shape r = shape r' -> r_referrer r = r_referrer r' /\ r_referrals r = r_referrals r' /\ r_banished r = r_banished r'
  /\ r_active r = r_active r' /\ r_arefs r = r_arefs r' /\ r_compression_at r = r_compression_at r'.
Proof. unfold shape. intros H. by injection H. Qed.
Lemma banish_core_ok a s s' : banish_core a s = (s', Ok tt) ->
  referrer s a <> nobody /\ active s a = false /\ banished s a = false /\ line (r_deleg (ref_get s a)) 0 <= bp_dust (st_bp s) /\
  banished s' a = true /\ (a ∈ referrals s (referrer s a) -> referrals s (referrer s a) ≡ₚ a :: referrals s' (referrer s a)) /\
  (forall y, y <> referrer s a -> referrals s' y = referrals s y) /\
  (forall y, referrer s' y = referrer s y /\ active s' y = active s y) /\ (forall y, y <> a -> banished s' y = banished s y).
Proof.
  unfold banish_core. intros H.
  apply bind_ok in H as (dust & s1 & E & H). apply get_ok in E as [-> ->].
  apply bind_ok in H as ([b [[parent c] d]] & s1 & E & H).
  apply bu_updatem_ok in E as (s2 & b1 & r1 & r2 & E & _ & E2 & ED & ES & _). cbv zeta in E.
  rewrite (E2 eq_refl) in ED. clear E2.
  apply bind_ok in E as (u1 & s3 & X & E). apply ensure_ok in X as [-> X1]. apply negb_true_iff, N.eqb_neq in X1.
  apply bind_ok in E as (u2 & s3 & X & E). apply ensure_ok in X as [-> X2]. apply negb_true_iff in X2.
  apply bind_ok in E as (di & s3 & X & E). apply lift_ok in X as [-> X3]. apply to_int64_ok in X3.
  apply bind_ok in E as (u3 & s3 & X & E). apply ensure_ok in X as [-> X4]. rewrite X3, default_deleg, bu_get_new in X4.
  apply bind_ok in E as (u4 & s3 & X & E). apply ensure_ok in X as [-> X5]. apply negb_true_iff in X5.
  rewrite bu_get_new in *. cbn in X1, X2, X5.
  apply ret_ok in E as [-> E]. injection E as -> -> -> EC1 EC2.
  set (r1' := normalize (ref_get s a) <| r_banished := true |> <| r_status := 0 |> <| r_compression_at := None |>
              <| r_downgrade_at := None |> <| r_banishment_at := None |>) in ED.
  apply bind_ok in H as ([b2 up2] & s2 & E & H).
  apply bu_update_ok in E as (r3 & E & Q & _ & ED2 & ES2). cbn [fst snd] in E, Q. clear E.
  apply bind_ok in H as (b3 & s3 & EW & H).
  assert (W : st_ref s3 = st_ref s2 /\ forall y, shape (bu_get b3 y s3) = shape (bu_get b2 y s2)).
  { destruct (_ || _) in EW; [by apply ret_ok in EW as [-> ->]|].
    apply (walk_lines true (seq 2 9) (- c) (- d) (fun _ b => b)) in EW; done. }
  clear EW. destruct W as [W1 W2].
  pose proof (commit_ref b3 s3) as EC. rewrite H in EC. cbn [fst] in EC.
  assert (G : forall y, ref_get s' y = bu_get b3 y s3) by (intros y; by apply union_get). clear H EC.
  assert (G0 : forall y, bu_get b y s1 = if (y =? a)%N then r1' else ref_get s y).
  { intros y. rewrite (bu_get_ext b b s s1 y) by done. rewrite (bu_get_insert bu_new b a r1' s) by done. by rewrite bu_get_new. }
  set (p := referrer s a) in *. change (r_referrer (ref_get s a)) with p in X1.
  change (r_referrer (normalize (ref_get s a))) with p in Q, ED2.
  assert (G1 : forall y, shape (ref_get s' y) = if (y =? p)%N
     then shape (normalize (bu_get b p s1) <| r_referrals := fst (Lists.remove_fast N.compare (r_referrals (normalize (bu_get b p s1))) a) |>)
     else shape (bu_get b y s1)).
  { intros y. rewrite G, W2. rewrite (bu_get_ext b2 _ s1 s2 y) by done. rewrite (bu_get_insert _ b2 p r3 s1 ED2).
    destruct (N.eqb_spec y p) as [E0|]; [|done]. rewrite (shape_eqs _ _ Q). by rewrite shape_add_line. }
  assert (R1 : r_referrer r1' = p /\ r_referrals r1' = referrals s a /\ r_banished r1' = true /\ r_active r1' = active s a) by done.
  clearbody r1'. destruct R1 as (R1 & R2 & R3 & R4).
  assert (G2 : forall y, r_referrer (bu_get b y s1) = referrer s y /\ r_referrals (bu_get b y s1) = referrals s y /\
    r_active (bu_get b y s1) = active s y /\ r_banished (bu_get b y s1) = if (y =? a)%N then true else banished s y).
  { intros y. rewrite G0. destruct (N.eqb_spec y a) as [E0|]; [|done]. subst y. done. }
  split_and!; [done|done|done|lia|..].
  - unfold banished. destruct (G2 a) as (_ & _ & _ & X). rewrite N.eqb_refl in X. specialize (G1 a).
    destruct (N.eqb_spec a p) as [E0|]; apply shape_inj in G1 as (_ & _ & -> & _); [|done]. cbn. rewrite <- E0. done.
  - intros Ha. destruct (G2 p) as (_ & X & _). specialize (G1 p). rewrite N.eqb_refl in G1. apply shape_inj in G1 as (_ & G1 & _).
    unfold referrals at 2. rewrite G1. cbn. rewrite X. destruct (remove_fast_perm (referrals s p) a) as [[? _]|?]; done.
  - intros y Hy. destruct (G2 y) as (_ & X & _). specialize (G1 y). rewrite (proj2 (N.eqb_neq y p) Hy) in G1.
    apply shape_inj in G1 as (_ & G1 & _). unfold referrals at 1. by rewrite G1.
  - intros y. destruct (G2 y) as (X & _ & Y & _). specialize (G1 y). destruct (N.eqb_spec y p) as [E0|]; apply shape_inj in G1 as (G1 & _ & _ & G3 & _).
    + subst y. unfold referrer at 1, active at 1. rewrite G1, G3. done.
    + unfold referrer at 1, active at 1. rewrite G1, G3. done.
  - intros y Hy. destruct (G2 y) as (_ & _ & _ & X). rewrite (proj2 (N.eqb_neq y a) Hy) in X. specialize (G1 y).
    unfold banished at 1. destruct (N.eqb_spec y p) as [E0|]; apply shape_inj in G1 as (_ & _ & -> & _); [|done]. cbn. rewrite <- E0. done.
Qed.

(** The way back *)
Lemma nearest_up f a s s' q b : (forall y, bu_get b y s = ref_get s y) -> nearest_open f b (referrer s a) s = (s', Ok q) -> s' = s /\
  ((referrer s a = nobody /\ q = nobody) \/
   exists n, (1 <= n)%nat /\ q = up s n a /\ q <> nobody /\ open_account s q /\ forall m, (1 <= m < n)%nat -> ~ open_account s (up s m a)).
Proof.
  intros HB H. apply nearest_ok in H as [-> H]. split; [done|]. destruct H as [H|(n & H1 & H2 & H3 & H4)]; [by left|right].
  assert (AE : forall m, anc (refg (fun y => bu_get b y s)) m (referrer s a) = up s (S m) a).
  { induction m as [|m IH]; [done|]. cbn [anc]. rewrite IH. unfold refg. rewrite HB. done. }
  exists (S n). rewrite AE in H1. rewrite HB in H3. apply open_iff in H3. split_and!; [lia|done|done|done|].
  intros m Hm. destruct m as [|m]; [lia|]. destruct (H4 m ltac:(lia)) as [_ H5]. rewrite AE, HB in H5.
  intros O. apply open_iff in O. congruence.
Qed.
Lemma come_back_ok a s s' : come_back a s = (s', Ok tt) ->
  banished s' a = false /\
  ((referrer s a = nobody /\ referrer s' a = nobody) \/
   exists n, (1 <= n)%nat /\ referrer s' a = up s n a /\ up s n a <> nobody /\ open_account s (up s n a) /\
     (forall m, (1 <= m < n)%nat -> ~ open_account s (up s m a)) /\
     referrals s' (up s n a) = referrals s (up s n a) ++ [a] /\
     forall y, y <> up s n a -> referrals s' y = referrals s y).
Proof.
  unfold come_back. intros H.
  apply bind_ok in H as ([b [[parent c] d]] & s1 & E & H).
  apply bu_updatem_ok in E as (s2 & b1 & r1 & r2 & E & _ & E2 & ED & ES & _).
  rewrite (E2 eq_refl) in ED. clear E2. rewrite bu_get_new in E.
  apply bind_ok in E as (f & s3 & X & E). apply get_ok in X as [-> ->].
  apply bind_ok in E as (p & s3 & X & E). change (r_referrer (normalize (ref_get s a))) with (referrer s a) in X.
  apply nearest_up in X as [-> X]; [|intros y; apply bu_get_new].
  apply ret_ok in E as [-> E]. injection E as -> -> -> -> ->.
  set (r1' := normalize (ref_get s a) <| r_referrer := p |> <| r_banished := false |> <| r_banishment_at := None |>
              <| r_compression_at := None |> <| r_status := 1 |>) in ED.
  assert (R1 : r_referrer r1' = p /\ r_referrals r1' = referrals s a /\ r_banished r1' = false) by done. clearbody r1'.
  destruct R1 as (R1 & R2 & R3).
  assert (G0 : forall y, bu_get b y s1 = if (y =? a)%N then r1' else ref_get s y).
  { intros y. rewrite (bu_get_ext b b s s1 y) by done. rewrite (bu_get_insert bu_new b a r1' s) by done. by rewrite bu_get_new. }
  apply bind_ok in H as (b3 & s3 & EW & H).
  pose proof (commit_ref b3 s3) as EC. rewrite H in EC. cbn [fst] in EC.
  assert (G : forall y, ref_get s' y = bu_get b3 y s3) by (intros y; by apply union_get). clear H EC.
  destruct X as [[X1 X2]|(n & X1 & X2 & X3 & X4 & X5)].
  - rewrite X2 in EW. change (nobody =? nobody)%N with true in EW. cbn [negb] in EW. apply ret_ok in EW as [-> ->].
    unfold banished, referrer at 2. rewrite G, G0, N.eqb_refl. split; [done|]. left. split; [done|]. congruence.
  - rewrite (proj2 (N.eqb_neq p nobody) X3) in EW.
    apply bind_ok in EW as ([b2 up2] & s2 & E & EW).
    apply bu_update_ok in E as (r3 & _ & Q & _ & ED2 & ES2). cbn [fst snd] in Q.
    assert (W : st_ref s3 = st_ref s2 /\ forall y, shape (bu_get b3 y s3) = shape (bu_get b2 y s2)).
    { destruct (_ || _) in EW; [by apply ret_ok in EW as [-> ->]|].
      apply (walk_lines true (seq 2 9) _ _ (fun _ b => b)) in EW; done. }
    clear EW. destruct W as [W1 W2].
    assert (G1 : forall y, shape (ref_get s' y) = if (y =? p)%N
       then shape (normalize (bu_get b p s1) <| r_referrals := r_referrals (normalize (bu_get b p s1)) ++ [a] |>)
       else shape (bu_get b y s1)).
    { intros y. rewrite G, W2. rewrite (bu_get_ext b2 _ s1 s2 y) by done. rewrite (bu_get_insert _ b2 p r3 s1 ED2).
      destruct (N.eqb_spec y p) as [E0|]; [|done]. rewrite (shape_eqs _ _ Q). by rewrite shape_add_line. }
    assert (G2 : forall y, r_referrals (bu_get b y s1) = referrals s y).
    { intros y. rewrite G0. destruct (N.eqb_spec y a) as [E0|]; [|done]. by subst y. }
    assert (Ga : shape (ref_get s' a) = shape (ref_get s' a <| r_referrer := p |> <| r_banished := false |>)).
    { pose proof (G1 a) as Ga. destruct (N.eqb_spec a p) as [E0|].
      - rewrite <- E0 in Ga. apply shape_inj in Ga as (Y1 & _ & Y3 & _). cbn in Y1, Y3. rewrite G0, N.eqb_refl in Y1, Y3.
        unfold shape. cbn. congruence.
      - rewrite G0, N.eqb_refl in Ga. apply shape_inj in Ga as (Y1 & _ & Y3 & _). unfold shape. cbn. congruence. }
    apply shape_inj in Ga as (Y1 & _ & Y3 & _). cbn in Y1, Y3.
    split; [done|]. right. exists n. rewrite <- X2. split_and!; [done|done|done|done|done| |].
    + specialize (G1 p). rewrite N.eqb_refl in G1. apply shape_inj in G1 as (_ & G1 & _). unfold referrals at 1. rewrite G1. cbn. by rewrite G2.
    + intros y Hy. specialize (G1 y). rewrite (proj2 (N.eqb_neq y p) Hy) in G1. apply shape_inj in G1 as (_ & G1 & _).
      unfold referrals at 1. by rewrite G1.
Qed.

Lemma revive_ok a b r s s' b' r' : (forall y, bu_get b y s = ref_get s y) -> r_referrer r = referrer s a ->
  revive a b r s = (s', Ok (b', r')) ->
  st_ref s' = st_ref s /\ r_banished r' = false /\ r_referrals r' = r_referrals r /\
  ((referrer s a = nobody /\ r_referrer r' = nobody /\ forall y, shape (bu_get b' y s') = shape (ref_get s y)) \/
   exists n, (1 <= n)%nat /\ r_referrer r' = up s n a /\ up s n a <> nobody /\ open_account s (up s n a) /\
     (forall m, (1 <= m < n)%nat -> ~ open_account s (up s m a)) /\
     forall y, shape (bu_get b' y s') = if (y =? up s n a)%N
       then shape (normalize (ref_get s (up s n a)) <| r_referrals := referrals s (up s n a) ++ [a] |>)
       else shape (ref_get s y)).
Proof.
  unfold revive. intros HB HR H. apply bind_ok in H as (f & s1 & E & H). apply get_ok in E as [-> ->].
  apply bind_ok in H as (p & s1 & X & H). rewrite HR in X. apply nearest_up in X as [-> X]; [|done]. cbv zeta in H.
  destruct X as [[X1 X2]|(n & X1 & X2 & X3 & X4 & X5)].
  - rewrite X2 in H. change (nobody =? nobody)%N with true in H. cbv iota in H. apply ret_ok in H as [-> H].
    injection H as -> ->. split_and!; [done..|]. left. split_and!; [done..|]. intros y. by rewrite HB.
  - rewrite (proj2 (N.eqb_neq p nobody) X3) in H.
    apply bind_ok in H as ([b2 up2] & s2 & E & H).
    apply bu_update_ok in E as (r3 & _ & Q & _ & ED2 & ES2). cbn [fst snd] in Q.
    assert (G1 : forall y, shape (bu_get b2 y s2) = if (y =? p)%N
       then shape (normalize (ref_get s p) <| r_referrals := referrals s p ++ [a] |>) else shape (ref_get s y)).
    { intros y. rewrite (bu_get_ext b2 _ s s2 y) by done. rewrite (bu_get_insert _ b2 p r3 s ED2), HB.
      destruct (N.eqb_spec y p) as [E0|]; [|done]. rewrite (shape_eqs _ _ Q). rewrite shape_add_line, HB. done. }
    assert (W : st_ref s' = st_ref s2 /\ (forall y, shape (bu_get b' y s') = shape (bu_get b2 y s2)) /\
      r_banished r' = false /\ r_referrals r' = r_referrals r /\ r_referrer r' = p).
    { destruct (_ || _) in H; [by apply ret_ok in H as [-> H]; injection H as -> ->|].
      apply bind_ok in H as (b3 & s3 & E & H). apply ret_ok in H as [-> H]. injection H as -> ->.
      apply (walk_lines true (seq 2 9) _ _ (fun _ b => b)) in E as [E1 E2]; [|done]. done. }
    destruct W as (W1 & W2 & W3 & W4 & W5). split_and!; [congruence|done|done|]. right. exists n. rewrite <- X2.
    split_and!; [done..|]. intros y. by rewrite W2, G1.
Qed.
Definition set_own (nb nd : Z) (r : rinfo) : rinfo :=
  r <| r_coins := <[ 0%nat := nb ]> (r_coins r) |> <| r_deleg := <[ 0%nat := nd ]> (r_deleg r) |>.
Definition core_of (s : St) := (st_ref s, st_now s, st_day s).
Definition obc_body (nb nd dust : Z) (s : St) (a : addr) (b : bu) (r : rinfo) : M (bu * rinfo * (Z * Z * addr * bool)) :=
    if r_empty r then throw ErrNotFound else
    let dc := nb - default 0 (r_coins r !! 0%nat) in
    let dd := nd - default 0 (r_deleg r !! 0%nat) in
    let finish (b : bu) (r : rinfo) :=
      (b, r <| r_coins := <[ 0%nat := nb ]> (r_coins r) |> <| r_deleg := <[ 0%nat := nd ]> (r_deleg r) |>,
       (dc, dd, r_referrer r, r_banished r)) in
    if dd =? 0 then ret (finish b r) else
    let b := bu_call EvStake a b in
    if r_active r then ret (finish b r) else
    let! ndi := lift "Int64() out of bound" (Frac.to_int64 nd) in
    if ndi <=? dust then
      if negb (r_referrer r =? nobody)%N && negb (r_banished r) &&
         (match r_banishment_at r with None => true | Some _ => false end) &&
         (match r_compression_at r with None => true | Some t => t <? st_now s end)
      then let! r := schedule_banishment a r in ret (finish b r)
      else ret (finish b r)
    else
      let! r := match r_banishment_at r with
                | Some t => do! delete_task t HBanish a in ret (r <| r_banishment_at := None |>)
                | None => ret r
                end in
      if r_banished r then let! (b, r) := revive a b r in ret (finish b r)
      else ret (finish b r).
Lemma obc_body_ok nb nd dust s0 a b r s s1 b1 r1 x : obc_body nb nd dust s0 a b r s = (s1, Ok (b1, r1, x)) ->
  r_empty r = false /\ exists r2, r1 = set_own nb nd r2 /\
  x = (nb - default 0 (r_coins r !! 0%nat), nd - default 0 (r_deleg r !! 0%nat), r_referrer r2, r_banished r2) /\
  ((exists ba, r2 = r <| r_banishment_at := ba |> /\ bu_data b1 = bu_data b /\ core_of s1 = core_of s /\
      (r_banished r = true -> r_active r = false -> nd <> default 0 (r_deleg r !! 0%nat) -> nd <= dust)) \/
   (r_active r = false /\ r_banished r = true /\ dust < nd /\ nd <> default 0 (r_deleg r !! 0%nat) /\ exists ba b2 s2, bu_data b2 = bu_data b /\ core_of s2 = core_of s /\
      revive a b2 (r <| r_banishment_at := ba |>) s2 = (s1, Ok (b1, r2)))).
Proof.
  assert (RB : r = r <| r_banishment_at := r_banishment_at r |>) by (by destruct r).
  unfold obc_body. destruct (r_empty r); [intros H; by apply throw_ok in H|]. intros H. split; [done|]. cbv zeta in H.
  destruct (Z.eqb_spec (nd - default 0 (r_deleg r !! 0%nat)) 0) as [Ez|Ez].
  { apply ret_ok in H as [-> H]. injection H as -> -> ->. exists r. split_and!; [done..|]. left. exists (r_banishment_at r).
    split_and!; [done..|]. intros; lia. }
  destruct (r_active r) eqn:Ea.
  { apply ret_ok in H as [-> H]. injection H as -> -> ->. exists r. split_and!; [done..|]. left. exists (r_banishment_at r).
    split_and!; [done..|]. intros; congruence. }
  apply bind_ok in H as (ndi & s2 & E & H). apply lift_ok in E as [-> E]. apply to_int64_ok in E. subst ndi.
  destruct (Z.leb_spec nd dust) as [L|L].
  - destruct (negb (r_referrer r =? nobody)%N && negb (r_banished r) && _ && _).
    + apply bind_ok in H as (r2 & s2 & E & H). apply ret_ok in H as [-> H]. injection H as -> -> ->.
      assert (C : core_of s2 = core_of s).
      { assert (R : rel (same core_of) (schedule_banishment a r)) by frame. specialize (R s). rewrite E in R. exact R. }
      unfold schedule_banishment in E. apply bind_ok in E as (t & s3 & _ & E). apply bind_ok in E as (u & s4 & _ & E).
      apply ret_ok in E as [_ ->]. eexists. split_and!; [done..|]. left. exists (Some t). by split_and!.
    + apply ret_ok in H as [-> H]. injection H as -> -> ->. exists r. split_and!; [done..|]. left. exists (r_banishment_at r). by split_and!.
  - apply bind_ok in H as (r2 & s2 & E & H).
    assert (R2 : (exists ba, r2 = r <| r_banishment_at := ba |>) /\ core_of s2 = core_of s).
    { destruct (r_banishment_at r) as [t|].
      - apply bind_ok in E as (u & s3 & E & X). apply ret_ok in X as [-> ->]. split; [by exists None|].
        assert (R : rel (same core_of) (delete_task t HBanish a)) by frame. specialize (R s). rewrite E in R. exact R.
      - apply ret_ok in E as [-> ->]. split; [by exists None|done]. }
    destruct R2 as [[ba ->] R2]. clear E.
    change (r_banished (r <| r_banishment_at := ba |>)) with (r_banished r) in H. destruct (r_banished r) eqn:Eb.
    + apply bind_ok in H as ([b3 r3] & s3 & E & H). apply ret_ok in H as [-> H]. injection H as -> -> ->.
      exists r3. split_and!; [done..|]. right. split_and!; [done|done|done|lia|]. by exists ba, (bu_call EvStake a b), s2.
    + apply ret_ok in H as [-> H]. injection H as -> -> ->. exists (r <| r_banishment_at := ba |>). split_and!; [done| |].
      * cbn. by rewrite Eb.
      * left. exists ba. split_and!; [done..|congruence].
Qed.
Lemma obc_body_rel nb nd dust s a b r : rel (same st_ref) (obc_body nb nd dust s a b r).
Proof. unfold obc_body. repeat first [progress rel_struct | frame]. Qed.
(** "Not found" comes from a missing record only. *)
Definition found {A} (m : M A) : Prop := forall s, snd (m s) <> Err ErrNotFound /\ snd (m s) <> Panic ErrNotFound.
Lemma f_bind {A B} (m : M A) (f : A -> M B) : found m -> (forall a, found (f a)) -> found (bind m f).
Proof.
  intros H1 H2 s. unfold bind. specialize (H1 s). destruct (m s) as [s' [a|e|e]]; [apply H2| |];
    cbn in *; split; try discriminate; intros [= ->]; by destruct H1.
Qed.
Lemma f_ret {A} (a : A) : found (ret a). Proof. split; discriminate. Qed.
Lemma f_get {A} (f : St -> A) : found (get f). Proof. split; discriminate. Qed.
Lemma f_modify f : found (modify f). Proof. split; discriminate. Qed.
Lemma f_panic {A} e : found (@panic A e). Proof. split; discriminate. Qed.
Lemma f_fail {A} e : found (@fail A e). Proof. split; discriminate. Qed.
Lemma f_lift {A} e (o : option A) : found (lift e o). Proof. destruct o; split; discriminate. Qed.
Lemma f_recovered {A} (m : M A) : found m -> found (recovered m).
Proof. intros H s. unfold recovered. specialize (H s). destruct (m s) as [s' [a|e|e]]; cbn in *; split; try discriminate; intros [= ->]; by destruct H. Qed.
Ltac fstep := first [ apply f_ret | apply f_get | apply f_modify | apply f_panic | apply f_fail | apply f_lift | apply f_recovered
  | apply f_bind; [|intros ?] | match goal with |- found (if ?x then _ else _) => destruct x end
  | match goal with |- found (match ?x with _ => _ end) => destruct x end ].
Lemma f_schedule t h d : found (schedule_task t h d).
Proof. unfold schedule_task, schedule_task', check_key, assert. repeat fstep. Qed.
Lemma f_delete t h d : found (delete_task t h d).
Proof. unfold delete_task, delete_where, check_key, assert. repeat fstep. Qed.
Lemma f_status b a r : found (status_check b a r).
Proof. unfold status_check. repeat first [apply f_schedule | fstep]. Qed.
Lemma f_updatem {A} b a check (f : bu -> rinfo -> M (bu * rinfo * A)) : (forall b r, found (f b r)) -> found (bu_updatem b a check f).
Proof. intros H. unfold bu_updatem. repeat first [apply H | apply f_status | fstep]. Qed.
Lemma f_walk check f : forall lines b a, found (walk check lines b a f).
Proof. induction lines as [|i l IH]; intros b a; cbn [walk]; repeat first [apply IH | apply f_updatem; intros ? ? | fstep]. Qed.
Lemma f_nearest b : forall n a, found (nearest_open n b a).
Proof. induction n as [|n IH]; intros a; cbn [nearest_open]; repeat first [apply IH | fstep]. Qed.
Lemma f_revive a b r : found (revive a b r).
Proof. unfold revive, bu_update. cbv zeta. repeat first [apply f_nearest | apply f_walk | apply f_updatem; intros ? ? | fstep]. Qed.
Lemma f_obc nb nd dust s a b r : r_empty r = false -> found (obc_body nb nd dust s a b r).
Proof.
  intros E. unfold obc_body. rewrite E. unfold schedule_banishment. cbv zeta.
  repeat first [apply f_revive | apply f_schedule | apply f_delete | fstep].
Qed.
Lemma obc_ok a s s' : on_balance_changed a s = (s', Ok tt) ->
  (st_ref s' = st_ref s /\ r_empty (ref_get s a) = true) \/
  exists s1 b1 r1 r2 b2 s2 b3 dc dd node ban,
    obc_body (own_coins s a) (own_deleg s a) (bp_dust (st_bp s)) s a bu_new (normalize (ref_get s a)) s = (s1, Ok (b1, r1, (dc, dd, node, ban))) /\
    eqs r1 r2 /\ bu_data b2 = <[ a := r2 ]> (bu_data b1) /\ st_ref s2 = st_ref s1 /\
    (if ban then b3 = b2 /\ s' = fst (bu_commit b3 s2) else
       exists s3, walk true (seq 1 10) b2 node (fun i x b r => (if dd =? 0 then b else bu_call EvStake x b, add_line i dc dd r)) s2 = (s3, Ok b3) /\
       s' = fst (bu_commit b3 s3)).
Proof.
  unfold on_balance_changed. intros H.
  apply bind_ok in H as (s0 & s1 & E & H). apply get_ok in E as [-> ->]. unfold id in H. cbv zeta in H.
  apply bind_ok in H as (out & s1 & E & H). apply try_ok in E.
  destruct out as [[b [[[dc dd] node] ban]]|e]; cycle 1.
  { left. assert (R : rel (same st_ref) (bu_updatem bu_new a true (obc_body (own_coins s a) (own_deleg s a) (bp_dust (st_bp s)) s a))).
    { apply sw_bu_updatem; [apply _|frame|frame|]. intros b r. apply obc_body_rel. }
    change (bu_updatem bu_new a true (obc_body (own_coins s a) (own_deleg s a) (bp_dust (st_bp s)) s a) s = (s1, Err e)) in E.
    specialize (R s). rewrite E in R. destruct e; try (by apply throw_ok in H). apply ret_ok in H as [-> _]. split; [exact R|].
    destruct (r_empty (ref_get s a)) eqn:EE; [done|]. exfalso. unfold bu_updatem, recovered, bind in E. cbn [get] in E. rewrite bu_get_new in E.
    pose proof (f_obc (own_coins s a) (own_deleg s a) (bp_dust (st_bp s)) s a bu_new (normalize (ref_get s a)) EE s) as [F1 F2].
    destruct (obc_body _ _ _ _ _ _ _ s) as [s2 [[[b2 r2] x2]|e|e]]; cbn in E, F1, F2; [|congruence|congruence].
    pose proof (f_status b2 a r2 s2) as [F3 F4]. destruct (status_check b2 a r2 s2) as [s3 [[b3 r3]|e|e]]; cbn in E, F3, F4; congruence. }
  right. change (bu_updatem bu_new a true (obc_body (own_coins s a) (own_deleg s a) (bp_dust (st_bp s)) s a) s = (s1, Ok (b, (dc, dd, node, ban)))) in E.
  apply bu_updatem_ok in E as (s2 & b1 & r1 & r2 & E & Q & _ & ED & ES & _). rewrite bu_get_new in E.
  destruct ban.
  - apply bind_ok in H as (b3 & s3 & X & H). apply ret_ok in X as [-> ->].
    exists s2, b1, r1, r2, b, s1, b, dc, dd, node, true. split_and!; [done..|by rewrite H].
  - apply bind_ok in H as (b3 & s3 & X & H).
    exists s2, b1, r1, r2, b, s1, b3, dc, dd, node, false. split_and!; [done..|]. exists s3. split; [done|]. by rewrite H.
Qed.
Lemma commit_get b s1 s' : s' = fst (bu_commit b s1) -> forall y, ref_get s' y = bu_get b y s1.
Proof. intros -> y. apply union_get, commit_ref. Qed.
Lemma core_open s s' a : core_of s' = core_of s -> open_account s' a <-> open_account s a.
Proof.
  intros H. unfold core_of in H. injection H as H1 H2 H3.
  unfold open_account, referrer, banished, active, one_month, one_day, ref_get. by rewrite H1, H2, H3.
Qed.
Lemma core_up s s' n a : core_of s' = core_of s -> up s' n a = up s n a.
Proof.
  intros H. unfold core_of in H. injection H as H1 H2 H3. induction n as [|n IH]; [done|]. cbn [up]. rewrite IH.
  unfold referrer, ref_get. by rewrite H1.
Qed.
Lemma balance_changed_back a s s' : on_balance_changed a s = (s', Ok tt) -> banished s a = true -> active s a = false ->
  referrer s a <> nobody -> (forall n, (1 <= n)%nat -> up s n a <> a) ->
  let moved := line (r_deleg (ref_get s a)) 0 <> own_deleg s a in
  (moved /\ bp_dust (st_bp s) < own_deleg s a /\ returned s s' a) \/
  ~ (moved /\ bp_dust (st_bp s) < own_deleg s a) /\
    banished s' a = true /\ referrer s' a = referrer s a /\ (forall y, referrals s' y = referrals s y).
Proof.
  cbv zeta. intros H HB HA HR HU. apply obc_ok in H as [[_ H]|(s1 & b1 & r1 & r2 & b2 & s2 & b3 & dc & dd & node & ban & H1 & Q & ED & ES & H2)].
  { unfold r_empty in H. fold (banished s a) in H. rewrite HB in H. by rewrite andb_false_r in H. }
  apply obc_body_ok in H1 as (_ & r0 & -> & X & H1). injection X as -> -> -> ->.
  rewrite default_deleg in H1.
  set (r := normalize (ref_get s a)) in *.
  assert (RR : r_referrer r = referrer s a /\ r_referrals r = referrals s a /\ r_banished r = banished s a /\ r_active r = active s a) by done.
  clearbody r. destruct RR as (R1 & R2 & R3 & R4). rewrite R3, R4 in H1.
  assert (SI : forall nb nd r0, shape (set_own nb nd r0) = shape r0) by done.
  destruct H1 as [(ba & -> & D1 & C1 & H1)|(_ & _ & HD & HM & ba & b4 & s4 & D1 & C1 & H1)].
  - right. specialize (H1 HB HA). cbn [r_banished] in H2. change (r_banished (r <| r_banishment_at := ba |>)) with (r_banished r) in H2.
    rewrite R3, HB in H2. destruct H2 as [-> H2].
    assert (G : forall y, ref_get s' y = if (y =? a)%N then r2 else ref_get s y).
    { intros y. rewrite (commit_get _ _ _ H2). rewrite (bu_get_ext b2 b2 s s2 y); [|done|rewrite ES; unfold core_of in C1; congruence].
      rewrite (bu_get_insert bu_new b2 a r2 s); [by rewrite bu_get_new|]. by rewrite ED, D1. }
    apply shape_eqs in Q. rewrite SI in Q. apply shape_inj in Q as (Q1 & Q2 & Q3 & _). cbn in Q1, Q2, Q3.
    unfold banished at 1, referrer at 1. rewrite G, N.eqb_refl. split_and!; [|congruence|congruence|].
    + intros [M1 M2]. specialize (H1 (fun e => M1 (eq_sym e))). lia.
    + intros y. unfold referrals at 1. rewrite G. destruct (N.eqb_spec y a) as [E0|]; [|done]. subst y. congruence.
  - left.
    assert (C1' : st_ref s4 = st_ref s) by (unfold core_of in C1; congruence).
    apply revive_ok in H1 as (S1 & B1 & F1 & H1); cycle 1.
    { intros y. unfold bu_get. rewrite D1. done. } { cbn. rewrite R1. unfold referrer, ref_get. by rewrite C1'. }
    assert (RA : referrer s4 a = referrer s a) by (unfold referrer, ref_get; by rewrite C1').
    rewrite RA in H1. destruct H1 as [[H1 _]|(n & N1 & N2 & N3 & N4 & N5 & N6)]; [done|].
    rewrite (core_up _ _ n a C1) in *. set (q := up s n a) in *. apply (core_open _ _ q C1) in N4.
    assert (Hqa : q <> a) by (by apply HU).
    rewrite B1 in H2. destruct H2 as (s3 & H2 & H3).
    apply (walk_proj shape) in H2 as [S2 H2]; [|apply shape_eqs|done|]; cycle 1.
    { intros i x b0 r'. cbn [fst snd]. split; [done|]. by destruct (_ =? 0). }
    assert (G : forall y, shape (ref_get s' y) = if (y =? a)%N then shape r0 else if (y =? q)%N
       then shape (normalize (ref_get s q) <| r_referrals := referrals s q ++ [a] |>) else shape (ref_get s y)).
    { intros y. rewrite (commit_get _ _ _ H3), H2. rewrite (bu_get_ext b2 b2 s1 s2 y) by done.
      rewrite (bu_get_insert b1 b2 a r2 s1 ED). destruct (y =? a)%N; [rewrite (shape_eqs _ _ Q); apply SI|].
      rewrite N6. unfold referrals, ref_get. rewrite C1'. done. }
    split_and!; [by intros e; apply HM|done|].
    split.
    + pose proof (G a) as Ga. rewrite N.eqb_refl in Ga. apply shape_inj in Ga as (_ & _ & Ga & _). unfold banished. congruence.
    + right. exists n. fold q. pose proof (G a) as Ga. rewrite N.eqb_refl in Ga. apply shape_inj in Ga as (Ga & _).
      split_and!; [done|unfold referrer at 1; congruence|done|done| | |].
      * intros m Hm O. apply (N5 m Hm). rewrite (core_up _ _ m a C1). by apply (core_open _ _ _ C1).
      * specialize (G q). rewrite (proj2 (N.eqb_neq q a) Hqa), N.eqb_refl in G. apply shape_inj in G as (_ & G & _). exact G.
      * intros y Hy. specialize (G y). rewrite (proj2 (N.eqb_neq y q) Hy) in G. destruct (N.eqb_spec y a) as [E0|].
        -- subst y. apply shape_inj in G as (_ & G & _). unfold referrals at 1. rewrite G, F1. cbn. congruence.
        -- apply shape_inj in G as (_ & G & _). exact G.
Qed.

(** ** The downgrade *)
Lemma status_check_up b a r1 s s' b2 r2 : status_check b a r1 s = (s', Ok (b2, r2)) -> r_status r1 <= r_status r2.
Proof.
  intros H. unfold status_check in H.
  destruct (if r_status r1 =? 8 then _ else _) as [b1 r3] eqn:E1.
  assert (Q1 : r_status r1 <= r_status r3) by (destruct (Z.eqb_spec (r_status r1) 8) as [E8|]; injection E1 as _ <-; [cbn; lia|lia]).
  clear E1.
  apply bind_ok in H as (u0 & s0 & _ & H).
  apply bind_ok in H as (s3 & s4 & _ & H). apply bind_ok in H as (ok & s5 & _ & H).
  destruct ok; cbn [negb] in H.
  + apply bind_ok in H as (nx & s6 & _ & H). destruct (Z.ltb_spec (r_status (r3 <| r_downgrade_at := None |>)) nx) as [L|L]; [apply bind_ok in H as (? & ? & _ & H)|]; apply ret_ok in H as [_ H]; injection H as -> ->; cbn in *; lia.
  + destruct (r_downgrade_at _).
    * apply ret_ok in H as [_ H]; injection H as -> ->. lia.
    * apply bind_ok in H as (u & s6 & _ & H). apply ret_ok in H as [_ H]; injection H as -> ->. cbn. lia.
Qed.
Lemma perform_downgrade_ok a s s' : perform_downgrade a s = (s', Ok tt) ->
  (forall y, y <> a -> ref_get s' y = ref_get s y) /\ prev_status (status s a) <= status s' a /\
  (status s' a < status s a -> exists t, downgrade_at s a = Some t /\ t <= st_now s).
Proof.
  unfold perform_downgrade. intros H. apply (proj1 (must_ok _ _ _ _)) in H.
  apply bind_ok in H as (now & s1 & E & H). apply get_ok in E as [-> ->].
  apply bind_ok in H as ([b u] & s1 & E & H). unfold bu_update in E.
  apply bu_updatem_ok in E as (s2 & b1 & r1 & r2 & E & _ & _ & ED & ES & EC). rewrite bu_get_new in E.
  destruct (EC eq_refl) as [b2 EC']. clear EC. destruct u.
  assert (E1 : st_ref s2 = st_ref s /\ b1 = bu_new /\ r1 = fst (match r_downgrade_at (ref_get s a) with
      | Some t => if st_now s <? t then (normalize (ref_get s a), tt)
                  else (normalize (ref_get s a) <| r_status := prev_status (r_status (normalize (ref_get s a))) |> <| r_downgrade_at := None |>, tt)
      | None => (normalize (ref_get s a), tt) end)).
  { change (r_downgrade_at (normalize (ref_get s a))) with (r_downgrade_at (ref_get s a)) in E.
    destruct (r_downgrade_at (ref_get s a)) as [t|]; [destruct (st_now s <? t)|].
    - apply ret_ok in E as [-> E]. injection E as -> ->. done.
    - apply bind_ok in E as (? & s3 & EI & E). apply modify_ok in EI. apply ret_ok in E as [-> E]. injection E as -> ->. by subst s3.
    - apply ret_ok in E as [-> E]. injection E as -> ->. done. }
  destruct E1 as (ES2 & -> & E1).
  assert (G : forall y, ref_get s' y = if (y =? a)%N then r2 else ref_get s y).
  { intros y. rewrite (commit_get (bu_call EvStatus a b) s1 s') by (by rewrite H). rewrite (bu_get_ext b _ s s1 y) by (try done; congruence).
    rewrite (bu_get_insert bu_new b a r2 s) by done. by rewrite bu_get_new. }
  split. { intros y Hy. rewrite G. by rewrite (proj2 (N.eqb_neq y a) Hy). }
  unfold status at 2 3. rewrite G, N.eqb_refl.
  assert (L : r_status r1 <= r_status r2) by (by apply status_check_up in EC').
  unfold status, downgrade_at. assert (P : prev_status (r_status (ref_get s a)) <= r_status (ref_get s a)).
  { unfold prev_status. destruct (Z.eqb_spec (r_status (ref_get s a) - 1) 8); lia. }
  destruct (r_downgrade_at (ref_get s a)) as [t|].
  - destruct (Z.ltb_spec (st_now s) t); cbn in E1; subst r1; cbn in L.
    + split; [lia|]. intros; lia.
    + split; [lia|]. intros _. exists t. split; [done|lia].
  - cbn in E1. subst r1. cbn in L. split; [lia|]. intros; lia.
Qed.

(** ** Transitions *)
Lemma walk_up_ok f stop : forall a s s', walk_up f stop a s = (s', Ok tt) ->
  s' = s /\ forall n, up s n a = stop -> exists m, (m <= n)%nat /\ up s m a = nobody.
Proof.
  assert (US : forall s n a, up s (S n) a = up s n (referrer s a)).
  { intros s. induction n as [|n IH]; intros a; [done|]. cbn [up] in *. by rewrite <- IH. }
  induction f as [|f IH]; intros a s s' H; cbn [walk_up] in H.
  - destruct (N.eqb_spec a nobody) as [E|]; [|destruct (a =? stop)%N; discriminate].
    apply ret_ok in H as [-> _]. split; [done|]. intros n _. exists 0%nat. split; [lia|done].
  - destruct (N.eqb_spec a nobody) as [E|Ha].
    { apply ret_ok in H as [-> _]. split; [done|]. intros n _. exists 0%nat. split; [lia|done]. }
    destruct (N.eqb_spec a stop) as [E|Hs]; [discriminate|].
    apply bind_ok in H as (r & s1 & E & H). apply get_ok in E as [-> ->]. apply IH in H as [-> H]. split; [done|].
    intros [|n] E; [done|]. rewrite US in E. destruct (H n E) as (m & H1 & H2). exists (S m). split; [lia|]. by rewrite US.
Qed.
Lemma validate_ok subject parent fresh s s' : validate_transition subject parent fresh s = (s', Ok tt) -> s' = s /\
  parent <> nobody /\ parent <> subject /\ parent <> referrer s subject /\ open_account s parent /\
  (r_transition (ref_get s subject) = if fresh then nobody else parent) /\
  forall n, up s n parent = subject -> exists m, (m <= n)%nat /\ up s m parent = nobody.
Proof.
  unfold validate_transition. intros H.
  apply bind_ok in H as (u & s1 & E & H). apply ensure_ok in E as [-> E1]. apply negb_true_iff, N.eqb_neq in E1.
  apply bind_ok in H as (u1 & s1 & E & H). apply ensure_ok in E as [-> E2]. apply negb_true_iff, N.eqb_neq in E2.
  apply bind_ok in H as (r & s1 & E & H). apply get_ok in E as [-> ->].
  apply bind_ok in H as (u2 & s1 & E & H).
  assert (ET : s1 = s /\ r_transition (ref_get s subject) = if fresh then nobody else parent).
  { destruct fresh; apply ensure_ok in E as [-> E]; split; try done; by apply N.eqb_eq. }
  destruct ET as [-> ET]. clear E.
  apply bind_ok in H as (u3 & s1 & E & H). apply ensure_ok in E as [-> E3]. apply negb_true_iff, N.eqb_neq in E3.
  apply bind_ok in H as (p & s1 & E & H). apply get_ok in E as [-> ->].
  apply bind_ok in H as (c & s1 & E & H). apply get_ok in E as [-> ->].
  apply bind_ok in H as (u4 & s1 & E & H). apply ensure_ok in E as [-> E4]. apply negb_true_iff in E4.
  apply bind_ok in H as (f & s1 & E & H). apply get_ok in E as [-> ->].
  apply walk_up_ok in H as [-> H].
  split_and!; [done|done|congruence|unfold referrer; congruence|by apply open_iff|done|].
  assert (US : forall n a, up s (S n) a = up s n (referrer s a)).
  { induction n as [|n IH]; intros a; [done|]. cbn [up] in *. by rewrite <- IH. }
  intros [|n] E; [cbn in E; congruence|]. rewrite US in E. destruct (H n E) as (m & H1 & H2). exists (S m). split; [lia|]. by rewrite US.
Qed.

(** In a forest no chain is longer than there are records. *)
Lemma chain_length s (rk : addr -> nat) : (forall x, referrer s x <> nobody -> (rk (referrer s x) < rk x)%nat) -> referrer s nobody = nobody ->
  forall n a, up s n a <> nobody -> (n <= size (st_ref s))%nat.
Proof.
  intros Hrk Hno n a Hn.
  assert (E : forall m, up s m a = anc (refg (ref_get s)) m a) by (intros m; apply up_anc).
  assert (HB : forall m, (m <= n)%nat -> up s m a <> nobody).
  { intros m Hm. rewrite E. rewrite E in Hn. by eapply (anc_below Hno m n). }
  set (l := map (fun m => up s m a) (seq 0 n)).
  assert (Hl : NoDup l).
  { apply NoDup_fmap_2_strong; [|apply NoDup_seq]. intros x y Hx Hy Exy. rewrite !E in Exy.
    apply elem_of_seq in Hx. eapply (anc_inj rk Hrk Hno); [exact Exy|]. rewrite <- E. apply HB. lia. }
  assert (Hd : forall x, x ∈ l -> x ∈ dom (st_ref s)).
  { intros x Hx. apply elem_of_list_fmap in Hx as (m & -> & Hm). apply elem_of_seq in Hm.
    assert (HS : up s (S m) a <> nobody) by (apply HB; lia). cbn [up] in HS. apply elem_of_dom.
    unfold referrer, ref_get in HS. destruct (st_ref s !! up s m a); [by eexists|done]. }
  rewrite <- size_dom. replace n with (List.length l) by (unfold l; by rewrite map_length, seq_length).
  rewrite <- (size_list_to_set (C := gset N)) by done. apply subseteq_size. intros x Hx. apply elem_of_list_to_set in Hx. auto.
Qed.
Lemma walk_up_halts f stop : forall a s (rk : addr -> nat), (forall x, referrer s x <> nobody -> (rk (referrer s x) < rk x)%nat) ->
  referrer s nobody = nobody -> (forall n, up s n a <> nobody -> (n < f)%nat) -> forall s' e, walk_up f stop a s <> (s', Panic e).
Proof.
  assert (US : forall s n a, up s (S n) a = up s n (referrer s a)).
  { intros s. induction n as [|n IH]; intros a; [done|]. cbn [up] in *. by rewrite <- IH. }
  induction f as [|f IH]; intros a s rk Hrk Hno HF s' e; cbn [walk_up].
  - destruct (N.eqb_spec a nobody) as [|Ha]; [discriminate|]. specialize (HF 0%nat Ha). lia.
  - destruct (N.eqb_spec a nobody) as [|Ha]; [discriminate|]. destruct (a =? stop)%N; [discriminate|].
    unfold bind, get. apply (IH _ _ rk Hrk Hno). intros n Hn. fold (referrer s a) in Hn. rewrite <- US in Hn. specialize (HF _ Hn). lia.
Qed.
Lemma validate_halts subject parent fresh s (rk : addr -> nat) :
  (forall x, referrer s x <> nobody -> (rk (referrer s x) < rk x)%nat) -> referrer s nobody = nobody ->
  forall s' e, validate_transition subject parent fresh s <> (s', Panic e).
Proof.
  intros Hrk Hno s' e. unfold validate_transition, bind, ensure, get, ret, fail.
  destruct (negb (parent =? nobody)%N); [|discriminate]. destruct (negb (subject =? parent)%N); [|discriminate].
  assert (W : forall f p s' e, f = fuel_for s -> walk_up f subject p s <> (s', Panic e)).
  { intros f p s1 e1 ->. apply (walk_up_halts _ _ _ _ rk Hrk Hno). intros n Hn. apply (chain_length s rk Hrk Hno) in Hn. unfold fuel_for. lia. }
  destruct fresh.
  - destruct (r_transition _ =? _)%N; [|discriminate]. destruct (negb (r_referrer _ =? parent)%N); [|discriminate].
    destruct (negb (registration_closed _ _)); [|discriminate]. by apply W.
  - destruct (r_transition _ =? _)%N; [|discriminate]. destruct (negb (r_referrer _ =? parent)%N); [|discriminate].
    destruct (negb (registration_closed _ _)); [|discriminate]. by apply W.
Qed.
