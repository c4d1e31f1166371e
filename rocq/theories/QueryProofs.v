(** * Proofs about queries *)
From Coq Require Import QArith.
From Verif Require Import Queries Spec_Queries Spec_Pure MonadProofs FracProofs PureLemmas BankProofs DelegProofs QualProofs.
From Verif Require Import StatusProofs NameProofs NameHist Spec_Profile.
Open Scope Z_scope.

(** ** Pages *)
Lemma wrap32_id z : fits32 z -> wrap32 z = z.
Proof. unfold fits32, wrap32. intros. rewrite Z.mod_small; lia. Qed.
Lemma page_loop_spec {A} start end_ (l : list A) : end_ < 2147483648 -> forall c, 0 <= c ->
  page_loop start end_ c l = take (Z.to_nat (end_ - Z.max start c)) (drop (Z.to_nat (start - c)) l).
Proof.
  intros HE. induction l as [|x l IH]; intros c Hc; cbn [page_loop].
  { by rewrite drop_nil, take_nil. }
  destruct (c <? end_) eqn:B1.
  2:{ replace (Z.to_nat (end_ - Z.max start c)) with 0%nat by lia. done. }
  rewrite wrap32_id by (unfold fits32; lia). destruct (c <? start) eqn:B2.
  - rewrite IH by lia. replace (Z.to_nat (start - c)) with (S (Z.to_nat (start - (c + 1)))) by lia. cbn [drop].
    f_equal. lia.
  - rewrite IH by lia. replace (Z.to_nat (start - c)) with 0%nat by lia. replace (Z.to_nat (start - (c + 1))) with 0%nat by lia.
    replace (Z.to_nat (end_ - Z.max start c)) with (S (Z.to_nat (end_ - Z.max start (c + 1)))) by lia. cbn. rewrite !drop_0. done.
Qed.
Lemma page_of_spec {A} limit page (l : list A) : 0 < limit -> 0 < page -> limit * page < 2147483648 ->
  page_of limit page l = take (Z.to_nat limit) (drop (Z.to_nat ((page - 1) * limit)) l).
Proof.
  intros H1 H2 H3. unfold page_of. assert (page < 2147483648) by nia.
  rewrite (wrap32_id (page - 1)) by (unfold fits32; lia). rewrite (wrap32_id (limit * page)) by (unfold fits32; lia).
  rewrite (wrap32_id (limit * (page - 1))) by (unfold fits32; nia). rewrite page_loop_spec by lia. f_equal; [nia|]. f_equal. nia.
Qed.
Lemma pages_spec {A} (q : Z -> list A) l m n : (forall k, (1 <= k <= n)%nat -> q (Z.of_nat k) = take m (drop ((k - 1) * m) l)) ->
  pages q n = take (n * m) l.
Proof.
  induction n as [|n IH]; intros H; [done|]. unfold pages in *. rewrite seq_S, map_app, concat_app. rewrite IH by (intros; apply H; lia).
  cbn [map List.concat]. rewrite app_nil_r, H by lia. replace (1 + n - 1)%nat with n by lia. replace (S n * m)%nat with (n * m + m)%nat by lia.
  apply take_take_drop.
Qed.
Lemma pages_all {A} (q : Z -> list A) l limit n : 0 < limit -> Z.of_nat (List.length l) <= limit * Z.of_nat n ->
  (forall k, 1 <= k <= Z.of_nat n -> q k = take (Z.to_nat limit) (drop (Z.to_nat ((k - 1) * limit)) l)) -> pages q n = l.
Proof.
  intros HL HN H. rewrite (pages_spec q l (Z.to_nat limit) n).
  - apply take_ge. nia.
  - intros k Hk. rewrite H by lia. f_equal. f_equal. nia.
Qed.
Lemma earners_listed s : lists_accounts (st_earn s) (earn_export s).
Proof.
  split.
  - unfold earn_export. rewrite map_map. cbn. rewrite map_id. apply sorted_keysN.
  - intros a x. unfold earn_export. rewrite elem_of_list_fmap. split.
    + intros (b & [= -> ->] & Hb). apply elem_of_keysN in Hb as [y ->]. done.
    + intros E. exists a. rewrite E. split; [done|]. apply elem_of_keysN. eauto.
Qed.
Lemma store_listed {A} (m : gmap Z A) : lists_store m (omap (fun k => m !! k) (keysZ m)).
Proof.
  exists (keysZ m). split; [apply sorted_keysZ|]. split; [intros; apply elem_of_keysZ|].
  assert (H : forall k, k ∈ keysZ m -> is_Some (m !! k)) by (intros; by apply elem_of_keysZ).
  revert H. generalize (keysZ m). intros l. induction l as [|k l IH]; intros H; [done|]. cbn.
  destruct (H k ltac:(left)) as [x E]. rewrite E. cbn. f_equal. apply IH. intros; apply H; by right.
Qed.
Lemma store_once {A} (m : gmap Z A) l : lists_store m l -> Z.of_nat (List.length l) = Z.of_nat (size m).
Proof.
  intros (ks & H1 & H2 & H3). f_equal. rewrite <- (map_length Some), H3, map_length.
  replace (size m) with (size (dom m)) by apply size_dom.
  rewrite <- (size_list_to_set (C:=gset Z) ks).
  - f_equal. apply leibniz_equiv. intros k. by rewrite elem_of_list_to_set, H2, elem_of_dom.
  - clear -H1. induction H1 as [|k l H1 IH HF]; constructor; [|done]. intros H. rewrite Forall_forall in HF. specialize (HF k H). lia.
Qed.
Lemma accounts_once {A} (m : gmap addr A) l : lists_accounts m l -> List.length l = size m.
Proof.
  intros [H1 H2]. replace (size m) with (size (dom m)) by apply size_dom.
  rewrite <- (map_length fst), <- (size_list_to_set (C:=gset addr) (map fst l)).
  - f_equal. apply leibniz_equiv. intros k. rewrite elem_of_list_to_set, elem_of_dom, elem_of_list_fmap. split.
    + intros ([a x] & -> & Hx). apply H2 in Hx. by exists x.
    + intros [x Hx]. exists (k, x). split; [done|]. by apply H2.
  - clear -H1. induction H1 as [|k r H1 IH HF]; constructor; [|done]. intros H. rewrite Forall_forall in HF. specialize (HF k H). lia.
Qed.

(** ** Interest *)
Lemma accumulation_less a s s' r : query_accumulation a s = (s', Ok r) ->
  proper_skip s a -> proper_table (dp_table (st_dp s)) -> 0 < st_day s -> small_less s a (ac_end r) -> forecast_less s a r.
Proof.
  intros H HM HT HD HS. unfold query_accumulation, fr in H.
  apply bind_ok in H as (o & s1 & H1 & H). apply get_ok in H1 as [-> ->].
  unfold forecast_less, next_accrual. unfold small_less in HS. unfold proper_skip in HM. unfold skipped in *.
  destruct (st_del s !! a) as [item|] eqn:Ei; [|by apply fail_ok in H].
  destruct (d_next item) as [t|] eqn:Et; [|by apply fail_ok in H].
  apply bind_ok in H as (day & s1 & H1 & H). apply get_ok in H1 as [-> ->]. cbv zeta in H.
  apply bind_ok in H as (now & s1 & H1 & H). apply get_ok in H1 as [-> ->]. unfold one_day in H.
  apply bind_ok in H as (q & s1 & H1 & H). apply lift_ok in H1 as [-> Eq].
  apply bind_ok in H as (d & s1 & H1 & H). apply get_ok in H1 as [-> ->].
  apply bind_ok in H as ([[[pr v] vpn] st] & s1 & H1 & H).
  apply bonus_flags_ok in H1 as (HP & Hpr & Hv & Hvpn & Hst & e & ->).
  apply bind_ok in H as (pc & s1 & H1 & H). apply get_ok in H1 as [-> ->].
  apply bind_ok in H as (f & s1 & H1 & H). apply lift_ok in H1 as [-> H1].
  change (percent (s <| st_earn := e |>) (own_deleg s a) pr v vpn st) with (percent s (own_deleg s a) pr v vpn st) in H1.
  destruct (rate_ok s a pr v vpn st (own_deleg s a) Hpr Hv Hvpn Hst eq_refl f HT H1) as (HB & Hf & Vf).
  change (own_deleg s a) with (bal s a uartrd) in *. clear H1 Hpr Hv Hvpn Hst.
  apply bind_ok in H as (d & s1 & H1 & H). apply lift_ok in H1 as [-> H1]. apply to_int64_some in H1 as [-> _].
  apply bind_ok in H as (tot & s1 & H1 & H). apply lift_ok in H1 as [-> E1].
  apply bind_ok in H as (cur & s1 & H1 & H). apply lift_ok in H1 as [-> E2].
  apply bind_ok in H as ([tot' cur'] & s1 & HK & H).
  apply bind_ok in H as (mon & s2 & H1 & H). apply lift_ok in H1 as [-> E3].
  apply bind_ok in H as (n & s2 & H1 & H). apply lift_ok in H1 as [-> E4].
  apply bind_ok in H as (m & s2 & H1 & H). apply lift_ok in H1 as [-> E5].
  apply ret_ok in H as [_ ->]. cbn [ac_end ac_start ac_daily ac_percent ac_total ac_current ac_missed] in *.
  unfold fits64 in HS. destruct HS as (S2 & S3 & S4 & S5).
  change (- 2^63) with (-9223372036854775808) in S2. change (2^63) with 9223372036854775808 in S2.
  assert (sat64 (st_now s - (t - st_day s)) = st_now s - (t - st_day s)) as ES by (unfold sat64; lia). rewrite ES in Eq.
  destruct (reduce_qval (Frac.new_fraction (st_now s - (t - st_day s)) (st_day s))) as (q' & Eq' & Gq & _ & Vq); [cbn; lia|].
  rewrite Eq' in Eq. injection Eq as ->.
  assert (Vp : (qval q == part_of s t)%Q).
  { rewrite Vq. unfold part_of, qval. cbn [Frac.fnum Frac.fden Frac.new_fraction].
    replace (st_now s - (t - st_day s)) with (st_day s + - (t - st_now s)) by lia. rewrite inject_Z_plus, inject_Z_opp.
    field. apply inj_nz. lia. }
  unfold oget, Frac.obind in E1, E3.
  destruct (mul_int_qval f (bal s a uartrd) Hf) as (x1 & X1 & G1 & V1). rewrite X1 in E1.
  destruct (reduce_qval x1) as (x2 & X2 & G2 & _ & V2); [lia|]. rewrite X2 in E1. injection E1 as <-.
  destruct (mul_qval x2 q) as (x3 & X3 & G3 & _ & V3); [lia|lia|]. rewrite X3 in E2. injection E2 as <-.
  set (k := match d_missed item with Some m => qval m | None => 0%Q end) in *.
  assert (HK' : Frac.fden tot' <> 0 /\ Frac.fden cur' <> 0 /\ (qval tot' == qval x2 * (1 - k))%Q /\ (qval cur' == qval x3 - k * qval x2)%Q).
  { subst k. destruct (d_missed item) as [mi|].
    - destruct (mul_qval mi x2) as (y1 & Y1 & Q1 & _ & W1); [done|lia|].
      destruct (sub_qval x2 y1) as (y2 & Y2 & Q2 & W2); [lia|lia|].
      destruct (sub_qval x3 y1) as (y3 & Y3 & Q3 & W3); [lia|lia|].
      apply bind_ok in HK as (z & ? & H1 & HK). apply lift_ok in H1 as [-> H1]. rewrite Y1 in H1. injection H1 as <-.
      apply bind_ok in HK as (z & ? & H1 & HK). apply lift_ok in H1 as [-> H1]. rewrite Y2 in H1. injection H1 as <-.
      apply bind_ok in HK as (z & ? & H1 & HK). apply lift_ok in H1 as [-> H1]. rewrite Y3 in H1. injection H1 as <-.
      apply ret_ok in HK as [_ [= -> ->]]. split; [lia|]. split; [lia|]. split.
      + rewrite W2, W1. ring.
      + rewrite W3, W1. ring.
    - apply ret_ok in HK as [_ [= -> ->]]. split; [lia|]. split; [lia|]. split; ring. }
  clear HK. destruct HK' as (G5 & G6 & V5 & V6). clearbody k.
  destruct (mul_int_qval f 3000 Hf) as (x4 & X4 & G4 & V4). rewrite X4 in E3.
  destruct (c03_int64 x4) as (y & Ey & _ & _ & Hy); [lia|]. rewrite Ey in E3. injection E3 as <-.
  destruct (c03_int64 tot') as (y2 & Ey2 & _ & _ & Hy2); [lia|]. rewrite Ey2 in E4. injection E4 as <-.
  destruct (c03_int64 cur') as (y3 & Ey3 & _ & _ & Hy3); [lia|]. rewrite Ey3 in E5. injection E5 as <-.
  rewrite (trunc_eq _ (account_rate s a * inject_Z 30 * inject_Z 100)) in Hy.
  2:{ rewrite V4, Vf. change 3000 with (30 * 100). rewrite inject_Z_mult. ring. }
  rewrite (trunc_eq _ (account_rate s a * (1 - k) * inject_Z (bal s a uartrd))) in Hy2.
  2:{ rewrite V5, V2, V1, Vf. ring. }
  rewrite (trunc_eq _ (account_rate s a * (part_of s t - k) * inject_Z (bal s a uartrd))) in Hy3.
  2:{ rewrite V6, V3, V2, V1, Vf, Vp. ring. }
  split_and!; auto.
Qed.
Lemma accumulation_ok a s s' r : query_accumulation a s = (s', Ok r) ->
  unskipped s a -> proper_table (dp_table (st_dp s)) -> 0 < st_day s -> small_interest s a (ac_end r) -> forecast s a r.
Proof.
  intros H HM HT HD HS.
  assert (K : (skipped s a == 0)%Q). { unfold skipped, unskipped in *. destruct (st_del s !! a) as [d|]; [|done]. by rewrite HM. }
  assert (T1 : trunc (account_rate s a * (1 - skipped s a) * inject_Z (bal s a uartrd)) = trunc (account_rate s a * inject_Z (bal s a uartrd))).
  { apply trunc_eq. rewrite K. ring. }
  assert (T2 : trunc (account_rate s a * (part_of s (ac_end r) - skipped s a) * inject_Z (bal s a uartrd)) =
    trunc (account_rate s a * part_of s (ac_end r) * inject_Z (bal s a uartrd))).
  { apply trunc_eq. rewrite K. ring. }
  destruct HS as (S1 & S2 & S3 & S4 & S5 & _).
  destruct (accumulation_less a s s' r H) as (F1 & F2 & F3 & F4 & F5 & F6 & _); [|done|done| |].
  - unfold proper_skip, unskipped in *. destruct (st_del s !! a) as [d|]; [|done]. by rewrite HM.
  - unfold small_less. rewrite T1, T2. done.
  - rewrite T1 in F5. rewrite T2 in F6. done.
Qed.

(** ** Schedule *)
Lemma filter_none {A} (p : A -> bool) l : Forall (fun x => p x = false) l -> List.filter p l = [].
Proof. induction 1 as [|x l H _ IH]; [done|]. cbn. by rewrite H. Qed.
Lemma filter_whole {A} (p : A -> bool) l : Forall (fun x => p x = true) l -> List.filter p l = l.
Proof. induction 1 as [|x l H _ IH]; [done|]. cbn. by rewrite H, IH. Qed.
Lemma sorted_app {A} (R : A -> A -> Prop) l m : StronglySorted R l -> StronglySorted R m ->
  (forall x y, x ∈ l -> y ∈ m -> R x y) -> StronglySorted R (l ++ m).
Proof.
  intros Hl Hm. induction Hl as [|x l Hl IH HF]; intros H; [done|]. cbn. constructor.
  - apply IH. intros; apply H; [by right|done].
  - apply Forall_app. split; [done|]. apply Forall_forall. intros y Hy. apply H; [left|done].
Qed.
Lemma sorted_times l k : Forall (fun t => t_time t = k) l -> StronglySorted (fun x y => t_time x <= t_time y) l.
Proof.
  induction 1 as [|x l H HF IH]; constructor; [done|]. eapply Forall_impl; [exact HF|]. cbn. intros y Hy. lia.
Qed.
Lemma by_time (f : time -> list task) ks : StronglySorted Z.lt ks -> (forall k, Forall (fun t => t_time t = k) (f k)) ->
  StronglySorted (fun x y => t_time x <= t_time y) (flat_map f ks) /\
  (forall t, t ∈ flat_map f ks -> t_time t ∈ ks) /\
  forall k, List.filter (fun t => t_time t =? k) (flat_map f ks) = if decide (k ∈ ks) then f k else [].
Proof.
  intros HS HT. induction HS as [|x ks HS IH HF].
  - cbn. split; [constructor|]. split; [by intros t ?%elem_of_nil|]. intros k. destruct (decide _) as [H|]; [by apply elem_of_nil in H|done].
  - destruct IH as (I1 & I2 & I3). cbn. rewrite Forall_forall in HF. split; [|split].
    + apply sorted_app; [by apply (sorted_times _ x)|done|]. intros t u Ht Hu. apply I2 in Hu. specialize (HF _ Hu).
      specialize (HT x). rewrite Forall_forall in HT. specialize (HT t Ht). cbn in HT. lia.
    + intros t [Ht|Ht]%elem_of_app; [|right; by apply I2]. specialize (HT x). rewrite Forall_forall in HT. rewrite (HT t Ht). left.
    + intros k. rewrite List.filter_app, I3. destruct (Z.eq_dec x k) as [<-|Hk].
      * rewrite filter_whole. 2:{ eapply Forall_impl; [apply HT|]. cbn. intros. lia. }
        rewrite (decide_False (P := x ∈ ks)). 2:{ intros H. specialize (HF _ H). lia. }
        rewrite decide_True by left. apply app_nil_r.
      * rewrite filter_none. 2:{ eapply Forall_impl; [apply HT|]. cbn. intros. lia. }
        cbn. destruct (decide (k ∈ ks)) as [H|H]; [by rewrite decide_True by (by right)|rewrite decide_False; [done|]].
        intros [->|?]%elem_of_cons; done.
Qed.
Lemma tasks_listed s p : sched_ok s ->
  lists_tasks s p (flat_map (fun k => if p k then default [] (st_sched s !! k) else []) (keysZ (st_sched s))).
Proof.
  intros HS. destruct (by_time (fun k => if p k then default [] (st_sched s !! k) else []) (keysZ (st_sched s))) as (H1 & _ & H3).
  - apply sorted_keysZ.
  - intros k. destruct (p k); [|constructor]. destruct (st_sched s !! k) as [ts|] eqn:E; [|constructor]. cbn. by apply HS in E as (_ & H & _).
  - split; [done|]. intros k. rewrite H3. unfold tasks_at. destruct (decide _) as [H|H]; [done|].
    rewrite elem_of_keysZ in H. destruct (st_sched s !! k); [destruct H; eauto|]. by destruct (p k).
Qed.

(** ** Transitions *)
Lemma walk_up_err f stop a s s' e : walk_up f stop a s = (s', Err e) -> exists n, up s n a = stop /\ forall m, (m <= n)%nat -> up s m a <> nobody.
Proof.
  revert a. induction f as [|f IH]; intros a; cbn [walk_up].
  - destruct (N.eqb_spec a nobody); [done|]. destruct (N.eqb_spec a stop); [|done]. intros _. exists O. split; [done|].
    intros m Hm. by replace m with O by lia.
  - destruct (N.eqb_spec a nobody); [done|]. destruct (N.eqb_spec a stop).
    + intros _. exists O. split; [done|]. intros m Hm. by replace m with O by lia.
    + rewrite run_get. intros H. apply IH in H as (k & E & H). exists (Datatypes.S k). rewrite <- E.
      assert (U : forall m, up s (Datatypes.S m) a = up s m (referrer s a)).
      { clear. intros m. induction m as [|m IH]; [done|]. cbn [up] in *. by rewrite IH. }
      split; [apply U|]. intros [|m] Hm; [done|]. rewrite U. apply H. lia.
Qed.
Lemma ensure_err c e s s' e' : ensure c e s = (s', Err e') -> c = false.
Proof. unfold ensure. destruct c; done. Qed.
Lemma validate_err subject parent s s' e : validate_transition subject parent true s = (s', Err e) -> ~ may_move s subject parent.
Proof.
  unfold validate_transition. intros H (M1 & M2 & M3 & M4 & M5 & M6).
  assert (W : forall (m : M unit) (k : unit -> M unit) s s' e, bind m k s = (s', Err e) -> (forall s' e, m s <> (s', Err e)) -> rel eq m -> k tt s = (s', Err e)).
  { clear. intros m k s s' e. unfold bind. intros H HN HR. specialize (HR s). destruct (m s) as [s1 [[]|?|?]]; cbn in HR; subst; [done| |done].
    by destruct (HN s1 e0). }
  assert (NE : forall c e0 s, c = true -> forall s' e, ensure c e0 s <> (s', Err e)) by (intros c e0 ? -> ? ?; done).
  apply W in H; [|apply NE; by apply negb_true_iff, N.eqb_neq|apply rel_ensure, _].
  apply W in H; [|apply NE; apply negb_true_iff, N.eqb_neq; congruence|apply rel_ensure, _].
  rewrite run_get in H.
  apply W in H; [|apply NE; by apply N.eqb_eq|apply rel_ensure, _].
  apply W in H; [|apply NE; apply negb_true_iff, N.eqb_neq; unfold referrer in M3; congruence|apply rel_ensure, _].
  rewrite !run_get in H.
  apply W in H; [|apply NE; apply negb_true_iff; by apply open_iff|apply rel_ensure, _].
  rewrite run_get in H. apply walk_up_err in H as (n & E & H). apply M6. exists (Datatypes.S n).
  assert (U : forall m, up s (Datatypes.S m) parent = up s m (referrer s parent)).
  { clear. intros m. induction m as [|m IH]; [done|]. cbn [up] in *. by rewrite IH. }
  split; [lia|]. split; [by rewrite U|]. intros [|m] Hm; [done|]. rewrite U. apply H. lia.
Qed.

(** ** Who is found by nickname and by card *)
Lemma create_card c a r p s s' : msg_create_account c a r p s = (s', Ok tt) -> names_ok s ->
  exists s1 p', kept_names s s1 /\ st_prof s1 !! a = None /\ st_prof s' = <[ a := p' ]> (st_prof s1) /\
    st_nick s' = new_nicks s1 a None p' /\ st_card s' = new_cards s1 a None p'.
Proof.
  intros H HN. apply create_ok in H as (HX & s1 & n & O1 & HA & H).
  assert (EX : st_prof s !! a = None).
  { destruct (st_prof s !! a) as [q|] eqn:E; [|done]. apply (no_profile s HN) in E. congruence. }
  assert (EX1 : st_prof s1 !! a = None) by (by rewrite (opens_prof _ _ O1)).
  set (p' := default p_zero p <| p_card := _ |>) in H. exists s1, p'. clearbody p'.
  apply set_profile_ok in H as (O & EP & EN & EC & HV); [|intros o' Eo'; congruence].
  rewrite EX1 in EN, EC. split_and!; try done. by apply kept_opens.
Qed.
Definition index_rel (s s' : St) : Prop := names_ok s -> findable s -> names_ok s' /\ findable s'.
#[export] Instance index_rel_preorder : PreOrder index_rel.
Proof. split; [by intros s|]. intros s1 s2 s3 H1 H2 H C. destruct (H1 H C). by apply H2. Qed.
Lemma found_kept s s' : kept_names s s' -> findable s -> findable s'.
Proof.
  intros (O & EN & EC & EP) [F1 F2]. split.
  - intros k a. rewrite EN. intros H. destruct (F1 k a H) as [p Hp]. specialize (EP a). rewrite Hp in EP.
    destruct (st_prof s' !! a) eqn:E; [by eexists|done].
  - intros c a. rewrite EC. intros H. destruct (F2 c a H) as (p & Hp & HC). specialize (EP a). rewrite Hp in EP.
    destruct (st_prof s' !! a) as [q|] eqn:E; [|done]. cbn in EP. apply core_inv in EP as [_ E1]. exists q. split; [done|congruence].
Qed.
Lemma index_kept s s' : kept_names s s' -> index_rel s s'.
Proof. intros K N F. split; [by eapply names_kept|by eapply found_kept]. Qed.
Lemma new_nicks_in s a o p k b : new_nicks s a o p !! k = Some b -> b = a \/ st_nick s !! k = Some b.
Proof.
  unfold new_nicks. intros H.
  assert (X : forall m : gmap (list N) addr, (m !! k = Some b -> b = a \/ st_nick s !! k = Some b) ->
    (if decide (trim s (p_nick p) = []) then m else <[lower s (trim s (p_nick p)) := a]> m) !! k = Some b -> b = a \/ st_nick s !! k = Some b).
  { intros m Hm. destruct (decide _); [done|]. intros [[_ ->]|[_ Y]]%lookup_insert_Some; [by left|by apply Hm]. }
  destruct o as [o|]; [|revert H; apply X; by right]. destruct (decide (p_nick o = p_nick p)); [by right|]. revert H. apply X.
  destruct (decide (p_nick o = [])); [by right|]. intros [_ Y]%lookup_delete_Some. by right.
Qed.
Lemma index_msg m : okrel index_rel (run_msg m).
Proof.
  destruct (writes_nick m) eqn:E.
  2: { intros s s' [] H. apply index_kept. by eapply (kn_msg m E). }
  destruct m; try discriminate; cbn [run_msg]; intros s s' [] H HN HF.
  - pose proof H as H'. apply names_create in H' as (_ & _ & _ & _ & _ & _ & _ & HN' & _); [|done]. split; [done|].
    apply create_card in H as (s1 & p' & K & EX & EP & EN & EC); [|done]. destruct (found_kept _ _ K HF) as [F1 F2]. split.
    + intros k b. rewrite EN, EP. intros [->|Hb]%new_nicks_in; [by rewrite lookup_insert|]. destruct (F1 k b Hb) as [q Hq].
      rewrite lookup_insert_ne; [by eexists|]. intros <-. by rewrite EX in Hq.
    + intros c0 b. rewrite EC, EP. unfold new_cards. intros Hb.
      assert (HD : (c0 = p_card p' /\ b = a) \/ st_card s1 !! c0 = Some b).
      { destruct (p_card p' =? 0); [by right|]. apply lookup_insert_Some in Hb as [[-> ->]|[_ Hb]]; [by left|by right]. }
      destruct HD as [[-> ->]|HD]; [exists p'; by rewrite lookup_insert|]. destruct (F2 _ _ HD) as (q & Hq & HC).
      exists q. rewrite lookup_insert_ne; [done|]. intros <-. by rewrite EX in Hq.
  - apply names_update in H as (o & Eo & HN' & O & EP & EN & EC); [|done]. split; [done|]. destruct HF as [F1 F2]. split.
    + intros k b. rewrite EN, EP. intros [->|Hb]%new_nicks_in; [by rewrite lookup_insert|]. destruct (F1 k b Hb) as [q Hq].
      apply lookup_insert_is_Some. destruct (decide (a = b)); [by left|right]. split; [done|by eexists].
    + intros c0 b. rewrite EC, EP. intros Hb. destruct (F2 _ _ Hb) as (q & Hq & HC). destruct (decide (a = b)) as [<-|Hd].
      * eexists. rewrite lookup_insert. split; [done|]. rewrite fold_upd_card. congruence.
      * exists q. by rewrite lookup_insert_ne.
Qed.
Lemma index_blocks bs s s' us : times_from (st_now s) bs -> run_blocks bs s = Some (s', us) -> index_rel s s'.
Proof.
  intros HT. apply (bl_blocks index_rel (fun _ => True)); [..|done|].
  - intros b s0 _. apply index_kept. by apply kept_names_fields.
  - intros p v e s0 s1 x H. apply index_kept. assert (HR : rel kept_names (noding_begin p v e)) by frame. specialize (HR s0). by rewrite H in HR.
  - intros t s0. apply index_kept, kn_task.
  - intros ks s0. apply index_kept. by apply kept_names_fields.
  - intros t s0 _. apply tx_rel; [apply _| |intros m _; apply index_msg]. intros s1 s2 x H. apply index_kept. by eapply kn_ante.
  - intros s0 s1 x H. apply index_kept. assert (HR : rel kept_names end_block) by frame. specialize (HR s0). by rewrite H in HR.
  - apply Forall_forall. intros b _. by apply Forall_forall.
Qed.
