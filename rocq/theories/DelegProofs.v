(** * Delegation and earning *)
From Verif Require Export BankProofs Blocks Spec_Delegating.
From Verif Require Import Spec_Pure FracProofs PureLemmas.
Open Scope Z_scope.

Lemma trunc_eq x y : (x == y)%Q -> trunc x = trunc y.
Proof. intros H. unfold trunc. rewrite (Qround.Qfloor_comp _ _ H), (Qround.Qceiling_comp _ _ H), H. reflexivity. Qed.

(** ** Interest rates *)
Lemma bonus_spec t i d : forall acc, StronglySorted Z.lt (map fst t) ->
  (forall start row, (start, row) ∈ t -> is_Some (row !! i)) ->
  bonus t i d acc = Some (match last (List.filter (fun r => fst r <=? d) t) with
                          | Some r => default acc (snd r !! i) | None => acc end).
Proof.
  induction t as [|[start row] t IH]; intros acc HS HR; [done|]. cbn [bonus List.filter fst].
  cbn [map fst] in HS. apply StronglySorted_inv in HS as [HS HF].
  destruct (start <=? d) eqn:E.
  - destruct (HR start row) as [f Hf]; [left|]. rewrite Hf. rewrite IH; [|done|intros; eapply HR; by right].
    destruct (List.filter _ t) as [|r l] eqn:EL; [cbn; by rewrite Hf|].
    rewrite last_cons_cons. destruct (last (r :: l)) as [r'|] eqn:EL'; [|by apply last_None in EL'].
    assert (Hin : r' ∈ t).
    { apply last_Some_elem_of in EL'. rewrite <- EL in EL'. apply elem_of_list_In, filter_In in EL' as [? _].
      by apply elem_of_list_In. }
    destruct r' as [s' row']. destruct (HR s' row') as [f' Hf']; [by right|]. cbn. by rewrite Hf'.
  - assert (List.filter (fun r : Z * list frac => fst r <=? d) t = []) as ->; [|done].
    clear IH HR. rewrite Forall_forall in HF. induction t as [|r t IH]; [done|]. cbn.
    assert (start < fst r) by (apply HF; left).
    assert (fst r <=? d = false) as -> by lia. apply IH; [by apply StronglySorted_inv in HS as [? _]|].
    intros x Hx. apply HF. by right.
Qed.
Lemma bonus_row t i d : (i < 5)%nat -> proper_table t -> exists f, bonus t i d Frac.frac_zero = Some f /\ Frac.fden f <> 0 /\
  (qval f == match row_for t d with Some row => column row i | None => 0 end)%Q.
Proof.
  intros Hi [HS HR]. rewrite bonus_spec; [|done|].
  2:{ intros start row Hin. destruct (HR _ _ Hin) as [HL _]. apply lookup_lt_is_Some. lia. }
  eexists; split; [reflexivity|]. unfold row_for.
  destruct (last (List.filter _ t)) as [[start row]|] eqn:EL; cbn [option_map snd].
  - assert (Hin : (start, row) ∈ t).
    { apply last_Some_elem_of, elem_of_list_In, filter_In in EL as [? _]. by apply elem_of_list_In. }
    destruct (HR _ _ Hin) as [HL HD]. unfold column.
    destruct (row !! i) as [f|] eqn:Ef; [|apply lookup_ge_None in Ef; lia].
    cbn. split; [|reflexivity]. apply HD. by eapply elem_of_list_lookup_2.
  - cbn. split; [lia|reflexivity].
Qed.
Lemma percent_sum_spec t d flags : proper_table t -> forall i acc, (i + List.length flags <= 5)%nat -> Frac.fden acc <> 0 ->
  exists f, percent_sum t d flags i acc = Some f /\ Frac.fden f <> 0 /\
  (qval f == qval acc + match row_for t d with
     | Some row => fold_right (fun k (q : Q) => (if default false (flags !! k) then column row (i + k) else 0) + q)%Q 0%Q (seq 0 (List.length flags))
     | None => 0 end)%Q.
Proof.
  intros HT. induction flags as [|b flags IH]; intros i acc Hi Ha; cbn [percent_sum List.length].
  - exists acc. split; [done|]. split; [done|]. cbn. destruct (row_for t d); ring.
  - cbn [List.length] in Hi.
    assert (SEQ : forall row acc' (q0 : Q), (qval acc' == qval acc + q0)%Q -> forall f,
      (qval f == qval acc' + fold_right (fun k (q : Q) => (if default false (flags !! k) then column row (S i + k) else 0) + q)%Q 0%Q (seq 0 (List.length flags)))%Q ->
      (q0 == if b then column row i else 0)%Q ->
      (qval f == qval acc + fold_right (fun k (q : Q) => (if default false ((b :: flags) !! k) then column row (i + k) else 0) + q)%Q 0%Q (seq 0 (S (List.length flags))))%Q).
    { intros row acc' q0 Hacc f Hf Hq. cbn [seq fold_right]. rewrite Hf, Hacc, Hq. cbn [lookup list_lookup default].
      assert (E : forall n l, (fold_right (fun k (q : Q) => (if default false ((b :: flags) !! k) then column row (i + k) else 0) + q)%Q 0%Q (map S (seq n l))
        = fold_right (fun k (q : Q) => (if default false (flags !! k) then column row (S i + k) else 0) + q)%Q 0%Q (seq n l))%Q).
      { intros n l. revert n. induction l as [|l IHl]; intros n; [done|]. cbn [seq map fold_right]. rewrite IHl.
        cbn [lookup list_lookup]. by replace (i + S n)%nat with (S i + n)%nat by lia. }
      rewrite <- seq_shift, E. replace (i + 0)%nat with i by lia. cbn [from_option id]. destruct b; ring. }
    destruct b.
    + destruct (bonus_row t i d) as (f & -> & Hf & Vf); [lia|done|].
      destruct (add_qval acc f Ha Hf) as (acc' & -> & Hacc & Vacc).
      destruct (IH (S i) acc') as (r & -> & Hr & Vr); [lia|lia|].
      exists r. split; [done|]. split; [done|]. destruct (row_for t d) as [row|].
      * eapply SEQ; [exact Vacc|exact Vr|exact Vf].
      * rewrite Vr, Vacc, Vf. ring.
    + destruct (IH (S i) acc) as (r & -> & Hr & Vr); [lia|lia|].
      exists r. split; [done|]. split; [done|]. destruct (row_for t d) as [row|].
      * eapply (SEQ row acc 0%Q); [ring|exact Vr|reflexivity].
      * exact Vr.
Qed.
Lemma percent_spec s d p v vpn st : proper_table (dp_table (st_dp s)) -> - 2^63 <= d < 2^63 ->
  exists f, percent s d p v vpn st = Some f /\ Frac.fden f <> 0 /\
  (qval f == if (d <=? bp_dust (st_bp s))%Z then 0 else monthly_rate (dp_table (st_dp s)) d p v vpn st / inject_Z 30)%Q.
Proof.
  intros HT Hd. unfold percent, Frac.to_int64, Frac.is_int64.
  match goal with |- context [if ?b && ?c then Some d else None] => assert (b && c = true) as -> by lia end.
  destruct (d <=? bp_dust (st_bp s)) eqn:E; [eexists; split; [reflexivity|]; split; [cbn; lia|reflexivity]|].
  destruct (percent_sum_spec (dp_table (st_dp s)) d [true; v; p; vpn; st] HT 0 Frac.frac_zero) as (f & -> & Hf & Vf); [cbn; lia|cbn; lia|].
  destruct (div_qval f (Frac.new_fraction 30 1)) as (q & -> & Hq & _ & Vq); [done|cbn; lia|cbn; lia|].
  destruct (reduce_qval q) as (r & -> & Hr & _ & Vr); [lia|].
  exists r. split; [done|]. split; [lia|]. rewrite Vr, Vq, Vf. unfold monthly_rate.
  assert (E30 : (qval (Frac.new_fraction 30 1) == inject_Z 30)%Q) by reflexivity.
  rewrite E30. assert (Z0 : (qval Frac.frac_zero == 0)%Q) by reflexivity. rewrite Z0.
  destruct (row_for _ d) as [row|]; [|field; by compute].
  cbn [List.length seq fold_right lookup list_lookup default from_option id Nat.add]. 
  assert (forall x y : Q, x == y -> x / inject_Z 30 == y / inject_Z 30)%Q as K by (intros x y ->; reflexivity).
  apply K. ring.
Qed.

(** ** Payment of interest *)
Lemma paid_shares_to outs x : paid_to (map fst outs) x = shares outs x.
Proof. induction outs as [|[[y n] c] l IH]; cbn; [done|]. by rewrite IH. Qed.
Lemma paid_shares_sum outs : paid_sum (map fst outs) = shares_sum outs.
Proof. induction outs as [|[[y n] c] l IH]; cbn; [done|]. by rewrite IH. Qed.
Lemma paid_nonneg l x : (forall y m, (y, m) ∈ l -> 0 < m) -> 0 <= paid_to l x.
Proof.
  induction l as [|[y m] l IH]; intros H; cbn; [lia|].
  assert (0 < m) by (eapply H; left). assert (0 <= paid_to l x) by (apply IH; intros; eapply H; by right).
  unfold at_. destruct (x =? y)%N; lia.
Qed.
Lemma interest_nothing s a : interest_paid s s a 0 0 [].
Proof.
  unfold interest_paid, at_. cbn. split; [intros x; destruct (x =? splitter)%N, (x =? a)%N; lia|]. split; [done|]. split; [lia|]. split; [done|].
  split; [lia|]. split; [lia|]. intros y m H. by apply elem_of_nil in H.
Qed.
Lemma fee_of_same n s s' : st_bp s' = st_bp s -> fee_of n s' = fee_of n s.
Proof. intros H. unfold fee_of. by rewrite H. Qed.
(** The two payments in a row *)
Lemma payments_ok a n m s s1 s2 : is_Some (st_prof s !! a) ->
  accrue a n s = (s1, Ok tt) -> accrue_to_validator a m s1 = (s2, Ok tt) ->
  exists fee l, interest_paid s s2 a n fee l /\ 0 <= n /\ 30000 * paid_sum l <= 6 * Z.max 0 m.
Proof.
  intros HP H1 H2.
  apply accrue_to_validator_ok in H2 as (outs & HO & HB & B1 & B2 & _ & _ & S1 & S2 & _).
  assert (HO' : forall y m, (y, m) ∈ map fst outs -> 0 < m).
  { intros y k Hin. apply elem_of_list_fmap in Hin as ([[y' k'] c] & [= -> ->] & Hin). by apply HO in Hin as [? _]. }
  apply accrue_ok in H1 as [[HN ->]|(HN & _ & fee & HF & HL & B3 & B4 & _ & _ & S3 & S4 & _)].
  - destruct HN as [->|HN]; [|rewrite HN in HP; by destruct HP]. exists 0, (map fst outs).
    split; [|split; [lia|by rewrite paid_shares_sum]]. unfold interest_paid.
    split; [intros x; rewrite B1, paid_shares_to; unfold at_; destruct (x =? splitter)%N, (x =? a)%N; lia|].
    split; [done|]. split; [rewrite S1, paid_shares_sum; lia|]. split; [done|]. split; [lia|]. split; [lia|done].
  - exists fee, (map fst outs). split; [|split; [lia|by rewrite paid_shares_sum]]. unfold interest_paid.
    split; [intros x; rewrite B1, paid_shares_to, B3; lia|].
    split; [intros x d Hd; rewrite B2, B4 by done; done|].
    split; [rewrite S1, paid_shares_sum, S3; lia|].
    split; [intros d Hd; rewrite S2, S4 by done; done|].
    split; [lia|]. split; [done|done].
Qed.

Lemma fresh_counts s t : fresh s t = counts (st_now s) (st_day s) t.
Proof. by destruct t. Qed.
Lemma active_earner_ok a s : exists e, is_active_earner a s =
  (s <| st_earn := e |>, Ok (counts (st_now s) (st_day s) (fst (confirmed s a)), counts (st_now s) (st_day s) (snd (confirmed s a)))) /\
  (forall x, x <> a -> e !! x = st_earn s !! x) /\
  default (None, None) (e !! a) =
    ((if counts (st_now s) (st_day s) (fst (confirmed s a)) then fst (confirmed s a) else None),
     (if counts (st_now s) (st_day s) (snd (confirmed s a)) then snd (confirmed s a) else None)).
Proof.
  unfold is_active_earner, bind, get, confirmed. destruct (st_earn s !! a) as [[v st]|] eqn:E.
  - cbn [default from_option id fst snd]. rewrite !fresh_counts. unfold modify, ret. cbv beta iota zeta.
    set (v' := if counts (st_now s) (st_day s) v then v else None).
    set (st' := if counts (st_now s) (st_day s) st then st else None).
    eexists. split; [reflexivity|]. split.
    + intros x Hx. destruct v', st'; first [by rewrite lookup_insert_ne by done|by rewrite lookup_delete_ne by done].
    + destruct v', st'; first [by rewrite lookup_insert|by rewrite lookup_delete].
  - exists (st_earn s). split; [by destruct s|]. split; [done|]. by rewrite E.
Qed.
Lemma bonus_flags_ok a s s' pr v vpn st : bonus_flags a s = (s', Ok (pr, v, vpn, st)) ->
  is_Some (st_prof s !! a) /\ pr = profile_active s a /\ v = is_active_validator s a /\
  vpn = counts (st_now s) (st_day s) (fst (confirmed s a)) /\ st = counts (st_now s) (st_day s) (snd (confirmed s a)) /\
  exists e, s' = s <| st_earn := e |>.
Proof.
  unfold bonus_flags. intros H. apply bind_ok in H as (p & s1 & H1 & H). apply get_ok in H1 as [-> ->].
  apply bind_ok in H as (q & s1 & H1 & H). apply lift_ok in H1 as [-> H1].
  apply bind_ok in H as (now & s1 & H2 & H). apply get_ok in H2 as [-> ->].
  apply bind_ok in H as (w & s1 & H2 & H). apply get_ok in H2 as [-> ->].
  apply bind_ok in H as ([e1 e2] & s1 & H2 & H). destruct (active_earner_ok a s) as (e & HE & _).
  rewrite HE in H2. injection H2 as <- <- <-. apply ret_ok in H as [-> [= -> -> -> ->]].
  split; [rewrite H1; eauto|]. split; [unfold profile_active; by rewrite H1|]. split; [done|]. split; [done|]. split; [done|]. eauto.
Qed.
Lemma rate_ok s a : forall p v vpn st d, p = profile_active s a -> v = is_active_validator s a -> 
  vpn = counts (st_now s) (st_day s) (fst (confirmed s a)) -> st = counts (st_now s) (st_day s) (snd (confirmed s a)) ->
  d = bal s a uartrd ->
  forall f, proper_table (dp_table (st_dp s)) -> percent s d p v vpn st = Some f ->
  - 2^63 <= d < 2^63 /\ Frac.fden f <> 0 /\ (qval f == account_rate s a)%Q.
Proof.
  intros p v vpn st d -> -> -> -> -> f HT H.
  assert (HD : - 2^63 <= bal s a uartrd < 2^63).
  { unfold percent in H. destruct (Frac.to_int64 _) eqn:E in H; [|discriminate]. by apply to_int64_some in E as [_ E]. }
  split; [done|]. unshelve epose proof (percent_spec s _ _ _ _ _ HT HD) as (f' & H' & Hf & V); [..|rewrite H in H'].
  injection H' as <-. split; [exact Hf|]. rewrite V. unfold account_rate. reflexivity.
Qed.

Lemma interest_frame s s' t a n fee l : st_bal t = st_bal s -> st_supply t = st_supply s -> st_bp t = st_bp s ->
  interest_paid t s' a n fee l -> interest_paid s s' a n fee l.
Proof.
  intros HB HS HP (H1 & H2 & H3 & H4 & H5 & H6 & H7). unfold interest_paid, bal, supply in *.
  rewrite (balance_same _ _ HB) in *. rewrite HS in *. rewrite (fee_of_same n s t HP) in H6. done.
Qed.
Lemma interest_frame_r s s' t a n fee l : st_bal t = st_bal s' -> st_supply t = st_supply s' ->
  interest_paid s s' a n fee l -> interest_paid s t a n fee l.
Proof.
  intros HB HS (H1 & H2 & H3 & H4 & H5 & H6 & H7). unfold interest_paid, bal, supply in *.
  rewrite (balance_same _ _ HB) in *. rewrite HS in *. done.
Qed.
Lemma schedule_task_ok t h d s s' : schedule_task t h d s = (s', Ok tt) ->
  key_ok t = true /\ s' = s <| st_sched := <[ t := default [] (st_sched s !! t) ++ [Task t h d] ]> (st_sched s) |>.
Proof. unfold schedule_task, schedule_task', check_key. intros H. mi. done. Qed.
Lemma schedule_in t h d s s' : schedule_task t h d s = (s', Ok tt) -> Task t h d ∈ tasks_at s' t.
Proof.
  intros H. apply schedule_task_ok in H as [_ ->]. unfold tasks_at. cbn. rewrite lookup_insert. cbn.
  apply elem_of_app. right. left.
Qed.
Lemma schedule_keeps t h d s s' k x : schedule_task t h d s = (s', Ok tt) -> x ∈ tasks_at s k -> x ∈ tasks_at s' k.
Proof.
  intros H Hx. apply schedule_task_ok in H as [_ ->]. unfold tasks_at in *. cbn.
  destruct (decide (k = t)) as [->|Hk]; [rewrite lookup_insert|by rewrite lookup_insert_ne].
  cbn. apply elem_of_app. by left.
Qed.
Lemma del_get_next s a : d_next (del_get a s) = next_accrual s a.
Proof. unfold del_get, next_accrual. by destruct (st_del s !! a). Qed.
Lemma del_get_reqs s a : d_reqs (del_get a s) = requests s a.
Proof. unfold del_get, requests. by destruct (st_del s !! a). Qed.
Lemma run_same {A B} (f : St -> B) (m : M A) s s' r : rel (same f) m -> m s = (s', r) -> f s' = f s.
Proof. intros H E. specialize (H s). rewrite E in H. exact H. Qed.

(** [kept f H]: the run [H] does not change the component [f]. *)
Ltac kept f H :=
  lazymatch type of H with ?m ?s = (?s', ?r) =>
    let K := fresh "K" in
    assert (K : f s' = f s) by (apply (run_same f m s s' r); [first [frame|unfold delete_task, schedule_task; frame]|exact H])
  end.

(** The daily task *)
Lemma perform_accrue_ok a t s s' : perform_accrue a t s = (s', Ok tt) ->
  proper_table (dp_table (st_dp s)) -> d_missed (del_get a s) = None ->
  let d := bal s a uartrd in
  let n := trunc (account_rate s a * inject_Z d) in
  next_accrual s a = Some t /\
  (((account_rate s a == 0)%Q /\ next_accrual s' a = None /\ interest_paid s s' a 0 0 [] /\
    forall k, tasks_at s' k = tasks_at s k) \/
   (~ (account_rate s a == 0)%Q /\ next_accrual s' a = Some (t + st_day s) /\
    Task (t + st_day s) HAccrue a ∈ tasks_at s' (t + st_day s) /\
    (- 2^63 <= n < 2^63 -> exists fee l, interest_paid s s' a n fee l /\ 30000 * paid_sum l <= 6 * Z.max 0 d))).
Proof.
  intros H HT HM. cbn zeta. unfold perform_accrue, fr in H.
  apply bind_ok in H as (item & s1 & H1 & H). apply get_ok in H1 as [-> ->].
  apply bind_ok in H as (next & s1 & H1 & H). apply lift_ok in H1 as [-> HN]. rewrite del_get_next in HN.
  apply bind_ok in H as ([] & s1 & H1 & H). apply assert_ok in H1 as [-> H1].
  assert (next = t) as -> by lia. clear H1. split; [done|].
  apply bind_ok in H as (d & s1 & H1 & H). apply get_ok in H1 as [-> ->].
  apply bind_ok in H as ([[[pr v] vpn] st] & s1 & H1 & H).
  apply bonus_flags_ok in H1 as (HP & Hpr & Hv & Hvpn & Hst & e & ->).
  apply bind_ok in H as (pc & s1 & H1 & H). apply get_ok in H1 as [-> ->].
  apply bind_ok in H as (f & s1 & H1 & H). apply lift_ok in H1 as [-> H1].
  change (percent (s <| st_earn := e |>) (own_deleg s a) pr v vpn st) with (percent s (own_deleg s a) pr v vpn st) in H1.
  destruct (rate_ok s a pr v vpn st (own_deleg s a) Hpr Hv Hvpn Hst eq_refl f HT H1) as (HD & Hf & Vf).
  change (own_deleg s a) with (bal s a uartrd) in *. clear H1 Hpr Hv Hvpn Hst.
  apply bind_ok in H as (item & s1 & H1 & H).
  unfold del_set in H. apply modify_ok in H as ->.
  destruct (Frac.is_zero f) eqn:EZ.
  - left. apply ret_ok in H1 as [-> ->]. apply is_zero_spec in EZ; [|done]. split; [by rewrite <- Vf|].
    split; [unfold next_accrual; cbn; by rewrite lookup_insert|]. split; [|done].
    eapply (interest_frame_r s s); [done|done|apply interest_nothing].
  - right. split. { intros HZ. rewrite <- Vf in HZ. apply is_zero_spec in HZ; [|done]. congruence. }
    apply bind_ok in H1 as (d & s2 & H2 & H1). apply lift_ok in H2 as [-> H2]. apply to_int64_some in H2 as [-> _].
    apply bind_ok in H1 as (n & s2 & H2 & H1). apply lift_ok in H2 as [-> H2].
    rewrite HM in H1. apply bind_ok in H1 as ([n' m'] & s2 & H3 & H1). apply ret_ok in H3 as [-> [= -> ->]].
    apply bind_ok in H1 as ([] & s2 & H3 & H1). apply bind_ok in H1 as ([] & s3 & H4 & H1).
    apply bind_ok in H1 as (day & s4 & H5 & H1). apply get_ok in H5 as [-> ->].
    apply bind_ok in H1 as ([] & s4 & H5 & H1). apply ret_ok in H1 as [-> ->].
    assert (HDay : one_day s3 = st_day s).
    { unfold one_day. kept st_day H3. kept st_day H4. by rewrite K0, K. }
    rewrite HDay in *.
    split; [unfold next_accrual; cbn; by rewrite lookup_insert|].
    split; [exact (schedule_in _ _ _ _ _ H5)|]. intros HR.
    unfold oget, Frac.obind in H2. destruct (mul_int_qval f (bal s a uartrd) Hf) as (r & Er & Hr & Vr). rewrite Er in H2.
    destruct (c03_int64 r) as (x & Ex & _ & _ & Hx); [lia|]. rewrite Ex in H2. injection H2 as <-.
    assert (trunc (qval r) = trunc (account_rate s a * inject_Z (bal s a uartrd))) as ET.
    { apply trunc_eq. rewrite Vr, Vf. reflexivity. }
    rewrite ET in Hx. specialize (Hx HR). subst x.
    assert (HP' : is_Some (st_prof (s <| st_earn := e |>) !! a)) by exact HP.
    destruct (payments_ok _ _ _ _ _ _ HP' H3 H4) as (fee & l & HI & _ & HL). exists fee, l. split; [|exact HL].
    apply schedule_task_ok in H5 as [_ ->].
    eapply interest_frame_r; [..|eapply interest_frame; [..|exact HI]]; reflexivity.
Qed.

(** Part of a day, paid out when the delegation changes *)
Lemma accrue_part_none a item next s : d_next item = None ->
  accrue_part a item next s = (s, Ok (item <| d_next := Some next |>)).
Proof. intros H. unfold accrue_part. rewrite H. done. Qed.
Lemma day_part_spec s t : 0 < st_day s -> - 2^63 <= t - st_now s < 2^63 ->
  exists f, day_part s t = Some f /\ Frac.fden f <> 0 /\
  (qval f == 1 - inject_Z (t - st_now s) / inject_Z (st_day s))%Q.
Proof.
  intros HD HR. unfold day_part, oget, Frac.obind, one_day. change (- 2^63) with (-9223372036854775808) in HR.
  change (2^63) with 9223372036854775808 in HR.
  assert (sat64 (t - st_now s) = t - st_now s) as -> by (unfold sat64; lia).
  destruct (reduce_qval (Frac.new_fraction (t - st_now s) (st_day s))) as (q & -> & Hq & _ & Vq); [cbn; lia|].
  destruct (sub_qval (Frac.frac_int 1) q) as (r & -> & Hr & Vr); [cbn; lia|lia|].
  exists r. split; [done|]. split; [lia|]. rewrite Vr, Vq. unfold qval. cbn [Frac.fnum Frac.fden Frac.frac_int Frac.new_fraction].
  reflexivity.
Qed.
Lemma accrue_part_some a item next t s s' item' : d_next item = Some t -> d_missed item = None ->
  accrue_part a item next s = (s', Ok item') ->
  proper_table (dp_table (st_dp s)) -> 0 < st_day s -> - 2^63 <= t - st_now s < 2^63 ->
  let d := bal s a uartrd in
  let n := trunc (account_rate s a * part_of s t * inject_Z d) in
  let m := trunc (part_of s t * inject_Z d) in
  item' = item <| d_missed := None |> <| d_next := Some next |> /\
  (- 2^63 <= n < 2^63 -> - 2^63 <= m < 2^63 ->
   exists fee l, interest_paid s s' a (Z.max 0 n) fee l /\ 30000 * paid_sum l <= 6 * Z.max 0 m /\ (n <= 0 -> l = [])).
Proof.
  intros HN HM H HT HD HR. cbn zeta. unfold accrue_part, fr in H. rewrite HN, HM in H.
  apply bind_ok in H as (item1 & s1 & H1 & H). apply ret_ok in H as [-> ->].
  apply bind_ok in H1 as (p & s2 & H2 & H1). apply get_ok in H2 as [-> ->].
  destruct (day_part_spec s t HD HR) as (q & Eq & Hq & Vq). rewrite Eq in H1.
  apply bind_ok in H1 as (q' & s2 & H2 & H1). apply lift_ok in H2 as [-> [= <-]].
  apply bind_ok in H1 as (q' & s2 & H2 & H1). apply ret_ok in H2 as [-> ->].
  apply bind_ok in H1 as (d & s2 & H2 & H1). apply get_ok in H2 as [-> ->].
  apply bind_ok in H1 as ([[[pr v] vpn] st] & s2 & H2 & H1).
  apply bonus_flags_ok in H2 as (HP & Hpr & Hv & Hvpn & Hst & e & ->).
  apply bind_ok in H1 as (pc & s2 & H2 & H1). apply get_ok in H2 as [-> ->].
  apply bind_ok in H1 as (f & s2 & H2 & H1). apply lift_ok in H2 as [-> H2].
  change (percent (s <| st_earn := e |>) (own_deleg s a) pr v vpn st) with (percent s (own_deleg s a) pr v vpn st) in H2.
  destruct (rate_ok s a pr v vpn st (own_deleg s a) Hpr Hv Hvpn Hst eq_refl f HT H2) as (HB & Hf & Vf).
  change (own_deleg s a) with (bal s a uartrd) in *. clear H2 Hpr Hv Hvpn Hst.
  apply bind_ok in H1 as (d & s2 & H2 & H1). apply lift_ok in H2 as [-> H2]. apply to_int64_some in H2 as [-> _].
  apply bind_ok in H1 as (n & s2 & H2 & H1). apply lift_ok in H2 as [-> En].
  apply bind_ok in H1 as (m & s2 & H2 & H1). apply lift_ok in H2 as [-> Em].
  apply bind_ok in H1 as ([] & s2 & H2 & H1). apply bind_ok in H1 as ([] & s3 & H3 & H1). apply ret_ok in H1 as [-> ->].
  split; [done|]. intros RN RM. unfold oget, Frac.obind in En, Em.
  destruct (mul_qval f q Hf Hq) as (x1 & E1 & G1 & _ & V1). rewrite E1 in En.
  destruct (reduce_qval x1) as (x2 & E2 & G2 & _ & V2); [lia|]. rewrite E2 in En.
  destruct (mul_int_qval x2 (bal s a uartrd)) as (x3 & E3 & G3 & V3); [lia|]. rewrite E3 in En.
  destruct (c03_int64 x3) as (y & Ey & _ & _ & Hy); [lia|]. rewrite Ey in En. injection En as <-.
  rewrite (trunc_eq _ (account_rate s a * part_of s t * inject_Z (bal s a uartrd))) in Hy.
  2:{ rewrite V3, V2, V1, Vf, Vq. reflexivity. }
  rewrite Hy in * by done. clear Hy E1 E2 E3 Ey G1 G2 G3 V1 V2 V3 x1 x2 x3 y.
  destruct (reduce_qval q Hq) as (x2 & E2 & G2 & _ & V2). rewrite E2 in Em.
  destruct (mul_int_qval x2 (bal s a uartrd)) as (x3 & E3 & G3 & V3); [lia|]. rewrite E3 in Em.
  destruct (c03_int64 x3) as (y & Ey & _ & _ & Hy); [lia|]. rewrite Ey in Em. injection Em as <-.
  rewrite (trunc_eq _ (part_of s t * inject_Z (bal s a uartrd))) in Hy.
  2:{ rewrite V3, V2, Vq. reflexivity. }
  rewrite Hy in * by done. clear Hy E2 E3 Ey G2 G3 V2 V3 x2 x3 y.
  kept st_bal H3. kept st_supply H3.
  destruct (0 <? trunc (account_rate s a * part_of s t * inject_Z (bal s a uartrd))) eqn:EP.
  - apply bind_ok in H2 as ([] & s4 & H4 & H2).
    assert (HP' : is_Some (st_prof (s <| st_earn := e |>) !! a)) by exact HP.
    destruct (payments_ok _ _ _ _ _ _ HP' H4 H2) as (fee & l & HI & _ & HL). exists fee, l.
    rewrite Z.max_r by lia. split; [|split; [exact HL|lia]].
    eapply interest_frame_r; [exact K|exact K0|eapply interest_frame; [..|exact HI]]; reflexivity.
  - apply ret_ok in H2 as [-> _]. exists 0, []. rewrite Z.max_l by lia. split; [|split; [cbn; lia|done]].
    eapply interest_frame_r; [exact K|exact K0|]. eapply (interest_frame_r s s); [done|done|apply interest_nothing].
Qed.
(** Whatever the parameters, only the main coins grow. *)
Lemma accrue_part_grows a item next s s' item' : accrue_part a item next s = (s', Ok item') ->
  (forall x, bal s x uartr <= bal s' x uartr) /\ (forall x d, d <> uartr -> bal s' x d = bal s x d) /\
  (forall d, d <> uartr -> supply s' d = supply s d) /\
  d_next item' = Some next /\ d_reqs item' = d_reqs item.
Proof.
  destruct (d_next item) as [t|] eqn:HN.
  2:{ rewrite accrue_part_none by done. intros [= <- <-]. repeat split; done. }
  intros H. unfold accrue_part, fr in H. rewrite HN in H.
  apply bind_ok in H as (item1 & s1 & H1 & H). apply ret_ok in H as [-> ->].
  apply bind_ok in H1 as (p & s2 & H2 & H1). apply get_ok in H2 as [-> ->].
  apply bind_ok in H1 as (q' & s2 & H2 & H1). apply lift_ok in H2 as [-> _].
  apply bind_ok in H1 as (q & s2 & H2 & H1).
  assert (s2 = s) as ->. { clear H1. destruct (d_missed item); [apply lift_ok in H2|apply ret_ok in H2]; tauto. }
  apply bind_ok in H1 as (d & s2 & H3 & H1). apply get_ok in H3 as [-> _].
  apply bind_ok in H1 as ([[[pr v] vpn] st] & s2 & H3 & H1). apply bonus_flags_ok in H3 as (HP & _ & _ & _ & _ & e & ->).
  apply bind_ok in H1 as (pc & s2 & H3 & H1). apply get_ok in H3 as [-> _].
  apply bind_ok in H1 as (f & s2 & H3 & H1). apply lift_ok in H3 as [-> _].
  apply bind_ok in H1 as (d' & s2 & H3 & H1). apply lift_ok in H3 as [-> _].
  apply bind_ok in H1 as (n & s2 & H3 & H1). apply lift_ok in H3 as [-> _].
  apply bind_ok in H1 as (m & s2 & H3 & H1). apply lift_ok in H3 as [-> _].
  apply bind_ok in H1 as ([] & s2 & H3 & H1). apply bind_ok in H1 as ([] & s3 & H4 & H1). apply ret_ok in H1 as [-> ->].
  kept st_bal H4. kept st_supply H4. unfold bal, supply. rewrite (balance_same _ _ K), K0.
  split; [|split; [|split; [|done]]].
  - destruct (0 <? n).
    + apply bind_ok in H3 as ([] & s4 & H5 & H3). intros x.
      destruct (payments_ok a n m (s <| st_earn := e |>) s4 s2) as (fee & l & HI & _); [exact HP|done|done|].
      destruct HI as (HI & _ & _ & _ & HF & _ & HL). specialize (HI x). unfold bal in HI. rewrite HI.
      change (balance (s <| st_earn := e |>) x) with (balance s x).
      pose proof (paid_nonneg l x HL). unfold at_. destruct (x =? splitter)%N, (x =? a)%N; lia.
    + apply ret_ok in H3 as [-> _]. intros x. reflexivity.
  - destruct (0 <? n).
    + apply bind_ok in H3 as ([] & s4 & H5 & H3). intros x d0 Hd.
      destruct (payments_ok a n m (s <| st_earn := e |>) s4 s2) as (fee & l & (_ & HI & _) & _); [exact HP|done|done|].
      exact (HI x d0 Hd).
    + by apply ret_ok in H3 as [-> _].
  - destruct (0 <? n).
    + apply bind_ok in H3 as ([] & s4 & H5 & H3). intros d0 Hd.
      destruct (payments_ok a n m (s <| st_earn := e |>) s4 s2) as (fee & l & (_ & _ & _ & HI & _) & _); [exact HP|done|done|].
      exact (HI d0 Hd).
    + by apply ret_ok in H3 as [-> _].
Qed.

(** The interest paid by [accrue_part] *)
Lemma accrue_part_interest a next s s' item' : accrue_part a (del_get a s) next s = (s', Ok item') ->
  part_interest s a (fun x => bal s' x uartr - bal s x uartr).
Proof.
  intros H. unfold part_interest. destruct (next_accrual s a) as [t|] eqn:E; rewrite <- del_get_next in E.
  - cbn zeta. intros HM HT HD HR Hn Hm.
    assert (HM' : d_missed (del_get a s) = None).
    { unfold unskipped, del_get in *. by destruct (st_del s !! a). }
    destruct (accrue_part_some _ _ _ _ _ _ _ E HM' H HT HD HR) as (_ & HI). destruct (HI Hn Hm) as (fee & l & HI' & HL & HZ).
    exists fee, l. destruct HI' as (I1 & _ & _ & _ & I5 & I6 & I7).
    split; [intros x; rewrite I1; lia|]. split; [done|]. split; [|done].
    intros Hp. rewrite <- I6; [f_equal; lia|lia].
  - rewrite accrue_part_none in H by done. injection H as <- _. intros x. lia.
Qed.
Lemma part_interest_same s s1 a I : st_del s1 = st_del s -> bal s1 a uartrd = bal s a uartrd -> st_now s1 = st_now s ->
  st_day s1 = st_day s -> st_dp s1 = st_dp s -> st_bp s1 = st_bp s -> st_prof s1 = st_prof s -> st_earn s1 = st_earn s ->
  is_active_validator s1 a = is_active_validator s a -> part_interest s1 a I -> part_interest s a I.
Proof.
  intros H1 H2 H3 H4 H5 H6 H7 H8 H9.
  assert (HR : account_rate s1 a = account_rate s a).
  { unfold account_rate, profile_active, confirmed. by rewrite H2, H3, H4, H5, H6, H7, H8, H9. }
  unfold part_interest. rewrite HR. unfold next_accrual, part_of, unskipped, fee_of. by rewrite H1, H2, H3, H4, H5, H6.
Qed.

(** ** Delegation and revocation *)
Lemma at_add x y n m : at_ x y (n + m) = at_ x y n + at_ x y m.
Proof. unfold at_. destruct (x =? y)%N; lia. Qed.
Lemma at_sub x y n m : at_ x y (n - m) = at_ x y n - at_ x y m.
Proof. unfold at_. destruct (x =? y)%N; lia. Qed.
Lemma at_zero x y : at_ x y 0 = 0.
Proof. unfold at_. destruct (x =? y)%N; lia. Qed.
Lemma convert_bal a d1 n1 d2 n2 s s' : convert a d1 n1 d2 n2 s = (s', Ok tt) -> d1 <> d2 -> (n1 = 0 -> n2 = 0) ->
  0 <= n1 /\ 0 <= n2 /\
  (forall x, bal s' x d1 = bal s x d1 - at_ x a n1) /\ (forall x, bal s' x d2 = bal s x d2 + at_ x a n2) /\
  (forall x d, d <> d1 -> d <> d2 -> bal s' x d = bal s x d) /\
  supply s' d1 = supply s d1 - n1 /\ supply s' d2 = supply s d2 + n2 /\
  (forall d, d <> d1 -> d <> d2 -> supply s' d = supply s d).
Proof.
  intros H Hd Hz. apply convert_ok in H as [[-> ->]|(H1 & H2 & _ & _ & B & _ & S & _)].
  - rewrite (Hz eq_refl). split; [lia|]. split; [lia|]. repeat split; intros; rewrite ?at_zero; lia.
  - split; [lia|]. split; [done|].
    assert (E1 : (d1 =? d2)%N = false) by lia. assert (E2 : (d2 =? d1)%N = false) by lia.
    assert (E : forall d, d <> d1 -> (d =? d1)%N = false) by (intros; lia).
    assert (E' : forall d, d <> d2 -> (d =? d2)%N = false) by (intros; lia).
    repeat split; intros; rewrite ?B, ?S, !amt_coins_of, ?N.eqb_refl, ?E1, ?E2, ?E, ?E', ?at_zero by done; lia.
Qed.

Lemma delegate_ok a n s s' : delegate a n s = (s', Ok tt) -> 0 < n ->
  exists fee I, fee_of n s = Some fee /\ 0 <= fee <= n /\ dp_min (st_dp s) <= n /\
  (forall x, bal s' x uartr = bal s x uartr - at_ x a n + at_ x splitter fee + I x) /\
  (forall x, 0 <= I x) /\ part_interest (exec (pay_tx_fee a (coins_of uartr n)) s) a I /\
  (forall x, bal s' x uartrd = bal s x uartrd + at_ x a (n - fee)) /\
  (forall x d, d <> uartr -> d <> uartrd -> bal s' x d = bal s x d) /\
  supply s' uartrd = supply s uartrd + (n - fee) /\
  (forall d, d <> uartr -> d <> uartrd -> supply s' d = supply s d) /\
  st_del s' = <[ a := (del_get a s) <| d_missed := d_missed (default (del_get a s) (st_del s' !! a)) |>
                     <| d_next := if bal s' a uartrd <=? bp_dust (st_bp s) then None else Some (st_now s + st_day s) |> ]> (st_del s) /\
  (bp_dust (st_bp s) < bal s' a uartrd -> Task (st_now s + st_day s) HAccrue a ∈ tasks_at s' (st_now s + st_day s)).
Proof.
  intros H Hn. unfold delegate in H.
  apply bind_ok in H as (min & s1 & H1 & H). apply get_ok in H1 as [-> ->].
  apply bind_ok in H as ([] & s1 & H1 & H). apply ensure_ok in H1 as [-> HM].
  apply bind_ok in H as (c & s1 & H1 & H). apply new_coins_ok in H1 as (-> & _ & ->).
  apply bind_ok in H as (fee & s1 & H1 & H). pose proof H1 as H1'.
  apply pay_tx_fee_ok in H1' as (f & Hf & Hf0 & -> & _ & B1 & _ & S1 & _).
  destruct (decide (coins_of uartr n = ∅)) as [E|_]; [apply coins_of_empty in E; lia|].
  rewrite amt_coins_of, N.eqb_refl in Hf. rewrite amt_coins_of, N.eqb_refl in H.
  apply bind_ok in H as (s1' & s2 & H2 & H). apply get_ok in H2 as [-> ->]. cbn [id] in H.
  apply bind_ok in H as (item & s2 & H2 & H). 
  apply bind_ok in H as ([] & s3 & H3 & H).
  apply bind_ok in H as (b & s4 & H4 & H). apply get_ok in H4 as [-> ->].
  apply bind_ok in H as (b & s4 & H4 & H). apply lift_ok in H4 as [-> H4]. apply to_int64_some in H4 as [-> _].
  change (own_deleg s3 a) with (bal s3 a uartrd) in H.
  apply bind_ok in H as (dust & s4 & H4 & H). apply get_ok in H4 as [-> ->].
  apply bind_ok in H as (item' & s4 & H4 & H).
  apply bind_ok in H as (u & s5 & H5 & H). apply lift_ok in H5 as [-> _]. unfold del_set in H. apply modify_ok in H as ->.
  kept st_now H1. kept st_day H1. kept st_dp H1. kept st_bp H1. kept st_del H1.
  kept st_now H2. kept st_day H2. kept st_bp H2. kept st_del H2. unfold delegate_coins in H3.
  kept st_now H3. kept st_day H3. kept st_bp H3. kept st_del H3.
  unfold one_day in *. rewrite K, K0 in *. assert (EG : del_get a s1 = del_get a s) by (unfold del_get; by rewrite K3).
  rewrite EG in H2. 
  apply convert_bal in H3 as (G1 & _ & C1 & C2 & C3 & T1 & T2 & T3); [|done|done].
  pose proof H2 as H2'. apply accrue_part_grows in H2 as (A1 & A2 & A3 & A4 & A5).
  assert (EB : bp_dust (st_bp s3) = bp_dust (st_bp s)) by congruence. rewrite EB in *.
  assert (HS : s4 = s3 \/ schedule_task (st_now s + st_day s) HAccrue a s3 = (s4, Ok tt)).
  { destruct (bal s3 a uartrd <=? bp_dust (st_bp s)); [apply ret_ok in H4 as [-> _]; by left|right].
    by apply bind_ok in H4 as ([] & s5 & H4 & [-> _]%ret_ok). }
  assert (KB : st_bal s4 = st_bal s3 /\ st_supply s4 = st_supply s3 /\ st_del s4 = st_del s3).
  { destruct HS as [->|HS]; [done|]. by apply schedule_task_ok in HS as [_ ->]. }
  destruct KB as (KB & KS & KD).
  set (s'' := s4 <| st_del := <[a := item']> (st_del s4) |>).
  assert (BB : forall x d, bal s'' x d = bal s3 x d).
  { intros x d. unfold bal, s''. change (balance (s4 <| st_del := <[a := item']> (st_del s4) |>) x) with (balance s4 x).
    by rewrite (balance_same _ _ KB). }
  exists f, (fun x => bal s2 x uartr - bal s1 x uartr).
  split; [done|]. split; [lia|]. split; [lia|].
  split. { intros x. rewrite BB, C1. specialize (B1 x uartr). rewrite amt_coins_of, N.eqb_refl in B1.
    rewrite at_sub. lia. }
  split; [intros x; specialize (A1 x); lia|].
  split. { rewrite <- EG in H2'. apply accrue_part_interest in H2'.
    unfold exec. rewrite H1. exact H2'. }
  split. { intros x. rewrite BB, C2, A2 by done. specialize (B1 x uartrd). rewrite amt_coins_of in B1. cbn in B1. rewrite !at_zero in B1. lia. }
  split. { intros x d Hd1 Hd2. rewrite BB, C3, A2 by done. specialize (B1 x d). rewrite amt_coins_of in B1.
    assert ((d =? uartr)%N = false) as E by lia. rewrite E, !at_zero in B1. lia. }
  assert (BS : forall d, supply s'' d = supply s3 d) by (intros d; unfold supply, s''; cbn; by rewrite KS).
  split. { rewrite BS, T2, A3 by done. unfold supply. by rewrite S1. }
  split. { intros d Hd1 Hd2. rewrite BS, T3, A3 by done. unfold supply. by rewrite S1. }
  assert (ER : d_reqs item' = d_reqs (del_get a s) /\ d_next item' =
     if bal s3 a uartrd <=? bp_dust (st_bp s) then None else Some (st_now s + st_day s)).
  { destruct (bal s3 a uartrd <=? bp_dust (st_bp s)).
    - apply ret_ok in H4 as [_ ->]. done.
    - apply bind_ok in H4 as ([] & s5 & H4 & [_ ->]%ret_ok). done. }
  destruct ER as [ER EN].
  split.
  - rewrite BB. unfold s''. cbn. rewrite lookup_insert. cbn. rewrite KD, K11, K7, K3. f_equal.
    destruct item'. cbn in *. by rewrite ER, EN.
  - intros HB. rewrite BB in HB. assert ((bal s3 a uartrd <=? bp_dust (st_bp s)) = false) as E by lia. rewrite E in H4.
    apply bind_ok in H4 as ([] & s5 & H4 & [-> _]%ret_ok). exact (schedule_in _ _ _ _ _ H4).
Qed.

Definition burn_part (p : revoke_p) (n : Z) : option Z := oget (Frac.mul_int (rv_burn p) n) Frac.int64.
Lemma revoke_ok a n express s s' : revoke a n express s = (s', Ok tt) -> n <> 0 ->
  let p := terms s express in
  let t := st_now s + rv_period p * st_day s in
  exists burnt I, 0 < n /\ burn_part p n = Some burnt /\ n <= bal s a uartrd /\ 0 <= n - burnt /\
  (forall x, bal s' x uartr = bal s x uartr + I x) /\
  (forall x, 0 <= I x) /\ part_interest s a I /\
  (forall x, bal s' x uartrd = bal s x uartrd - at_ x a n) /\
  (forall x, bal s' x uartrr = bal s x uartrr + at_ x a (n - burnt)) /\
  (forall x d, d <> uartr -> d <> uartrd -> d <> uartrr -> bal s' x d = bal s x d) /\
  supply s' uartrd = supply s uartrd - n /\ supply s' uartrr = supply s uartrr + (n - burnt) /\
  (forall d, d <> uartr -> d <> uartrd -> d <> uartrr -> supply s' d = supply s d) /\
  st_del s' = <[ a := (del_get a s) <| d_missed := d_missed (default (del_get a s) (st_del s' !! a)) |>
                     <| d_next := if bal s' a uartrd <=? bp_dust (st_bp s) then None else Some (st_now s + st_day s) |>
                     <| d_reqs := requests s a ++ [mkReq t (n - burnt)] |> ]> (st_del s) /\
  (bp_dust (st_bp s) < bal s' a uartrd -> Task (st_now s + st_day s) HAccrue a ∈ tasks_at s' (st_now s + st_day s)) /\
  Task t HRevoke a ∈ tasks_at s' t.
Proof.
  intros H Hn. cbn zeta. unfold revoke, fr in H. assert ((n =? 0) = false) as E by lia. rewrite E in H. clear E.
  apply bind_ok in H as (s0 & s1 & H1 & H). apply get_ok in H1 as [-> ->]. cbn [id] in H.
  apply bind_ok in H as ([] & s1 & H1 & H). apply ensure_ok in H1 as [-> HM].
  change (own_deleg s a) with (bal s a uartrd) in *.
  apply bind_ok in H as (item & s1 & H1 & H).
  apply bind_ok in H as (p & s2 & H2 & H). apply get_ok in H2 as [-> ->].
  apply bind_ok in H as (ni & s2 & H2 & H). apply lift_ok in H2 as [-> H2]. apply to_int64_some in H2 as [-> _].
  apply bind_ok in H as (burnt & s2 & H2 & H). apply lift_ok in H2 as [-> HB].
  apply bind_ok in H as ([] & s2 & H2 & H).
  apply bind_ok in H as (dust & s3 & H3 & H). apply get_ok in H3 as [-> ->].
  apply bind_ok in H as (b & s3 & H3 & H). apply lift_ok in H3 as [-> H3]. apply to_int64_some in H3 as [-> _].
  apply bind_ok in H as (item' & s3 & H3 & H).
  apply bind_ok in H as ([] & s4 & H4 & H). unfold del_set in H4. apply modify_ok in H4 as ->.
  kept st_now H1. kept st_day H1. kept st_dp H1. kept st_bp H1. kept st_del H1.
  unfold freeze in H2. apply bind_ok in H2 as ([] & s4 & H2 & H4).
  assert (s2 = s4) as ->. { destruct (n =? 0); [by apply ret_ok in H4 as [-> _]|].
    apply bind_ok in H4 as (u & s5 & [-> _]%lift_ok & [-> _]%ret_ok). done. }
  clear H4. kept st_bp H2. kept st_del H2. unfold one_day in *.
  change (if express then dp_express (st_dp s1) else dp_revoke (st_dp s1)) with (terms s1 express) in *.
  assert (ET : terms s1 express = terms s express) by (unfold terms; by rewrite K1). rewrite ET in *. clear ET.
  apply convert_bal in H2 as (G1 & G2 & C1 & C2 & C3 & T1 & T2 & T3); [|done|lia].
  pose proof H1 as H1'. apply accrue_part_grows in H1 as (A1 & A2 & A3 & A4 & A5).
  assert (EB : bp_dust (st_bp s4) = bp_dust (st_bp s)) by congruence. rewrite EB in *.
  assert (EL : bal s a uartrd - n = bal s4 a uartrd).
  { rewrite C1, A2 by done. unfold at_. rewrite N.eqb_refl. lia. }
  rewrite EL in *.
  assert (HS : s3 = s4 \/ schedule_task (st_now s + st_day s) HAccrue a s4 = (s3, Ok tt)).
  { destruct (bal s4 a uartrd <=? bp_dust (st_bp s)); [apply ret_ok in H3 as [-> _]; by left|right].
    by apply bind_ok in H3 as ([] & s5 & H3 & [-> _]%ret_ok). }
  assert (KB : st_bal s3 = st_bal s4 /\ st_supply s3 = st_supply s4 /\ st_del s3 = st_del s4).
  { destruct HS as [->|HS]; [done|]. by apply schedule_task_ok in HS as [_ ->]. }
  destruct KB as (KB & KS & KD).
  set (t := st_now s + rv_period (terms s express) * st_day s) in *.
  set (s5 := s3 <| st_del := <[a := item' <| d_reqs := d_reqs item' ++ [mkReq t (n - burnt)] |>]> (st_del s3) |>) in *.
  pose proof (schedule_task_ok _ _ _ _ _ H) as [_ E'].
  assert (BB : forall x d, bal s' x d = bal s4 x d).
  { intros x d. unfold bal. rewrite (balance_same s4 s'); [done|]. rewrite E'. exact KB. }
  assert (BS : forall d, supply s' d = supply s4 d).
  { intros d. unfold supply. rewrite E'. cbn. by rewrite KS. }
  exists burnt, (fun x => bal s1 x uartr - bal s x uartr).
  split; [lia|]. split; [done|]. split; [lia|]. split; [done|].
  split. { intros x. rewrite BB, C3 by done. lia. }
  split; [intros x; specialize (A1 x); lia|].
  split; [exact (accrue_part_interest _ _ _ _ _ H1')|].
  split. { intros x. rewrite BB, C1, A2 by done. done. }
  split. { intros x. rewrite BB, C2, A2 by done. done. }
  split. { intros x d Hd1 Hd2 Hd3. rewrite BB, C3, A2 by done. done. }
  split. { rewrite BS, T1, A3 by done. done. }
  split. { rewrite BS, T2, A3 by done. done. }
  split. { intros d Hd1 Hd2 Hd3. rewrite BS, T3, A3 by done. done. }
  assert (ER : d_reqs item' = d_reqs (del_get a s) /\ d_next item' =
     if bal s4 a uartrd <=? bp_dust (st_bp s) then None else Some (st_now s + st_day s)).
  { destruct (bal s4 a uartrd <=? bp_dust (st_bp s)).
    - apply ret_ok in H3 as [_ ->]. done.
    - apply bind_ok in H3 as ([] & s6 & H3 & [_ ->]%ret_ok). done. }
  destruct ER as [ER EN].
  split; [|split; [|exact (schedule_in _ _ _ _ _ H)]].
  - rewrite BB, E'. cbn. rewrite lookup_insert. cbn. rewrite KD, K5, K3. f_equal.
    destruct item'. cbn in *. by rewrite ER, EN, del_get_reqs.
  - intros HB'. rewrite BB in HB'. assert ((bal s4 a uartrd <=? bp_dust (st_bp s)) = false) as E by lia. rewrite E in H3.
    apply bind_ok in H3 as ([] & s6 & H3 & [-> _]%ret_ok). eapply schedule_keeps; [exact H|].
    exact (schedule_in _ _ _ _ _ H3).
Qed.

(** Paying out what is due *)
#[export] Instance req_le_trans : Transitive req_le.
Proof. intros x y z. unfold req_le. lia. Qed.
#[export] Instance req_le_total : Total req_le.
Proof. intros x y. unfold req_le. lia. Qed.
Lemma take_due_spec now l : StronglySorted req_le l -> take_due now l = (due_reqs now l, later_reqs now l).
Proof.
  induction 1 as [|q l HS IH HF]; [done|]. cbn. destruct (now <? q_time q) eqn:E.
  - assert (q_time q <=? now = false) as -> by lia. cbn [negb].
    assert (A : forall l, Forall (req_le q) l -> due_reqs now l = [] /\ later_reqs now l = l).
    { clear -E. intros l HF. induction HF as [|x l Hx HF [IH1 IH2]]; [done|]. unfold req_le in Hx. cbn.
      assert (q_time x <=? now = false) as -> by lia. cbn [negb]. fold (due_reqs now l) (later_reqs now l). by rewrite IH1, IH2. }
    apply A in HF as [H1 H2]. fold (due_reqs now l) (later_reqs now l). by rewrite H1, H2.
  - assert (q_time q <=? now = true) as -> by lia. cbn [negb]. rewrite IH. done.
Qed.
Lemma filter_perm {A} (f : A -> bool) l1 l2 : l1 ≡ₚ l2 -> List.filter f l1 ≡ₚ List.filter f l2.
Proof.
  induction 1 as [|x l1 l2 _ IH|x y l|l1 l2 l3 _ IH1 _ IH2]; cbn; [done| | |by etransitivity].
  - destruct (f x); [by apply Permutation_skip|done].
  - destruct (f x), (f y); try done. apply Permutation_swap.
Qed.
Lemma requested_perm l1 l2 : l1 ≡ₚ l2 -> requested l1 = requested l2.
Proof. induction 1; cbn; lia. Qed.
Lemma undelegates_ok a l : forall s s', mfor l (fun q => undelegate a (q_amount q)) s = (s', Ok tt) ->
  (forall q, q ∈ l -> 0 <= q_amount q) /\
  (forall x, bal s' x uartr = bal s x uartr + at_ x a (requested l)) /\
  (forall x, bal s' x uartrr = bal s x uartrr - at_ x a (requested l)) /\
  (forall x d, d <> uartr -> d <> uartrr -> bal s' x d = bal s x d).
Proof.
  induction l as [|q l IH]; intros s s' H; cbn in H.
  - apply ret_ok in H as [-> _]. cbn. split; [intros q Hq; by apply elem_of_nil in Hq|].
    repeat split; intros; rewrite ?at_zero; lia.
  - apply bind_ok in H as ([] & s1 & H1 & H). apply IH in H as (G & B1 & B2 & B3).
    unfold undelegate in H1. apply bind_ok in H1 as ([] & s2 & H1 & H2).
    assert (s1 = s2) as ->. { destruct (q_amount q =? 0); [by apply ret_ok in H2 as [-> _]|].
      apply bind_ok in H2 as (u & s5 & [-> _]%lift_ok & [-> _]%ret_ok). done. }
    apply convert_bal in H1 as (G1 & _ & C1 & C2 & C3 & _); [|done|done]. cbn [requested].
    split. { intros q' Hq. apply elem_of_cons in Hq as [->|Hq]; [done|by apply G]. }
    split; [intros x; rewrite B1, C2, at_add; lia|]. split; [intros x; rewrite B2, C1, at_add; lia|].
    intros x d Hd1 Hd2. by rewrite B3, C3.
Qed.
Lemma perform_revoking_ok a s s' : perform_revoking a s = (s', Ok tt) ->
  let due := due_reqs (st_now s) (requests s a) in
  (forall q, q ∈ due -> 0 <= q_amount q) /\
  (forall x, bal s' x uartr = bal s x uartr + at_ x a (requested due)) /\
  (forall x, bal s' x uartrr = bal s x uartrr - at_ x a (requested due)) /\
  (forall x d, d <> uartr -> d <> uartrr -> bal s' x d = bal s x d) /\
  requests s' a ≡ₚ later_reqs (st_now s) (requests s a) /\
  (forall x, x <> a -> requests s' x = requests s x) /\
  (forall x, next_accrual s' x = next_accrual s x).
Proof.
  intros H. cbn zeta. unfold perform_revoking in H.
  apply bind_ok in H as (r & s1 & H1 & H). apply get_ok in H1 as [-> ->].
  destruct (st_del s !! a) as [item|] eqn:E.
  2:{ apply ret_ok in H as [-> _]. unfold requests at 1 2 3 4 5. rewrite E. cbn.
    split; [intros q Hq; by apply elem_of_nil in Hq|]. split; [intros; rewrite at_zero; lia|].
    split; [intros; rewrite at_zero; lia|]. done. }
  apply bind_ok in H as (now & s1 & H1 & H). apply get_ok in H1 as [-> ->].
  assert (ER : requests s a = d_reqs item) by (unfold requests; by rewrite E). rewrite ER.
  pose proof (merge_sort_Permutation req_le (d_reqs item)) as HP.
  rewrite take_due_spec in H by (apply StronglySorted_merge_sort; apply _).
  set (L := merge_sort req_le (d_reqs item)) in *.
  assert (HD : due_reqs (st_now s) L ≡ₚ due_reqs (st_now s) (d_reqs item)) by (by apply filter_perm).
  assert (HL : later_reqs (st_now s) L ≡ₚ later_reqs (st_now s) (d_reqs item)) by (by apply filter_perm).
  apply bind_ok in H as ([] & s1 & H1 & H). apply (proj1 (must_ok _ _ _ _)) in H1.
  assert (K : st_del s1 = st_del s).
  { eapply (run_same st_del); [|exact H1]. apply rel_mfor; [apply _|intros; frame]. }
  apply undelegates_ok in H1 as (G & B1 & B2 & B3).
  rewrite (requested_perm _ _ HD) in B1, B2.
  assert (BB : forall x d, bal s' x d = bal s1 x d).
  { intros x d. destruct (due_reqs (st_now s) L); [by apply ret_ok in H as [-> _]|].
    unfold del_set in H. apply modify_ok in H as ->. reflexivity. }
  split; [intros q Hq; apply G; by rewrite HD|].
  split; [intros x; rewrite BB; apply B1|]. split; [intros x; rewrite BB; apply B2|].
  split; [intros x d Hd1 Hd2; rewrite BB; by apply B3|].
  destruct (due_reqs (st_now s) L) as [|q due] eqn:ED.
  - apply ret_ok in H as [-> _].
    assert (ES : forall x, requests s1 x = requests s x) by (intros x; unfold requests; by rewrite K).
    split; [|split; [intros x _; apply ES|intros x; unfold next_accrual; by rewrite K]].
    rewrite ES, ER. rewrite <- HL, <- HP. clear -ED. fold L. induction L as [|q l IH]; [done|]. cbn in *.
    destruct (q_time q <=? st_now s); [discriminate|]. cbn. apply Permutation_skip. by apply IH.
  - unfold del_set in H. apply modify_ok in H as ->. cbn. rewrite K.
    split; [unfold requests; cbn; rewrite lookup_insert; exact HL|].
    split; [intros x Hx; unfold requests; cbn; by rewrite lookup_insert_ne|].
    intros x. unfold next_accrual. cbn. destruct (decide (x = a)) as [->|Hx];
      [rewrite lookup_insert, E; done|by rewrite lookup_insert_ne].
Qed.

Lemma revoke_range a n express s s' : revoke a n express s = (s', Ok tt) -> n <> 0 -> - 2^63 <= n < 2^63.
Proof.
  intros H Hn. unfold revoke, fr in H. assert ((n =? 0) = false) as E by lia. rewrite E in H. clear E.
  apply bind_ok in H as (? & s1 & _ & H). apply bind_ok in H as ([] & s2 & _ & H). apply bind_ok in H as (? & s3 & _ & H).
  apply bind_ok in H as (p & s4 & _ & H). apply bind_ok in H as (ni & s5 & H2 & H). apply lift_ok in H2 as [_ H2].
  unfold Frac.to_int64, Frac.is_int64 in H2.
  match type of H2 with (if ?b then _ else _) = _ => destruct b eqn:E; [|done] end.
  change (2^63) with 9223372036854775808. lia.
Qed.
(** The burnt share *)
Lemma burn_part_spec p n burnt : burn_part p n = Some burnt -> Frac.fden (rv_burn p) <> 0 ->
  revoke_valid p = Some true -> 0 <= n < 2^63 ->
  burnt = trunc (qval (rv_burn p) * inject_Z n) /\ 0 <= burnt <= n.
Proof.
  unfold burn_part, oget, Frac.obind. intros H HF HV Hn.
  destruct (mul_int_qval (rv_burn p) n HF) as (r & Er & Hr & Vr). rewrite Er in H.
  destruct (c03_int64 r) as (x & Ex & _ & _ & Hx); [lia|]. rewrite Ex in H. injection H as <-.
  rewrite (trunc_eq _ _ Vr) in Hx.
  assert (HB : 0 <= trunc (qval (rv_burn p) * inject_Z n) <= n).
  { unfold revoke_valid in HV. destruct (rv_period p <? 1); [done|].
    destruct (gt_spec (rv_burn p) (Frac.percent_f 100)) as (b & Eb & Hb); [done|cbn; lia|]. rewrite Eb in HV.
    injection HV as HV. apply andb_prop in HV as [HV1 HV2].
    assert (Q1 : (qval (rv_burn p) <= 1)%Q).
    { destruct b; [done|]. destruct (Qlt_le_dec 1 (qval (rv_burn p))) as [L|L]; [|exact L].
      assert (false = true); [|done]. apply Hb. change (qval (Frac.percent_f 100)) with (100 / 100)%Q.
      assert (100 / 100 == 1)%Q as -> by reflexivity. exact L. }
    assert (Q0 : (0 <= qval (rv_burn p))%Q).
    { destruct (Qlt_le_dec (qval (rv_burn p)) 0) as [L|L]; [|exact L].
      apply is_negative_spec in L; [|done]. by rewrite L in HV2. }
    assert (N0 : (0 <= inject_Z n)%Q) by (change 0%Q with (inject_Z 0); rewrite <- Zle_Qle; lia).
    assert (P0 : (0 <= qval (rv_burn p) * inject_Z n)%Q) by (by apply Qmult_le_0_compat).
    assert (P1 : (qval (rv_burn p) * inject_Z n <= inject_Z n)%Q).
    { rewrite <- (Qmult_1_l (inject_Z n)) at 2. by apply Qmult_le_compat_r. }
    unfold trunc. destruct (Qle_bool 0 (qval (rv_burn p) * inject_Z n)) eqn:EQ; [|by rewrite (proj2 (Qle_bool_iff _ _) P0) in EQ].
    split.
    - change 0 with (Qround.Qfloor 0). by apply Qround.Qfloor_resp_le.
    - rewrite <- (Qround.Qfloor_Z n) at 2. by apply Qround.Qfloor_resp_le. }
  rewrite Hx by (change (2^63) with 9223372036854775808 in *; lia). done.
Qed.
(** A table accepted by the validation, with no zero denominators *)
Lemma table_ok_sorted p t : table_ok p t = true -> StronglySorted Z.lt (map fst t) /\ Forall (Z.lt p) (map fst t) /\
  forall start row, (start, row) ∈ t -> List.length row = 5%nat.
Proof.
  revert p. induction t as [|[start fs] t IH]; intros p H; cbn in H.
  - cbn. split; [constructor|]. split; [constructor|]. intros ? ? HH. by apply elem_of_nil in HH.
  - apply andb_prop in H as [H H4]. apply andb_prop in H as [H H3]. apply andb_prop in H as [H1 H2].
    destruct (IH _ H4) as (S1 & S2 & S3). cbn. split; [by constructor|]. split.
    + constructor; [lia|]. eapply Forall_impl; [exact S2|]. cbn. lia.
    + intros s' row HH. apply elem_of_cons in HH as [[= -> ->]|HH]; [by apply Nat.eqb_eq|by eapply S3].
Qed.
Lemma table_valid_proper t : table_valid t = true -> (forall start row f, (start, row) ∈ t -> f ∈ row -> Frac.fden f <> 0) ->
  proper_table t.
Proof.
  intros H HD. assert (HT : table_ok (-1) t = true).
  { unfold table_valid in H. destruct t as [|[[|?|?] ?] ?]; try done. }
  apply table_ok_sorted in HT as (S1 & _ & S3). split; [exact S1|]. intros start row HR. split; [by eapply S3|].
  intros f. by eapply HD.
Qed.
