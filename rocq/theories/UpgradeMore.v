(** * Proofs about the upgrades: the network, the validators, the schedule *)
From Verif Require Import Upgrade BankProofs ModeProofs RefProofs QualProofs Spec_Noding LiveProofs.
From Verif Require Export UpgradeProofs.

(** ** Iterating over the records *)
(** The same with a property of the state that [R] keeps and an invariant [K] of what the callback keeps *)
Lemma iterate_records_in {X} (R : St -> St -> Prop) `{!PreOrder R} (K0 : X -> Prop) (P : addr -> rinfo -> rinfo -> St -> Prop) (x0 : X) f s s' x' :
  iterate x0 f s = (s', Ok x') ->
  (forall x a r, rel (same st_ref) (f x a r)) ->
  (forall x a r, rel R (f x a r)) ->
  (forall b a ck (g : rinfo -> rinfo * unit), rel R (bu_update b a ck g)) ->
  (forall b, rel R (bu_commit b)) ->
  (forall a r r' s1 s2, P a r r' s1 -> R s1 s2 -> P a r r' s2) ->
  K0 x0 ->
  (forall x a r s1 s2 x2 r' ch ck, K0 x -> R s s1 -> st_ref s1 = st_ref s -> f x a r s1 = (s2, Ok (x2, r', ch, ck)) -> K0 x2) ->
  (forall x a r s1 s2 x2 r' ch ck r'', K0 x -> R s s1 -> st_ref s1 = st_ref s -> st_ref s !! a = Some r ->
     f x a r s1 = (s2, Ok (x2, r', ch, ck)) -> eqs (if ch then r' else if ck then normalize r else r) r'' ->
     (ck = false -> r'' = if ch then r' else r) -> P a r r'' s2) ->
  (forall a r, st_ref s !! a = Some r -> P a r (ref_get s' a) s') /\
  (forall a, st_ref s !! a = None -> st_ref s' !! a = None) /\
  (forall a, is_Some (st_ref s !! a) -> is_Some (st_ref s' !! a)).
Proof.
  intros H HR HF HU HCM HM Hx0 HK HP.
  set (I := fun (pre : list (addr * rinfo)) (b : bu) (x : X) (s1 : St) =>
    (st_ref s1 = st_ref s /\ K0 x /\ R s s1) /\
    (forall a r, (a, r) ∈ pre -> P a r (bu_get b a s) s1) /\
    (forall a, a ∉ map fst pre -> bu_data b !! a = None) /\
    (forall a, a ∈ map fst pre -> is_Some (st_ref s !! a))).
  destruct (iterate_inv I x0 f s s' x' H) as (b & s2 & ((J1 & _ & _) & J2 & J3 & J4) & HC).
  - split_and!; [done|done|done|intros a r Hq; by apply elem_of_nil in Hq|done|intros a Hq; by apply elem_of_nil in Hq].
  - intros pre a item post b x s1 s2 s3 x2 item' ch ck b' El ((J1 & JK & JR) & J2 & J3 & J4) Hf Hu.
    assert (JK2 : K0 x2) by (by eapply HK).
    assert (R12 : R s1 s2) by (pose proof (HF x a item s1) as F; by rewrite Hf in F).
    assert (Ei : st_ref s !! a = Some item). { apply elem_records. rewrite El. apply elem_of_app. right. by left. }
    assert (Na : a ∉ map fst pre).
    { pose proof (records_NoDup s) as N. rewrite El, map_app in N. apply NoDup_app in N as (_ & N & _).
      intros Ha. apply (N a Ha). by left. }
    assert (Es2 : st_ref s2 = st_ref s1) by (pose proof (HR x a item s1) as F; by rewrite Hf in F).
    assert (Gb : bu_get b a s2 = item).
    { unfold bu_get. rewrite (J3 a Na). unfold ref_get. by rewrite Es2, J1, Ei. }
    assert (K : forall y, y ∉ map fst (pre ++ [(a, item)]) -> y ∉ map fst pre /\ y <> a).
    { intros y Hy. rewrite map_app in Hy. apply not_elem_of_app in Hy as [Y1 Y2]. split; [done|].
      intros ->. apply Y2. by left. }
    assert (KK : forall y, y ∈ map fst (pre ++ [(a, item)]) -> is_Some (st_ref s !! y)).
    { intros y Hy. rewrite map_app in Hy. apply elem_of_app in Hy as [Y|Y]; [by apply J4|].
      apply elem_of_list_singleton in Y as ->. cbn. rewrite Ei. by eexists. }
    assert (KP : forall y r, (y, r) ∈ pre -> y <> a).
    { intros y r Hy ->. apply Na. apply elem_of_list_fmap. by exists (a, r). }
    destruct (ch || ck) eqn:Ec.
    + assert (R23 : R s2 s3) by (pose proof (HU b a ck (fun r => (if ch then item' else r, tt)) s2) as F; by rewrite Hu in F).
      apply bu_update_ok in Hu as (r2 & _ & Q & Qf & ED & ER). rewrite Gb in Q, Qf. cbn [fst] in Q, Qf.
      assert (HPa : P a item r2 s2).
      { eapply (HP x a item s1 s2 x2 item' ch ck r2); [done|done|done|done|exact Hf| |].
        - by destruct ch; [|destruct ck].
        - intros ->. rewrite orb_false_r in Ec. subst ch. by apply Qf. }
      unfold I. split_and!; [congruence|done|by (transitivity s2; [transitivity s1|])| | |done].
      * intros y r Hy. unfold bu_get. rewrite ED. apply elem_of_app in Hy as [Hy|Hy].
        -- rewrite lookup_insert_ne by (intros <-; by eapply KP). eapply HM; [by apply J2|by transitivity s2].
        -- apply elem_of_list_singleton in Hy as [= -> ->]. rewrite lookup_insert. by eapply HM.
      * intros y Hy. apply K in Hy as [Y1 Y2]. rewrite ED, lookup_insert_ne by done. by apply J3.
    + destruct Hu as [-> ->]. apply orb_false_iff in Ec as [-> ->].
      unfold I. split_and!; [congruence|done|by transitivity s1| | |done].
      * intros y r Hy. apply elem_of_app in Hy as [Hy|Hy]; [eapply HM; [by apply J2|done]|].
        apply elem_of_list_singleton in Hy as [= -> ->]. unfold bu_get. rewrite (J3 a Na). unfold ref_get. rewrite Ei. cbn.
        eapply (HP x a item s1 s2 x2 item' false false item); [done|done|done|done|exact Hf|apply eqs_refl|done].
      * intros y Hy. apply K in Hy as [Y1 Y2]. by apply J3.
  - pose proof (commit_ref b s2) as CR. rewrite HC in CR. cbn in CR. rewrite J1 in CR.
    assert (Eq : forall y, ref_get s' y = bu_get b y s) by (intros y; by apply union_get).
    split_and!.
    + intros a r Ha. rewrite Eq. eapply HM; [apply J2; by apply elem_records|]. pose proof (HCM b s2) as F. by rewrite HC in F.
    + intros a Ha. rewrite CR, lookup_union, Ha. destruct (bu_data b !! a) eqn:Eb; [|done].
      destruct (decide (a ∈ map fst (records s))) as [Hin|Hin]; [|by rewrite J3 in Eb].
      apply J4 in Hin as [r0 Hr]. congruence.
    + intros a [r Ha]. rewrite CR, lookup_union, Ha. destruct (bu_data b !! a); by eexists.
Qed.

(** ** 2.0.1 *)
Lemma forallb_in (P : addr -> Prop) `{forall x, Decision (P x)} l : forallb (fun x => bool_decide (P x)) l = true <-> forall x, x ∈ l -> P x.
Proof.
  rewrite forallb_forall. split; intros X x Hx.
  - specialize (X x). rewrite bool_decide_eq_true in X. apply X. by apply elem_of_list_In.
  - apply bool_decide_eq_true. apply X. by apply elem_of_list_In.
Qed.
Lemma recalc_ok s s' : recalculate_active s = (s', Ok tt) ->
  (forall a r, st_ref s !! a = Some r -> let r' := ref_get s' a in
     r_referrer r' = r_referrer r /\ r_referrals r' = r_referrals r /\ r_active r' = r_active r /\ r_banished r' = r_banished r /\
     (forall i, line (r_coins r') i = line (r_coins r) i /\ line (r_deleg r') i = line (r_deleg r) i /\ line (r_cnt r') i = line (r_cnt r) i) /\
     forall x, x ∈ r_arefs r' <-> x ∈ r_referrals r /\ active s x = true) /\
  (forall a, is_Some (st_ref s !! a) <-> is_Some (st_ref s' !! a)).
Proof.
  intros H. unfold recalculate_active in H.
  destruct (iterate_records (fun a r r' => 
     r_referrer r' = r_referrer r /\ r_referrals r' = r_referrals r /\ r_active r' = r_active r /\ r_banished r' = r_banished r /\
     (forall i, line (r_coins r') i = line (r_coins r) i /\ line (r_deleg r') i = line (r_deleg r) i /\ line (r_cnt r') i = line (r_cnt r) i) /\
     forall x, x ∈ r_arefs r' <-> x ∈ r_referrals r /\ active s x = true) _ _ s s' tt H) as (P1 & P2 & P3).
  - intros _ a r. unfold recalc_one. apply rel_bind; [apply _|apply rel_get; apply _|]. intros arl. destruct (_ || _); apply rel_ret; apply _.
  - intros _ a r s1 s2 [] r' ch ck r'' Es Hr Hf HE _. unfold recalc_one in Hf.
    apply bind_ok in Hf as (arl & s3 & E & Hf). apply get_ok in E as [-> ->].
    set (arl := List.filter _ _) in Hf.
    assert (HA : forall x, x ∈ arl <-> x ∈ r_referrals r /\ active s x = true).
    { intros x. unfold arl. rewrite elem_of_list_In, filter_In, <- elem_of_list_In. unfold active, ref_get. by rewrite Es. }
    clearbody arl. destruct (_ || _) eqn:C.
    + apply ret_ok in Hf as [_ Hf]. injection Hf as -> -> ->. destruct HE as (st & dn & ->). cbn. split_and!; try done.
    + apply ret_ok in Hf as [_ Hf]. injection Hf as -> -> ->. destruct HE as (st & dn & ->). cbn. split_and!; try done.
      apply orb_false_iff in C as [C1 C2]. apply negb_false_iff in C1, C2. rewrite forallb_in in C1. rewrite forallb_in in C2.
      intros x. rewrite <- HA. split; auto.
  - split; [done|]. intros a. split; [apply P3|]. intros [r' Hr']. destruct (st_ref s !! a) eqn:E; [done|]. rewrite P2 in Hr'; done.
Qed.

(** ** 2.2.0 *)
Lemma mfor_pre {A} (I : list A -> St -> Prop) (f : A -> M unit) l : forall s s',
  (forall pre x post s s', l = pre ++ x :: post -> I pre s -> f x s = (s', Ok tt) -> I (pre ++ [x]) s') ->
  I [] s -> mfor l f s = (s', Ok tt) -> I l s'.
Proof.
  assert (G : forall r pre s s',
    (forall pre x post s s', l = pre ++ x :: post -> I pre s -> f x s = (s', Ok tt) -> I (pre ++ [x]) s') ->
    l = pre ++ r -> I pre s -> mfor r f s = (s', Ok tt) -> I l s').
  { induction r as [|x r IH]; intros pre s s' Hs El HI H; cbn in H.
    - apply ret_ok in H as [-> _]. by rewrite El, app_nil_r.
    - apply bind_ok in H as ([] & s1 & H1 & H). apply (IH (pre ++ [x]) s1); try done; [by rewrite <- app_assoc|]. eauto. }
  intros s s' Hs. by apply (G l []).
Qed.
Lemma switch_off_ok a s s' x : st_val s !! a = Some x -> switch_off a s = (s', Ok tt) ->
  (st_ref s', st_bal s', st_np s', st_pperiod s') = (st_ref s, st_bal s, st_np s, st_pperiod s) /\
  (forall b, b <> a -> st_val s' !! b = st_val s !! b) /\
  exists y, st_val s' !! a = Some y /\ n_status y = false /\ n_staff y = n_staff x.
Proof.
  intros E H. unfold switch_off, val_update in H. apply bind_ok in H as (x' & s1 & H1 & H). unfold val_get in H1. rewrite E in H1.
  injection H1 as <- <-. apply bind_ok in H as (y & s1 & H1 & H).
  destruct (n_status x) eqn:Es; cbn in H1.
  - apply bind_ok in H1 as (z & s2 & H2 & H1). apply ret_ok in H1 as [-> ->].
    unfold if_in_lottery in H2. destruct (n_lottery _ =? 0) eqn:El.
    + apply ret_ok in H2 as [-> ->]. unfold val_set in H. apply modify_ok in H as ->. cbn. split; [done|]. split.
      * intros b Hb. by rewrite lookup_insert_ne.
      * eexists. rewrite lookup_insert. done.
    + apply (proj1 (must_ok _ _ _ _)) in H2. unfold lottery_exclude in H2. rewrite El in H2. minv. unfold val_set in H. apply modify_ok in H as ->. cbn. split; [done|]. split.
      * intros b Hb. by rewrite lookup_insert_ne.
      * eexists. rewrite lookup_insert. done.
  - apply ret_ok in H1 as [-> ->]. apply ret_ok in H as [-> _]. split; [done|]. split; [done|]. by exists x.
Qed.
Lemma switch_off_no_error a s s' e x : st_val s !! a = Some x -> switch_off a s <> (s', Err e).
Proof.
  intros E. unfold switch_off, val_update, val_get, bind, if_in_lottery, must, lottery_exclude. rewrite E. cbn.
  destruct (n_status x); [|done]. cbn.
  destruct (n_lottery x =? 0) eqn:El; done.
Qed.
Lemma is_qualified_no_error a s s' e : is_qualified a s <> (s', Err e).
Proof.
  unfold is_qualified, delegated_in_network, bind, get, lift, ret.
  repeat (case_match; simplify_eq; try done).
Qed.
Lemma force_callback_ok s s' : force_status_callback s = (s', Ok tt) ->
  st_pperiod s' = st_pperiod s /\ (forall a, qualified s' a <-> qualified s a) /\
  (forall a, is_validator s' a = true <-> is_validator s a = true /\ qualified s a) /\
  (forall a, qualified s a -> st_val s' !! a = st_val s !! a).
Proof.
  unfold force_status_callback. intros H. apply bind_ok in H as (l & s1 & E & H). apply get_ok in E as [-> ->].
  assert (HL : forall a, a ∈ active_validators s <-> is_validator s a = true).
  { intros a. unfold active_validators. rewrite elem_of_list_In, filter_In, <- elem_of_list_In. unfold is_validator.
    split; [by intros []|]. intros X. split; [|done]. destruct (st_val s !! a) eqn:V; [|done]. apply elem_of_keysN. by exists n. }
  set (I := fun (pre : list addr) (s1 : St) =>
    (st_ref s1, st_bal s1, st_np s1, st_pperiod s1) = (st_ref s, st_bal s, st_np s, st_pperiod s) /\
    (forall a, on_staff s1 a = on_staff s a) /\
    (forall a, is_Some (st_val s !! a) -> is_Some (st_val s1 !! a)) /\
    (forall a, a ∈ pre -> ~ qualified s a -> is_validator s1 a = false) /\
    (forall a, a ∉ pre \/ qualified s a -> st_val s1 !! a = st_val s !! a)).
  assert (QQ : forall pre s1, I pre s1 -> forall a, qualified s1 a <-> qualified s a).
  { intros pre s1 (F & ST & _) a. injection F as F1 F2 F3 F4. unfold qualified, delegated_below, ref_get, balance. by rewrite ST, F1, F2, F3. }
  assert (J : I (active_validators s) s').
  { eapply (mfor_pre I); [|split_and!; try done; intros a X; by apply elem_of_nil in X|exact H].
    intros pre a post s2 s3 El HI Hf. pose proof (QQ _ _ HI a) as Qa. destruct HI as (F & ST & SM & NV & SV).
    apply bind_ok in Hf as (q & s4 & Hq & Hf). apply (proj1 (try_ok _ _ _ _)) in Hq.
    destruct q as [[q d]|e]; [|by apply is_qualified_no_error in Hq].
    apply is_qualified_spec in Hq as (-> & _ & Hq). rewrite Qa in Hq.
    assert (HV : is_validator s a = true). { apply HL. rewrite El. apply elem_of_app. right. by left. }
    destruct q.
    - apply ret_ok in Hf as [-> _]. split_and!; try done.
      + intros b Hb HN. apply NV; [|done]. apply elem_of_app in Hb as [Hb|Hb]; [done|]. apply elem_of_list_singleton in Hb as ->. by destruct HN, Hq; auto.
      + intros b [Hb|Hb]; apply SV; [left|by right]. intros X. apply Hb. apply elem_of_app. by left.
    - apply bind_ok in Hf as (r & s5 & Hr & Hf). apply ret_ok in Hf as [-> _]. apply (proj1 (try_ok _ _ _ _)) in Hr.
      assert (SA : is_Some (st_val s !! a)). { unfold is_validator in HV. destruct (st_val s !! a); [by eexists|done]. }
      destruct (SM a SA) as [x Hx]. destruct r as [[]|e]; [|by eapply switch_off_no_error in Hx].
      destruct (switch_off_ok _ _ _ _ Hx Hr) as (F' & O & y & Hy & Y1 & Y2).
      split_and!.
      + congruence.
      + intros b. rewrite <- ST. unfold on_staff. destruct (decide (b = a)) as [->|]; [by rewrite Hy, Hx|by rewrite O].
      + intros b Hb. destruct (decide (b = a)) as [->|]; [by rewrite Hy; eexists|rewrite O by done; auto].
      + intros b Hb HN. unfold is_validator. destruct (decide (b = a)) as [->|D].
        * rewrite Hy. unfold n_active. by rewrite Y1.
        * rewrite O by done. apply elem_of_app in Hb as [Hb|Hb]; [by apply NV|]. by apply elem_of_list_singleton in Hb.
      + intros b Hb. assert (D : b <> a). { intros ->. destruct Hb as [Hb|Hb]; [apply Hb, elem_of_app; right; by left|]. by apply Hq in Hb. }
        rewrite O by done. apply SV. destruct Hb as [Hb|Hb]; [left|by right]. intros X. apply Hb, elem_of_app. by left. }
  pose proof (QQ _ _ J) as Q. destruct J as (F & ST & SM & NV & SV). split; [congruence|]. split; [done|]. split; [|auto].
  intros a. split.
  - intros HV. assert (D : qualified s a \/ a ∉ active_validators s).
    { destruct (decide (a ∈ active_validators s)) as [Ha|Ha]; [left|by right].
      assert (DQ : Decision (qualified s a)). { unfold qualified. apply _. }
      destruct DQ as [X|X]; [done|]. rewrite (NV a Ha X) in HV. done. }
    assert (HV0 : is_validator s a = true). { unfold is_validator in *. by rewrite <- SV by tauto. }
    split; [done|]. destruct D as [D|D]; [done|]. by rewrite HL in D.
  - intros [HV HQ]. unfold is_validator in *. by rewrite SV by auto.
Qed.

(** ** 2.4.5 *)
#[export] Instance tasks_kept_preorder : PreOrder tasks_kept.
Proof. split; [by intros s t u|]. intros x y z A B t u H. auto. Qed.
Lemma schedule_kept t h d : rel tasks_kept (schedule_task t h d).
Proof.
  intros s. destruct (schedule_task t h d s) as [s' [[]|e|e]] eqn:E.
  - apply schedule_ok in E as [E _]. intros k x Hx. cbn [fst]. rewrite E. destruct (k =? t); [apply elem_of_app; by left|done].
  - unfold schedule_task, schedule_task', check_key, assert, bind in E. by destruct (key_ok _).
  - unfold schedule_task, schedule_task', check_key, assert, bind in E. destruct (key_ok _); [discriminate|]. by injection E as <- <-.
Qed.
Lemma kept_same s s' : st_sched s' = st_sched s -> tasks_kept s s'.
Proof. intros E t x. unfold tasks_at. by rewrite E. Qed.
Lemma kept_update b a ck (g : rinfo -> rinfo * unit) : rel tasks_kept (bu_update b a ck g).
Proof. apply sw_bu_update; try apply _; intros; try (by apply kept_same). by apply schedule_kept. Qed.
Lemma kept_commit b : rel tasks_kept (bu_commit b).
Proof.
  unfold bu_commit. apply rel_bind; [apply _|apply rel_modify; intros; by apply kept_same|].
  intros _. apply rel_mfor; [apply _|]. intros c s.
  assert (F : rel (same st_sched) (run_callback c)) by frame. apply kept_same. apply F.
Qed.
(** Nothing but status downgrades is scheduled *)
Definition no_new_ban (s s' : St) : Prop := forall t a, waiting s' t HBanish a -> waiting s t HBanish a.
#[export] Instance no_new_ban_preorder : PreOrder no_new_ban.
Proof. split; [by intros s t u|]. intros x y z A B t u H. auto. Qed.
Lemma ban_same s s' : st_sched s' = st_sched s -> no_new_ban s s'.
Proof. intros E t x. unfold waiting, tasks_at. by rewrite E. Qed.
Lemma ban_schedule t h d : h <> HBanish -> rel no_new_ban (schedule_task t h d).
Proof.
  intros Hh s. destruct (schedule_task t h d s) as [s' [[]|e|e]] eqn:E.
  - apply schedule_ok in E as [E _]. intros k a (x & Hx & Hq). cbn [fst] in Hx. rewrite E in Hx. destruct (k =? t); [|by exists x].
    apply elem_of_app in Hx as [Hx|Hx]; [by exists x|]. apply elem_of_list_singleton in Hx as ->. by destruct Hq.
  - unfold schedule_task, schedule_task', check_key, assert, bind in E. by destruct (key_ok _).
  - unfold schedule_task, schedule_task', check_key, assert, bind in E. destruct (key_ok _); [discriminate|]. by injection E as <- <-.
Qed.
Lemma ban_update b a ck (g : rinfo -> rinfo * unit) : rel no_new_ban (bu_update b a ck g).
Proof. apply sw_bu_update; try apply _; intros; try (by apply ban_same). by apply ban_schedule. Qed.
Lemma ban_commit b : rel no_new_ban (bu_commit b).
Proof.
  unfold bu_commit. apply rel_bind; [apply _|apply rel_modify; intros; by apply ban_same|].
  intros _. apply rel_mfor; [apply _|]. intros c s.
  assert (F : rel (same st_sched) (run_callback c)) by frame. apply ban_same. apply F.
Qed.

Lemma missing_one_ok shift at_ a r s s' at2 r' ch ck :
  missing_one shift at_ a r s = (s', Ok (at2, r', ch, ck)) ->
  fixed s' = fixed s /\ ck = true /\
  let due := r_active r = false /\ bal s a uartrd <= bp_dust (st_bp s) /\ r_banished r = false /\ r_banishment_at r = None /\
             (forall c, r_compression_at r = Some c -> c < st_now s) in
  (due /\ at2 = at_ + shift /\ schedule_task at2 HBanish a s = (s', Ok tt) /\ ch = true /\ r' = r <| r_banishment_at := Some at2 |>) \/
  (~ due /\ s' = s /\ at2 = at_ /\ ch = false /\ r' = r).
Proof.
  unfold missing_one. intros H. destruct (r_active r) eqn:EA.
  { apply ret_ok in H as [-> H]. injection H as -> -> -> ->. split; [done|]. split; [done|]. right. split; [|done]. by intros (? & _). }
  apply bind_ok in H as (d & s1 & E & H). apply get_ok in E as [-> ->].
  apply bind_ok in H as (d & s1 & E & H). apply lift_ok in E as [-> E].
  apply bind_ok in H as (dd & s1 & E1 & H). apply get_ok in E1 as [-> ->].
  apply bind_ok in H as (now & s1 & E1 & H). apply get_ok in E1 as [-> ->].
  assert (Ed : d = bal s a uartrd). { unfold Frac.to_int64 in E. destruct (Frac.is_int64 _) in E; [by injection E as <-|done]. }
  subst d. clear E.
  assert (D : (bal s a uartrd <=? bp_dust (st_bp s)) && negb (r_banished r)
     && match r_banishment_at r with None => true | Some _ => false end
     && match r_compression_at r with None => true | Some c => c <? st_now s end = true <->
     (false = false /\ bal s a uartrd <= bp_dust (st_bp s) /\ r_banished r = false /\ r_banishment_at r = None /\
             (forall c, r_compression_at r = Some c -> c < st_now s))).
  { rewrite !andb_true_iff, negb_true_iff, Z.leb_le. split.
    - intros [[[? ?] ?] X]. split_and!; try done; [by destruct (r_banishment_at r)|]. intros c Ec. rewrite Ec in X. by apply Z.ltb_lt.
    - intros (_ & ? & ? & ? & X). split; [split; [done|]|]; [by destruct (r_banishment_at r)|]. destruct (r_compression_at r); [|done]. apply Z.ltb_lt. auto. }
  destruct (_ && _) eqn:C.
  - cbv zeta in H. apply bind_ok in H as ([] & s1 & E & H). apply ret_ok in H as [-> H]. injection H as -> -> -> ->.
    pose proof (schedule_ok _ _ _ _ _ E) as [_ F]. split; [done|]. split; [done|]. left. split; [by apply D|]. done.
  - apply ret_ok in H as [-> H]. injection H as -> -> -> ->. split; [done|]. split; [done|]. right. split; [|done].
    intros X. apply D in X. done.
Qed.

Definition ban_effect (at0 : time) (s : St) (a : addr) (r r' : rinfo) (s1 : St) : Prop :=
     (overlooked s a -> exists t, r_banishment_at r' = Some t /\ at0 <= t /\ waiting s1 t HBanish a) /\
     (~ overlooked s a -> r_banishment_at r' = r_banishment_at r) /\
     r_referrer r' = r_referrer r /\ r_referrals r' = r_referrals r /\ r_arefs r' = r_arefs r /\ r_active r' = r_active r /\ r_banished r' = r_banished r /\
     (forall i, line (r_coins r') i = line (r_coins r) i /\ line (r_deleg r') i = line (r_deleg r) i /\ line (r_cnt r') i = line (r_cnt r) i).
Lemma schedule_missing_ok s s' : schedule_missing s = (s', Ok tt) ->
  tasks_kept s s' /\
  (forall a r, st_ref s !! a = Some r -> let r' := ref_get s' a in
     (overlooked s a -> exists t, r_banishment_at r' = Some t /\ st_now s + st_day s / 24 <= t /\ waiting s' t HBanish a) /\
     (~ overlooked s a -> r_banishment_at r' = r_banishment_at r) /\
     r_referrer r' = r_referrer r /\ r_referrals r' = r_referrals r /\ r_arefs r' = r_arefs r /\ r_active r' = r_active r /\ r_banished r' = r_banished r /\
     (forall i, line (r_coins r') i = line (r_coins r) i /\ line (r_deleg r') i = line (r_deleg r) i /\ line (r_cnt r') i = line (r_cnt r) i)) /\
  (forall a, is_Some (st_ref s !! a) <-> is_Some (st_ref s' !! a)) /\
  (forall t a, waiting s' t HBanish a -> waiting s t HBanish a \/ overlooked s a).
Proof.
  unfold schedule_missing. intros H. apply bind_ok in H as (shift & s1 & E & H). apply get_ok in E as [-> ->].
  apply bind_ok in H as (at0 & s1 & E & H). apply get_ok in E as [-> ->].
  apply bind_ok in H as (x & s1 & H0 & H). apply ret_ok in H as [-> _]. rename s1 into s'. rename H0 into H.
  set (shift := shift_interval s) in *. assert (HS : 0 <= shift). { unfold shift, shift_interval. apply Z.div_pos; [|done]. unfold u64. apply Z.mod_pos_bound. done. }
  set (at0 := st_now s + st_day s / 24) in *.
  (* everything that matters to the callback stays *)
  set (R := fun s1 s2 => tasks_kept s1 s2 /\ quiet s2 = quiet s1).
  assert (PR : PreOrder R). { split; [intros s1; by split|]. intros s1 s2 s3 [] []. split; [by transitivity s2|congruence]. }
  assert (Rf : forall x a r, rel R (missing_one shift x a r)).
  { intros x1 a r. assert (RF : rel (same quiet) (missing_one shift x1 a r)).
    { unfold missing_one. repeat first [ progress rel_struct | solve [auto 3 with rel] | progress (unfold fr, check_key) ].
      intros s1. pose proof (schedule_fixed (x1 + shift) HBanish a s1) as F. unfold same, fixed, quiet in *. congruence. }
    assert (RK : rel tasks_kept (missing_one shift x1 a r)).
    { unfold missing_one. repeat first [ progress rel_struct | solve [auto 3 with rel] | apply schedule_kept ]. }
    intros s1. split; [apply RK|apply RF]. }
  assert (Ru : forall b a ck (g : rinfo -> rinfo * unit), rel R (bu_update b a ck g)).
  { intros b a ck g s1. split; [apply kept_update|apply quiet_update]. }
  assert (Rc : forall b, rel R (bu_commit b)).
  { intros b s1. split; [apply kept_commit|apply quiet_commit]. }
  assert (DUE : forall a r s1, st_ref s !! a = Some r -> quiet s1 = quiet s ->
    (overlooked s a <-> r_active r = false /\ bal s1 a uartrd <= bp_dust (st_bp s1) /\ r_banished r = false /\ r_banishment_at r = None /\
             (forall c, r_compression_at r = Some c -> c < st_now s1))).
  { intros a r s1 Hr Q. assert (Hg : ref_get s a = r) by (unfold ref_get; by rewrite Hr).
    assert (Q3 : st_bal s1 = st_bal s /\ st_now s1 = st_now s /\ st_bp s1 = st_bp s) by (unfold quiet in Q; split_and!; congruence).
    destruct Q3 as (Q1 & Q2 & Q3). unfold overlooked, member, active, banished, bal, balance. rewrite Hg, Q1, Q2, Q3.
    assert (registered s a) by (by exists r). naive_solver. }
  split.
  { pose proof (rel_iterate R at0 (missing_one shift) Rf Ru Rc s) as F. rewrite H in F. apply F. }
  assert (PP : (forall a r, st_ref s !! a = Some r -> ban_effect at0 s a r (ref_get s' a) s') /\
    (forall a, st_ref s !! a = None -> st_ref s' !! a = None) /\
    (forall a, is_Some (st_ref s !! a) -> is_Some (st_ref s' !! a))).
  { eapply (iterate_records_in R (fun x => at0 <= x) (ban_effect at0 s) at0 (missing_one shift)); try done.
    - intros x1 a r s1. destruct (missing_one shift x1 a r s1) as [s2 [[[[x2 r'] ch] ck]|e|e]] eqn:E.
      + apply missing_one_ok in E as [F _]. unfold same, fixed in *. cbn. congruence.
      + assert (RF : rel (same st_ref) (missing_one shift x1 a r)); [|specialize (RF s1); by rewrite E in RF].
        unfold missing_one. repeat first [ progress rel_struct | solve [auto 3 with rel] ].
        intros s3. pose proof (schedule_fixed (x1 + shift) HBanish a s3) as F. unfold same, fixed in *. congruence.
      + assert (RF : rel (same st_ref) (missing_one shift x1 a r)); [|specialize (RF s1); by rewrite E in RF].
        unfold missing_one. repeat first [ progress rel_struct | solve [auto 3 with rel] ].
        intros s3. pose proof (schedule_fixed (x1 + shift) HBanish a s3) as F. unfold same, fixed in *. congruence.
    - intros a r r' s1 s2 (A & B) [K _]. split; [|done]. intros O. destruct (A O) as (t & T1 & T2 & y & Y1 & Y2). exists t. split_and!; try done.
      exists y. split; [by apply K|done].
    - intros x1 a r s1 s2 x2 r' ch ck Hx _ _ Hf. apply missing_one_ok in Hf as (_ & _ & [(_ & -> & _)|(_ & _ & -> & _)]); lia.
    - intros x1 a r s1 s2 x2 r' ch ck r'' Hx [_ Q] _ Hr Hf HE _. pose proof (DUE a r s1 Hr Q) as D.
      apply missing_one_ok in Hf as (_ & -> & [(Hd & -> & Hs & -> & ->)|(Hd & _ & _ & -> & ->)]); rewrite <- D in Hd; destruct HE as (st & dn & ->); unfold ban_effect; cbn.
      + split_and!; try done. intros _. exists (x1 + shift). split_and!; [done|lia|].
        apply schedule_ok in Hs as [Hs _]. exists (Task (x1 + shift) HBanish a). split; [|done]. rewrite Hs, Z.eqb_refl. apply elem_of_app. right. by left.
      + split_and!; try done. intros i. by rewrite !line_pad. }
  destruct PP as (P1 & P2 & P3). split; [exact P1|]. split.
  { intros a. split; [apply P3|]. intros [r' Hr']. destruct (st_ref s !! a) eqn:E; [done|]. rewrite P2 in Hr'; done. }
  destruct (iterate_inv (fun pre b x1 s1 => quiet s1 = quiet s /\ forall t a, waiting s1 t HBanish a -> waiting s t HBanish a \/ overlooked s a)
    at0 (missing_one shift) s s' x H) as (b & s2 & [_ J] & HC).
  - split; [done|auto].
  - intros pre a item post b x1 s1 s2 s3 x2 item' ch ck b' El [Q J] Hf Hu.
    assert (Ei : st_ref s !! a = Some item). { apply elem_records. rewrite El. apply elem_of_app. right. by left. }
    pose proof (DUE a item s1 Ei Q) as D.
    assert (Q2 : quiet s2 = quiet s /\ forall t a, waiting s2 t HBanish a -> waiting s t HBanish a \/ overlooked s a).
    { pose proof (Rf x1 a item s1) as F. rewrite Hf in F. destruct F as [_ F]. cbn in F. split; [congruence|].
      apply missing_one_ok in Hf as (_ & _ & [(Hd & -> & Hs & _)|(_ & -> & _)]); [|done]. rewrite <- D in Hd.
      apply schedule_ok in Hs as [Hs _]. intros t y (z & Hz & Hq). rewrite Hs in Hz. destruct (t =? _); [|apply J; by exists z].
      apply elem_of_app in Hz as [Hz|Hz]; [apply J; by exists z|]. apply elem_of_list_singleton in Hz as ->. cbn in Hq. destruct Hq as [_ <-]. by right. }
    destruct (ch || ck); [|by destruct Hu as [-> ->]]. destruct Q2 as [Q2 J2].
    pose proof (quiet_update b a ck (fun r => (if ch then item' else r, tt)) s2) as F. rewrite Hu in F. unfold same in F. cbn [fst] in F.
    pose proof (ban_update b a ck (fun r => (if ch then item' else r, tt)) s2) as G. rewrite Hu in G. cbn [fst] in G.
    split; [congruence|]. intros t y W. apply J2. by apply G.
  - intros t a W. apply J. pose proof (ban_commit b s2) as G. rewrite HC in G. by apply G.
Qed.

(** ** 2.4.4 *)
Lemma flat_keys s now : forall x, x ∈ map snd (List.filter (fun e => misplaced now (fst e) (snd e))
    (flat_map (fun k => map (fun t => (k, t)) (default [] (st_sched s !! k))) (keysZ (st_sched s)))) <->
  exists t, x ∈ tasks_at s t /\ misplaced now t x = true.
Proof.
  intros x. rewrite elem_of_list_fmap. setoid_rewrite elem_of_list_In. setoid_rewrite filter_In. setoid_rewrite in_flat_map. split.
  - intros ([k y] & -> & (k' & Hk & Hy) & M). apply in_map_iff in Hy as (z & [= -> ->] & Hz). exists k. split; [|done].
    exact Hz.
  - intros (t & Hx & M). exists (t, x). split; [done|]. split; [|done]. exists t. split.
    + apply elem_of_list_In, elem_of_keysZ. unfold tasks_at in Hx. destruct (st_sched s !! t) eqn:E; [by eexists|]. cbn in Hx. done.
    + apply in_map_iff. by exists x.
Qed.
Lemma filter_length {A} (P : A -> Prop) `{forall x, Decision (P x)} (f : A -> bool) l : (forall x, f x = true <-> P x) ->
  List.length (List.filter f l) = List.length (filter P l).
Proof.
  intros E. induction l as [|x l IH]; [done|]. cbn [List.filter]. rewrite filter_cons. destruct (decide (P x)) as [HP|HP].
  - rewrite (proj2 (E x) HP). cbn. by rewrite IH.
  - destruct (f x) eqn:F; [|done]. by apply E in F.
Qed.
Lemma astray_misplaced s t x : misplaced (st_now s) t x = true <-> astray s t x.
Proof.
  unfold misplaced, astray. rewrite !andb_true_iff, bool_decide_eq_true, negb_true_iff, Z.eqb_neq, Z.ltb_lt.
  split; [intros [[? ?] ?]|intros (? & ? & ?)]; split_and!; congruence.
Qed.
Lemma fix_ok s s' : fix_downgrade_tasks s = (s', Ok tt) -> 0 < shift_interval s ->
  (forall k, 0 < k <= strays s -> tasks_at s (st_now s + k * shift_interval s) = []) ->
  (forall t x, x ∈ tasks_at s t -> misplaced (st_now s) t x = false -> x ∈ tasks_at s' t) /\
  (forall t x, x ∈ tasks_at s t -> misplaced (st_now s) t x = true -> exists t', st_now s < t' /\ x ∈ tasks_at s' t').
Proof.
  intros H HS HE. unfold fix_downgrade_tasks in H.
  apply bind_ok in H as (now & s1 & E & H). apply get_ok in E as [-> ->].
  apply bind_ok in H as (ks & s1 & E & H). apply get_ok in E as [-> ->].
  apply bind_ok in H as (l & s1 & E & H). apply get_ok in E as [-> ->].
  apply bind_ok in H as ([] & s1 & E & H).
  assert (E1 : s1 = s).
  { assert (F : rel eq (mfor (flat_map (fun k => map (fun t => (k, t)) (default [] (st_sched s !! k))) (keysZ (st_sched s)))
      (fun e : time * task => when (bool_decide (t_hook e.2 = HDowngrade)) (check_key (t_time e.2))))).
    { apply rel_mfor; [apply _|]. intros e. unfold when, check_key, assert. destruct (bool_decide _); [destruct (key_ok _)|]; intros s2; reflexivity. }
    specialize (F s). by rewrite E in F. }
  subst s1. clear E. cbv zeta in H.
  pose proof (flat_keys s (st_now s)) as BAD.
  assert (LEN : Z.of_nat (List.length (map snd (List.filter (fun e => misplaced (st_now s) e.1 e.2)
    (flat_map (fun k => map (fun t => (k, t)) (default [] (st_sched s !! k))) (keysZ (st_sched s)))))) = strays s).
  { unfold strays. f_equal. rewrite map_length. apply filter_length. intros [t x]. apply astray_misplaced. }
  revert H BAD LEN. generalize (map snd (List.filter (fun e => misplaced (st_now s) e.1 e.2)
    (flat_map (fun k => map (fun t => (k, t)) (default [] (st_sched s !! k))) (keysZ (st_sched s))))). intros bad H BAD LEN.
  apply bind_ok in H as ([] & s1 & E & H). apply modify_ok in E as E1.
  assert (T1 : forall t x, x ∈ tasks_at s1 t <-> x ∈ tasks_at s t /\ misplaced (st_now s) t x = false).
  { intros t x. subst s1. unfold tasks_at. cbn. rewrite lookup_omap, map_lookup_imap. destruct (st_sched s !! t) as [items|]; cbn; [|split; [intros X; by apply elem_of_nil in X|intros [X _]; by apply elem_of_nil in X]].
    assert (FF : x ∈ List.filter (fun t0 => negb (misplaced (st_now s) t t0)) items <-> x ∈ items /\ misplaced (st_now s) t x = false).
    { by rewrite !elem_of_list_In, filter_In, negb_true_iff. }
    rewrite <- FF. destruct (List.filter _ items); [|done]. destruct (bool_decide (items = [])); cbn; done. }
  assert (D1 : shift_interval s1 = shift_interval s) by (by subst s1). clear E1.
  apply bind_ok in H as (shift & s2 & E1 & H). apply get_ok in E1 as [-> ->]. rewrite D1 in H. set (shift := shift_interval s) in *.
  apply bind_ok in H as (last & s2 & E1 & H). apply ret_ok in H as [-> _]. rename s2 into s'.
  apply (mfold_inv (fun pre at_ s2 => at_ = st_now s + Z.of_nat (List.length pre) * shift /\
    (forall t x, x ∈ tasks_at s t -> misplaced (st_now s) t x = false -> x ∈ tasks_at s2 t) /\
    (forall x, x ∈ pre -> exists k, 0 < k <= Z.of_nat (List.length pre) /\ x ∈ tasks_at s2 (st_now s + k * shift)))) in E1.
  - destruct E1 as (_ & A & B). split; [done|]. intros t x Hx M. destruct (B x) as (k & K1 & K2); [apply BAD; eauto|].
    exists (st_now s + k * shift). split; [nia|done].
  - intros pre x post at_ s2 s3 at2 El (-> & A & B) Hf. apply bind_ok in Hf as ([] & s4 & Ek & Hf).
    assert (s4 = s2) as ->. { unfold check_key, assert in Ek. destruct (key_ok _) in Ek; [by apply ret_ok in Ek as [-> _]|done]. }
    apply bind_ok in Hf as ([] & s4 & Em & Hf). apply ret_ok in Hf as [-> ->]. apply modify_ok in Em as ->.
    assert (LN : Z.of_nat (List.length pre) + 1 <= strays s) by (rewrite <- LEN, El, app_length; cbn; lia).
    set (n := Z.of_nat (List.length pre)) in *.
    assert (L : Z.of_nat (List.length (pre ++ [x])) = n + 1) by (rewrite app_length; cbn; lia).
    split; [lia|]. split.
    + intros t y Hy M. unfold tasks_at. cbn. rewrite lookup_insert_ne; [by apply A|]. intros <-.
      replace (st_now s + n * shift + shift) with (st_now s + (n + 1) * shift) in Hy by lia. rewrite HE in Hy by lia. by apply elem_of_nil in Hy.
    + intros y Hy. rewrite L. apply elem_of_app in Hy as [Hy|Hy].
      * destruct (B y Hy) as (k & K1 & K2). exists k. split; [lia|]. unfold tasks_at. cbn. rewrite lookup_insert_ne; [done|]. nia.
      * apply elem_of_list_singleton in Hy as ->. exists (n + 1). split; [lia|]. unfold tasks_at. cbn.
        replace (st_now s + (n + 1) * shift) with (st_now s + n * shift + shift) by lia. rewrite lookup_insert. by left.
  - split; [cbn; lia|]. split; [intros t x Hx M; by apply T1|]. intros x Hx. by apply elem_of_nil in Hx.
Qed.

(** ** 2.3.2 *)
Definition rhead (r : rinfo) := (r_referrer r, r_banished r).
Definition same_heads (m m' : gmap addr rinfo) : Prop := forall q, rhead <$> m' !! q = rhead <$> m !! q.
Lemma heads_insert m q r r' : m !! q = Some r -> rhead r' = rhead r -> same_heads m (<[ q := r' ]> m).
Proof.
  intros E H x. destruct (decide (x = q)) as [->|N]; [rewrite lookup_insert, E; cbn; by rewrite H|by rewrite lookup_insert_ne].
Qed.
Lemma heads_trans m1 m2 m3 : same_heads m1 m2 -> same_heads m2 m3 -> same_heads m1 m3.
Proof. intros A B q. by rewrite B. Qed.
Lemma shift_head sign i r info info' : shift_lines sign i r info = Some info' -> rhead info' = rhead info.
Proof. unfold shift_lines. destruct (_ && _); [|done]. by intros [= <-]. Qed.
Lemma climb_heads sign f r n : forall i a m m', climb_lines sign f r n i a m = Some m' -> same_heads m m'.
Proof.
  induction n as [|n IH]; intros i a m m' H; cbn [climb_lines] in H; [by injection H as <-|].
  destruct (a =? nobody)%N; [by injection H as <-|]. destruct (m !! a) as [info|] eqn:E; [|done].
  destruct (shift_lines _ _ _ _) as [info'|] eqn:ES; [|done]. apply shift_head in ES.
  apply IH in H. eapply heads_trans; [|exact H]. eapply heads_insert; [exact E|]. rewrite ES. by destruct (i =? 1)%nat.
Qed.
Lemma ofold_inv {A B} (I : list A -> B -> Prop) (f : B -> A -> option B) l : forall b b',
  (forall pre x post b b', l = pre ++ x :: post -> I pre b -> f b x = Some b' -> I (pre ++ [x]) b') ->
  I [] b -> ofold f l b = Some b' -> I l b'.
Proof.
  assert (G : forall r pre b b',
    (forall pre x post b b', l = pre ++ x :: post -> I pre b -> f b x = Some b' -> I (pre ++ [x]) b') ->
    l = pre ++ r -> I pre b -> ofold f r b = Some b' -> I l b').
  { induction r as [|x r IH]; intros pre b b' Hs El HI H; cbn in H.
    - injection H as <-. by rewrite El, app_nil_r.
    - destruct (f b x) as [b1|] eqn:E; [|done]. apply (IH (pre ++ [x]) b1); try done; [by rewrite <- app_assoc|]. eauto. }
  intros b b' Hs. by apply (G l []).
Qed.
(** Whom one may be left under *)
Definition fit (s : St) (q : addr) : Prop := q = nobody \/ exists r, st_ref s !! q = Some r /\ (r_banished r = false \/ r_referrer r = nobody).
Definition tr_inv (s : St) (pre : list (addr * rinfo)) (m : gmap addr rinfo) : Prop :=
  (forall q, r_banished <$> m !! q = r_banished <$> st_ref s !! q) /\
  (forall q r, st_ref s !! q = Some r -> (r_banished r = true \/ (q, r) ∉ pre) -> r_referrer <$> m !! q = Some (r_referrer r)) /\
  (forall q r, (q, r) ∈ pre -> r_banished r = false -> exists r', m !! q = Some r' /\ fit s (r_referrer r')).
Lemma tr_heads s pre m m' : tr_inv s pre m -> same_heads m m' -> tr_inv s pre m'.
Proof.
  intros (A & B & C) H. split_and!.
  - intros q. rewrite <- A. specialize (H q). destruct (m' !! q), (m !! q); cbn in *; unfold rhead in H; congruence.
  - intros q r E1 E2. rewrite <- (B q r E1 E2). specialize (H q). destruct (m' !! q), (m !! q); cbn in *; unfold rhead in H; congruence.
  - intros q r E1 E2. destruct (C q r E1 E2) as (r' & R1 & R2). specialize (H q). rewrite R1 in H. destruct (m' !! q) as [r2|]; [|done].
    exists r2. split; [done|]. cbn in H. injection H as H _. by rewrite H.
Qed.
Lemma transfer_parent_fit s pre m n : tr_inv s pre m -> forall pi q, transfer_parent s m n pi = Some q -> fit s q.
Proof.
  intros (A & B & C). induction n as [|n IH]; intros pi q H; cbn [transfer_parent] in H; [done|].
  destruct (N.eqb_spec (r_referrer pi) nobody) as [E|E]; [injection H as <-; by left|].
  destruct (m !! r_referrer pi) as [pi'|] eqn:Em; [|done]. destruct (registration_closed s pi') eqn:RC; [by eapply IH|].
  injection H as <-. right. specialize (A (r_referrer pi)). rewrite Em in A. cbn in A.
  destruct (st_ref s !! r_referrer pi) as [r0|] eqn:E0; [|done]. cbn in A. injection A as A. exists r0. split; [done|].
  destruct (r_banished r0) eqn:Eb; [right|by left].
  pose proof (B _ _ E0 (or_introl Eb)) as X. rewrite Em in X. injection X as X. rewrite <- X.
  unfold registration_closed in RC. rewrite A in RC. rewrite andb_true_r in RC. apply negb_false_iff in RC. by apply N.eqb_eq in RC.
Qed.
Lemma transfer_step s pre a r post m m' : records s = pre ++ (a, r) :: post -> tr_inv s pre m ->
  transfer_one s m (a, r) = Some m' -> tr_inv s (pre ++ [(a, r)]) m'.
Proof.
  intros El J H.
  assert (Ea : st_ref s !! a = Some r). { apply elem_records. rewrite El. apply elem_of_app. right. by left. }
  assert (Na : (a, r) ∉ pre).
  { intros X. pose proof (records_NoDup s) as N. rewrite El, map_app in N. apply NoDup_app in N as (_ & N & _).
    apply (N a); [|by left]. apply elem_of_list_fmap. by exists (a, r). }
  assert (EX : forall m1, tr_inv s pre m1 -> (r_banished r = false -> exists r', m1 !! a = Some r' /\ fit s (r_referrer r')) -> tr_inv s (pre ++ [(a, r)]) m1).
  { intros m1 (A & B & C) D. split_and!; [done| |].
    - intros q r0 E1 [E2|E2]; apply B; try done; [by left|right]. intros X. apply E2, elem_of_app. by left.
    - intros q r0 X Eb. apply elem_of_app in X as [X|X]; [by eapply C|]. apply elem_of_list_singleton in X as [= -> ->]. by apply D. }
  unfold transfer_one in H. pose proof J as (A & B & C).
  destruct (r_banished r) eqn:Eb; cbn [orb] in H. { injection H as <-. by apply EX. }
  pose proof (B a r Ea (or_intror Na)) as Ra.
  assert (MA : forall q, fit s q -> r_referrer r = q -> exists r', m !! a = Some r' /\ fit s (r_referrer r')).
  { intros q F Eq. destruct (m !! a) as [r'|]; [|done]. exists r'. split; [done|]. injection Ra as Ra. by rewrite Ra, Eq. }
  destruct (N.eqb_spec (r_referrer r) nobody) as [En|En]. { injection H as <-. apply EX; [done|]. intros _. eapply MA; [|done]. left. done. }
  destruct (m !! r_referrer r) as [pi|] eqn:Ep; [|done].
  destruct (r_banished pi) eqn:Epb; cbn [negb] in H.
  2: { injection H as <-. apply EX; [done|]. intros _. eapply MA; [|done]. right. specialize (A (r_referrer r)). rewrite Ep in A. cbn in A.
       destruct (st_ref s !! r_referrer r) as [r0|]; [|done]. cbn in A. injection A as A. exists r0. split; [done|]. left. congruence. }
  destruct (transfer_parent s m (Datatypes.S (size m)) pi) as [q|] eqn:ET; [|done]. pose proof (transfer_parent_fit _ _ _ _ J _ _ ET) as F.
  assert (W : exists m1, same_heads m m1 /\ m' = <[ a := r <| r_referrer := q |> ]> m1).
  { destruct (lines_zero r) as [[]|] eqn:LZ; [| |done].
    - set (m2 := <[ r_referrer r := _ ]> m) in H.
      assert (H2 : same_heads m m2) by (by eapply heads_insert).
      clearbody m2. destruct (m2 !! q) as [info|] eqn:Eq; [|done]. injection H as <-. eexists. split; [|done].
      eapply heads_trans; [exact H2|]. by eapply heads_insert.
    - destruct (climb_lines (-1) _ r 10 1 (r_referrer r) m) as [m2|] eqn:E2; [|done].
      destruct (climb_lines 1 _ r 10 1 q m2) as [m3|] eqn:E3; [|done]. injection H as <-. exists m3. split; [|done].
      apply climb_heads in E2, E3. by eapply heads_trans. }
  destruct W as (m1 & HH & ->). pose proof (tr_heads _ _ _ _ J HH) as (A1 & B1 & C1).
  split_and!.
  - intros y. destruct (decide (y = a)) as [->|]; [|by rewrite lookup_insert_ne]. rewrite lookup_insert, Ea. cbn. done.
  - intros y r0 E1 E2. destruct (decide (y = a)) as [->|].
    + rewrite Ea in E1. injection E1 as <-. destruct E2 as [E2|E2]; [congruence|]. exfalso. apply E2, elem_of_app. right. by left.
    + rewrite lookup_insert_ne by done. apply B1; [done|]. destruct E2 as [E2|E2]; [by left|right]. intros X. apply E2, elem_of_app. by left.
  - intros y r0 X Y. destruct (decide (y = a)) as [->|N].
    + rewrite lookup_insert. eexists. split; [done|]. done.
    + rewrite lookup_insert_ne by done. apply elem_of_app in X as [X|X]; [by eapply C1|]. apply elem_of_list_singleton in X as [= -> ->]. done.
Qed.
Lemma transfer_ok s s' : transfer_from_banished s = (s', Ok tt) ->
  s' = s \/ ((forall a, is_Some (st_ref s' !! a) <-> is_Some (st_ref s !! a)) /\ (forall a, banished s' a = banished s a) /\
    (forall a, member s' a -> referrer s' a = nobody \/ registered s' (referrer s' a) /\
        (banished s' (referrer s' a) = false \/ referrer s' (referrer s' a) = nobody)) /\
    (forall a, banished s a = true -> referrer s' a = referrer s a)).
Proof.
  unfold transfer_from_banished. intros H. apply modify_ok in H. fold (records s) in H.
  destruct (ofold (transfer_one s) (records s) (st_ref s)) as [m|] eqn:E; [|by left]. right.
  assert (Es : st_ref s' = m) by (by subst s').
  clear H. apply (ofold_inv (tr_inv s)) in E.
  - destruct E as (A & B & C).
    assert (Eb : forall a, banished s' a = banished s a).
    { intros a. unfold banished, ref_get. rewrite Es. specialize (A a). destruct (m !! a), (st_ref s !! a); cbn in *; congruence. }
    assert (Er : forall a, banished s a = true -> referrer s' a = referrer s a).
    { intros a. unfold banished, referrer, ref_get. rewrite Es. destruct (st_ref s !! a) as [r|] eqn:Ea; [|done]. cbn. intros X.
      pose proof (B a r Ea (or_introl X)) as Y. destruct (m !! a); cbn in *; congruence. }
    assert (RG : forall a, is_Some (st_ref s' !! a) <-> is_Some (st_ref s !! a)).
    { intros a. rewrite Es. specialize (A a). destruct (m !! a), (st_ref s !! a); cbn in A; try discriminate; (split; intros [? ?]; [eauto; done|eauto; done]). }
    split_and!; try done.
    intros a [[r' Hr'] Hb]. rewrite Eb in Hb. assert (RA : is_Some (st_ref s !! a)) by (apply RG; eauto). destruct RA as [r Hr].
    destruct (C a r) as (r2 & R1 & R2); [by apply elem_records|unfold banished, ref_get in Hb; by rewrite Hr in Hb|].
    assert (referrer s' a = r_referrer r2) as -> by (unfold referrer, ref_get; by rewrite Es, R1).
    destruct R2 as [R2|(r0 & Q1 & Q2)]; [by left|right]. split; [apply RG; eauto|].
    rewrite Eb. destruct (banished s (r_referrer r2)) eqn:Bq; [right|by left].
    rewrite Er by done. unfold banished, referrer, ref_get in *. rewrite Q1 in *. cbn in *. destruct Q2; congruence.
  - intros pre [a r] post m1 m2 El J Hf. by eapply transfer_step.
  - split_and!; [done| |].
    + intros q r Hq _. by rewrite Hq.
    + intros q r Hq. by apply elem_of_nil in Hq.
Qed.

(** Coming back: the lists of referrals only grow *)
Definition rcore (r : rinfo) := (r_referrer r, r_banished r, r_compression_at r, r_banishment_at r, r_active r, r_status r).
Definition grown (m m' : gmap addr rinfo) : Prop := forall q r, m !! q = Some r ->
  exists r', m' !! q = Some r' /\ rcore r' = rcore r /\ r_referrals r ⊆ r_referrals r'.
Lemma grown_refl m : grown m m.
Proof. intros q r E. by exists r. Qed.
Lemma grown_trans m1 m2 m3 : grown m1 m2 -> grown m2 m3 -> grown m1 m3.
Proof. intros A B q r E. destruct (A q r E) as (r1 & E1 & C1 & S1). destruct (B q r1 E1) as (r2 & E2 & C2 & S2). exists r2. split_and!; [done|congruence|by transitivity (r_referrals r1)]. Qed.
Lemma grown_insert m q r r' : m !! q = Some r -> rcore r' = rcore r -> r_referrals r ⊆ r_referrals r' -> grown m (<[ q := r' ]> m).
Proof.
  intros E H S x y Ex. destruct (decide (x = q)) as [->|N]; [|rewrite lookup_insert_ne by done; by exists y].
  rewrite lookup_insert. exists r'. rewrite E in Ex. by injection Ex as <-.
Qed.
Lemma shift_core sign i r info info' : shift_lines sign i r info = Some info' -> rcore info' = rcore info /\ r_referrals info' = r_referrals info.
Proof. unfold shift_lines. destruct (_ && _); [|done]. by intros [= <-]. Qed.
Lemma climb_grown sign z r n : forall i a m m', climb_lines sign (fun l => l ++ [z]) r n i a m = Some m' -> grown m m'.
Proof.
  induction n as [|n IH]; intros i a m m' H; cbn [climb_lines] in H; [injection H as <-; apply grown_refl|].
  destruct (a =? nobody)%N; [injection H as <-; apply grown_refl|]. destruct (m !! a) as [info|] eqn:E; [|done].
  destruct (shift_lines _ _ _ _) as [info'|] eqn:ES; [|done]. apply shift_core in ES as [ES1 ES2].
  apply IH in H. eapply grown_trans; [|exact H]. eapply grown_insert; [exact E| |].
  - rewrite ES1. by destruct (i =? 1)%nat.
  - rewrite ES2. destruct (i =? 1)%nat; [|done]. cbn. set_solver.
Qed.
Lemma climb_listed sign z r n a m m' : a <> nobody -> climb_lines sign (fun l => l ++ [z]) r (Datatypes.S n) 1 a m = Some m' ->
  exists r', m' !! a = Some r' /\ z ∈ r_referrals r'.
Proof.
  intros Ha H. cbn [climb_lines] in H. destruct (N.eqb_spec a nobody); [done|]. destruct (m !! a) as [info|] eqn:E; [|done].
  destruct (shift_lines _ _ _ _) as [info'|] eqn:ES; [|done]. apply shift_core in ES as [_ ES].
  apply climb_grown in H. destruct (H a info') as (r' & R1 & _ & R2); [by rewrite lookup_insert|].
  exists r'. split; [done|]. apply R2. rewrite ES. cbn. apply elem_of_app. right. by left.
Qed.
(** Banished with a delegation above the dust *)
Definition rich (s : St) (a : addr) (r : rinfo) : bool := r_banished r && (bp_dust (st_bp s) <? bal s a uartrd).
Definition un_inv (s : St) (pre : list addr) (m : gmap addr rinfo) : Prop :=
  (forall q, is_Some (m !! q) <-> is_Some (st_ref s !! q)) /\
  forall q r r', st_ref s !! q = Some r -> m !! q = Some r' ->
    (q ∉ pre -> rcore r' = rcore r) /\
    (r_banished r = false -> rcore r' = rcore r) /\
    (rich s q r = false -> r_banished r' = r_banished r /\ r_referrer r' = r_referrer r) /\
    (r_referrer r = nobody -> r_referrer r' = nobody) /\
    (q ∈ pre -> rich s q r = true ->
       r_banished r' = false /\ r_status r' = 1 /\ r_banishment_at r' = None /\ r_compression_at r' = None /\ r_active r' = r_active r /\
       forall p, st_ref s !! r_referrer r = Some p -> registration_closed s p = false -> r_referrer r <> nobody ->
         r_referrer r' = r_referrer r /\ exists p', m !! r_referrer r = Some p' /\ q ∈ r_referrals p').
Lemma un_grown s pre m m' : un_inv s pre m -> grown m m' -> (forall q, is_Some (m' !! q) -> is_Some (m !! q)) -> un_inv s pre m'.
Proof.
  intros [A B] G GN. split.
  - intros q. rewrite <- A. split; [apply GN|]. intros [r E]. destruct (G q r E) as (r' & E' & _). eauto.
  - intros q r r2 Hr Hr2. destruct (GN q) as [r1 Hr1]; [eauto|]. destruct (G q r1 Hr1) as (r2' & E2 & C & S). rewrite Hr2 in E2. injection E2 as <-.
    destruct (B q r r1 Hr Hr1) as (B1 & B2 & B3 & B4 & B5).
    assert (C' : r_referrer r2 = r_referrer r1 /\ r_banished r2 = r_banished r1 /\ r_compression_at r2 = r_compression_at r1 /\ r_banishment_at r2 = r_banishment_at r1 /\ r_active r2 = r_active r1 /\ r_status r2 = r_status r1).
    { unfold rcore in C. by injection C as -> -> -> -> -> ->. }
    destruct C' as (C1 & C2 & C3 & C4 & C5 & C6). rewrite C, C1, C2, C3, C4, C5, C6. split_and!; try done.
    intros Hq Hrich. destruct (B5 Hq Hrich) as (X1 & X2 & X3 & X4 & X5 & X6). split_and!; try done.
    intros p P1 P2 P3. destruct (X6 p P1 P2 P3) as (Y1 & p' & Y2 & Y3). split; [done|].
    destruct (G _ _ Y2) as (p2 & Z1 & _ & Z2). exists p2. split; [done|]. by apply Z2.
Qed.
Lemma grown_dom_insert (m : gmap addr rinfo) (q : addr) (r r' : rinfo) : m !! q = Some r -> forall x, is_Some (<[ q := r' ]> m !! x) -> is_Some (m !! x).
Proof. intros E x. destruct (decide (x = q)) as [->|N]; [rewrite E; eauto|by rewrite lookup_insert_ne]. Qed.
Lemma climb_dom sign f r n : forall i a m m', climb_lines sign f r n i a m = Some m' -> forall x, is_Some (m' !! x) -> is_Some (m !! x).
Proof.
  intros i a m m' H x Hx. apply climb_heads in H. specialize (H x). destruct Hx as [y Hy]. rewrite Hy in H. destruct (m !! x); [eauto|done].
Qed.
Lemma unbanish_step s pre a post m m' : keysN (st_ref s) = pre ++ a :: post -> un_inv s pre m ->
  unbanish_one s m a = Some m' -> un_inv s (pre ++ [a]) m'.
Proof.
  intros El J H.
  assert (Ra : is_Some (st_ref s !! a)). { apply elem_of_keysN. rewrite El. apply elem_of_app. right. by left. }
  destruct Ra as [r Hr].
  assert (Na : a ∉ pre). { intros X. pose proof (NoDup_keysN (st_ref s)) as N. rewrite El in N. apply NoDup_app in N as (_ & N & _). apply (N a X). by left. }
  pose proof J as [A B]. unfold unbanish_one in H. destruct (m !! a) as [r1|] eqn:E1; [|done].
  destruct (B a r r1 Hr E1) as (B1 & B2 & B3 & B4 & _). specialize (B1 Na).
  assert (C1 : r_referrer r1 = r_referrer r /\ r_banished r1 = r_banished r /\ r_compression_at r1 = r_compression_at r /\ r_banishment_at r1 = r_banishment_at r /\ r_active r1 = r_active r /\ r_status r1 = r_status r).
  { unfold rcore in B1. by injection B1 as -> -> -> -> -> ->. }
  destruct C1 as (C1 & C2 & C3 & C4 & C5 & C6). rewrite C2 in H.
  assert (EX : forall m1, un_inv s pre m1 -> rich s a r = false -> un_inv s (pre ++ [a]) m1).
  { intros m1 [A' B'] HR. split; [done|]. intros q r0 r0' Q1 Q2. destruct (B' q r0 r0' Q1 Q2) as (X1 & X2 & X3 & X4 & X5). split_and!; try done.
    - intros Hq. apply X1. intros Y. apply Hq, elem_of_app. by left.
    - intros Hq Hrich. apply elem_of_app in Hq as [Hq|Hq]; [by apply X5|]. apply elem_of_list_singleton in Hq as ->. congruence. }
  destruct (r_banished r) eqn:Eb; cbn [negb] in H.
  2: { injection H as <-. apply EX; [done|]. unfold rich. by rewrite Eb. }
  destruct (Frac.to_int64 _) as [d|] eqn:Ed; [|done].
  assert (d = bal s a uartrd) as ->. { unfold Frac.to_int64 in Ed. destruct (Frac.is_int64 _) in Ed; [by injection Ed as <-|done]. }
  clear Ed. destruct (bp_dust (st_bp s) <? bal s a uartrd) eqn:ER.
  - assert (HR : rich s a r = true) by (unfold rich; by rewrite Eb, ER).
    destruct (unbanish_parent s m r1) as [parent|] eqn:EP; [|done].
    set (r2 := r1 <| r_referrer := parent |> <| r_banished := false |> <| r_banishment_at := None |> <| r_compression_at := None |> <| r_status := 1 |>) in H.
    cbv zeta in H. set (m1 := <[ a := r2 ]> m) in H.
    (* who the parent is *)
    assert (PN : r_referrer r = nobody -> parent = nobody).
    { intros X. unfold unbanish_parent in EP. rewrite C1, X in EP. cbn in EP. by injection EP as <-. }
    assert (PO : forall p, st_ref s !! r_referrer r = Some p -> registration_closed s p = false -> r_referrer r <> nobody -> parent = r_referrer r).
    { intros p P1 P2 P3. unfold unbanish_parent in EP. rewrite C1 in EP. destruct (N.eqb_spec (r_referrer r) nobody) as [|_]; [done|].
      destruct (m !! r_referrer r) as [pi|] eqn:Epi; [|done]. injection EP as <-.
      destruct (B _ _ _ P1 Epi) as (Y1 & Y2 & Y3 & Y4 & _).
      assert (RC : registration_closed s pi = false); [|by rewrite RC].
      unfold registration_closed in P2 |- *. destruct (N.eqb_spec (r_referrer p) nobody) as [Z|Z]; cbn in P2.
      + rewrite (Y4 Z). done.
      + apply orb_false_iff in P2 as [P2 P4]. specialize (Y2 P2). unfold rcore in Y2. injection Y2 as -> -> -> _ -> _. rewrite P2, P4. by rewrite andb_false_r. }
    (* what happens after the record of [a] is changed *)
    assert (AFTER : grown m1 m' /\ (forall q, is_Some (m' !! q) -> is_Some (m1 !! q)) /\ (parent <> nobody -> exists p', m' !! parent = Some p' /\ a ∈ r_referrals p')).
    { destruct (lines_zero r2) as [[]|]; [| |done].
      - destruct (m1 !! parent) as [info|] eqn:Ei; [|done]. injection H as <-. split_and!.
        + eapply grown_insert; [exact Ei|done|]. cbn. set_solver.
        + by eapply grown_dom_insert.
        + intros _. rewrite lookup_insert. eexists. split; [done|]. cbn. apply elem_of_app. right. by left.
      - split_and!; [by eapply climb_grown|by eapply climb_dom|]. intros P. by eapply climb_listed. }
    clear H. destruct AFTER as (G & GD & GL).
    (* the record itself *)
    assert (Ga : exists r3, m' !! a = Some r3 /\ rcore r3 = rcore r2).
    { destruct (G a r2) as (r3 & X1 & X2 & _); [unfold m1; by rewrite lookup_insert|]. eauto. }
    destruct Ga as (r3 & G1 & G2). unfold rcore, r2 in G2. cbn in G2. injection G2 as D1 D2 D3 D4 D5 D6.
    split.
    + intros q. rewrite <- A. split.
      * intros X. apply GD in X. revert X. unfold m1. by eapply grown_dom_insert.
      * intros [y Hy]. destruct (decide (q = a)) as [->|N]; [eauto|]. destruct (G q y) as (z & Z & _); [unfold m1; by rewrite lookup_insert_ne|]. eauto.
    + intros q r0 r0' Q1 Q2. destruct (decide (q = a)) as [->|N].
      * rewrite Hr in Q1. injection Q1 as <-. rewrite G1 in Q2. injection Q2 as <-. split_and!.
        -- intros X. exfalso. apply X, elem_of_app. right. by left.
        -- congruence.
        -- congruence.
        -- intros X. rewrite D1. by apply PN.
        -- intros _ _. split_and!; try done; [congruence|]. intros p P1 P2 P3. rewrite D1. rewrite (PO p) by done. split; [done|].
           rewrite <- (PO p P1 P2 P3). apply GL. by rewrite (PO p P1 P2 P3).
      * assert (Mq : is_Some (m !! q)) by (apply A; eauto). destruct Mq as [r4 Hr4].
        destruct (G q r4) as (r4' & X1 & X2 & X3); [unfold m1; by rewrite lookup_insert_ne|]. rewrite Q2 in X1. injection X1 as <-.
        destruct (B q r0 r4 Q1 Hr4) as (Y1 & Y2 & Y3 & Y4 & Y5).
        pose proof X2 as X2'. unfold rcore in X2'. injection X2' as T1 T2 T3 T4 T5 T6. rewrite X2, T1, T2, T3, T4, T5, T6. split_and!; try done.
        -- intros Hq. apply Y1. intros Y. apply Hq, elem_of_app. by left.
        -- intros Hq Hrich. apply elem_of_app in Hq as [Hq|Hq]; [|by apply elem_of_list_singleton in Hq].
           destruct (Y5 Hq Hrich) as (Z1 & Z2 & Z3 & Z4 & Z5 & Z6). split_and!; try done. intros p P1 P2 P3.
           destruct (Z6 p P1 P2 P3) as (W1 & p' & W2 & W3). split; [done|].
           destruct (decide (r_referrer r0 = a)) as [Eqa|Nqa].
           ++ rewrite Eqa in *. rewrite E1 in W2. injection W2 as <-. destruct (G a r2) as (r5 & V1 & _ & V3); [unfold m1; by rewrite lookup_insert|].
              exists r5. split; [done|]. apply V3. exact W3.
           ++ destruct (G (r_referrer r0) p') as (r5 & V1 & _ & V3); [unfold m1; by rewrite lookup_insert_ne|]. exists r5. split; [done|]. by apply V3.
  - assert (HR : rich s a r = false) by (unfold rich; by rewrite Eb, ER).
    rewrite C3 in H. destruct (r_compression_at r) as [c|] eqn:EC; [|injection H as <-; by apply EX].
    injection H as <-. split.
    + intros q. rewrite <- A. destruct (decide (q = a)) as [->|N]; [rewrite lookup_insert, E1; split; eauto|by rewrite lookup_insert_ne].
    + intros q r0 r0' Q1 Q2. destruct (decide (q = a)) as [->|N].
      * rewrite Hr in Q1. injection Q1 as <-. rewrite lookup_insert in Q2. injection Q2 as <-. cbn. split_and!.
        -- intros X. exfalso. apply X, elem_of_app. right. by left.
        -- congruence.
        -- intros _. split; congruence.
        -- congruence.
        -- congruence.
      * rewrite lookup_insert_ne in Q2 by done. destruct (B q r0 r0' Q1 Q2) as (Y1 & Y2 & Y3 & Y4 & Y5). split_and!; try done.
        -- intros Hq. apply Y1. intros Y. apply Hq, elem_of_app. by left.
        -- intros Hq Hrich. apply elem_of_app in Hq as [Hq|Hq]; [|by apply elem_of_list_singleton in Hq].
           destruct (Y5 Hq Hrich) as (Z1 & Z2 & Z3 & Z4 & Z5 & Z6). split_and!; try done. intros p P1 P2 P3.
           destruct (Z6 p P1 P2 P3) as (W1 & p' & W2 & W3). split; [done|].
           destruct (decide (r_referrer r0 = a)) as [Eqa|Nqa].
           ++ rewrite Eqa in *. rewrite E1 in W2. injection W2 as <-. rewrite lookup_insert. eexists. split; [done|]. exact W3.
           ++ rewrite lookup_insert_ne by done. eauto.
Qed.
Lemma unbanish_ok s s' : unbanish_delegated s = (s', Ok tt) -> s' = s \/
  ((st_bal s', st_bp s', st_now s', st_day s') = (st_bal s, st_bp s, st_now s, st_day s) /\ un_inv s (keysN (st_ref s)) (st_ref s')).
Proof.
  unfold unbanish_delegated. intros H. apply modify_ok in H.
  destruct (ofold (unbanish_one s) (keysN (st_ref s)) (st_ref s)) as [m|] eqn:E; [|by left]. right.
  subst s'. cbn. split; [done|]. apply (ofold_inv (un_inv s)) in E; [done| |].
  - intros pre a post m1 m2 El J Hf. by eapply unbanish_step.
  - split; [done|]. intros q r r' Q1 Q2. rewrite Q1 in Q2. injection Q2 as <-. split_and!; try done. intros X. by apply elem_of_nil in X.
Qed.

(** ** 2.5.8 *)
Lemma months_spec n : forall month limit t l, 0 < month -> months_down n month limit t = Some l ->
  forall x, x ∈ l <-> limit < x /\ exists k, 0 <= k /\ x = t - k * month.
Proof.
  induction n as [|n IH]; intros month limit t l Hm H x; cbn [months_down] in H; destruct (Z.ltb_spec limit t) as [Hl|Hl]; try done.
  - injection H as <-. rewrite elem_of_nil. split; [done|]. intros (? & k & ? & ->). nia.
  - destruct (months_down n month limit (t - month)) as [l'|] eqn:E; [|done]. injection H as <-. pose proof (IH _ _ _ _ Hm E x) as I.
    rewrite elem_of_cons, I. split.
    + intros [->|(X & k & Hk & ->)]; [split; [done|]; exists 0; lia|]. split; [done|]. exists (k + 1). lia.
    + intros (X & k & Hk & ->). destruct (decide (k = 0)) as [->|]; [left; lia|right]. split; [done|]. exists (k - 1). lia.
  - injection H as <-. rewrite elem_of_nil. split; [done|]. intros (? & k & ? & ->). nia.
Qed.
Lemma schedule_all h a ts : forall s s', mfor ts (fun t => schedule_task t h a) s = (s', Ok tt) ->
  tasks_kept s s' /\ (forall t, t ∈ ts -> Task t h a ∈ tasks_at s' t) /\
  (forall t x, x ∈ tasks_at s' t -> x ∈ tasks_at s t \/ (t ∈ ts /\ x = Task t h a)) /\ st_ref s' = st_ref s /\ st_prof s' = st_prof s.
Proof.
  induction ts as [|t ts IH]; intros s s' H; cbn in H.
  { apply ret_ok in H as [-> _]. split_and!; try done; [intros t Ht; by apply elem_of_nil in Ht|auto]. }
  apply bind_ok in H as ([] & s1 & H1 & H). pose proof (schedule_kept t h a s) as K. rewrite H1 in K. cbn in K.
  assert (P : st_prof s1 = st_prof s). { unfold schedule_task, schedule_task', check_key in H1. minv. done. }
  apply schedule_ok in H1 as [H1 F]. destruct (IH s1 s' H) as (A & B & C & D1 & D2). split_and!.
  - by transitivity s1.
  - intros t' [->|Ht]%elem_of_cons; [|by apply B]. apply A. rewrite H1, Z.eqb_refl. apply elem_of_app. right. by left.
  - intros t' x Hx. apply C in Hx as [Hx|[Hx ->]]; [|right; split; [by right|done]]. rewrite H1 in Hx. destruct (Z.eqb_spec t' t) as [->|]; [|by left].
    apply elem_of_app in Hx as [Hx|Hx]; [by left|]. apply elem_of_list_singleton in Hx as ->. right. split; [by left|done].
  - unfold fixed in F. congruence.
  - congruence.
Qed.
Lemma add_refresh_ok s s' : add_missing_refresh s = (s', Ok tt) -> 0 < one_month s ->
  tasks_kept s s' /\ st_ref s' = st_ref s /\ st_prof s' = st_prof s /\
  (forall a p u k, st_prof s !! a = Some p -> p_until p = Some u -> 0 <= k -> st_now s + one_month s < u - k * one_month s ->
     Task (u - k * one_month s) HRefresh a ∈ tasks_at s' (u - k * one_month s)) /\
  (forall t x, x ∈ tasks_at s' t -> x ∈ tasks_at s t \/
     exists a p u k, st_prof s !! a = Some p /\ p_until p = Some u /\ 0 <= k /\ st_now s + one_month s < t /\ t = u - k * one_month s /\ x = Task t HRefresh a).
Proof.
  intros H HM. unfold add_missing_refresh in H.
  apply bind_ok in H as (mo & s1 & E & H). apply get_ok in E as [-> ->].
  apply bind_ok in H as (li & s1 & E & H). apply get_ok in E as [-> ->].
  apply bind_ok in H as (l & s1 & E & H). apply get_ok in E as [-> ->].
  set (month := one_month s) in *. set (limit := st_now s + month) in *.
  assert (EL : forall a p, (a, p) ∈ map (fun a => (a, default p_zero (st_prof s !! a))) (keysN (st_prof s)) <-> st_prof s !! a = Some p).
  { intros a p. rewrite elem_of_list_fmap. setoid_rewrite elem_of_keysN. split.
    - intros (y & [= -> ->] & [r0 E]). by rewrite E.
    - intros E. exists a. rewrite E. split; [done|by eexists]. }
  revert H EL. generalize (map (fun a => (a, default p_zero (st_prof s !! a))) (keysN (st_prof s))). intros l H EL.
  apply (mfor_pre (fun pre s1 => tasks_kept s s1 /\ st_ref s1 = st_ref s /\ st_prof s1 = st_prof s /\
    (forall a p u k, (a, p) ∈ pre -> p_until p = Some u -> 0 <= k -> limit < u - k * month -> Task (u - k * month) HRefresh a ∈ tasks_at s1 (u - k * month)) /\
    (forall t x, x ∈ tasks_at s1 t -> x ∈ tasks_at s t \/
     exists a p u k, (a, p) ∈ l /\ p_until p = Some u /\ 0 <= k /\ limit < t /\ t = u - k * month /\ x = Task t HRefresh a))) in H.
  - destruct H as (A & B & C & D & E). split_and!; try done.
    + intros a p u k Hp. apply D. by apply EL.
    + intros t x Hx. apply E in Hx as [Hx|(a & p & u & k & X & Y)]; [by left|right]. exists a, p, u, k. by rewrite <- EL.
  - intros pre [a p] post s1 s2 El (A & B & C & D & E) Hf. destruct (p_until p) as [u|] eqn:Eu.
    + apply bind_ok in Hf as (ts & s3 & Em & Hf). apply lift_ok in Em as [-> Em]. pose proof (months_spec _ _ _ _ _ HM Em) as MS.
      apply schedule_all in Hf as (F1 & F2 & F3 & F4 & F5). split_and!; [by transitivity s1|congruence|congruence| |].
      * intros a' p' u' k Hp Hu Hk HL. apply elem_of_app in Hp as [Hp|Hp]; [apply F1; by eapply D|].
        apply elem_of_list_singleton in Hp as [= -> ->]. rewrite Eu in Hu. injection Hu as <-. apply F2, MS. split; [done|]. by exists k.
      * intros t x Hx. apply F3 in Hx as [Hx|[Ht ->]]; [by apply E|right]. apply MS in Ht as (HL & k & Hk & ->).
        exists a, p, u, k. split_and!; try done. rewrite El. apply elem_of_app. right. by left.
    + apply ret_ok in Hf as [-> _]. split_and!; try done. intros a' p' u' k Hp Hu. apply elem_of_app in Hp as [Hp|Hp]; [by eapply D|].
      apply elem_of_list_singleton in Hp as [= -> ->]. congruence.
  - split_and!; try done; [|by left]. intros a p u k X. by apply elem_of_nil in X.
Qed.
Lemma tops_prof tops : forall (m : gmap addr profile) a, foldl (fun m a => <[ a := default p_zero (m !! a) <| p_until := None |> ]> m) m tops !! a =
  if bool_decide (a ∈ tops) then Some (default p_zero (m !! a) <| p_until := None |>) else m !! a.
Proof.
  induction tops as [|b tops IH]; intros m a; cbn [foldl]; [done|]. rewrite IH.
  destruct (decide (a = b)) as [->|N].
  - rewrite lookup_insert. rewrite (bool_decide_eq_true_2 (b ∈ b :: tops)) by (by left). destruct (bool_decide (b ∈ tops)); [|done]. cbn. by destruct (default p_zero (m !! b)).
  - rewrite lookup_insert_ne by done. assert (X : bool_decide (a ∈ b :: tops) = bool_decide (a ∈ tops)); [|by rewrite X].
    apply bool_decide_ext. set_solver.
Qed.
Lemma deactivate_ok s s' : deactivate_top s = (s', Ok tt) ->
  (forall a, ref_get s' a = if bool_decide (registered s a) && (referrer s a =? nobody)%N then ref_get s a <| r_active := false |> else ref_get s a) /\
  (forall a, is_Some (st_ref s' !! a) <-> is_Some (st_ref s !! a)) /\
  (forall a, st_prof s' !! a = if bool_decide (registered s a) && (referrer s a =? nobody)%N then Some (default p_zero (st_prof s !! a) <| p_until := None |>) else st_prof s !! a) /\
  (st_now s', st_day s', st_sched s') = (st_now s, st_day s, st_sched s).
Proof.
  unfold deactivate_top. intros H. apply modify_ok in H as ->. split_and!; cbn.
  - intros a. unfold ref_get, referrer, registered. cbn. rewrite lookup_fmap. unfold ref_get. destruct (st_ref s !! a) as [r|] eqn:E; cbn.
    + by destruct (r_referrer r =? nobody)%N.
    + done.
  - intros a. rewrite lookup_fmap, fmap_is_Some. done.
  - intros a. rewrite tops_prof.
    assert (X : bool_decide (a ∈ List.filter (fun a0 => (r_referrer (ref_get s a0) =? nobody)%N) (keysN (st_ref s))) = bool_decide (registered s a) && (referrer s a =? nobody)%N); [|by rewrite X].
    apply eq_true_iff_eq. rewrite bool_decide_eq_true, andb_true_iff, bool_decide_eq_true, elem_of_list_In, filter_In, <- elem_of_list_In, elem_of_keysN. done.
  - done.
Qed.
