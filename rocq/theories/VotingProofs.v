(** * Proofs about proposals and votes *)
From Verif Require Export StaffProofs ScheduleProofs Blocks.
Open Scope Z_scope.

(** ** What voting looks at *)
Definition vview (s : St) :=
  (rules s, st_val s, st_cur s, st_agreed s, st_disagreed s, st_sched s, st_now s, (st_start s, st_phist s, st_height s)).
Definition live (s : St) : Prop := forall p, st_cur s = Some p -> st_now s < pr_end p.
Definition vrel (s s' : St) : Prop :=
  voting_ok s -> voting_ok s' /\ vsteps s s' /\ (live s -> live s').
#[export] Instance vrel_preorder : PreOrder vrel.
Proof.
  split; [intros s H; split_and!; [done|apply rtc_refl|done]|].
  intros s1 s2 s3 H1 H2 H. destruct (H1 H) as (A1 & A2 & A3). destruct (H2 A1) as (B1 & B2 & B3).
  split_and!; [done|by eapply rtc_transitive|auto].
Qed.
Lemma same_rules_refl s : same_rules s s.
Proof. by split. Qed.
(** Nothing of the ballot changes, the rules do not, and no vote task comes or goes. *)
Lemma vrel_same s s' : same_rules s s' -> ballot_is s' (st_cur s) (st_agreed s) (st_disagreed s) (st_start s) -> same_history s s' -> st_now s' = st_now s ->
  (forall k t, t_hook t = HVote -> t ∈ tasks_at s' k <-> t ∈ tasks_at s k) -> vrel s s'.
Proof.
  intros HR HB HH HN HT [V1 V2 V3 V4]. pose proof HB as (B1 & B2 & B3 & _).
  assert (HG : st_gov s' = st_gov s). { destruct HR as [HR _]. unfold rules in HR. congruence. }
  assert (HP : st_vperiod s' = st_vperiod s). { destruct HR as [HR _]. unfold rules in HR. congruence. }
  assert (HV : voters s' = voters s) by (unfold voters; congruence).
  split_and!.
  - split.
    + intros p. rewrite B1, HV, HG. apply V1.
    + intros p. rewrite B1. intros Hp. destruct (V2 p Hp) as [K1 K2]. split; [done|]. by apply HT.
    + intros k t Hk Ht. rewrite B1. apply (V3 k t); [by apply HT|done].
    + by rewrite HP.
  - apply rtc_once. by apply V_none.
  - intros HL p. rewrite B1, HN. apply HL.
Qed.
Lemma vrel_fields s s' : vview s' = vview s -> vrel s s'.
Proof.
  intros H. unfold vview in H. pose proof (f_equal (fun v => v.1.1.1.1.1.1.1) H) as H1. pose proof (f_equal (fun v => v.1.1.1.1.1.1.2) H) as H2.
  pose proof (f_equal (fun v => v.1.1.1.1.1.2) H) as H3. pose proof (f_equal (fun v => v.1.1.1.1.2) H) as H4.
  pose proof (f_equal (fun v => v.1.1.1.2) H) as H5. pose proof (f_equal (fun v => v.1.1.2) H) as H6. pose proof (f_equal (fun v => v.1.2) H) as H7.
  pose proof (f_equal (fun v => v.2) H) as H8. cbn [fst snd] in *. clear H. injection H8 as H8 H9 H10.
  apply vrel_same; [|by split_and!|split; [done|lia]|done|].
  - split; [done|]. intros a. unfold on_staff. by rewrite H2.
  - intros k t _. unfold tasks_at. by rewrite H6.
Qed.
#[export] Hint Extern 1 (vrel _ _) => (apply vrel_fields; reflexivity) : frame.
Lemma vrel_schedule t h d : h <> HVote -> rel vrel (schedule_task t h d).
Proof.
  intros Hh s. unfold schedule_task, schedule_task', check_key, bind, assert. destruct (key_ok _); [|cbn; reflexivity].
  cbn. apply vrel_same; [by split|by split_and!|by split; cbn|done|]. intros k x Hx. unfold tasks_at. cbn.
  destruct (decide (t = k)) as [<-|Hn]; [rewrite lookup_insert|by rewrite lookup_insert_ne]. cbn.
  rewrite elem_of_app, elem_of_list_singleton. split; [intros [Hy| ->]; done|auto].
Qed.
Lemma vrel_delete t P : (forall x, P x = true -> t_hook x <> HVote) -> rel vrel (delete_where t P).
Proof.
  intros HP s. unfold delete_where, check_key, bind, assert. destruct (key_ok t); [|cbn; reflexivity]. cbn.
  destruct (st_sched s !! t) as [l|] eqn:E; [|reflexivity].
  apply vrel_same; [by split|by split_and!|by split; cbn|done|]. intros k x Hx. unfold tasks_at. cbn.
  assert (HF : x ∈ List.filter (fun x => negb (P x)) l <-> x ∈ l).
  { rewrite !elem_of_list_In, filter_In. split; [by intros [? _]|]. intros Hin. split; [done|].
    destruct (P x) eqn:B; [|done]. by destruct (HP x B). }
  destruct (List.filter _ l) as [|y l'] eqn:F.
  - destruct (decide (t = k)) as [<-|Hn]; [|by rewrite lookup_delete_ne]. rewrite lookup_delete, E. cbn. exact HF.
  - destruct (decide (t = k)) as [<-|Hn]; [|by rewrite lookup_insert_ne]. rewrite lookup_insert, E. cbn. exact HF.
Qed.
Lemma vrel_delete_task t h d : h <> HVote -> rel vrel (delete_task t h d).
Proof. intros Hh. apply vrel_delete. intros x H. case_bool_decide; [congruence|done]. Qed.
#[export] Hint Extern 0 (rel vrel (schedule_task _ _ _)) => (apply vrel_schedule; discriminate) : frame.
#[export] Hint Extern 0 (rel vrel (delete_task _ _ _)) => (apply vrel_delete_task; discriminate) : frame.

(** The validators *)
Definition nview (s : St) := (rules s, st_cur s, st_agreed s, st_disagreed s, st_sched s, st_now s, (st_start s, st_phist s, st_height s)).
Lemma vrel_val {A} (m : M A) : rel staff_kept m -> rel (same nview) m -> rel vrel m.
Proof.
  intros H1 H2 s. specialize (H1 s). specialize (H2 s). unfold same, nview in H2.
  pose proof (f_equal (fun v => v.1.1.1.1.1.1) H2) as E1. pose proof (f_equal (fun v => v.1.1.1.1.1.2) H2) as E2.
  pose proof (f_equal (fun v => v.1.1.1.1.2) H2) as E3. pose proof (f_equal (fun v => v.1.1.1.2) H2) as E4.
  pose proof (f_equal (fun v => v.1.1.2) H2) as E5. pose proof (f_equal (fun v => v.1.2) H2) as E6. pose proof (f_equal (fun v => v.2) H2) as E7.
  cbn [fst snd] in *. clear H2. injection E7 as E7 E8 E9.
  apply vrel_same; [by split|by split_and!|split; [done|lia]|done|]. intros k t _. unfold tasks_at. by rewrite E5.
Qed.
Local Ltac n := apply vrel_val; auto 8 with frame.
Lemma vx_switch_on a k : rel vrel (switch_on a k).
Proof. n. Qed.
Lemma vx_switch_off a : rel vrel (switch_off a).
Proof. n. Qed.
Lemma vx_on_status_update a : rel vrel (on_status_update a).
Proof. n. Qed.
Lemma vx_on_stake_changed a : rel vrel (on_stake_changed a).
Proof. n. Qed.
Lemma vx_unjail a : rel vrel (unjail a).
Proof. n. Qed.
Lemma vx_general_amnesty : rel vrel general_amnesty.
Proof. n. Qed.
Lemma vx_proposed a : rel vrel (proposed a).
Proof. n. Qed.
Lemma vx_votes l : rel vrel (mark_strokes_and_ticks l).
Proof. n. Qed.
Lemma vx_evidence l : rel vrel (punish_wrongdoers l).
Proof. n. Qed.
Lemma vx_gather : rel vrel gather.
Proof. n. Qed.
#[export] Hint Resolve vx_switch_on vx_switch_off vx_on_status_update vx_on_stake_changed vx_unjail vx_general_amnesty vx_proposed
  vx_votes vx_evidence vx_gather | 0 : frame.
Lemma vx_set_rate a v : rel vrel (msg_set_rate a v).
Proof.
  intros s. unfold msg_set_rate. apply at_ensure; [apply _|intros _]. apply at_get; [apply _|]. apply at_ensure; [apply _|intros _].
  unfold set_pparams. apply at_get; [apply _|]. apply at_assert; [apply _|intros HM]. cbv zeta. apply at_assert; [apply _|intros _].
  apply vrel_fields. unfold vview, rules, modify. cbn. unfold but_rate. by destruct (st_pp s).
Qed.
#[export] Hint Resolve vx_set_rate | 0 : frame.
Lemma vx_noding_begin p v e : rel vrel (noding_begin p v e).
Proof. auto 8 with frame. Qed.
Lemma vx_end : rel vrel end_block.
Proof. auto 8 with frame. Qed.
Lemma vx_ante t : rel vrel (ante t).
Proof. auto 8 with frame. Qed.
Lemma vx_hook h f a t : hooks h = Some f -> h <> HVote -> rel vrel (f a t).
Proof. intros H Hh. destruct h; cbn in H; try done; injection H as <-; auto 8 with frame. Qed.
Lemma vx_msg m : (forall a n p, m <> MPropose a n p) -> (forall a b, m <> MVote a b) -> rel vrel (run_msg m).
Proof.
  intros H1 H2. destruct m; cbn [run_msg]; try (solve [auto 8 with frame]).
  - apply rel_bind; [apply _|apply rel_ensure, _|intros _]. apply vx_switch_on.
  - by destruct (H1 _ _ _ eq_refl).
  - by destruct (H2 _ _ eq_refl).
Qed.

(** ** The effect of an accepted proposal *)
Notation bad := (Panic (ErrMsg "invalid params"%string)).

Lemma on_pparams_run f s : pp_card_magic (f (st_pp s)) = pp_card_magic (st_pp s) ->
  on_pparams f s = if pparams_valid (f (st_pp s)) then (s <| st_pp := f (st_pp s) |>, Ok tt) else (s, bad).
Proof.
  intros H. unfold on_pparams, set_pparams, bind, get, assert. rewrite H, Z.eqb_refl. cbn [orb ret].
  assert (E : (f (st_pp s)) <| pp_card_magic := pp_card_magic (st_pp s) |> = f (st_pp s)).
  { rewrite <- H. by destruct (f (st_pp s)). }
  rewrite E. unfold ret. by destruct (pparams_valid _).
Qed.
Lemma set_bparams_run p s : set_bparams p s = if bool_decide (bparams_valid p = Some true) then (s <| st_bp := p |>, Ok tt) else (s, bad).
Proof.
  unfold set_bparams, bind, lift, assert, ret. case_bool_decide as H; [by rewrite H|].
  by destruct (bparams_valid p) as [[]|].
Qed.
Lemma try_bparams_run p s : fst (try_bparams p s) = if bool_decide (bparams_valid p = Some true) then s <| st_bp := p |> else s.
Proof.
  unfold try_bparams, bind at 1, lift. destruct (bparams_valid p) as [[]|] eqn:E; try done.
  unfold ret at 1. rewrite set_bparams_run, E. by rewrite !bool_decide_true.
Qed.
Lemma set_dparams_run p s : set_dparams p s = if bool_decide (dparams_valid p = Some true) then (s <| st_dp := p |>, Ok tt) else (s, bad).
Proof.
  unfold set_dparams, bind, lift, assert, ret. case_bool_decide as H; [by rewrite H|].
  by destruct (dparams_valid p) as [[]|].
Qed.
Lemma try_dparams_run p s : fst (try_dparams p s) = if bool_decide (dparams_valid p = Some true) then s <| st_dp := p |> else s.
Proof.
  unfold try_dparams, bind at 1, lift. destruct (dparams_valid p) as [[]|] eqn:E; try done.
  unfold ret at 1. rewrite set_dparams_run, E. by rewrite !bool_decide_true.
Qed.
Lemma set_nparams_run p s : set_nparams p s = if bool_decide (nparams_valid p = Some true) then (s <| st_np := p |>, Ok tt) else (s, bad).
Proof.
  unfold set_nparams, bind, lift, assert, ret. case_bool_decide as H; [by rewrite H|].
  by destruct (nparams_valid p) as [[]|].
Qed.
Lemma remove_fast_same (l : list addr) a : snd (Lists.remove_fast N.compare l a) = false -> fst (Lists.remove_fast N.compare l a) = l.
Proof.
  induction l as [|x l IH]; cbn; [done|]. destruct (Lists.eqk _ x a); cbn; [done|].
  destruct (Lists.remove_fast _ l a) as [r b]. cbn in *. intros H. by rewrite IH.
Qed.
Lemma logged_fst m s : fst (logged m s) = fst (m s).
Proof. unfold logged, try, bind, ret. by destruct (m s) as [s' [[]|e|e]]. Qed.
Ltac cases := let H := fresh in case_bool_decide as H; [rewrite bool_decide_true by exact H|rewrite bool_decide_false by exact H]; reflexivity.
(** All but the staff *)
Lemma apply_rules act s : (forall a, act <> PStaffAdd a) -> (forall a, act <> PStaffRemove a) -> act <> PAmnesty ->
  fst (apply_proposal act s) = if admissible act s then enact act s else s.
Proof.
  intros N1 N2 N3. unfold apply_proposal, bind at 1 2 3, get at 1 2 3.
  destruct act; try (by destruct (N1 a)); try (by destruct (N2 a)); try done;
    try (cbn [admissible enact]; unfold add_creator, remove_creator, add_rate_signer, remove_rate_signer, add_vpn_signer, remove_vpn_signer,
           add_storage_signer, remove_storage_signer; rewrite on_pparams_run by done; by destruct (pparams_valid _));
    try (cbn [admissible enact]; unfold add_blocked_sender, remove_blocked_sender, bind, get; rewrite set_bparams_run; cases);
    try (cbn [admissible enact]; rewrite set_bparams_run; cases);
    try (cbn [admissible enact]; rewrite try_bparams_run; cases);
    try (cbn [admissible enact]; rewrite set_dparams_run; cases);
    try (cbn [admissible enact]; rewrite try_dparams_run; cases);
    try (cbn [admissible enact]; rewrite set_nparams_run; cases).
  - cbn [admissible enact]. unfold add_earn_signer, set_earn_signers, bind, get, assert. cbn. by repeat case_bool_decide.
  - cbn [admissible enact]. unfold remove_earn_signer, set_earn_signers, bind, get, assert, remove_one. cbn.
    pose proof (remove_fast_same (st_earn_signers s) a) as HR. destruct (Lists.remove_fast _ _ _) as [l []]; cbn in *.
    + by repeat case_bool_decide.
    + rewrite HR by done. case_bool_decide; [|done]. by destruct s.
Qed.
Lemma apply_spec act s : let s' := fst (apply_proposal act s) in
  if admissible act s then enacted act s s' else same_rules s s'.
Proof.
  cbv zeta.
  assert (HA : (exists a, act = PStaffAdd a) \/ (exists a, act = PStaffRemove a) \/ act = PAmnesty \/
               ((forall a, act <> PStaffAdd a) /\ (forall a, act <> PStaffRemove a) /\ act <> PAmnesty)).
  { destruct act; eauto; right; right; right; split_and!; intros; discriminate. }
  destruct HA as [[a ->]|[[a ->]|[->|(N1 & N2 & N3)]]].
  - cbn [admissible]. unfold apply_proposal, bind at 1 2 3, get at 1 2 3. rewrite logged_fst. split; [|apply sk_add].
    assert (Q : rel (same rules) (add_to_staff a)) by frame. apply (Q s).
  - cbn [admissible]. unfold apply_proposal, bind at 1 2 3, get at 1 2 3. rewrite logged_fst. split; [|apply sk_remove].
    assert (Q : rel (same rules) (remove_from_staff a)) by frame. apply (Q s).
  - cbn [admissible]. unfold apply_proposal, bind at 1 2 3, get at 1 2 3. split; [done|]. apply sk_general_amnesty.
  - rewrite apply_rules by done. destruct (admissible act s); [|by split]. split; [done|].
    intros z. unfold on_staff at 1. destruct act; try done; try (by destruct (N1 a)); by destruct (N2 a).
Qed.
Definition bview (s : St) := (st_cur s, st_agreed s, st_disagreed s, st_sched s, st_now s, st_vperiod s, st_start s, st_height s, st_phist s).
Lemma apply_ballot act : rel (same bview) (apply_proposal act).
Proof. frame. Qed.
Lemma rules_eq s s' : same_rules s s' -> st_gov s' = st_gov s /\ st_bp s' = st_bp s /\ st_np s' = st_np s /\ st_dp s' = st_dp s /\
  st_rp s' = st_rp s /\ st_earn_signers s' = st_earn_signers s /\ but_rate (st_pp s') = but_rate (st_pp s) /\ st_plan s' = st_plan s /\
  st_vperiod s' = st_vperiod s /\ st_pperiod s' = st_pperiod s.
Proof. intros [H _]. unfold rules in H. split_and!; congruence. Qed.

(** ** The tally *)
Lemma tally_spec gov yes no : NoDup (yes ++ no) -> (forall a, a ∈ yes ++ no -> a ∈ gov) ->
  snd (tally gov yes no) = true ->
  NoDup gov /\ (forall m, m ∈ gov -> m ∈ yes ++ no) /\ (2 * List.length gov <= 3 * List.length yes)%nat.
Proof.
  intros HN HI. unfold tally. destruct (_ =? _)%nat eqn:E; [|done]. apply Nat.eqb_eq in E. cbn. intros H. apply Nat.leb_le in H.
  split_and!; [| |lia].
  { apply NoDup_ListNoDup. eapply (NoDup_incl_NoDup (l := yes ++ no)); [by apply NoDup_ListNoDup|rewrite app_length; lia|].
    intros x. rewrite <- !elem_of_list_In. apply HI. }
  intros m Hm.
  apply elem_of_list_In. eapply (NoDup_length_incl (l := yes ++ no) (l' := gov)); [by apply NoDup_ListNoDup|rewrite app_length; lia| |by apply elem_of_list_In].
  intros x. rewrite <- !elem_of_list_In. apply HI.
Qed.
Lemma all_voted gov vs : NoDup vs -> (forall a : addr, a ∈ vs -> a ∈ gov) -> List.length vs = List.length gov -> forall m, m ∈ gov -> m ∈ vs.
Proof.
  intros HN HI HL m Hm. apply elem_of_list_In. eapply (NoDup_length_incl (l := vs) (l' := gov)); [by apply NoDup_ListNoDup|lia| |by apply elem_of_list_In].
  intros x. rewrite <- !elem_of_list_In. apply HI.
Qed.
Lemma incl_length (l l' : list addr) : NoDup l -> (forall a, a ∈ l -> a ∈ l') -> (List.length l <= List.length l')%nat.
Proof.
  intros HN HI. apply NoDup_incl_length; [by apply NoDup_ListNoDup|]. intros x. rewrite <- !elem_of_list_In. apply HI.
Qed.
Lemma majority_tally s : NoDup (voters s) -> (forall a, a ∈ voters s -> a ∈ st_gov s) ->
  snd (tally (st_gov s) (st_agreed s) (st_disagreed s)) = true -> majority s.
Proof.
  intros HN HI H. destruct (tally_spec _ _ _ HN HI H) as (H1 & H2 & H3). split; [done|]. split; [done|]. exists (st_agreed s).
  split_and!; [by apply NoDup_app in HN as [? _]| |lia]. intros m Hm. split; [|done]. apply HI. unfold voters. apply elem_of_app. by left.
Qed.
Lemma tally_majority s : NoDup (voters s) -> (forall a, a ∈ voters s -> a ∈ st_gov s) -> majority s ->
  snd (tally (st_gov s) (st_agreed s) (st_disagreed s)) = true.
Proof.
  intros HN HI (HG & H1 & yes & Y1 & Y2 & Y3).
  assert (E : List.length (voters s) = List.length (st_gov s)).
  { apply Nat.le_antisymm; by apply incl_length. }
  unfold voters in E. rewrite app_length in E. unfold tally. rewrite (proj2 (Nat.eqb_eq _ _)) by lia. cbn. apply Nat.leb_le.
  assert (List.length yes <= List.length (st_agreed s))%nat; [|lia]. apply incl_length; [done|]. intros a Ha. by apply Y2.
Qed.

(** ** The end of a proposal *)
Lemma end_run p s : st_cur s = Some p -> key_ok (pr_end p) = true -> 0 < st_vperiod s * hour < 2^63 ->
  NoDup (voters s) -> (forall a, a ∈ voters s -> a ∈ st_gov s) ->
  List.length (voters s) = List.length (st_gov s) \/ pr_end p <= st_now s ->
  (forall k t, t ∈ tasks_at s k -> t_hook t = HVote -> k = pr_end p) ->
  let s' := fst (end_proposal p (snd (tally (st_gov s) (st_agreed s) (st_disagreed s))) s) in
  voting_ok s' /\ vstep s s' /\ st_cur s' = None /\ st_now s' = st_now s.
Proof.
  intros HC HK HP HN HI HE HT. set (ag := snd _). cbv zeta.
  match goal with |- voting_ok ?x /\ _ => remember x as sf eqn:SF end.
  unfold end_proposal, bind at 1 in SF. destruct (delete_all (pr_end p) HVote s) as [s1 r1] eqn:E1.
  assert (HV : key_ok (pr_end p) = true -> exists s1, delete_all (pr_end p) HVote s = (s1, Ok tt)).
  { intros HK'. unfold key_ok in HK'. apply (delete_where_total (pr_end p)). lia. }
  destruct (HV HK) as [s1' E1']. rewrite E1' in E1. injection E1 as <- <-.
  pose proof E1' as E2. apply delete_where_at in E2 as (D1 & D2 & D3). set (l := st_sched s1') in *. clearbody l.
  unfold bind at 1, modify at 1 in SF. unfold bind at 1, modify at 1 in SF.
  match type of SF with _ = fst (_ ?x) => set (s2 := x) in * end. 
  assert (HR : same_rules s s2) by (unfold s2; rewrite D1; by split).
  assert (HB : ballot_is s2 None [] [] 0) by done.
  assert (HH : recorded p ag s s2) by (unfold s2; rewrite D1; by split).
  assert (HTS : forall k t, t ∈ tasks_at s2 k -> t_hook t <> HVote).
  { intros k t Ht Hh. assert (Ht' : t ∈ tasks_at s1' k) by exact Ht. destruct (decide (k = pr_end p)) as [->|Hk].
    - rewrite D2, elem_of_list_In, filter_In in Ht'. destruct Ht' as [_ Ht']. rewrite bool_decide_true in Ht' by done. done.
    - rewrite D3 in Ht' by done. by specialize (HT _ _ Ht' Hh). }
  assert (HN2 : st_now s2 = st_now s) by (unfold s2; by rewrite D1).
  assert (HVP : st_vperiod s2 = st_vperiod s) by (unfold s2; by rewrite D1).
  assert (HAd : admissible (pr_act p) s2 = admissible (pr_act p) s).
  { unfold s2. rewrite D1. by destruct (pr_act p). }
  assert (HEn : forall s', enacted (pr_act p) s2 s' -> enacted (pr_act p) s s').
  { intros s' [X1 X2]. split; [rewrite X1|intros z; rewrite X2]; unfold s2; rewrite D1; by destruct (pr_act p). }
  clearbody s2. clear D1 D2 D3 E1' HV.
  set (s' := fst ((if ag then apply_proposal (pr_act p) else ret tt) s2)).
  assert (HBV : bview s' = bview s2).
  { unfold s'. destruct ag; [|done]. apply (apply_ballot (pr_act p) s2). }
  change (sf = s') in SF. rewrite SF. clear sf SF.
  unfold bview in HBV. injection HBV as V1 V2 V3 V4 V5 V6 V7 V8 V9. destruct HB as (B1 & B2 & B3 & B4).
  split_and!; [| |congruence|congruence].
  - split.
    + intros q. rewrite V1, B1. done.
    + intros q. rewrite V1, B1. done.
    + intros k t Ht Hh. exfalso. apply (HTS k t); [|done]. unfold tasks_at in *. by rewrite V4 in Ht.
    + rewrite V6, HVP. done.
  - assert (HB' : ballot_is s' None [] [] 0) by (split_and!; congruence).
    assert (HH' : recorded p ag s s') by (destruct HH as [X1 X2]; split; congruence).
    destruct ag eqn:EA.
    + pose proof (apply_spec (pr_act p) s2) as HS. cbv zeta in HS. fold s' in HS. rewrite HAd in HS.
      destruct (admissible (pr_act p) s) eqn:AD.
      * apply (V_pass s s' p); auto. by apply majority_tally.
      * apply (V_drop s s' p true); auto.
        -- destruct HR as [X1 X2], HS as [Y1 Y2]. split; [congruence|]. intros a. by rewrite Y2.
        -- destruct HE as [HE|HE]; [left; by apply all_voted|by right].
        -- split; [intros _; by apply majority_tally|done].
    + apply (V_drop s s' p false); auto.
      * destruct HE as [HE|HE]; [left; by apply all_voted|by right].
      * split; [done|]. intros HM. pose proof (tally_majority s HN HI HM) as X. unfold ag in EA. congruence.
      * intros HM. pose proof (tally_majority s HN HI HM) as X. unfold ag in EA. congruence.
Qed.

(** ** Proposing and voting *)
Lemma sched_vote t s s' : schedule_task t HVote 0%N s = (s', Ok tt) ->
  key_ok t = true /\ s' = s <| st_sched := st_sched s' |> /\
  tasks_at s' t = tasks_at s t ++ [Task t HVote 0%N] /\ forall k, k <> t -> tasks_at s' k = tasks_at s k.
Proof.
  intros H. assert (HK : key_ok t = true).
  { unfold schedule_task, schedule_task', check_key, bind, assert in H. cbn [t_time] in H. by destruct (key_ok t). }
  split; [done|]. unfold key_ok in HK. destruct (c16_schedule t HVote 0%N s ltac:(lia)) as (s2 & E & H2). rewrite E in H. by injection H as ->.
Qed.
(** A proposal accepted for voting: the ballot is opened with its author's vote,
    and closed at once when nobody else votes. *)
Lemma propose_run a n act s s' : voting_ok s -> msg_propose a n act s = (s', Ok tt) ->
  let p := mkProp n a (st_now s + st_vperiod s * hour) act in
  st_cur s = None /\ a ∈ st_gov s /\ paction_valid act = Some true /\ exists s1,
    same_rules s s1 /\ ballot_is s1 (Some p) [a] [] (st_height s) /\ same_history s s1 /\ st_now s1 = st_now s /\ st_pp s1 = st_pp s /\
    ((1 < List.length (st_gov s))%nat /\ voting_ok s1 /\ s' = s1 \/
     List.length (st_gov s) = 1%nat /\ vstep s1 s' /\ st_cur s' = None /\ st_now s' = st_now s /\ voting_ok s').
Proof.
  intros HV H. cbv zeta. unfold msg_propose in H. apply bind_ok in H as (ok & s0 & H0 & H). apply lift_ok in H0 as [-> H0].
  apply bind_ok in H as ([] & s0' & H1 & H). apply ensure_ok in H1 as [-> H1]. subst ok.
  apply bind_ok in H as (s0'' & s1 & H2 & H). apply get_ok in H2 as [-> ->]. unfold id in H.
  destruct (st_cur s) as [p0|] eqn:EC; [by apply fail_ok in H|].
  apply bind_ok in H as ([] & s1 & H2 & H). apply ensure_ok in H2 as [-> H2].
  unfold gov_contains in H2. apply bool_decide_eq_true in H2. pose proof (vo_period _ HV) as HP.
  rewrite FracProofs.wrap64_id in H by lia. set (t := st_now s + _) in *. set (p := mkProp n a t act) in *.
  apply bind_ok in H as ([] & s2 & H3 & H). apply modify_ok in H3. apply bind_ok in H as ([] & s3 & H4 & H).
  apply sched_vote in H4 as (K1 & K2 & K3 & K4). apply bind_ok in H as ([] & s4 & H5 & H). apply modify_ok in H5.
  set (l := st_sched s3) in *.
  assert (TT : forall k x, x ∈ tasks_at s4 k -> t_hook x = HVote -> k = t).
  { intros k x Hx Hh. assert (Hx' : x ∈ tasks_at s3 k) by (subst s4; exact Hx). destruct (decide (k = t)) as [->|Hk]; [done|].
    rewrite K4 in Hx' by done. assert (Hx2 : x ∈ tasks_at s k) by (subst s2; exact Hx').
    destruct (vo_only _ HV _ _ Hx2 Hh) as (q & Hq & _). congruence. }
  assert (TI : Task t HVote 0%N ∈ tasks_at s4 t).
  { assert (X : Task t HVote 0%N ∈ tasks_at s3 t) by (rewrite K3; apply elem_of_app; right; left). subst s4; exact X. }
  clearbody l. rewrite K2 in H5. subst s4 s2. clear K2 K3 K4.
  match type of H with _ ?x = _ => set (s4 := x) in * end.
  split_and!; [done|done|done|]. exists s4.
  assert (Q1 : same_rules s s4) by by split.
  assert (Q2 : ballot_is s4 (Some p) [a] [] (st_height s)) by done.
  assert (QH : same_history s s4) by by split.
  split_and!; [done|done|done|done|done|].
  assert (GL : (1 <= List.length (st_gov s))%nat).
  { destruct (st_gov s); [by apply elem_of_nil in H2|cbn; lia]. }
  assert (Q3 : forall x, x ∈ voters s4 -> x ∈ st_gov s4).
  { intros x Hx. change (x ∈ [a]) in Hx. apply elem_of_list_singleton in Hx as ->. done. }
  assert (Q4 : NoDup (voters s4)) by apply NoDup_singleton.
  destruct (Nat.eq_dec (List.length (st_gov s)) 1) as [HL|HL].
  - right. split; [done|]. assert (E : fst (tally (st_gov s) [a] []) = true) by (unfold tally; cbn; by rewrite HL).
    pose proof (end_run p s4) as HE. destruct (tally (st_gov s) [a] []) as [c ag] eqn:ET. cbn in E. subst c.
    change (tally (st_gov s4) (st_agreed s4) (st_disagreed s4)) with (tally (st_gov s) [a] []) in HE. rewrite ET in HE. cbn [snd] in HE. rewrite H in HE.
    cbn [fst] in HE. destruct HE as (E1 & E2 & E3 & E4); auto.
  - left. split; [lia|]. assert (E : tally (st_gov s) [a] [] = (false, false)).
    { unfold tally. cbn. destruct (_ =? _)%nat eqn:E; [|done]. apply Nat.eqb_eq in E. lia. }
    rewrite E in H. injection H as <-. split; [|done]. split.
    + intros q Hq. injection Hq as <-. split_and!; [done|done|]. change (1 < List.length (st_gov s))%nat. lia.
    + intros q Hq. injection Hq as <-. by split.
    + intros k x Hx Hh. exists p. split; [done|]. by eapply TT.
    + done.
Qed.
Lemma propose_vrel a n act : okrel vrel (msg_propose a n act).
Proof.
  intros s s' [] H HV. destruct (propose_run _ _ _ _ _ HV H) as (H1 & H2 & H3 & s1 & Q1 & Q2 & QH & Q3 & _ & Q4). cbv zeta in *.
  pose proof (vo_period _ HV) as HP.
  assert (V1 : vstep s s1) by (refine (V_propose _ _ _ Q1 H1 _ _ Q2 QH); [exact H2|cbn; lia]).
  destruct Q4 as [(L1 & L2 & ->)|(L1 & L2 & L3 & L4 & L5)].
  - split_and!; [done|by apply rtc_once|]. intros _ q Hq. destruct Q2 as (Q2 & _). rewrite Q2 in Hq. injection Hq as <-. cbn. lia.
  - split_and!; [done|by eapply rtc_l; [|apply rtc_once]|]. intros _ q Hq. congruence.
Qed.
Lemma vote_run a b s s' : voting_ok s -> msg_vote a b s = (s', Ok tt) ->
  exists p s1, st_cur s = Some p /\ a ∈ st_gov s /\ a ∉ voters s /\ same_rules s s1 /\ st_now s1 = st_now s /\ st_pp s1 = st_pp s /\
    ballot_is s1 (Some p) (if b then st_agreed s ++ [a] else st_agreed s) (if b then st_disagreed s else st_disagreed s ++ [a]) (st_start s) /\ same_history s s1 /\
    (((List.length (voters s) + 1 < List.length (st_gov s))%nat /\ voting_ok s1 /\ s' = s1) \/
     ((List.length (voters s) + 1 = List.length (st_gov s))%nat /\ vstep s1 s' /\ st_cur s' = None /\ st_now s' = st_now s /\ voting_ok s')).
Proof.
  intros HV H. unfold msg_vote in H. apply bind_ok in H as (s0 & s1 & H0 & H). apply get_ok in H0 as [-> ->]. unfold id in H.
  destruct (st_cur s) as [p|] eqn:EC; [|by apply fail_ok in H].
  apply bind_ok in H as ([] & s1 & H1 & H). apply ensure_ok in H1 as [-> H1].
  apply bind_ok in H as ([] & s1 & H2 & H). apply ensure_ok in H2 as [-> H2].
  apply bind_ok in H as ([] & s1 & H3 & H). apply ensure_ok in H3 as [-> H3].
  unfold gov_contains in *. apply bool_decide_eq_true in H1. apply negb_true_iff, bool_decide_eq_false in H2, H3.
  apply bind_ok in H as ([] & s2 & H4 & H). apply modify_ok in H4. exists p, s2.
  destruct (vo_votes _ HV _ EC) as (N1 & N2 & N3). destruct (vo_task _ HV _ EC) as [T1 T2].
  assert (NV : a ∉ voters s) by (unfold voters; rewrite elem_of_app; tauto).
  assert (V1 : forall x, x ∈ voters s2 <-> x ∈ voters s \/ x = a).
  { intros x. subst s2. unfold voters. destruct b; cbn; rewrite !elem_of_app, elem_of_list_singleton; tauto. }
  assert (V2 : List.length (voters s2) = (List.length (voters s) + 1)%nat).
  { subst s2. unfold voters. destruct b; cbn; rewrite !app_length; cbn; lia. }
  assert (V3 : NoDup (voters s2)).
  { subst s2. unfold voters in *. destruct b; cbn.
    - rewrite <- app_assoc. apply NoDup_app in N1 as (A1 & A2 & A3). apply NoDup_app. split_and!; [done| |].
      + intros x Hx Hx2. cbn in Hx2. apply elem_of_cons in Hx2 as [->|Hx2]; [tauto|by eapply A2].
      + cbn. apply NoDup_cons. tauto.
    - rewrite app_assoc. apply NoDup_app. split_and!; [done| |apply NoDup_singleton].
      intros x Hx Hx2. apply elem_of_list_singleton in Hx2 as ->. tauto. }
  assert (V4 : forall x, x ∈ voters s2 -> x ∈ st_gov s2).
  { intros x Hx. assert (G : st_gov s2 = st_gov s) by by subst s2. rewrite G. apply V1 in Hx as [Hx| ->]; auto. }
  assert (SR : same_rules s s2) by (subst s2; by split).
  assert (NS : st_now s2 = st_now s) by by subst s2.
  assert (BI : ballot_is s2 (Some p) (if b then st_agreed s ++ [a] else st_agreed s) (if b then st_disagreed s else st_disagreed s ++ [a]) (st_start s)).
  { subst s2. split_and!; [exact EC|done..]. }
  assert (TS : forall k, tasks_at s2 k = tasks_at s k) by by subst s2.
  assert (PP : st_pp s2 = st_pp s) by by subst s2.
  assert (QH : same_history s s2) by (subst s2; by split).
  split_and!; [done..|]. destruct BI as (B1 & B2 & B3 & _).
  assert (G : st_gov s2 = st_gov s) by apply (rules_eq _ _ SR).
  set (aa := if b then _ else _) in B2. set (dd := if b then _ else _) in B3. fold aa in H. fold dd in H.
  assert (CE : fst (tally (st_gov s) aa dd) = (List.length (st_gov s) =? List.length (voters s2))%nat).
  { unfold tally, voters. rewrite B2, B3, app_length. by destruct (_ =? _)%nat. }
  assert (AE : tally (st_gov s) aa dd = tally (st_gov s2) (st_agreed s2) (st_disagreed s2)) by congruence.
  rewrite AE in *. destruct (tally (st_gov s2) _ _) as [c ag] eqn:ET. cbn [fst] in CE.
  destruct (Nat.eq_dec (List.length (voters s2)) (List.length (st_gov s))) as [HL|HL].
  - right. split; [lia|]. rewrite HL, Nat.eqb_refl in CE. subst c. pose proof (end_run p s2) as HE. rewrite ET in HE. cbn [snd] in HE.
    rewrite H in HE. cbn [fst] in HE. destruct HE as (E1 & E2 & E3 & E4); auto; [| | |split_and!; [done|done|congruence|done]].
    + subst s2. apply (vo_period _ HV).
    + left. by rewrite G.
    + intros k x Hx Hh. rewrite TS in Hx. destruct (vo_only _ HV _ _ Hx Hh) as (q & Hq & ->). congruence.
  - left. split; [lia|]. destruct (_ =? _)%nat eqn:E in CE; [apply Nat.eqb_eq in E; lia|]. subst c. apply ret_ok in H as [-> _]. split; [|done].
    split.
    + intros q _. split_and!; [done|done|]. rewrite G. lia.
    + intros q Hq. rewrite B1 in Hq. injection Hq as <-. by rewrite TS.
    + intros k x Hx Hh. rewrite TS in Hx. destruct (vo_only _ HV _ _ Hx Hh) as (q & Hq & ->). exists q. split; [congruence|done].
    + subst s2. apply (vo_period _ HV).
Qed.
Lemma vote_vrel a b : okrel vrel (msg_vote a b).
Proof.
  intros s s' [] H HV. destruct (vote_run _ _ _ _ HV H) as (p & s1 & H1 & H2 & H3 & Q1 & Q2 & _ & Q3 & QH & Q4).
  assert (V1 : vstep s s1) by (destruct b; [eapply V_agree|eapply V_disagree]; eauto).
  destruct Q4 as [(L1 & L2 & ->)|(L1 & L2 & L3 & L4 & L5)].
  - split_and!; [done|by apply rtc_once|]. intros HL q Hq. destruct Q3 as (Q3 & _). rewrite Q3 in Hq. injection Hq as <-. rewrite Q2. auto.
  - split_and!; [done|by eapply rtc_l; [|apply rtc_once]|]. intros _ q Hq. congruence.
Qed.
Lemma msg_vrel m : okrel vrel (run_msg m).
Proof.
  destruct (match m with MPropose _ _ _ | MVote _ _ => true | _ => false end) eqn:E.
  - destruct m; try discriminate; [apply propose_vrel|apply vote_vrel].
  - apply okrel_rel, vx_msg; destruct m; intros; discriminate.
Qed.
Lemma tx_vrel t s : vrel s (fst (deliver_tx t s)).
Proof. apply tx_rel; [apply _|apply okrel_rel, vx_ante|intros; apply msg_vrel]. Qed.

(** ** The schedule *)
Lemma cur_hook h f a t : hooks h = Some f -> h <> HVote -> rel (same st_cur) (f a t).
Proof. intros H Hh. destruct h; cbn in H; try done; injection H as <-; auto 8 with frame. Qed.
Definition during (s0 s : St) : Prop :=
  voting_ok s /\ vsteps s0 s /\ st_now s = st_now s0 /\ (st_cur s = None \/ st_cur s = st_cur s0).
Lemma vrel_log s e : vrel s (s <| st_log := st_log s ++ [e] |>).
Proof. by apply vrel_fields. Qed.
Lemma during_task s0 t s : during s0 s ->
  (t_hook t = HVote -> forall p, st_cur s0 = Some p -> pr_end p <= st_now s0) ->
  during s0 (after_task hooks t s) /\ (st_cur s = None \/ t_hook t = HVote -> st_cur (after_task hooks t s) = None).
Proof.
  intros (D1 & D2 & D3 & D4) HT. destruct (decide (t_hook t = HVote)) as [Hh|Hh].
  - specialize (HT Hh). unfold after_task. rewrite Hh. cbn [hooks].
    assert (PV : perform_vote s = match st_cur s with
        Some p => end_proposal p (snd (tally (st_gov s) (st_agreed s) (st_disagreed s))) s | None => (s, Ok tt) end).
    { unfold perform_vote, bind, get, id. by destruct (st_cur s). }
    rewrite PV. clear PV. destruct (st_cur s) as [p|] eqn:EC.
    2:{ cbn [fst]. split; [|intros _; exact EC]. split_and!; [done..|by left]. }
    assert (E0 : st_cur s0 = Some p) by (destruct D4 as [D4|D4]; congruence). specialize (HT _ E0).
    destruct (vo_votes _ D1 _ EC) as (N1 & N2 & N3). destruct (vo_task _ D1 _ EC) as [T1 T2].
    destruct (end_run p s EC T1 (vo_period _ D1) N1 N2) as (E1 & E2 & E3 & E4).
    { right. lia. }
    { intros k x Hx Hx2. destruct (vo_only _ D1 _ _ Hx Hx2) as (q & Hq & ->). congruence. }
    destruct (end_proposal p _ s) as [s1 r]. cbn [fst] in *.
    assert (DD : during s0 s1).
    { split_and!; [done|eapply rtc_r; eauto|congruence|by left]. }
    destruct r; [by split|split; [|done]..].
    all: destruct DD as (F1 & F2 & F3 & F4); destruct (vrel_log s1 (LTaskFailed t) F1) as (G1 & G2 & _); split_and!; [done|by eapply rtc_transitive|done|by left].
  - assert (R : (fun s s' => vrel s s' /\ st_cur s' = st_cur s /\ st_now s' = st_now s) s (after_task hooks t s)).
    { apply task_rel.
      - split; [intros x; split; [reflexivity|done]|]. intros x y z (A1 & A2 & A3) (B1 & B2 & B3). split; [by transitivity y|split; congruence].
      - intros x e. split; [apply vrel_log|done].
      - intros f Hf. split; [by apply (vx_hook _ _ _ _ Hf)|]. split; [apply (cur_hook _ _ _ _ Hf Hh s)|apply (now_hook _ _ _ _ Hf s)]. }
    destruct R as (R1 & R2 & R3). destruct (R1 D1) as (G1 & G2 & _).
    split; [|intros [?|?]; [congruence|done]]. split_and!; [done|by eapply rtc_transitive|congruence|].
    destruct D4 as [D4|D4]; [left|right]; congruence.
Qed.
Lemma during_tasks s0 ts : forall s, during s0 s ->
  ((exists t, t ∈ ts /\ t_hook t = HVote) -> forall p, st_cur s0 = Some p -> pr_end p <= st_now s0) ->
  during s0 (after_tasks hooks ts s) /\ (st_cur s = None \/ (exists t, t ∈ ts /\ t_hook t = HVote) -> st_cur (after_tasks hooks ts s) = None).
Proof.
  induction ts as [|t ts IH]; intros s HD HT; cbn.
  - split; [done|]. intros [?|(t & Ht & _)]; [done|by apply elem_of_nil in Ht].
  - destruct (during_task s0 t s HD) as [H1 H2].
    { intros Hh. apply HT. exists t. split; [left|done]. }
    destruct (IH _ H1) as [H3 H4].
    { intros (x & Hx & Hh). apply HT. exists x. split; [by right|done]. }
    split; [done|]. intros [HC|(x & Hx & Hh)]; [apply H4; left; auto|].
    apply elem_of_cons in Hx as [->|Hx]; [apply H4; left; auto|apply H4; right; eauto].
Qed.
Lemma schedule_votes s s' : voting_ok s -> perform_schedule hooks s = (s', Ok tt) ->
  voting_ok s' /\ vsteps s s' /\ live s' /\ st_now s' = st_now s.
Proof.
  intros HV H. assert (HK : 0 <= st_now s + 1 < time_limit).
  { unfold perform_schedule, check_key, bind, get, assert in H. destruct (key_ok (st_now s + 1)) eqn:E; [|done].
    unfold key_ok in E. lia. }
  rewrite perform_schedule_eq in H by done. cbv zeta in H.
  set (ts := flat_map (tasks_at s) (due_keys s)) in *.
  assert (HTS : forall t, t ∈ ts <-> exists k, k ∈ due_keys s /\ t ∈ tasks_at s k).
  { intros t. unfold ts. rewrite elem_of_list_In, in_flat_map. split; intros (k & H1 & H2); exists k; by rewrite !elem_of_list_In in *. }
  destruct (during_tasks s ts s) as [(D1 & D2 & D3 & D4) D5].
  { split_and!; [done|apply rtc_refl|done|by right]. }
  { intros (t & Ht & Hh) p Hp. apply HTS in Ht as (k & Hk & Ht). apply elem_of_due in Hk as [Hk _].
    destruct (vo_only _ HV _ _ Ht Hh) as (q & Hq & ->). congruence. }
  set (s1 := after_tasks hooks ts s) in *. clearbody s1.
  assert (HL : live s1).
  { intros p Hp. destruct (Z.lt_ge_cases (st_now s1) (pr_end p)) as [|Hd]; [done|exfalso].
    assert (E : st_cur s = Some p) by (destruct D4; congruence). destruct (vo_task _ HV _ E) as [T1 T2].
    rewrite D5 in Hp; [done|]. right. exists (Task (pr_end p) HVote 0%N). split; [|done]. apply HTS. exists (pr_end p). split; [|done].
    apply elem_of_due. split; [lia|]. unfold tasks_at in T2. destruct (st_sched s !! pr_end p); [eauto|]. cbn in T2. by apply elem_of_nil in T2. }
  injection H as <-. set (s2 := set st_sched _ s1).
  assert (L : forall k, tasks_at s2 k = if bool_decide (k ∈ due_keys s) then [] else tasks_at s1 k).
  { intros k. unfold tasks_at, s2. cbn [st_sched set]. change (st_sched (set st_sched _ s1)) with
      (foldr base.delete (st_sched s1) (due_keys s)). rewrite foldr_delete_lookup. by case_bool_decide. }
  split_and!.
  - split; try apply D1.
    + intros p Hp. destruct (vo_task _ D1 p Hp) as [T1 T2]. split; [done|]. rewrite L, bool_decide_false; [done|].
      intros Hd. apply elem_of_due in Hd as [Hd _]. specialize (HL p Hp). lia.
    + intros k t. rewrite L. case_bool_decide; [intros X; by apply elem_of_nil in X|apply (vo_only _ D1)].
  - eapply rtc_r; [done|]. apply V_none; [by split|by split_and!|by split].
  - exact HL.
  - exact D3.
Qed.

(** ** Whole histories *)
Lemma block_votes b s s' u : voting_ok s -> run_block b s = Some (s', u) -> voting_ok s' /\ vsteps s s' /\ live s' /\ vsteps (begin_state b s) s'.
Proof.
  intros HV. unfold run_block, begin_block.
  destruct (bind _ _ s) as [s1 [x|e|e]] eqn:E1; try discriminate.
  apply bind_ok in E1 as ([] & s2 & E2 & E1). apply modify_ok in E2.
  apply bind_ok in E1 as ([] & s3 & E3 & E1).
  destruct (end_block (deliver_txs (b_txs b) s1)) as [s4 [y|e|e]] eqn:E4; try discriminate.
  intros [= <- <-]. destruct x.
  assert (V2 : voting_ok s2 /\ vstep s s2 /\ st_now s2 = b_time b).
  { subst s2. split_and!; [|apply V_none; [by split|by split_and!|split; [done|cbn; lia]]|done]. destruct HV as [? ? ? ?]. by split. }
  destruct V2 as (V2 & S2 & N2). pose proof (vx_noding_begin (b_proposer b) (b_votes b) (b_evs b) s2 V2) as (V3 & S3 & _).
  pose proof (now_noding (b_proposer b) (b_votes b) (b_evs b) s2) as N3. rewrite E3 in *. cbn [fst] in *. unfold same in N3.
  destruct (schedule_votes _ _ V3 E1) as (V1 & S1 & L1 & N1).
  assert (R : vrel s1 (deliver_txs (b_txs b) s1)).
  { apply (bl_txs vrel (fun _ => True)); [intros; apply tx_vrel|by apply Forall_forall]. }
  destruct (R V1) as (V5 & S5 & L5). pose proof (vx_end (deliver_txs (b_txs b) s1) V5) as (V4 & S4 & L4).
  rewrite E4 in *. cbn [fst] in *.
  assert (S : vsteps s2 s4) by (eapply rtc_transitive; [done|]; eapply rtc_transitive; [done|]; by eapply rtc_transitive).
  split_and!; [done|by eapply rtc_l|auto|by subst s2].
Qed.
Lemma blocks_votes bs : forall s s' us, voting_ok s -> run_blocks bs s = Some (s', us) ->
  voting_ok s' /\ vsteps s s' /\ (bs <> [] -> live s').
Proof.
  induction bs as [|b bs IH]; intros s s' us HV H; cbn in H.
  - injection H as <- <-. split_and!; [done|apply rtc_refl|done].
  - destruct (run_block b s) as [[s1 u]|] eqn:E1; [|discriminate].
    destruct (run_blocks bs s1) as [[s2 us']|] eqn:E2; [|discriminate]. injection H as <- <-.
    destruct (block_votes _ _ _ _ HV E1) as (V1 & S1 & L1 & _). destruct (IH _ _ _ V1 E2) as (V2 & S2 & L2).
    split_and!; [done|by eapply rtc_transitive|]. intros _. destruct bs; [|by apply L2]. cbn in E2. by injection E2 as <- <-.
Qed.

(** ** A ballot reaches its result *)
Lemma enact_ext act s s1 : same_rules s s1 -> st_pp s1 = st_pp s -> rules (enact act s1) = rules (enact act s).
Proof.
  intros HR HP. destruct (rules_eq _ _ HR) as (E1 & E2 & E3 & E4 & E5 & E6 & _ & E8 & E9 & E10).
  unfold rules. destruct act; unfold enact, set; cbn [st_gov st_bp st_np st_dp st_rp st_earn_signers st_pp st_plan st_vperiod st_pperiod]; by rewrite ?HP, ?E1, ?E2, ?E3, ?E4, ?E5, ?E6, ?E8, ?E9, ?E10.
Qed.
Lemma admissible_ext act s s1 : same_rules s s1 -> st_pp s1 = st_pp s -> admissible act s1 = admissible act s.
Proof.
  intros HR HP. destruct (rules_eq _ _ HR) as (E1 & E2 & E3 & E4 & E5 & E6 & _ & E8 & E9 & E10).
  destruct act; cbn [admissible enact]; try done; unfold set; cbn [st_pp st_bp st_dp st_np st_earn_signers]; by rewrite ?HP, ?E2, ?E3, ?E4, ?E6.
Qed.
Lemma enacted_ext act s s1 s' : same_rules s s1 -> st_pp s1 = st_pp s -> enacted act s1 s' -> enacted act s s'.
Proof.
  intros HR HP [H1 H2]. split; [by rewrite H1, (enact_ext _ _ _ HR HP)|]. intros z. rewrite H2. destruct HR as [_ HR].
  destruct act; cbn; try case_decide; by rewrite ?HR.
Qed.
Lemma same_rules_trans s1 s2 s3 : same_rules s1 s2 -> same_rules s2 s3 -> same_rules s1 s3.
Proof. intros [A1 A2] [B1 B2]. split; [congruence|]. intros a. by rewrite B2. Qed.
Lemma logged_total m s : (forall s' e, m s <> (s', Panic e)) -> exists s', logged m s = (s', Ok tt).
Proof.
  intros H. unfold logged, try, bind, ret. destruct (m s) as [s' [[]|e|e]]; [eauto..|]. by destruct (H s' e).
Qed.
Lemma staff_add_total a s : exists s', add_to_staff a s = (s', Ok tt).
Proof.
  unfold add_to_staff, bind at 1, get at 1. destruct (st_val s !! a) as [x|] eqn:E.
  - unfold val_update, val_get, val_set, bind, modify, ret. rewrite E. cbn. destruct (n_staff x); cbn; eauto.
  - unfold val_set, modify. eauto.
Qed.
Lemma try_bparams_total p s : bparams_valid p = Some true -> exists s', try_bparams p s = (s', Ok tt).
Proof. intros H. unfold try_bparams, bind, lift. rewrite H. cbn. rewrite set_bparams_run, bool_decide_true by done. eauto. Qed.
Lemma try_dparams_total p s : dparams_valid p = Some true -> exists s', try_dparams p s = (s', Ok tt).
Proof. intros H. unfold try_dparams, bind, lift. rewrite H. cbn. rewrite set_dparams_run, bool_decide_true by done. eauto. Qed.
Lemma apply_total act s : admissible act s = true -> (forall x, act <> PStaffRemove x) -> exists s', apply_proposal act s = (s', Ok tt).
Proof.
  intros HA HN. unfold apply_proposal, bind at 1 2 3, get at 1 2 3.
  destruct act; try (by destruct (HN a)); try (unfold modify, ret; by eauto); cbn [admissible enact] in HA;
    try (unfold add_creator, remove_creator, add_rate_signer, remove_rate_signer, add_vpn_signer, remove_vpn_signer,
           add_storage_signer, remove_storage_signer; rewrite on_pparams_run by done;
         match goal with |- exists _, (if ?b then _ else _) = _ => replace b with true by (symmetry; exact HA) end; by eauto);
    try (unfold add_blocked_sender, remove_blocked_sender, bind, get; rewrite set_bparams_run, bool_decide_true by (by apply bool_decide_eq_true in HA); by eauto);
    try (rewrite set_bparams_run, bool_decide_true by (by apply bool_decide_eq_true in HA); by eauto);
    try (rewrite set_dparams_run, bool_decide_true by (by apply bool_decide_eq_true in HA); by eauto);
    try (rewrite set_nparams_run, bool_decide_true by (by apply bool_decide_eq_true in HA); by eauto);
    try (apply try_bparams_total; by apply bool_decide_eq_true in HA);
    try (apply try_dparams_total; by apply bool_decide_eq_true in HA).
  - apply logged_total. intros s' e. destruct (staff_add_total a s) as [s2 ->]. congruence.
  - unfold add_earn_signer, set_earn_signers, bind, get, assert. cbn in *. apply bool_decide_eq_true in HA. rewrite bool_decide_false by done. cbn. eauto.
  - unfold remove_earn_signer, set_earn_signers, bind, get, assert. cbn in *. apply bool_decide_eq_true in HA. unfold remove_one in HA.
    destruct (Lists.remove_fast _ _ _) as [l []]; cbn in *; [rewrite bool_decide_false by done|]; cbn; eauto.
Qed.
Lemma end_total p ag s : key_ok (pr_end p) = true -> 
  (ag = true -> admissible (pr_act p) s = true /\ forall x, pr_act p <> PStaffRemove x) -> exists s', end_proposal p ag s = (s', Ok tt).
Proof.
  intros HK HA. unfold end_proposal, bind at 1. unfold key_ok in HK.
  destruct (delete_where_total (pr_end p) (fun x => bool_decide (t_hook x = HVote)) s ltac:(lia)) as [s1 E1]. unfold delete_all. rewrite E1.
  apply delete_where_at in E1 as (D1 & _ & _). set (l := st_sched s1) in *. clearbody l.
  unfold bind at 1, modify at 1. unfold bind at 1, modify at 1. destruct ag; [|unfold ret; eauto].
  destruct (HA eq_refl) as [A1 A2]. apply apply_total; [|done]. etransitivity; [|exact A1]. apply admissible_ext; rewrite D1; [by split|done].
Qed.
Lemma vote_total (a : addr) (b : bool) s p : voting_ok s -> st_cur s = Some p -> a ∈ st_gov s -> a ∉ voters s ->
  (snd (tally (st_gov s) (if b then st_agreed s ++ [a] else st_agreed s) (if b then st_disagreed s else st_disagreed s ++ [a])) = true ->
     admissible (pr_act p) s = true /\ forall x, pr_act p <> PStaffRemove x) ->
  exists s', msg_vote a b s = (s', Ok tt).
Proof.
  intros HV HC HG HN HA. destruct (vo_task _ HV _ HC) as [T1 _]. unfold voters in HN. rewrite elem_of_app in HN.
  unfold msg_vote, bind at 1, get at 1, id. rewrite HC. unfold gov_contains. rewrite bool_decide_true by done.
  unfold bind at 1, ensure at 1, ret at 1. rewrite bool_decide_false by tauto. unfold bind at 1, ensure at 1, ret at 1. cbn [negb].
  rewrite bool_decide_false by tauto. unfold bind at 1, ensure at 1, ret at 1. cbn [negb]. unfold bind at 1, modify at 1.
  destruct (tally _ _ _) as [c ag] eqn:ET. cbn [snd] in HA. destruct c; [|unfold ret; eauto].
  apply end_total; [done|]. intros E. destruct (HA E) as [A1 A2]. split; [|done].
  etransitivity; [|exact A1]. apply admissible_ext; [by split|done].
Qed.
Lemma propose_total a n act s : voting_ok s -> st_cur s = None -> a ∈ st_gov s -> paction_valid act = Some true ->
  key_ok (st_now s + st_vperiod s * hour) = true -> admissible act s = true -> (forall x, act <> PStaffRemove x) ->
  exists s', msg_propose a n act s = (s', Ok tt).
Proof.
  intros HV HC HG HP HK HA HN. unfold msg_propose. unfold bind at 1, lift. rewrite HP. unfold ret at 1. unfold bind at 1, ensure at 1, ret at 1.
  unfold bind at 1, get at 1, id. rewrite HC. unfold gov_contains. rewrite bool_decide_true by done. unfold bind at 1, ensure at 1, ret at 1.
  rewrite FracProofs.wrap64_id by (pose proof (vo_period _ HV); lia). unfold bind at 1, modify at 1. unfold bind at 1.
  match goal with |- context [schedule_task ?t HVote 0%N ?x] => pose proof (c16_schedule t HVote 0%N x) as HS end.
  destruct HS as (s2 & E2 & D & _). { unfold key_ok in HK. lia. }
  rewrite E2. unfold bind at 1, modify at 1. destruct (tally _ _ _) as [[] ag]; [|unfold ret; eauto].
  apply end_total; [done|]. intros _. split; [|done]. cbn [pr_act]. etransitivity; [|exact HA].
  set (l := st_sched s2) in *. clearbody l. apply admissible_ext; rewrite D; [by split|done].
Qed.
(** The end of a ballot, read off the step *)
Lemma closed s s' p : vstep s s' -> st_cur s = Some p -> st_cur s' = None ->
  (majority s -> admissible (pr_act p) s = true -> enacted (pr_act p) s s') /\ (~ majority s -> same_rules s s').
Proof.
  intros HS HC HC'. destruct HS as [H1 (B1 & _)|q H1 H2|q a H1 H2 H3 H4 (B1 & _)|q a H1 H2 H3 H4 (B1 & _)|q d H1 H2 H3 _ H4 _|q H1 H2 H3 H4 _]; try congruence.
  - rewrite HC in H2. injection H2 as <-. split; [|done]. intros HM HA. specialize (H4 HM). congruence.
  - rewrite HC in H1. injection H1 as <-. split; [done|]. by intros [].
Qed.
Definition agreeing (vs : list (addr * bool)) : nat := List.length (List.filter snd vs).
Lemma ballot_run vs : forall s p, voting_ok s -> st_cur s = Some p -> NoDup (st_gov s) -> voters s ++ map fst vs ≡ₚ st_gov s ->
  admissible (pr_act p) s = true -> (forall x, pr_act p <> PStaffRemove x) ->
  exists s', mfor (map (fun v => MVote (fst v) (snd v)) vs) run_msg s = (s', Ok tt) /\ st_cur s' = None /\
    if decide (2 * List.length (st_gov s) <= 3 * (List.length (st_agreed s) + agreeing vs))%nat then enacted (pr_act p) s s' else same_rules s s'.
Proof.
  induction vs as [|[a b] vs IH]; intros s p HV HC HG HP HA HN.
  { exfalso. destruct (vo_votes _ HV _ HC) as (_ & _ & HL). rewrite app_nil_r in HP. rewrite HP in HL. lia. }
  cbn [map mfor fst snd]. unfold bind.
  assert (G1 : a ∈ st_gov s) by (rewrite <- HP; apply elem_of_app; right; left).
  assert (ND : NoDup (voters s ++ a :: map fst vs)) by (by rewrite HP).
  assert (G2 : a ∉ voters s).
  { intros H. apply NoDup_app in ND as (_ & ND & _). apply (ND a H). left. }
  destruct (vote_total a b s p HV HC G1 G2) as [s' E]; [auto|]. cbn [run_msg]. rewrite E.
  destruct (vote_run _ _ _ _ HV E) as (q & s1 & R1 & R2 & R3 & R4 & R5 & R6 & R7 & _ & R8).
  rewrite HC in R1. injection R1 as <-.
  assert (GE : st_gov s1 = st_gov s) by apply (rules_eq _ _ R4). destruct R7 as (B1 & B2 & B3 & _).
  assert (LA : (List.length (st_agreed s1) + agreeing vs = List.length (st_agreed s) + agreeing ((a, b) :: vs))%nat).
  { rewrite B2. unfold agreeing. cbn. destruct b; [rewrite app_length|]; cbn; lia. }
  assert (LG : (List.length (voters s) + 1 + List.length vs = List.length (st_gov s))%nat).
  { rewrite <- HP, app_length. cbn. rewrite map_length. lia. }
  assert (VP : voters s1 ++ map fst vs ≡ₚ st_gov s1).
  { rewrite GE, <- HP. unfold voters. rewrite B2, B3. cbn [map fst]. destruct b; solve_Permutation. }
  rewrite <- LA, <- GE.
  destruct R8 as [(L1 & V1 & ->)|(L1 & S1 & C1 & N1 & V1)].
  - destruct (IH s1 p V1 B1) as (s2 & E2 & C2 & X).
    { by rewrite GE. } { done. } { by rewrite (admissible_ext _ _ _ R4 R6). } { done. }
    exists s2. split_and!; [done|done|]. case_decide; [by apply (enacted_ext _ _ s1)|by eapply same_rules_trans].
  - destruct vs; [|cbn in LG; lia]. exists s'. split_and!; [done|done|]. cbn [map] in VP. rewrite app_nil_r in VP.
    destruct (closed _ _ _ S1 B1 C1) as [X1 X2]. rewrite (admissible_ext _ _ _ R4 R6) in X1. unfold agreeing. cbn [List.filter List.length].
    rewrite Nat.add_0_r.
    assert (NV : NoDup (voters s1)) by (by rewrite VP, GE).
    assert (IV : forall m, m ∈ voters s1 -> m ∈ st_gov s1) by (intros m; by rewrite VP).
    case_decide as D.
    + apply (enacted_ext _ _ s1); [done|done|]. apply X1; [|done]. apply majority_tally; [done|done|].
      unfold tally. rewrite <- VP. unfold voters. rewrite app_length, Nat.eqb_refl. cbn. apply Nat.leb_le.
      lia.
    + apply (same_rules_trans _ s1); [done|]. apply X2. intros HM. apply (tally_majority _ NV IV) in HM. revert HM. unfold tally.
      destruct (_ =? _)%nat; [|done]. cbn. intros HM. apply Nat.leb_le in HM. lia.
Qed.
Lemma proposal_run s a n act vs : voting_ok s -> st_cur s = None -> NoDup (st_gov s) -> a :: map fst vs ≡ₚ st_gov s ->
  key_ok (st_now s + st_vperiod s * hour) = true -> paction_valid act = Some true -> admissible act s = true -> (forall x, act <> PStaffRemove x) ->
  exists s', mfor (MPropose a n act :: map (fun v => MVote (fst v) (snd v)) vs) run_msg s = (s', Ok tt) /\ st_cur s' = None /\
    if decide (2 * List.length (st_gov s) <= 3 * (1 + agreeing vs))%nat then enacted act s s' else same_rules s s'.
Proof.
  intros HV HC HG HP HK HX HA HN. assert (G1 : a ∈ st_gov s) by (rewrite <- HP; left).
  destruct (propose_total a n act s HV HC G1 HX HK HA HN) as [s' E]. cbn [mfor run_msg]. unfold bind. rewrite E.
  destruct (propose_run _ _ _ _ _ HV E) as (_ & _ & _ & s1 & R1 & (B1 & B2 & B3 & _) & _ & R3 & R4 & R5). cbv zeta in *.
  assert (GE : st_gov s1 = st_gov s) by apply (rules_eq _ _ R1).
  destruct R5 as [(L1 & V1 & ->)|(L1 & S1 & C1 & N1 & V1)].
  - match type of B1 with _ = Some ?q => destruct (ballot_run vs s1 q V1 B1) as (s2 & E2 & C2 & X) end.
    { by rewrite GE. } { rewrite GE. unfold voters. by rewrite B2, B3. } { cbn [pr_act]. by rewrite (admissible_ext _ _ _ R1 R4). } { done. }
    exists s2. split_and!; [done|done|]. rewrite GE, B2 in X. cbn [List.length pr_act] in X.
    change (1 + agreeing vs)%nat with (1 + agreeing vs)%nat in X. case_decide; [by apply (enacted_ext _ _ s1)|by eapply same_rules_trans].
  - assert (vs = []) as ->. { rewrite <- HP in L1. cbn in L1. rewrite map_length in L1. destruct vs; [done|cbn in L1; lia]. }
    exists s'. split_and!; [done|done|]. destruct (closed _ _ _ S1 B1 C1) as [X1 X2]. cbn [pr_act] in *. rewrite (admissible_ext _ _ _ R1 R4) in X1.
    rewrite L1. rewrite decide_True by (cbn; lia). apply (enacted_ext _ _ s1); [done|done|]. apply X1; [|done].
    split; [by rewrite GE|]. rewrite GE. unfold voters. rewrite B2, B3. cbn [map] in HP. split; [intros m; by rewrite <- HP|].
    exists [a]. split_and!; [apply NoDup_singleton| |rewrite L1; cbn; lia]. intros m Hm. split; [by rewrite <- HP|done].
Qed.
(** A member with two seats *)
Lemma stuck s s' : ~ NoDup (st_gov s) -> vsteps s s' -> same_rules s s'.
Proof.
  intros HN H. induction H as [s|s s1 s2 H1 H2 IH]; [apply same_rules_refl|].
  assert (S1 : same_rules s s1).
  { destruct H1 as [H1|q H1|q a H1|q a H1|q d H1|q H0 [HM _] H3 H4 _]; try done. }
  eapply same_rules_trans; [exact S1|]. apply IH. destruct (rules_eq _ _ S1) as (-> & _). done.
Qed.
