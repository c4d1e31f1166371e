(** * C78-C87: what queries answer *)
From Coq Require Import QArith.
From Verif Require Import NameHist NodingHist Props_Profile Spec_Pure Queries Spec_Queries QueryProofs DelegHist StatusProofs QualProofs ScheduleProofs Witness
  Props_Schedule Props_Delegating Props_Noding Props_Network Props_Referral Props_Voting.
Open Scope Z_scope.

(** ** C78 *)

(** The pages of the list of earners and of the history of proposals, one after
    the other, are the whole list, each entry once and in order, as long as the
    number of the last entry asked for fits into 32 bits.  (Missing: numbers
    beyond, see C78_refuted.) *)
Theorem C78_earners_partial : forall s limit n, 0 < limit -> limit * Z.of_nat n < 2^31 -> Z.of_nat (size (st_earn s)) <= limit * Z.of_nat n ->
  lists_accounts (st_earn s) (pages (query_earners s limit) n).
Proof.
  intros s limit n H1 H2 H3. change (2^31) with 2147483648 in H2.
  rewrite (pages_all _ (earn_export s) limit n); [apply earners_listed|done| |].
  - by rewrite (accounts_once _ _ (earners_listed s)).
  - intros k Hk. apply page_of_spec; nia.
Qed.
Print Assumptions C78_earners_partial.
Theorem C78_history_partial : forall s limit n, 0 < limit -> limit * Z.of_nat n < 2^31 -> Z.of_nat (size (st_phist s)) <= limit * Z.of_nat n ->
  lists_store (st_phist s) (pages (query_history s limit) n).
Proof.
  intros s limit n H1 H2 H3. change (2^31) with 2147483648 in H2.
  rewrite (pages_all _ (all_history s) limit n); [apply store_listed|done| |].
  - unfold all_history. pose proof (store_once _ _ (store_listed (st_phist s))) as E. cbv beta in E. lia.
  - intros k Hk. apply page_of_spec; nia.
Qed.
Print Assumptions C78_history_partial.
(** The pages of the history of polls are complete without this restriction. *)
Theorem C78_polls : forall s limit n, 0 < limit -> Z.of_nat (size (st_pollhist s)) <= limit * Z.of_nat n ->
  lists_store (st_pollhist s) (pages (query_poll_history s limit) n).
Proof.
  intros s limit n H1 H3.
  rewrite (pages_all _ (all_polls s) limit n); [apply store_listed|done| |].
  - unfold all_polls. pose proof (store_once _ _ (store_listed (st_pollhist s))) as E. cbv beta in E. lia.
  - intros k Hk. unfold query_poll_history. by destruct (Z.ltb_spec 0 limit); [|lia].
Qed.
Print Assumptions C78_polls.
(** Beyond, the first page comes back: it shows the same entry twice. *)
Theorem C78_refuted : exists s us limit x, run_blocks [price_blk] w0 = Some (s, us) /\ 0 < limit /\
  query_history s limit 1 = [x] /\ query_history s limit 2 = [] /\ query_history s limit 65537 = [x].
Proof.
  destruct (after_runs [price_blk] w0) as [us HR]; [by vm_compute|].
  assert (H : (query_history (after [price_blk] w0) 65536 65537, query_history (after [price_blk] w0) 65536 2,
     List.length (query_history (after [price_blk] w0) 65536 1)) = (query_history (after [price_blk] w0) 65536 1, [], 1%nat)) by (by vm_compute).
  exists (after [price_blk] w0), us, 65536. revert HR H. generalize (after [price_blk] w0). intros s HR H.
  pose proof (f_equal (fun v => v.1.1) H) as H1. pose proof (f_equal (fun v => v.1.2) H) as H2. pose proof (f_equal snd H) as H3. cbn [fst snd] in H1, H2, H3.
  destruct (query_history s 65536 1) as [|x [|y l]] eqn:E; [done| |done]. exists x. split_and!; [done|lia|done..].
Qed.
Print Assumptions C78_refuted.
Example C78_witness : size (st_earn we) = 2%nat /\ map fst (pages (query_earners we 1) 2) = [11; 13]%N /\
  size (st_phist (after [price_blk] w0)) = 1%nat /\ List.length (pages (query_history (after [price_blk] w0) 2) 2) = 1%nat /\
  size (st_pollhist (after [poll_blk; end_blk] w0)) = 1%nat /\ List.length (pages (query_poll_history (after [poll_blk; end_blk] w0) 2) 2) = 1%nat.
Proof. split_and!; by vm_compute. Qed.

(** ** C79 *)

(** The total it announces is what the account gets at the end of the day, if
    until then its delegation and its rate do not change. *)
Theorem C79_total : forall a s q r s1 s2, query_accumulation a s = (q, Ok r) ->
  unskipped s a -> proper_table (dp_table (st_dp s)) -> 0 < st_day s -> small_interest s a (ac_end r) ->
  unskipped s1 a -> proper_table (dp_table (st_dp s1)) ->
  bal s1 a uartrd = bal s a uartrd -> (account_rate s1 a == account_rate s a)%Q ->
  perform_accrue a (ac_end r) s1 = (s2, Ok tt) ->
  next_accrual s a = Some (ac_end r) /\ exists fee l, interest_paid s1 s2 a (ac_total r) fee l.
Proof.
  intros a s q r s1 s2 HQ H1 H2 H3 H4 H5 H6 H7 H8 H9.
  destruct (accumulation_ok _ _ _ _ HQ H1 H2 H3 H4) as (F1 & _ & _ & _ & F5 & _). split; [done|].
  assert (ET : ac_total r = trunc (account_rate s1 a * inject_Z (bal s1 a uartrd))).
  { rewrite F5, H7. apply trunc_eq. by rewrite H8. }
  destruct (C43_interest a (ac_end r) s1 s2 H9 H6 H5) as (_ & [(Z0 & _ & HP & _)|(_ & _ & _ & HP)]).
  - exists 0, []. replace (ac_total r) with 0; [done|]. rewrite ET.
    rewrite (trunc_eq _ 0) by (rewrite Z0; ring). done.
  - rewrite ET. destruct HP as (fee & l & HP & _); [|by exists fee, l]. rewrite <- ET, F5.
    by destruct H4 as (_ & _ & _ & H4 & _).
Qed.
Print Assumptions C79_total.
(** The current amount is what the account would be paid now if it revoked a part
    of its delegation (or nothing if it is negative). *)
Theorem C79_current : forall a s q r n express s', query_accumulation a s = (q, Ok r) ->
  unskipped s a -> proper_table (dp_table (st_dp s)) -> 0 < st_day s -> small_interest s a (ac_end r) ->
  Frac.fden (rv_burn (terms s express)) <> 0 -> revoke_valid (terms s express) = Some true ->
  run_msg (MRevoke a n express) s = (s', Ok tt) ->
  exists fee l, (forall x, bal s' x uartr = bal s x uartr + at_ x splitter fee + at_ x a (Z.max 0 (ac_current r) - fee) + paid_to l x) /\
    0 <= fee <= Z.max 0 (ac_current r) /\ (0 < ac_current r -> fee_of (ac_current r) s = Some fee).
Proof.
  intros a s q r n express s' HQ H1 H2 H3 H4 H5 H6 H7.
  destruct (accumulation_ok _ _ _ _ HQ H1 H2 H3 H4) as (F1 & _ & _ & _ & _ & F6).
  destruct (C41_revoke a n express s s' H7 H5 H6) as (burnt & I & _ & _ & _ & B & _ & HI & _).
  unfold part_interest in HI. rewrite F1 in HI. cbv zeta in HI. rewrite <- F6 in HI.
  destruct H4 as (S1 & _ & _ & _ & S5 & S6). rewrite <- F6 in S5.
  destruct HI as (fee & l & E & L1 & L2 & _); [done..|]. exists fee, l. split; [|done].
  intros x. rewrite B, E. lia.
Qed.
Print Assumptions C79_current.
(** What else it says: when the day ends and began, and the rate. *)
Theorem C79_forecast : forall a s q r, query_accumulation a s = (q, Ok r) ->
  unskipped s a -> proper_table (dp_table (st_dp s)) -> 0 < st_day s -> small_interest s a (ac_end r) -> forecast s a r.
Proof. exact accumulation_ok. Qed.
Print Assumptions C79_forecast.
(** A part of the day for which the account gets no interest is left out of both. *)
Theorem C79_skipped : forall a s q r, query_accumulation a s = (q, Ok r) ->
  proper_skip s a -> proper_table (dp_table (st_dp s)) -> 0 < st_day s -> small_less s a (ac_end r) -> forecast_less s a r.
Proof. exact accumulation_less. Qed.
Print Assumptions C79_skipped.
Definition acc13 : accumulation := mkAcc (T0 + 1000000000 + 3 * day_ns / 2) (T0 + 1000000000 + 5 * day_ns / 2) 4 (Frac.Fr 1 750) 3986666 1993333 None.
Definition wh : St := wd <| st_now := T0 + 1000000000 + 2 * day_ns |>.
Example C79_witness : eval (query_accumulation 13) wh = Ok acc13 /\ st_dp wh = dp0 /\ unskipped wh 13 /\ 0 < st_day wh /\ small_interest wh 13 (ac_end acc13) /\
  bal wi 13 uartrd = bal wh 13 uartrd /\ (account_rate wi 13 == account_rate wh 13)%Q /\ ok (eval (perform_accrue 13 (ac_end acc13)) wi) = true /\
  (let p := terms wh true in revoke_valid p = Some true /\ Frac.fden (rv_burn p) = 100) /\
  ok (eval (run_msg (MRevoke 13 500000000 true)) wh) = true /\
  fee_of 1993333 wh = Some 5979 /\ bal (exec (run_msg (MRevoke 13 500000000 true)) wh) 13 uartr = bal wh 13 uartr + (1993333 - 5979).
Proof.
  do 4 (split; [by vm_compute|]). split.
  { unfold small_interest, fits64. split_and!; vm_compute; first [reflexivity|discriminate]. }
  split_and!; by vm_compute.
Qed.
Definition wk : St := wh <| st_del := alter (fun d => d <| d_missed := Some (Frac.Fr 1 4) |>) 13%N (st_del wh) |>.
Example C79_skipped_witness : ok (eval (query_accumulation 13) wk) = true /\
  (forall r, eval (query_accumulation 13) wk = Ok r -> ac_total r = 2990000 /\ ac_current r = 996666) /\
  (skipped wk 13 == 1 # 4)%Q /\ proper_skip wk 13 /\ 0 < st_day wk /\ small_less wk 13 (ac_end acc13).
Proof.
  split; [by vm_compute|]. split; [intros r; vm_compute; intros [= <-]; done|]. split; [by vm_compute|].
  split; [by vm_compute|]. split; [by vm_compute|].
  unfold small_less, fits64. split_and!; vm_compute; first [reflexivity|discriminate].
Qed.

(** ** C80 *)

(** The verdict on a transition: when there is an answer, it is positive iff the
    account may move; and a request is accepted only if the answer is positive.
    (Where the referrers of an account go round in a circle there is no answer:
    C27.) *)
Theorem C80_verdict : forall subject parent s q v, query_transition subject parent s = (q, Ok v) ->
  (v = true <-> may_move s subject parent).
Proof.
  intros subject parent s q v H. unfold query_transition in H. apply bind_ok in H as (r & s1 & H1 & H). apply ret_ok in H as [_ ->].
  apply (proj1 (try_ok _ _ _ _)) in H1. destruct r as [[]|e].
  - split; [intros _|done]. apply StatusProofs.validate_ok in H1 as (_ & H2 & H3 & H4 & H5 & H6 & H7). split_and!; try done.
    intros (n & Hn & E & HN). destruct (H7 n E) as (m & Hm & Em). by apply (HN m).
  - split; [done|]. intros HM. by apply validate_err in H1.
Qed.
Print Assumptions C80_verdict.
Theorem C80_request : forall subject parent s s', run_msg (MRequestTransition subject parent) s = (s', Ok tt) ->
  query_transition subject parent s = (s, Ok true).
Proof.
  intros subject parent s s' H. cbn [run_msg] in H. unfold msg_request_transition, request_transition in H.
  apply bind_ok in H as ([] & s1 & E & _). assert (s1 = s) as -> by (by apply StatusProofs.validate_ok in E as [-> _]).
  unfold query_transition, bind, try. by rewrite E.
Qed.
Print Assumptions C80_request.
(** The query is answered, after all histories, unless the chain of referrers of
    the destination leads to an account which is its own referrer, and which was
    at the beginning or has been registered as its own referrer since.  Missing:
    those, see [C80_refuted]. *)
Theorem C80_answers_partial : forall bs s s' us,
  lists_right s -> chains_right s -> times_from (st_now s) bs -> run_blocks bs s = Some (s', us) ->
  forall subject parent, (exists q v, query_transition subject parent s' = (q, Ok v)) \/
    exists n, let x := up s' n parent in x <> nobody /\ referrer s' x = x /\ (referrer s x = x \/ self_made bs s x).
Proof.
  intros bs s s' us H1 H2 H3 H4 subject parent. pose proof (C27_history_partial _ _ _ _ H1 H2 H3 H4 subject parent true) as HP.
  unfold query_transition, bind, try, ret. destruct (validate_transition subject parent true s') as [s1 [x|e|e]]; [left; by do 2 eexists..|].
  right. by apply (HP s1 e).
Qed.
Print Assumptions C80_answers_partial.
(** One block of a chain in order registers account 20 as its own referrer; the
    query whether account 11 may move there does not come to an end. *)
Theorem C80_refuted : exists bs s s' us subject parent, network s /\ times_from (st_now s) bs /\ run_blocks bs s = Some (s', us) /\
  forall q v, query_transition subject parent s' <> (q, Ok v).
Proof.
  destruct (after_runs self_block w0) as [us H]; [by vm_compute|].
  exists self_block, w0, (after self_block w0), us, 11%N, 20%N. split_and!.
  - apply network_checked, (bool_decide_unpack _). vm_compute. exact I.
  - vm_compute; repeat split; congruence.
  - exact H.
  - assert (E : ok (eval (query_transition 11 20) (after self_block w0)) = false) by (by vm_compute).
    intros q v Q. unfold eval in E. rewrite Q in E. discriminate E.
Qed.
Print Assumptions C80_refuted.
Example C80_witness : eval (query_transition 15 11) w0 = Ok true /\ eval (query_transition 11 15) w0 = Ok false /\
  eval (query_transition 15 13) w0 = Ok false /\ ok (eval (run_msg (MRequestTransition 15 11)) w0) = true.
Proof. split_and!; by vm_compute. Qed.

(** ** C81 *)

(** Whether an account may run a validator: the answer is positive iff it is
    qualified (C36); one that switches its validator on got a positive answer;
    and with a positive answer it can, unless it is banned or on already or the
    key is in use. *)
Theorem C81_verdict : forall a s q v, query_is_allowed a s = (q, Ok v) -> (v = true <-> qualified s a).
Proof.
  intros a s q v H. unfold query_is_allowed in H. apply bind_ok in H as ([x d] & s1 & H1 & H). apply ret_ok in H as [_ ->].
  by apply is_qualified_spec in H1 as (_ & _ & H1).
Qed.
Print Assumptions C81_verdict.
Theorem C81_on : forall a k s s', run_msg (MOn a k) s = (s', Ok tt) -> exists q, query_is_allowed a s = (q, Ok true).
Proof.
  intros a k s s' H. cbn [run_msg] in H. apply bind_ok in H as ([] & s1 & H0 & H). apply ensure_ok in H0 as [-> _].
  unfold switch_on in H. apply bind_ok in H as (r & s1 & H0 & H). apply get_ok in H0 as [-> ->].
  do 2 (apply bind_ok in H as ([] & s1 & H0 & H); apply ensure_ok in H0 as [-> _]).
  apply bind_ok in H as ([[b found] active] & s1 & H1 & H).
  assert (s1 = s) as ->. { pose proof (sw_validator_by_cons eq k s) as E. by rewrite H1 in E. }
  apply bind_ok in H as ([] & s1 & H0 & H); apply ensure_ok in H0 as [-> _].
  apply bind_ok in H as ([q d] & s1 & H2 & H).
  apply bind_ok in H as ([] & s2 & H0 & _); apply ensure_ok in H0 as [-> ->]. exists s1. unfold query_is_allowed, bind. by rewrite H2.
Qed.
Print Assumptions C81_on.
Theorem C81_accepted : forall a k s q, query_is_allowed a s = (q, Ok true) -> k <> 0%N -> fits64 (delegated_below s a) ->
  (forall x, st_val s !! a = Some x -> n_banned x = false /\ n_status x = false) -> key_free s k ->
  exists s', run_msg (MOn a k) s = (s', Ok tt).
Proof.
  intros a k s q H Hk HF HX HK. unfold query_is_allowed in H. apply bind_ok in H as ([x d] & s1 & H1 & H). apply ret_ok in H as [_ <-].
  assert (ED : s1 = s /\ d = delegated_below s a) by (by apply is_qualified_spec in H1 as (-> & -> & _)). destruct ED as [-> ->].
  cbn [run_msg]. unfold bind at 1, ensure at 1. destruct (N.eqb_spec k 0%N) as [|_]; [done|]. cbn [negb ret].
  unfold switch_on. unfold ret at 1. rewrite NameProofs.run_get.
  assert (EC : exists b f c, validator_by_cons k s = (s, Ok (b, f, c)) /\ f && c = false).
  { unfold validator_by_cons. rewrite NameProofs.run_get. destruct (st_oper s !! k) as [b|] eqn:E.
    - destruct (HK b E) as (y & Ey & HN). unfold bind, val_get. rewrite Ey. exists b, true, (n_active y && bool_decide (k = n_pub y)). split; [done|].
      cbn [andb]. destruct (n_active y) eqn:EA; [|done]. cbn [andb]. apply bool_decide_eq_false. intros ->. apply HN. unfold is_validator. by rewrite Ey.
    - by exists nobody, false, false. }
  destruct EC as (b & f & c & EC & EF).
  assert (EI : Frac.to_int64 (delegated_below s a) = Some (delegated_below s a)).
  { clear -HF. unfold Frac.to_int64, Frac.is_int64. unfold fits64 in HF. destruct (_ && _) eqn:E; [done|]. exfalso.
    apply andb_false_iff in E as [E|E]; [apply Z.leb_gt in E|apply Z.ltb_ge in E]; lia. }
  destruct (st_val s !! a) as [y|] eqn:Ey.
  - destruct (HX y eq_refl) as [-> ->]. cbn [negb]. unfold bind, ensure, ret. cbn [negb]. rewrite EC. cbv beta iota. rewrite EF. cbn [negb]. rewrite H1. cbv beta iota.
    unfold lift. rewrite EI. unfold get, val_update, bind, val_get, ret. cbv beta iota. rewrite Ey. by eexists.
  - cbn [negb]. unfold bind, ensure, ret. cbn [negb]. rewrite EC. cbv beta iota. rewrite EF. cbn [negb]. rewrite H1. cbv beta iota.
    unfold lift. rewrite EI. by eexists.
Qed.
Print Assumptions C81_accepted.
Example C81_witness : eval (query_is_allowed 13) (after (take 1 on_blocks) wn) = Ok true /\ eval (query_is_allowed 14) wn = Ok false /\
  st_val (after (take 1 on_blocks) wn) !! 13%N = None /\ key_free (after (take 1 on_blocks) wn) 103 /\ delegated_below (after (take 1 on_blocks) wn) 13 = 27980000002.
Proof. split_and!; [by vm_compute..| |by vm_compute]. assert (E : st_oper (after (take 1 on_blocks) wn) !! 103%N = None) by (by vm_compute). intros b. by rewrite E. Qed.

(** ** C84 *)

(** The queries about the schedule: all pending tasks, and those of a period, by time. *)
Theorem C84_all : forall bs s s' us, run_blocks bs s = Some (s', us) -> sched_ok s -> lists_tasks s' (fun _ => true) (query_tasks s').
Proof.
  intros bs s s' us H HS. apply (tasks_listed s' (fun _ => true)). by eapply sched_ok_blocks.
Qed.
Print Assumptions C84_all.
Theorem C84_between : forall bs s s' us since to q ts, run_blocks bs s = Some (s', us) -> sched_ok s ->
  query_tasks_between since to s' = (q, Ok ts) -> lists_tasks s' (fun k => (since <=? k) && (k <? to)) ts.
Proof.
  intros bs s s' us since to q ts H HS HQ. unfold query_tasks_between, get_tasks, check_key in HQ.
  do 2 (apply bind_ok in HQ as ([] & ? & H1 & HQ); apply assert_ok in H1 as [-> _]). apply get_ok in HQ as [_ ->].
  apply (tasks_listed s' (fun k => (since <=? k) && (k <? to))). by eapply sched_ok_blocks.
Qed.
Print Assumptions C84_between.
Example C84_witness : sched_ok w0 /\ runs deleg_blocks w0 = true /\ List.length (query_tasks wd) = 10%nat /\
  option_map t_hook (head (query_tasks wd)) = Some HAccrue /\ ok (eval (query_tasks_between (st_now wd) (st_now wd + 2 * day_ns)) wd) = true.
Proof. split; [apply w0_sched_ok|]. split_and!; by vm_compute. Qed.

(** ** C85 *)

(** The counts the poll query shows are the numbers of accounts whose recorded
    answer is yes and no. *)
Theorem C85_poll : forall bs s s' us p y n, poll_ok s -> run_blocks bs s = Some (s', us) -> query_poll s' = Some (p, y, n) ->
  st_poll s' = Some p /\ y = answers s' true mod 2^64 /\ n = answers s' false mod 2^64.
Proof.
  intros bs s s' us p y n HP HB HQ. destruct (C60_counters bs s s' us HP HB) as [H1 H2]. unfold query_poll in HQ.
  destruct (st_poll s') as [p'|]; [|done]. injection HQ as -> <- <-. done.
Qed.
Print Assumptions C85_poll.
Example C85_witness : poll_ok w0 /\ runs [poll_blk] w0 = true /\ option_map (fun r => (snd (fst r), snd r)) (query_poll (after [poll_blk] w0)) = Some (2, 1).
Proof. split; [apply w0_polls|]. split_and!; by vm_compute. Qed.

(** ** C86 *)

(** The status query tells whether the requirements of the table are met. *)
Theorem C86_status : forall a st s q v, query_check_status a st s = (q, Ok v) -> counted (ref_get s) (ref_get s a) ->
  (1 <= st <= 9 /\ st <> 8) /\ (v = true <-> meets (ref_get s) (ref_get s a) st).
Proof.
  intros a st s q v H HC. unfold query_check_status in H. apply bind_ok in H as ([] & s1 & H1 & H). apply ensure_ok in H1 as [-> H1].
  apply bind_ok in H as (s1 & s2 & H2 & H). apply get_ok in H2 as [-> ->]. apply lift_ok in H as [_ H]. cbn [id] in H.
  split; [lia|]. by apply (status_req_spec _ _ _ _ HC) in H.
Qed.
Print Assumptions C86_status.
(** ... and for an account of that status this is what decides whether it keeps it (C25). *)
Example C86_witness : eval (query_check_status 11 1) (after (take 2 growth) w0) = Ok true /\ eval (query_check_status 11 2) (after (take 2 growth) w0) = Ok false /\
  ok (eval (query_check_status 11 8) w0) = false /\ counted (ref_get (after (take 2 growth) w0)) (ref_get (after (take 2 growth) w0) 11) /\
  r_arefs (ref_get (after (take 2 growth) w0) 11) = [13%N].
Proof.
  split; [by vm_compute|]. split; [by vm_compute|]. split; [by vm_compute|]. split; [|by vm_compute].
  assert (E : r_arefs (ref_get (after (take 2 growth) w0) 11) = [13%N]) by (by vm_compute). unfold counted. rewrite E. clear E.
  intros x Hx. apply elem_of_list_singleton in Hx as ->. split; [|by vm_compute].
  apply (bool_decide_unpack _). vm_compute. exact I.
Qed.

(** ** C87 *)

(** In the histories of C21 the sums of coins are those of the account and of
    its lines, as far as the status opens them and the depth asked for allows,
    up to line 9.  (Missing: the tenth line, see C22; depth 0, see below; and
    what is missing in C21.) *)
Lemma sum_lines s l (f : addr -> Z) a m n : sum_upto m l = Some n -> line l 0 = f a ->
  (forall k, (1 <= k <= m)%nat -> line l k = sum (map f (at_line s k a))) -> n = in_lines s f a m.
Proof.
  intros H H0 HL. destruct l as [|x l]; [by destruct m|]. apply sum_upto_spec in H. subst n. unfold in_lines.
  cbn [take fold_right]. change (line (x :: l) 0) with x in H0. rewrite H0. f_equal.
    assert (E : map (fun k => sum (map f (at_line s k a))) (seq 1 m) = map (line l) (seq 0 m)).
    { rewrite <- seq_shift, map_map. apply map_ext_in. intros k Hk. apply in_seq in Hk. rewrite <- HL by lia. done. }
    rewrite E. clear. revert l. induction m as [|m IH]; intros l; [done|]. cbn [seq map sum fold_right]. rewrite <- seq_shift, map_map.
    destruct l as [|y l].
    + cbn [take fold_right]. change (line [] 0) with 0. specialize (IH []). rewrite take_nil in IH. cbn [fold_right] in IH. cbn. cbn in IH. exact IH.
    + cbn [take fold_right]. change (line (y :: l) 0) with y. f_equal. apply IH.
Qed.
Theorem C87_partial : forall bs s s' us,
  network s -> (forall x, x ∈ members s -> own_line_right s x) ->
  times_from (st_now s) bs -> regular bs s -> run_blocks bs s = Some (s', us) ->
  aborts s' = aborts s ->
  (forall x, x ∈ members s' -> x ∈ members s \/ registered_in bs s x) ->
  forall a depth q n d, a ∈ members s' -> a <> nobody -> query_coins a depth s' = (q, Ok (n, d)) ->
    let m := Nat.min (opened (status s' a)) (Z.to_nat depth) in
    1 <= depth -> (m <= 9)%nat -> n = in_lines s' (holding s') a m /\ d = in_lines s' (delegation s') a m.
Proof.
  intros bs s s' us H1 H2 H3 H4 H5 H6 H7 a depth q n d Ha Hn HQ m Hd Hm.
  destruct (C21_partial _ _ _ _ H1 H2 H3 H4 H5 H6 H7 a Ha Hn) as (L1 & L2 & L3).
  assert (EM : Nat.min (lines_opened (r_status (ref_get s' a))) (Z.to_nat depth) = m).
  { unfold m, status, lines_opened, opened. clear. generalize (r_status (ref_get s' a)). intros st.
    destruct (Z.eqb_spec st 1) as [->|]; [done|]. destruct (Z.eqb_spec st 2) as [->|]; [done|]. destruct (Z.eqb_spec st 3) as [->|]; [done|].
    f_equal. destruct st as [|[[?|?|]|[?|?|]|]|?]; try done; congruence. }
  unfold query_coins, coins_in_network, delegated_to_depth, delegated_in_network in HQ.
  destruct (Z.leb_spec depth 0); [lia|]. destruct (Z.ltb_spec depth 0); [lia|].
  apply bind_ok in HQ as (n' & s1 & E1 & HQ). apply bind_ok in E1 as (r & s2 & E2 & E1). apply get_ok in E2 as [-> ->]. apply lift_ok in E1 as [-> E1].
  apply bind_ok in HQ as (d' & s1 & E3 & HQ). apply bind_ok in E3 as (r & s2 & E2 & E3). apply get_ok in E2 as [-> ->]. apply lift_ok in E3 as [-> E3].
  apply ret_ok in HQ as [_ HQ]. rewrite EM in E1, E3.
  assert (n = n') as -> by congruence. assert (d = d') as -> by congruence. clearbody m.
  split; (eapply sum_lines; [eassumption|done|]); intros k Hk; apply L3; lia.
Qed.
Print Assumptions C87_partial.
(** Without a limit (depth 0) the total is that of all open lines but the
    delegated sum only the account's own. *)
Theorem C87_refuted : exists bs s' us n d d', run_blocks bs w0 = Some (s', us) /\
  eval (query_coins 10 0) s' = Ok (n, d) /\ eval (query_coins 10 9) s' = Ok (n, d') /\ d < d'.
Proof.
  destruct (after_runs growth w0) as [us H]; [by vm_compute|]. exists growth, (after growth w0), us.
  assert (E : exists n d d', eval (query_coins 10 0) (after growth w0) = Ok (n, d) /\ eval (query_coins 10 9) (after growth w0) = Ok (n, d') /\ d < d').
  { clear. do 3 eexists. split; [by vm_compute|]. split; [by vm_compute|]. by vm_compute. }
  destruct E as (n & d & d' & E). exists n, d, d'. split; [exact H|exact E].
Qed.
Print Assumptions C87_refuted.
Example C87_witness :
  (forall x, x ∈ members w0 -> own_line_right w0 x) /\ aborts (after growth w0) = aborts w0 /\
  (forall x, x ∈ members (after growth w0) -> x ∈ members w0 \/ registered_in growth w0 x) /\
  eval (query_coins 10 9) (after growth w0) = Ok (999996556581, 4992991001) /\
  eval (query_coins 10 1) (after growth w0) <> Ok (999996556581, 4992991001) /\
  in_lines (after growth w0) (holding (after growth w0)) 10 9 = 999996556581.
Proof.
  split; [apply own_checked, (bool_decide_unpack _); vm_compute; exact I|]. split; [by vm_compute|].
  split; [apply registered_checked, (bool_decide_unpack _); vm_compute; exact I|]. split_and!; by vm_compute.
Qed.

(** ** C82 *)
Lemma w0_findable : findable w0.
Proof.
  assert (P1 : map_Forall (fun (k : list N) a => is_Some (st_prof w0 !! a)) (st_nick w0)) by (apply (bool_decide_unpack _); by vm_compute).
  assert (P2 : map_Forall (fun (c : Z) a => option_map p_card (st_prof w0 !! a) = Some c) (st_card w0)) by (apply (bool_decide_unpack _); by vm_compute).
  split; [exact P1|]. intros c a H. specialize (P2 c a H). cbn beta in P2. clear P1 H. destruct (st_prof w0 !! a) as [p|]; [|done].
  exists p. split; [done|]. cbn in P2. congruence.
Qed.

(** The query by card number finds exactly the account with the card, and the
    query by nickname never fails on the way: whoever it finds has a profile. *)
Theorem C82_card : forall bs s s' us c, names_ok s -> findable s -> times_from (st_now s) bs -> run_blocks bs s = Some (s', us) ->
  (forall a p, eval (query_by_card c) s' = Ok (a, p) -> st_prof s' !! a = Some p /\ p_card p = c) /\
  (forall a p, st_prof s' !! a = Some p -> p_card p = c -> c <> 0 -> eval (query_by_card c) s' = Ok (a, p)) /\
  (forall e, eval (query_by_card c) s' <> Panic e).
Proof.
  intros bs s s' us c HN HF HT HB. destruct (index_blocks _ _ _ _ HT HB HN HF) as [HN' [_ F2]]. clear -HN' F2.
  unfold query_by_card, query_by_owner, eval, bind, get, lift, fail, ret.
  pose proof (F2 c) as F. destruct (st_card s' !! c) as [b|] eqn:E; cbn.
  - destruct (F b eq_refl) as (q & Hq & HC). rewrite Hq. cbn. split_and!; [|intros a p Hp Hc H0|done].
    + intros a p X. assert (a = b) as -> by congruence. assert (p = q) as -> by congruence. done.
    + destruct (no_card _ HN' a p Hp ltac:(congruence)) as [E1 _]. rewrite Hc in E1. congruence.
  - split_and!; [done| |done]. intros a p Hp Hc H0. destruct (no_card _ HN' a p Hp ltac:(congruence)) as [E1 _]. congruence.
Qed.
Print Assumptions C82_card.
Theorem C82_safe : forall bs s s' us n, names_ok s -> findable s -> times_from (st_now s) bs -> run_blocks bs s = Some (s', us) ->
  (forall a p, eval (query_by_nickname n) s' = Ok (a, p) -> st_prof s' !! a = Some p) /\
  (forall e, eval (query_by_nickname n) s' <> Panic e).
Proof.
  intros bs s s' us n HN HF HT HB. destruct (index_blocks _ _ _ _ HT HB HN HF) as [HN' [F1 _]]. clear -HN' F1.
  unfold query_by_nickname, query_by_owner, eval, bind, get, lift, fail, ret.
  pose proof (F1 (lower s' n)) as F. unfold nick_owner. destruct (st_nick s' !! lower s' n) as [b|] eqn:E; cbn; [|done].
  destruct (F b eq_refl) as (q & Hq). rewrite Hq. cbn. split; [|done].
  intros a p X. assert (a = b) as -> by congruence. assert (p = q) as -> by congruence. done.
Qed.
Print Assumptions C82_safe.
(** The query by nickname finds an account that does not have the nickname: it
    was created with blanks around it and has another one now. *)
Theorem C82_refuted : exists bs s s' us n a p, names_ok s /\ names_clean s /\ findable s /\ times_from (st_now s) bs /\ run_blocks bs s = Some (s', us) /\
  eval (query_by_nickname n) s' = Ok (a, p) /\ nick_key s' (p_nick p) <> nick_key s' n.
Proof.
  assert (HR : runs blank_hist w0 = true) by by vm_compute. destruct (after_runs _ _ HR) as [us HB].
  assert (E : exists p, eval (query_by_nickname abc) (after blank_hist w0) = Ok (20%N, p) /\ nick_key (after blank_hist w0) (p_nick p) <> nick_key (after blank_hist w0) abc).
  { clear. eexists. split; [by vm_compute|]. apply (bool_decide_unpack _). vm_compute. exact I. }
  destruct E as [p E]. exists blank_hist, w0, (after blank_hist w0), us, abc, 20%N, p.
  split; [apply w0_names|]. split; [apply w0_clean|]. split; [apply w0_findable|]. split; [vm_compute; repeat split; congruence|]. split; [exact HB|exact E].
Qed.
Print Assumptions C82_refuted.
(** It finds exactly the account with the nickname after a history in which no
    message gives a nickname with blanks around it.  (Missing: the other
    histories, see above.) *)
Theorem C82_nickname_partial : forall bs s s' us n, names_ok s -> names_clean s -> findable s -> times_from (st_now s) bs ->
  Forall (fun b => Forall (tx_trimmed s) (b_txs b)) bs -> run_blocks bs s = Some (s', us) ->
  (forall a p, eval (query_by_nickname n) s' = Ok (a, p) -> st_prof s' !! a = Some p /\ lower s' (p_nick p) = lower s' n) /\
  (forall a p, st_prof s' !! a = Some p -> lower s' (p_nick p) = lower s' n -> n <> [] -> eval (query_by_nickname n) s' = Ok (a, p)).
Proof.
  intros bs s s' us n HN HC HF HT HTr HB. destruct (index_blocks _ _ _ _ HT HB HN HF) as [HN' [F1 _]].
  destruct (clean_blocks _ _ _ _ HT HTr HB eq_refl HN HC) as (_ & _ & [C1 C2]). clear -HN' F1 C1 C2.
  unfold query_by_nickname, query_by_owner, eval, bind, get, lift, fail, ret.
  assert (HI : forall a p, st_prof s' !! a = Some p -> lower s' (p_nick p) = lower s' n -> n <> [] -> st_nick s' !! lower s' n = Some a).
  { intros a p Hp Hl Hn. pose proof (C1 a p Hp) as Ht. unfold trimmed in Ht. pose proof (no_nick _ HN' a p Hp) as X.
    unfold nick_key in X. rewrite Ht, Hl in X. apply X. intros Hz. apply Hn. apply (lower_nil s'). rewrite <- Hl, Hz. done. }
  unfold nick_owner. destruct (st_nick s' !! lower s' n) as [b|] eqn:E; cbn.
  - destruct (C2 _ _ E) as (q & Hq & _ & HL). rewrite Hq. cbn. split.
    + intros a p X. assert (a = b) as -> by congruence. assert (p = q) as -> by congruence. done.
    + intros a p Hp Hl Hn. specialize (HI a p Hp Hl Hn). congruence.
  - split; [done|]. intros a p Hp Hl Hn. specialize (HI a p Hp Hl Hn). congruence.
Qed.
Print Assumptions C82_nickname_partial.
Example C82_witness : names_ok w0 /\ names_clean w0 /\ findable w0 /\ times_from (st_now w0) [alice_blk] /\
  Forall (fun b => Forall (tx_trimmed w0) (b_txs b)) [alice_blk] /\ runs [alice_blk] w0 = true /\
  match eval (query_by_nickname alice2) (after [alice_blk] w0) with Ok (a, p) => a = 11%N /\ p_nick p = alice | _ => False end /\
  match eval (query_by_card 3735928558) (after [alice_blk] w0) with Ok (a, p) => a = 11%N /\ p_nick p = alice | _ => False end /\
  eval (query_by_nickname abc) (after [alice_blk] w0) = Err (ErrMsg "not found").
Proof.
  split; [apply w0_names|]. split; [apply w0_clean|]. split; [apply w0_findable|]. split; [vm_compute; repeat split; congruence|].
  split; [|split_and!; by vm_compute]. repeat first [apply Forall_cons; split|apply Forall_nil; exact I|by vm_compute].
Qed.

(** ** C83 *)

(** After every block of a history the states of the validators that the query
    tells are those of the block: the top validators, at most as many as
    configured, and the lucky ones have power, and all other active validators
    are spare. *)
Theorem C83_states : forall bs b s s' s'' us u, run_blocks bs s = Some (s', us) -> run_block b s' = Some (s'', u) ->
  times_from (st_now s) bs -> st_now s' <= b_time b -> proper_nparams (st_np s) -> sound_records s ->
  (forall a, query_state s'' a = VTop \/ query_state s'' a = VLucky <-> power_of s'' a <> 0) /\
  (forall a, query_state s'' a = VSpare <-> is_validator s'' a = true /\ power_of s'' a = 0) /\
  (forall l, NoDup l -> Forall (fun a => query_state s'' a = VTop) l -> Z.of_nat (List.length l) <= np_max (st_np s'')) /\
  (forall t z, query_state s'' t = VTop -> query_state s'' z = VLucky \/ query_state s'' z = VSpare ->
     forall x y, st_val (before_updates b s') !! t = Some x -> st_val (before_updates b s') !! z = Some y -> n_active y = true ->
       n_score y < n_score x \/ (n_score x = n_score y /\ n_ok y <= n_ok x)).
Proof.
  intros bs b s s' s'' us u HB Hb HT HN HP HS.
  destruct (usable_blocks anykey ltac:(done) False ltac:(done) ∅ bs s s' us HT) as [HU _]; [|done|by apply usable_any|done|].
  { apply Forall_forall. intros b' _. apply keyed_any. }
  unfold run_block in Hb. unfold before_updates, exec. destruct (begin_block b s') as [s1 [[]|e|e]] eqn:E1; try discriminate. cbn [fst].
  destruct (end_ok anykey ltac:(done) False ltac:(done) ∅ b s' s1 (keyed_any _) HN E1 HU ltac:(done)) as
    (s2 & us2 & T & L & HE & _ & _ & M1 & _ & _ & _ & M4 & M5 & M6 & M7 & M8 & M9).
  rewrite HE in Hb. injection Hb as <- <-. clear HB E1 HU HE HT HN.
  assert (Q1 : forall a, a ∈ T ++ L <-> query_state s2 a = VTop \/ query_state s2 a = VLucky).
  { intros a. split.
    - intros Ha. destruct (proj1 (M1 a) Ha) as (x & Hx & Hp). destruct (M9 a x Ha Hx) as [A1 A2]. unfold query_state. rewrite Hx.
      unfold n_active in A1. destruct (n_banned x), (n_jailed x), (n_status x); try done. cbn. destruct (Z.eqb_spec (n_power x) 0); [done|].
      destruct (n_lottery x =? 0); auto.
    - intros H. apply M1. unfold query_state in H. destruct (st_val s2 !! a) as [x|]; [|by destruct H]. exists x. split; [done|]. intros Hz.
      rewrite Hz in H. destruct (n_banned x), (n_jailed x), (n_status x); cbn in H; by destruct H. }
  assert (Q2 : forall a, query_state s2 a = VTop -> a ∈ T).
  { intros a Ha. assert (Hm : a ∈ T ++ L) by (apply Q1; by left). destruct (proj1 (M1 a) Hm) as (x & Hx & Hp). apply (M9 a x Hm Hx).
    unfold query_state in Ha. rewrite Hx in Ha. destruct (n_banned x), (n_jailed x), (n_status x), (n_power x =? 0); try done.
    cbn in Ha. destruct (Z.eqb_spec (n_lottery x) 0); done. }
  split_and!.
  - intros a. rewrite <- Q1, M1. unfold power_of. destruct (st_val s2 !! a) as [x|]; [|split; [by intros (y & ? & _)|done]].
    split; [by intros (y & [= <-] & Hy)|eauto].
  - intros a. unfold query_state, is_validator, power_of, n_active. destruct (st_val s2 !! a) as [x|]; [|split; [done|by intros [? _]]].
    destruct (n_banned x), (n_jailed x), (n_status x); cbn; try (split; [done|by intros [? _]]).
    destruct (Z.eqb_spec (n_power x) 0); [done|]. destruct (n_lottery x =? 0); (split; [done|by intros [_ ?]]).
  - intros l Hd Hl. etransitivity; [|exact M6]. apply Nat2Z.inj_le. apply submseteq_length, NoDup_submseteq; [done|].
    intros a Ha. apply Q2. rewrite Forall_forall in Hl. by apply Hl.
  - intros t z Ht Hz x y Hx Hy Ha.
    assert (Hn : z ∉ T).
    { intros Hi. assert (Hm : z ∈ T ++ L) by (apply elem_of_app; by left). destruct (proj1 (M1 z) Hm) as (w & Hw & Hp). pose proof (proj2 (proj2 (M9 z w Hm Hw)) Hi) as H0.
      unfold query_state in Hz. rewrite Hw, H0 in Hz. destruct (n_banned w), (n_jailed w), (n_status w); cbn in Hz; try (by destruct Hz).
      destruct (Z.eqb_spec (n_power w) 0); [done|]. by destruct Hz. }
    destruct (M8 z y Hy Ha Hn) as [_ G]. exact (G t x (Q2 t Ht) Hx).
Qed.
Print Assumptions C83_states.
(** The other states, at any time: banned, jailed, and off for all the rest. *)
Theorem C83_off : forall s a,
  (query_state s a = VBan <-> banned s a = true) /\
  (query_state s a = VJail <-> jailed s a = true /\ banned s a = false) /\
  (query_state s a = VOff <-> banned s a = false /\ jailed s a = false /\ is_validator s a = false).
Proof.
  intros s a. unfold query_state, banned, jailed, is_validator, n_active. destruct (st_val s !! a) as [x|]; [|naive_solver].
  destruct (n_banned x), (n_jailed x), (n_status x); cbn; try naive_solver; (destruct (n_power x =? 0); [naive_solver|destruct (n_lottery x =? 0); naive_solver]).
Qed.
Print Assumptions C83_off.
Example C83_witness : proper_nparams (st_np wn) /\ sound_records wn /\ times_from (st_now wn) on_blocks /\ runs on_blocks wn = true /\
  map (query_state wn1) [10; 11; 12; 13; 14; 15; 99]%N = [VTop; VTop; VSpare; VLucky; VSpare; VSpare; VOff] /\
  np_max (st_np wn1) = 2 /\ query_state (after ev_blocks wn1) 11 = VBan.
Proof.
  destruct C35_witness as (_ & H1 & _ & H2 & H3 & _). split; [exact H2|]. split; [exact H3|]. split; [exact H1|]. clear. split_and!; by vm_compute.
Qed.
