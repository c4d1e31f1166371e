(** * Proofs about votes and infractions *)
From Verif Require Export NodingHist.
Open Scope Z_scope.

(** ** What a vote does to a record *)
Definition vrec (x : ninfo) : Z * bool * Z := (n_missed x, n_jailed x, n_unjail_at x).
Definition vote1 (p : nparams) (h : Z) (r : Z * bool * Z) (v : bool) : Z * bool * Z :=
  let '(m, j, u) := r in
  if v then (0, j, u) else if j then r else
  if np_jail_after p <=? m + 1 then (0, true, h + np_unjail_after p) else (m + 1, false, u).

(** Only the lottery changes *)
Definition lot (s s' : St) : Prop := exists l, s' = s <| st_lottery := l |>.
Lemma lot_same s s' : lot s s' -> st_val s' = st_val s /\ st_oper s' = st_oper s /\ st_np s' = st_np s /\ st_height s' = st_height s.
Proof. intros [l ->]. done. Qed.
Lemma lot_refl s : lot s s.
Proof. exists (st_lottery s). by destruct s. Qed.
Lemma exclude_total x s : exists s', if_in_lottery lottery_exclude x s = (s', Ok (x <| n_lottery := 0 |>)) /\ lot s s'.
Proof.
  unfold if_in_lottery, must, lottery_exclude. destruct (n_lottery x =? 0) eqn:E.
  - exists s. split; [|apply lot_refl]. unfold ret. do 2 f_equal. assert (n_lottery x = 0) by lia. destruct x; cbn in *. by subst.
  - eexists. split; [reflexivity|]. by eexists.
Qed.
Lemma downshift_total a x s : exists s' n, if_in_lottery (lottery_downshift a) x s = (s', Ok (x <| n_lottery := n |>)) /\ lot s s'.
Proof.
  unfold if_in_lottery, must. destruct (n_lottery x =? 0) eqn:E.
  - exists s, (n_lottery x). split; [|apply lot_refl]. unfold ret. do 2 f_equal. by destruct x.
  - unfold lottery_downshift, lottery_exclude. rewrite E. eexists _, _. split; [reflexivity|]. by eexists.
Qed.

Lemma tick_run a s x : st_val s !! a = Some x -> exists y, mark_tick a s = (s <| st_val := <[ a := y ]> (st_val s) |>, Ok tt) /\
  vrec y = vote1 (st_np s) (st_height s) (vrec x) true.
Proof.
  intros E. unfold mark_tick. rewrite (val_update_run a _ s s x _ E eq_refl). eexists. split; [reflexivity|].
  destruct (_ =? 0); done.
Qed.
Lemma stroke_run a s x : st_val s !! a = Some x -> exists s' y, mark_stroke a s = (s', Ok tt) /\
  st_val s' = <[ a := y ]> (st_val s) /\ st_oper s' = st_oper s /\ st_np s' = st_np s /\ st_height s' = st_height s /\
  vrec y = vote1 (st_np s) (st_height s) (vrec x) false.
Proof.
  intros E. unfold mark_stroke, bind at 1, get at 1. unfold bind at 1, get. cbn [vote1 vrec].
  destruct (n_jailed x) eqn:EJ.
  { exists s, x. unfold val_update, val_get, bind. rewrite E, EJ. split; [done|]. rewrite insert_id by done. split_and!; [done..|]. unfold vrec. by rewrite EJ. }
  match goal with |- context[val_update a ?f s] => set (F := f) end.
  assert (HF : exists s1 y, F x s = (s1, Ok (Some y)) /\ lot s s1 /\ vrec y = vote1 (st_np s) (st_height s) (vrec x) false).
  { unfold F. rewrite EJ. cbv zeta.
    match goal with |- context[np_jail_after (st_np s) <=? n_missed ?x1] => set (x1' := x1) end.
    assert (HM : n_missed x1' = n_missed x + 1) by done. unfold vote1, vrec. rewrite EJ, HM. destruct (_ <=? _).
    - match goal with |- context[if_in_lottery lottery_exclude ?x2] => destruct (exclude_total x2 s) as (s1 & E1 & L1) end.
      exists s1. eexists. split; [exact (run_bind _ _ _ _ _ E1)|]. by split.
    - destruct (downshift_total a x1' s) as (s1 & n & E1 & L1). exists s1. eexists. split; [exact (run_bind _ _ _ _ _ E1)|]. split; [done|].
      cbn. by rewrite EJ. }
  destruct HF as (s1 & y & E1 & L1 & HV). rewrite (val_update_run a F s s1 x y E E1).
  apply lot_same in L1 as (V1 & V2 & V3 & V4). eexists _, y. split; [reflexivity|]. cbn. rewrite V1. split_and!; try done.
  unfold vote1, vrec in HV. by rewrite EJ in HV.
Qed.
Lemma byzantine_run a e s x : st_val s !! a = Some x -> exists s' y, mark_byzantine a e s = (s', Ok tt) /\
  st_val s' = <[ a := y ]> (st_val s) /\ st_oper s' = st_oper s /\
  n_infr y = n_infr x ++ [e] /\ n_banned y = (n_banned x || (1 <=? List.length (n_infr x))%nat) /\
  n_status y = (n_status x && (List.length (n_infr x) <? 1)%nat).
Proof.
  intros E. unfold mark_byzantine. match goal with |- context[val_update a ?f s] => set (F := f) end.
  assert (HF : exists s1 y, F x s = (s1, Ok (Some y)) /\ lot s s1 /\ n_infr y = n_infr x ++ [e] /\
    n_banned y = (n_banned x || (1 <=? List.length (n_infr x))%nat) /\ n_status y = (n_status x && (List.length (n_infr x) <? 1)%nat)).
  { unfold F. cbv zeta. change (n_infr (x <| n_infr := n_infr x ++ [e] |>)) with (n_infr x ++ [e]). rewrite app_length.
    change (List.length [e]) with 1%nat.
    destruct (1 <? List.length (n_infr x) + 1)%nat eqn:B; [apply Nat.ltb_lt in B|apply Nat.ltb_ge in B].
    - match goal with |- context[if_in_lottery lottery_exclude ?x2] => destruct (exclude_total x2 s) as (s1 & E1 & L1) end.
      exists s1. eexists. split; [exact (run_bind _ _ _ _ _ E1)|]. cbn [n_infr n_banned n_status]. split; [done|]. split; [done|].
      change (true = (n_banned x || (1 <=? List.length (n_infr x))%nat) /\ false = (n_status x && (List.length (n_infr x) <? 1)%nat)).
      destruct (n_infr x); cbn in *; [lia|]. by rewrite orb_true_r, andb_false_r.
    - match goal with |- context[if_in_lottery (lottery_downshift a) ?x2] => destruct (downshift_total a x2 s) as (s1 & n & E1 & L1) end.
      exists s1. eexists. split; [exact (run_bind _ _ _ _ _ E1)|]. split; [done|]. split; [done|].
      change (n_banned x = (n_banned x || (1 <=? List.length (n_infr x))%nat) /\ n_status x = (n_status x && (List.length (n_infr x) <? 1)%nat)).
      destruct (n_infr x); cbn in *; [|lia]. by rewrite orb_false_r, andb_true_r. }
  destruct HF as (s1 & y & E1 & L1 & HV). rewrite (val_update_run a F s s1 x y E E1).
  apply lot_same in L1 as (V1 & V2 & V3 & V4). eexists _, y. split; [reflexivity|]. cbn. by rewrite V1.
Qed.
Lemma find_run c s a x : st_oper s !! c = Some a -> st_val s !! a = Some x -> find_validator c s = (s, Ok a).
Proof. intros E1 E2. unfold find_validator, validator_by_cons, val_get, bind, get. by rewrite E1, E2. Qed.

Lemma votes_run votes : forall s, known_voters s votes -> exists s', mark_strokes_and_ticks votes s = (s', Ok tt) /\
  st_oper s' = st_oper s /\ st_np s' = st_np s /\ st_height s' = st_height s /\
  forall z x, st_val s !! z = Some x -> exists y, st_val s' !! z = Some y /\
    vrec y = fold_left (vote1 (st_np s) (st_height s)) (votes_of z s votes) (vrec x).
Proof.
  induction votes as [|[c v] votes IH]; intros s HK.
  { exists s. split_and!; [done..|]. intros z x E. eauto. }
  destruct (HK c v ltac:(left)) as (a & x0 & E1 & E2).
  assert (H1 : exists s1 y, (if v then mark_tick a else mark_stroke a) s = (s1, Ok tt) /\
    st_val s1 = <[ a := y ]> (st_val s) /\ st_oper s1 = st_oper s /\ st_np s1 = st_np s /\ st_height s1 = st_height s /\
    vrec y = vote1 (st_np s) (st_height s) (vrec x0) v).
  { destruct v; [|by apply stroke_run]. destruct (tick_run a s x0 E2) as (y & HT & HV). exists (s <| st_val := <[ a := y ]> (st_val s) |>), y. done. }
  destruct H1 as (s1 & y & H1 & V1 & V2 & V3 & V4 & V5).
  destruct (IH s1) as (s2 & H2 & W2 & W3 & W4 & W5).
  { intros c' v' Hc. destruct (HK c' v' ltac:(by right)) as (a' & x' & F1 & F2). exists a'. rewrite V2, V1.
    destruct (decide (a = a')) as [<-|Ha]; [exists y; by rewrite lookup_insert|exists x'; by rewrite lookup_insert_ne]. }
  exists s2. split_and!; [|congruence..|].
  - unfold mark_strokes_and_ticks in *. cbn [mfor]. etransitivity; [eapply run_bind|exact H2].
    etransitivity; [exact (run_bind _ _ _ _ _ (find_run c s a x0 E1 E2))|]. exact H1.
  - intros z x E. unfold votes_of. cbn [List.filter fst]. assert (HV : votes_of z s1 votes = votes_of z s votes) by (unfold votes_of; by rewrite V2).
    unfold votes_of in HV.
    destruct (decide (a = z)) as [<-|Hz].
    + rewrite bool_decide_eq_true_2 by done. cbn [map fold_left snd]. rewrite E in E2. injection E2 as ->.
      destruct (W5 a y) as (w & F1 & F2); [rewrite V1; by rewrite lookup_insert|]. exists w. split; [done|]. rewrite F2, V3, V4, V5. unfold votes_of. by rewrite HV.
    + rewrite bool_decide_eq_false_2 by congruence.
      destruct (W5 z x) as (w & F1 & F2); [rewrite V1; by rewrite lookup_insert_ne|]. exists w. split; [done|]. rewrite F2, V3, V4. unfold votes_of. by rewrite HV.
Qed.

(** ** What everything else does *)
Definition anyone (z : addr) (k : N) : Prop := True.
Lemma step_calm v w g K h o o' : fstep v w g K h o o' -> v = false -> forall x, o = Some x -> exists y, o' = Some y /\
  n_missed y = n_missed x /\ (n_jailed x = false -> n_jailed y = false) /\
  (n_jailed x = true -> h < n_unjail_at x -> n_jailed y = true /\ n_unjail_at y = n_unjail_at x).
Proof.
  intros H -> x ->. inversion H as [x' y HQ|x' Hv|x' Hv HJ|x' u Hv HJ|x' e Hw HI|x' e Hw]; subst; try done.
  - inversion HQ; subst; (eexists; split; [reflexivity|]; cbn; split_and!; try done). intros _ Hu. lia.
  - eexists; split; [reflexivity|]. done.
  - eexists; split; [reflexivity|]. done.
Qed.
Lemma full_calm wi g K s s' : full false wi g K s s' -> forall z x, st_val s !! z = Some x -> exists y, st_val s' !! z = Some y /\
  n_missed y = n_missed x /\ (n_jailed x = false -> n_jailed y = false) /\
  (n_jailed x = true -> st_height s' < n_unjail_at x -> n_jailed y = true /\ n_unjail_at y = n_unjail_at x).
Proof.
  intros [_ HF] z x Hx. specialize (HF z). remember (st_val s' !! z) as o' eqn:Eo. clear Eo. revert x Hx.
  induction HF as [o|o1 o2 o3 HS _ IH]; intros x Hx; [exists x; done|].
  destruct (step_calm _ _ _ _ _ _ _ HS eq_refl x Hx) as (y & Hy & M1 & J1 & U1).
  destruct (IH y Hy) as (w & Hw & M2 & J2 & U2). exists w. split_and!; [done|congruence|auto|].
  intros HJ Hh. destruct (U1 HJ Hh) as [J3 U3]. rewrite <- U3 in *. by apply U2.
Qed.
(** Records stay, whatever happens. *)
Lemma full_kept v w g K s s' z : full v w g K s s' -> is_Some (st_val s !! z) -> is_Some (st_val s' !! z).
Proof.
  intros [_ HF] Hz. specialize (HF z). induction HF as [|o1 o2 o3 HS _ IH]; [done|]. apply IH.
  inversion HS as [? ? HQ| | | | |]; subst; eauto. inversion HQ; subst; eauto.
Qed.

(** The parts of a block *)
Definition parts_of (b : block) (s s' sp sv sw : St) : Prop :=
  full false false true anyone (begin_state b s) sp /\ st_oper sp = st_oper s /\ st_np sp = st_np s /\ st_height sp = st_height s + 1 /\
  fst (mark_strokes_and_ticks (b_votes b) sp) = sv /\ st_oper sv = st_oper s /\ full true false true anyone sp sv /\
  fst (punish_wrongdoers (b_evs b) sv) = sw /\ full false true true anyone sv sw /\
  full false false true anyone sw s' /\ st_height s' = st_height s + 1.
Lemma block_parts b s s' u : run_block b s = Some (s', u) -> exists sp sv sw, parts_of b s s' sp sv sw.
Proof.
  unfold run_block, begin_block. destruct (bind _ _ s) as [s1 [[]|e|e]] eqn:E1; try discriminate.
  apply bind_ok in E1 as ([] & s2 & E2 & E1). apply modify_ok in E2. change (s2 = begin_state b s) in E2.
  apply bind_ok in E1 as ([] & s3 & E3 & E1). unfold noding_begin in E3.
  apply bind_ok in E3 as (r & s4 & E4 & E3). apply bind_ok in E3 as ([] & sp & E5 & E3). apply bind_ok in E3 as ([] & s6 & E6 & E7).
  destruct (end_block _) as [s8 [u8|e|e]] eqn:E8; try discriminate. intros [= <- <-].
  assert (P1 : full false false true anyone s2 sp /\ st_oper sp = st_oper s2 /\ st_np sp = st_np s2 /\ st_height sp = st_height s2).
  { assert (Q : forall R `{!PreOrder R}, rel R (pay_proposer (b_proposer b)) -> (forall s e, R s (s <| st_log := st_log s ++ [e] |>)) -> R s2 sp).
    { intros R PR HR HL. transitivity s4.
      - pose proof (rel_try R (pay_proposer (b_proposer b)) HR s2) as Q. by rewrite E4 in Q.
      - destruct r; [apply ret_ok in E5 as [-> _]; reflexivity|]. apply modify_ok in E5 as ->. apply HL. }
    split; [apply Q; [apply _|auto 8 with frame|intros; by apply full_fields]|].
    split; [apply (Q (same st_oper)); [apply _|auto 8 with frame|intros; done]|].
    split; [apply (Q (same st_np)); [apply _|auto 8 with frame|intros; done]|].
    apply (Q (same st_height)); [apply _|auto 8 with frame|intros; done]. }
  destruct P1 as (P1 & P2 & P3 & P4). rewrite E2 in *.
  assert (S6 : s6 = fst (mark_strokes_and_ticks (b_votes b) sp)).
  { unfold logged, bind, try in E6. by destruct (mark_strokes_and_ticks (b_votes b) sp) as [t [x|e|e]]; cbn in E6 |- *; [injection E6 as <-|injection E6 as <-|discriminate]. }
  assert (S3 : s3 = fst (punish_wrongdoers (b_evs b) s6)).
  { unfold logged, bind, try in E7. by destruct (punish_wrongdoers (b_evs b) s6) as [t [x|e|e]]; cbn in E7 |- *; [injection E7 as <-|injection E7 as <-|discriminate]. }
  assert (HM : forall R `{!PreOrder R}, rel R (perform_schedule hooks) -> (forall s, R s (deliver_txs (b_txs b) s)) -> rel R end_block -> R s3 s8).
  { intros R PR H2 H3 H4.
    transitivity s1; [pose proof (H2 s3) as Q; by rewrite E1 in Q|]. transitivity (deliver_txs (b_txs b) s1); [apply H3|].
    pose proof (H4 (deliver_txs (b_txs b) s1)) as Q. by rewrite E8 in Q. }
  exists sp, s6, s3. unfold parts_of. split_and!; [done|done|done|done|done|..].
  - transitivity (st_oper sp); [|done]. assert (Q : rel (same st_oper) (mark_strokes_and_ticks (b_votes b))) by auto 8 with frame. rewrite S6. apply Q.
  - rewrite S6. by apply ft_votes.
  - done.
  - rewrite S3. by apply ft_evidence.
  - apply HM; [apply _|..].
    + apply bl_schedule; [apply _| |intros; by apply full_fields].
      intros t s'. apply task_rel; [apply _|intros; by apply full_fields|]. intros f Hf. by eapply full_hook.
    + intros t. apply (bl_txs _ (fun _ => True)); [|by apply Forall_forall]. intros t' s' _. by apply full_tx.
    + unfold end_block. apply rel_must. by apply ft_gather.
  - assert (H6 : st_height s6 = st_height sp).
    { assert (Q : rel (same st_height) (mark_strokes_and_ticks (b_votes b))) by auto 8 with frame. rewrite S6. apply Q. }
    assert (H3 : st_height s3 = st_height s6).
    { assert (Q : rel (same st_height) (punish_wrongdoers (b_evs b))) by auto 8 with frame. rewrite S3. apply Q. }
    change (st_height (begin_state b s)) with (st_height s + 1) in P4. rewrite <- P4, <- H6, <- H3.
    apply (HM (same st_height)); [apply _|auto 8 with frame..|].
    + intros t. apply (sw_deliver_txs (same st_height)); auto 8 with frame.
    + auto 8 with frame.
Qed.
Lemma full_more v w g K s s' v' w' : (v = true -> v' = true) -> (w = true -> w' = true) -> full v w g K s s' -> full v' w' g K s s'.
Proof.
  intros Hv Hw [H1 H2]. split; [done|]. intros z. eapply rtc_subrel; [|apply H2]. intros o o' H.
  inversion H; subst; [by apply f_quiet|by constructor; auto..].
Qed.

Lemma vote_block b s s' u z x v : run_block b s = Some (s', u) -> good_np s -> known_voters s (b_votes b) ->
  votes_of z s (b_votes b) = [v] -> st_val s !! z = Some x -> n_jailed x = false ->
  exists y, st_val s' !! z = Some y /\
    let m := if v then 0 else n_missed x + 1 in
    if np_jail_after (st_np s) <=? m then n_jailed y = true /\ n_unjail_at y = st_height s' + np_unjail_after (st_np s)
    else n_jailed y = false /\ n_missed y = m.
Proof.
  intros HB HG HK HV Ex EJ. destruct (block_parts b s s' u HB) as (sp & sv & sw & P1 & P2 & P3 & P4 & HS & _ & _ & _ & P5a & P5b & P6).
  assert (P5 : full false true true anyone sv s') by (transitivity sw; [done|by eapply full_more, P5b]).
  set (s0 := begin_state b s) in *.
  destruct (full_calm _ _ _ _ _ P1 z x Ex) as (x1 & Ex1 & M1 & J1 & _). specialize (J1 EJ).
  destruct (votes_run (b_votes b) sp) as (s2 & E2 & V1 & V2 & V3 & V4).
  { intros c w Hc. destruct (HK c w Hc) as (a & y & F1 & F2). exists a. rewrite P2.
    destruct (full_kept _ _ _ _ _ _ a P1) as [y' Hy]; [exists y; exact F2|]. exists y'. done. }
  rewrite E2 in HS. cbn in HS. subst s2.
  destruct (V4 z x1 Ex1) as (y & Ey & HY). replace (votes_of z sp (b_votes b)) with [v] in HY by (rewrite <- HV; unfold votes_of; by rewrite P2).
  cbn [fold_left] in HY. unfold vrec in HY. rewrite P3, J1, M1, P4, <- P6 in HY. change (st_np s0) with (st_np s) in HY. cbn [vote1] in HY.
  destruct (full_calm _ _ _ _ _ P5 z y Ey) as (w & Ew & M2 & J2 & U2). exists w. split; [done|]. cbv zeta.
  destruct HG as (G1 & G2 & G3 & _). destruct v.
  - injection HY as Y1 Y2 Y3. destruct (_ <=? 0) eqn:B; [lia|]. split; [auto|congruence].
  - destruct (np_jail_after (st_np s) <=? n_missed x + 1) eqn:B.
    + injection HY as Y1 Y2 Y3. destruct (U2 Y2) as [U3 U4]; [lia|]. split; [done|congruence].
    + injection HY as Y1 Y2 Y3. split; [auto|congruence].
Qed.

Lemma good_block b s s' u : st_now s <= b_time b -> run_block b s = Some (s', u) -> good_np s -> good_np s'.
Proof.
  intros HN HB HG. unfold run_block in HB. destruct (begin_block b s) as [s1 [[]|e|e]] eqn:E1; try discriminate.
  destruct (end_block _) as [s2 [u2|e|e]] eqn:E2; try discriminate. injection HB as <- <-.
  pose proof (np_before b s s1 HN E1 HG) as H1. assert (Q : rel (keeps good_np) end_block) by auto 8 with frame.
  specialize (Q (deliver_txs (b_txs b) s1)). rewrite E2 in Q. by apply Q.
Qed.
Lemma block_now b s s' u : st_now s <= b_time b -> run_block b s = Some (s', u) -> st_now s' = b_time b.
Proof.
  intros HN HB. assert (HP : PreOrder (fun _ _ : St => True)) by (by split).
  assert (H : True /\ st_now s' = b_time b); [|apply H].
  apply (bl_block (fun _ _ => True) (fun _ => True) ltac:(done) ltac:(done) ltac:(done) ltac:(done) ltac:(done) ltac:(done) b s s' u); [by apply Forall_forall|done..].
Qed.

Lemma voted_history z J bs : forall vs s s' x, voted z J bs vs s s' -> times_from (st_now s) bs -> good_np s ->
  st_val s !! z = Some x -> n_jailed x = false -> n_missed x < J ->
  (forall n, (n < List.length vs)%nat -> in_a_row (n_missed x) (take n vs) < J) ->
  exists y, st_val s' !! z = Some y /\
    (n_jailed y = true <-> in_a_row (n_missed x) vs = J) /\
    (n_jailed y = false -> n_missed y = in_a_row (n_missed x) vs).
Proof.
  induction bs as [|b bs IH]; intros vs s s' x HV HT HG Ex EJ HM HP; destruct vs as [|v vs]; try done.
  { cbn in HV. subst s'. exists x. cbn in *. split_and!; [done| |done]. rewrite EJ. split; [done|]. lia. }
  destruct HV as (EJA & HK & HO & s1 & u & HB & HV). assert (HJ1 : 1 <= J) by (rewrite <- EJA; apply HG). destruct HT as [HT1 HT2].
  destruct (vote_block b s s1 u z x v HB HG HK HO Ex EJ) as (y & Ey & HY). cbv zeta in HY. rewrite EJA in HY.
  pose proof (block_now b s s1 u HT1 HB) as N1. pose proof (good_block b s s1 u HT1 HB HG) as G1.
  destruct (J <=? (if v then 0 else n_missed x + 1)) eqn:B.
  - (* jailed now: no further block *)
    destruct vs as [|v' vs].
    + destruct bs as [|b' bs]; [|done]. cbn in HV. subst s'. exists y. cbn [in_a_row]. destruct HY as [Y1 _]. destruct v; [lia|].
      split_and!; [done| |congruence]. split; [lia|done].
    + exfalso. specialize (HP 1%nat). cbn in HP. destruct v; lia.
  - destruct HY as [Y1 Y2]. destruct (IH vs s1 s' y) as (w & Ew & W1 & W2); try done.
    + by rewrite N1.
    + rewrite Y2. lia.
    + intros n Hn. rewrite Y2. specialize (HP (S n)). cbn in HP. apply HP. lia.
    + exists w. cbn [in_a_row]. rewrite Y2 in *. done.
Qed.

(** ** Whole histories of records *)
Lemma full_blocks K bs s s' us : times_from (st_now s) bs -> Forall (fun b => Forall (keyed_tx K) (b_txs b)) bs ->
  run_blocks bs s = Some (s', us) -> full true true true K s s'.
Proof.
  intros HT HF H. eapply (bl_blocks (full true true true K) (keyed_tx K)); [..|exact HT|exact HF|exact H].
  - intros b s0 _. split; [cbn; lia|]. intros z. apply rtc_refl.
  - intros p v e. apply okrel_rel. auto 8 with frame.
  - intros t s0. apply task_rel; [apply _|intros; by apply full_fields|]. intros f Hf. by eapply full_hook.
  - intros ks s0. by apply full_fields.
  - intros t s0 Ht. by apply full_tx.
  - apply okrel_rel. unfold end_block. apply rel_must. by apply ft_gather.
Qed.
Lemma any_blocks bs s s' us : times_from (st_now s) bs -> run_blocks bs s = Some (s', us) -> full true true true anyone s s'.
Proof.
  intros HT H. eapply full_blocks; [done| |exact H]. apply Forall_forall. intros b _. apply Forall_forall. done.
Qed.
Lemma jailed_stays K s s' : full true true true K s s' -> forall z x, st_val s !! z = Some x -> n_jailed x = true -> st_height s' < n_unjail_at x ->
  exists y, st_val s' !! z = Some y /\ n_jailed y = true /\ n_unjail_at y = n_unjail_at x.
Proof.
  intros [_ HF] z x Hx. specialize (HF z). remember (st_val s' !! z) as o' eqn:Eo. clear Eo. revert x Hx.
  induction HF as [o|o1 o2 o3 HS _ IH]; intros x Hx HJ HU; [exists x; done|]. subst o1.
  assert (HX : exists y, o2 = Some y /\ n_jailed y = true /\ n_unjail_at y = n_unjail_at x).
  { inversion HS as [x' y HQ|x' Hv|x' Hv HJ'|x' u Hv HJ'|x' e Hw HI|x' e Hw]; subst; try congruence; try (by eexists; split; [reflexivity|]).
    inversion HQ; subst; try (by eexists; split; [reflexivity|]). lia. }
  destruct HX as (y & Hy & J1 & U1). destruct (IH y Hy J1) as (w & Hw & J2 & U2); [lia|]. exists w. split_and!; [done..|congruence].
Qed.
Lemma banned_stays v w g K s s' : full v w g K s s' -> forall z x, st_val s !! z = Some x -> n_banned x = true ->
  exists y, st_val s' !! z = Some y /\ n_banned y = true.
Proof.
  intros [_ HF] z x Hx. specialize (HF z). remember (st_val s' !! z) as o' eqn:Eo. clear Eo. revert x Hx.
  induction HF as [o|o1 o2 o3 HS _ IH]; intros x Hx HJ; [exists x; done|]. subst o1.
  assert (HX : exists y, o2 = Some y /\ n_banned y = true).
  { inversion HS as [x' y HQ| | | | |]; subst; try (by eexists; split; [reflexivity|]).
    inversion HQ; subst; by eexists; split; [reflexivity|]. }
  destruct HX as (y & Hy & J1). by apply (IH y Hy).
Qed.
Definition infr_ok (o : option ninfo) : Prop := match o with Some x => (2 <= List.length (n_infr x))%nat -> n_banned x = true | None => True end.
Lemma infr_grow v w g K s s' z : full v w g K s s' -> (infr_ok (st_val s !! z) -> infr_ok (st_val s' !! z)) /\
  exists l, infractions s' z = infractions s z ++ l.
Proof.
  intros [_ HF]. specialize (HF z). unfold infractions. induction HF as [o|o1 o2 o3 HS _ IH]; [split; [done|exists []; by rewrite app_nil_r]|].
  destruct IH as [IH1 [l2 IH2]].
  assert (HX : (infr_ok o1 -> infr_ok o2) /\ exists l, match o2 with Some x => n_infr x | None => [] end = match o1 with Some x => n_infr x | None => [] end ++ l).
  { inversion HS as [x' y HQ|x' Hv|x' Hv HJ'|x' u Hv HJ'|x' e Hw HI|x' e Hw]; subst; cbn; try (split; [done|exists []; by rewrite app_nil_r]).
    - inversion HQ; subst; cbn; try (split; [done|exists []; by rewrite app_nil_r]); (split; [cbn; lia|exists []; done]).
    - split; [rewrite HI; cbn; lia|by exists [e]].
    - split; [done|by exists [e]]. }
  destruct HX as [H1 [l1 H2]]. split; [auto|]. exists (l1 ++ l2). rewrite IH2, H2. by rewrite app_assoc.
Qed.

(** ** Evidence *)
Lemma evidence_run evs : forall s, (forall c e, (c, e) ∈ evs -> exists a x, st_oper s !! c = Some a /\ st_val s !! a = Some x) ->
  exists s', punish_wrongdoers evs s = (s', Ok tt) /\ st_oper s' = st_oper s /\
  forall z x, st_val s !! z = Some x -> exists y, st_val s' !! z = Some y /\
    n_infr y = n_infr x ++ evidence_of z s evs /\
    n_banned y = (n_banned x || negb (bool_decide (evidence_of z s evs = [])) && (2 <=? List.length (n_infr x ++ evidence_of z s evs))%nat).
Proof.
  induction evs as [|[c e] evs IH]; intros s HK.
  { exists s. split_and!; [done..|]. intros z x E. exists x. change (evidence_of z s []) with (@nil N). rewrite app_nil_r, (bool_decide_eq_true_2 ([] = [])), orb_false_r by done. done. }
  destruct (HK c e ltac:(left)) as (a & x0 & E1 & E2).
  destruct (byzantine_run a e s x0 E2) as (s1 & y & H1 & V1 & V2 & V3 & V4 & _).
  destruct (IH s1) as (s2 & H2 & W2 & W5).
  { intros c' v' Hc. destruct (HK c' v' ltac:(by right)) as (a' & x' & F1 & F2). exists a'. rewrite V2, V1.
    destruct (decide (a = a')) as [<-|Ha]; [exists y; by rewrite lookup_insert|exists x'; by rewrite lookup_insert_ne]. }
  exists s2. split_and!; [|congruence|].
  - unfold punish_wrongdoers in *. cbn [mfor]. etransitivity; [eapply run_bind|exact H2].
    etransitivity; [exact (run_bind _ _ _ _ _ (find_run c s a x0 E1 E2))|]. exact H1.
  - intros z x E. assert (HV : evidence_of z s1 evs = evidence_of z s evs) by (unfold evidence_of; by rewrite V2).
    assert (HC : evidence_of z s ((c, e) :: evs) = (if decide (a = z) then [e] else []) ++ evidence_of z s evs).
    { unfold evidence_of. cbn [List.filter fst]. destruct (decide (a = z)) as [<-|Hz]; [by rewrite bool_decide_eq_true_2|by rewrite bool_decide_eq_false_2 by congruence]. }
    rewrite HC. destruct (decide (a = z)) as [<-|Hz].
    + rewrite E in E2. injection E2 as <-.
      destruct (W5 a y) as (w & F1 & F2 & F3); [rewrite V1; by rewrite lookup_insert|]. exists w. split; [done|]. rewrite HV, V3 in *.
      split; [rewrite F2; by rewrite <- app_assoc|]. rewrite F3, V4. cbn [app]. rewrite (bool_decide_eq_false_2 (e :: _ = [])) by done. cbn [negb andb].
      rewrite !app_length. cbn [List.length]. destruct (n_banned x); [done|]. cbn [orb]. case_bool_decide as HE; cbn [negb andb].
      * rewrite HE. cbn. rewrite orb_false_r. destruct (n_infr x); cbn; [done|]. by rewrite Nat.add_comm.
      * replace (List.length (n_infr x) + 1 + List.length (evidence_of a s evs))%nat with (List.length (n_infr x) + S (List.length (evidence_of a s evs)))%nat by lia.
        destruct (evidence_of a s evs); [done|]. cbn [List.length].
        assert (B : (2 <=? List.length (n_infr x) + S (S (List.length l)))%nat = true) by (apply Nat.leb_le; lia). rewrite B. by rewrite orb_true_r.
    + destruct (W5 z x) as (w & F1 & F2 & F3); [rewrite V1; by rewrite lookup_insert_ne|]. exists w. split; [done|]. by rewrite F2, F3, HV.
Qed.
Lemma quiet_infr v g K s s' z : full v false g K s s' -> is_Some (st_val s !! z) -> infractions s' z = infractions s z /\ banned s' z = banned s z.
Proof.
  intros [_ HF]. specialize (HF z). unfold infractions, banned. induction HF as [o|o1 o2 o3 HS _ IH]; [done|]. intros [x ->].
  assert (HX : exists y, o2 = Some y /\ n_infr y = n_infr x /\ n_banned y = n_banned x).
  { inversion HS as [x' y HQ| | | | |]; subst; try done; try (by eexists; split; [reflexivity|]).
    inversion HQ; subst; by eexists; split; [reflexivity|]. }
  destruct HX as (y & -> & <- & <-). apply IH. eauto.
Qed.
Lemma evidence_block b s s' u z : run_block b s = Some (s', u) ->
  (forall c e, (c, e) ∈ b_evs b -> exists a x, st_oper s !! c = Some a /\ st_val s !! a = Some x) -> is_Some (st_val s !! z) ->
  infractions s' z = infractions s z ++ evidence_of z s (b_evs b) /\
  banned s' z = (banned s z || negb (bool_decide (evidence_of z s (b_evs b) = [])) && (2 <=? List.length (infractions s' z))%nat).
Proof.
  intros HB HK Hz. destruct (block_parts b s s' u HB) as (sp & sv & sw & P1 & P2 & _ & _ & _ & P3 & P4 & HS & _ & P5 & _).
  assert (Q1 : full true false true anyone (begin_state b s) sv) by (transitivity sp; [by eapply full_more, P1|done]).
  destruct (quiet_infr _ _ _ _ _ z Q1 Hz) as [I1 B1].
  destruct (full_kept _ _ _ _ _ _ z Q1 Hz) as [x Ex].
  destruct (evidence_run (b_evs b) sv) as (s2 & E2 & _ & V4).
  { intros c w Hc. destruct (HK c w Hc) as (a & y & F1 & F2). exists a. rewrite P3.
    destruct (full_kept _ _ _ _ _ _ a Q1) as [y' Hy]; [exists y; exact F2|]. exists y'. done. }
  rewrite E2 in HS. cbn in HS. subst s2. destruct (V4 z x Ex) as (y & Ey & F1 & F2).
  destruct (quiet_infr _ _ _ _ _ z P5) as [I2 B2]; [by exists y|].
  assert (HE : evidence_of z sv (b_evs b) = evidence_of z s (b_evs b)) by (unfold evidence_of; by rewrite P3). rewrite HE in *.
  change (infractions (begin_state b s) z) with (infractions s z) in I1. change (banned (begin_state b s) z) with (banned s z) in B1.
  rewrite I2, B2. unfold infractions at 1 3, banned at 1. rewrite Ey. rewrite F1, F2.
  unfold infractions at 1 in I1. unfold banned at 1 in B1. rewrite Ex in I1, B1. by rewrite I1, B1.
Qed.
