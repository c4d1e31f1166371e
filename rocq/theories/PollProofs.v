(** * Proofs about polls *)
From Coq Require Import QArith Lqa.
From Verif Require Export VotingProofs FracProofs QualProofs.
Open Scope Z_scope.

(** ** What polls look at.  [D]: times at which a task for a poll may be left over *)
Record pinv (D : Z -> Prop) (s : St) : Prop := {
  pi_yes : st_yes s = answers s true mod 2^64;
  pi_no : st_no s = answers s false mod 2^64;
  pi_none : st_poll s = None -> st_answers s = ∅;
  pi_quorum : forall p, st_poll s = Some p -> forall q, po_quorum p = Some q -> Frac.fden q <> 0;
  pi_task : forall p, st_poll s = Some p -> Task (po_end p) HPoll 0%N ∈ tasks_at s (po_end p);
  pi_only : forall k t, t ∈ tasks_at s k -> t_hook t = HPoll -> D k \/ exists p, st_poll s = Some p /\ k = po_end p;
  pi_period : 0 < st_pperiod s * hour < 2^63 }.
Lemma pinv_ok s : pinv (fun _ => False) s <-> poll_ok s.
Proof. split; intros []; split; try done; intros k t H1 H2; [destruct (pi_only0 k t H1 H2); tauto|right; eauto]. Qed.
Definition plive (s : St) : Prop := forall p, st_poll s = Some p -> st_now s < po_end p.
Definition prel (D : Z -> Prop) (s s' : St) : Prop :=
  pinv D s -> pinv D s' /\ psteps s s' /\ (plive s -> plive s').
Definition pview (s : St) := (st_poll s, st_answers s, st_yes s, st_no s, st_pollhist s, st_pperiod s, st_now s).

Section prel.
  Context (D : Z -> Prop).
  #[export] Instance prel_preorder : PreOrder (prel D).
  Proof.
    split; [intros s H; split_and!; [done|apply rtc_refl|done]|].
    intros s1 s2 s3 H1 H2 H. destruct (H1 H) as (A1 & A2 & A3). destruct (H2 A1) as (B1 & B2 & B3).
    split_and!; [done|by eapply rtc_transitive|auto].
  Qed.
  Lemma prel_same s s' : pview s' = pview s ->
    (forall k t, t_hook t = HPoll -> t ∈ tasks_at s' k <-> t ∈ tasks_at s k) -> prel D s s'.
  Proof.
    intros HV HT [V1 V2 V3 V4 V5 V6 V7]. unfold pview in HV. injection HV as E1 E2 E3 E4 E5 E6 E7.
    assert (EA : forall b, answers s' b = answers s b) by (intros b; unfold answers; by rewrite E2).
    split_and!.
    - split; rewrite ?EA, ?E1, ?E3, ?E4, ?E6; try done.
      + by rewrite E2.
      + intros p Hp. apply HT; [done|]. auto.
      + intros k t Ht Hh. apply (V6 k t); [by apply HT|done].
    - apply rtc_once. by apply P_none.
    - intros HL p. rewrite E1, E7. apply HL.
  Qed.
  Lemma prel_fields s s' : (pview s', st_sched s') = (pview s, st_sched s) -> prel D s s'.
  Proof.
    intros H. pose proof (f_equal fst H) as E1. pose proof (f_equal snd H) as E2. cbn [fst snd] in *. apply prel_same; [done|]. intros k t _. unfold tasks_at. by rewrite E2.
  Qed.
  Lemma prel_schedule t h d : h <> HPoll -> rel (prel D) (schedule_task t h d).
  Proof.
    intros Hh s. unfold schedule_task, schedule_task', check_key, bind, assert. destruct (key_ok _); [|cbn; reflexivity].
    cbn. apply prel_same; [done|]. intros k x Hx. unfold tasks_at. cbn.
    destruct (decide (t = k)) as [<-|Hn]; [rewrite lookup_insert|by rewrite lookup_insert_ne]. cbn.
    rewrite elem_of_app, elem_of_list_singleton. split; [intros [Hy| ->]; done|auto].
  Qed.
  Lemma prel_delete t P : (forall x, P x = true -> t_hook x <> HPoll) -> rel (prel D) (delete_where t P).
  Proof.
    intros HP s. unfold delete_where, check_key, bind, assert. destruct (key_ok t); [|cbn; reflexivity]. cbn.
    destruct (st_sched s !! t) as [l|] eqn:E; [|reflexivity].
    apply prel_same; [done|]. intros k x Hx. unfold tasks_at. cbn.
    assert (HF : x ∈ List.filter (fun x => negb (P x)) l <-> x ∈ l).
    { rewrite !elem_of_list_In, filter_In. split; [by intros [? _]|]. intros Hin. split; [done|].
      destruct (P x) eqn:B; [|done]. by destruct (HP x B). }
    destruct (List.filter _ l) as [|y l'] eqn:F.
    - destruct (decide (t = k)) as [<-|Hn]; [|by rewrite lookup_delete_ne]. rewrite lookup_delete, E. cbn. exact HF.
    - destruct (decide (t = k)) as [<-|Hn]; [|by rewrite lookup_insert_ne]. rewrite lookup_insert, E. cbn. exact HF.
  Qed.
  Lemma prel_delete_task t h d : h <> HPoll -> rel (prel D) (delete_task t h d).
  Proof. intros Hh. apply prel_delete. intros x H. case_bool_decide; [congruence|done]. Qed.
  Lemma prel_delete_all t h : h <> HPoll -> rel (prel D) (delete_all t h).
  Proof. intros Hh. apply prel_delete. intros x H. case_bool_decide; [congruence|done]. Qed.
End prel.
#[export] Hint Extern 1 (prel _ _ _) => (apply prel_fields; reflexivity) : frame.
#[export] Hint Extern 0 (rel (prel _) (schedule_task _ _ _)) => (apply prel_schedule; discriminate) : frame.
#[export] Hint Extern 0 (rel (prel _) (delete_task _ _ _)) => (apply prel_delete_task; discriminate) : frame.
#[export] Hint Extern 0 (rel (prel _) (delete_all _ _)) => (apply prel_delete_all; discriminate) : frame.
Lemma px_noding_begin D p v e : rel (prel D) (noding_begin p v e).
Proof. auto 8 with frame. Qed.
Lemma px_end D : rel (prel D) end_block.
Proof. auto 8 with frame. Qed.
Lemma px_ante D t : rel (prel D) (ante t).
Proof. auto 8 with frame. Qed.
Lemma px_hook D h f a t : hooks h = Some f -> h <> HPoll -> rel (prel D) (f a t).
Proof. intros H Hh. destruct h; cbn in H; try done; injection H as <-; auto 8 with frame. Qed.
Lemma poll_hook h f a t : hooks h = Some f -> h <> HPoll -> rel (same st_poll) (f a t).
Proof. intros H Hh. destruct h; cbn in H; try done; injection H as <-; auto 8 with frame. Qed.
Lemma px_msg D m : (forall a n q x r, m <> MStartPoll a n q x r) -> (forall a b, m <> MAnswer a b) -> rel (prel D) (run_msg m).
Proof.
  intros H1 H2. destruct m; cbn [run_msg]; try (solve [auto 8 with frame]).
  - apply rel_bind; [apply _|apply rel_ensure, _|intros _]. auto 8 with frame.
  - by destruct (H1 _ _ _ _ _ eq_refl).
  - by destruct (H2 _ _ eq_refl).
Qed.

(** ** Starting *)
Lemma poll_valid_den n q x r : poll_valid n q x r = Some true -> forall f, x = Some f -> Frac.fden f <> 0.
Proof.
  intros H f ->. unfold poll_valid in H. destruct (_ && _); [done|]. destruct (Frac.is_negative f); [done|].
  destruct (Frac.gt f (Frac.frac_int 1)) as [b|] eqn:E; [|done]. unfold Frac.gt in E.
  destruct (Frac.sub f _) as [d|] eqn:E2; [|done]. unfold Frac.sub in E2. by apply add_den_nz in E2 as [? _].
Qed.
Lemma start_run a n q x r s s' : poll_ok s -> msg_start_poll a n q x r s = (s', Ok tt) ->
  let p := mkPoll n a q (st_now s) (st_now s + st_pperiod s * hour) x r in
  st_poll s = None /\ a ∈ st_gov s /\ poll_valid n q x r = Some true /\
  st_poll s' = Some p /\ st_answers s' = ∅ /\ st_pollhist s' = st_pollhist s /\ st_now s' = st_now s /\ poll_ok s'.
Proof.
  intros HV H. cbv zeta. unfold msg_start_poll in H. apply bind_ok in H as (ok & s0 & H0 & H). apply lift_ok in H0 as [-> H0].
  apply bind_ok in H as ([] & s0' & H1 & H). apply ensure_ok in H1 as [-> H1]. subst ok.
  apply bind_ok in H as (s0'' & s1 & H2 & H). apply get_ok in H2 as [-> ->]. unfold id in H.
  destruct (st_poll s) as [p0|] eqn:EC; [by apply fail_ok in H|].
  apply bind_ok in H as ([] & s1 & H2 & H). apply ensure_ok in H2 as [-> H2].
  unfold gov_contains in H2. apply bool_decide_eq_true in H2. pose proof (po_period _ HV) as HP.
  rewrite FracProofs.wrap64_id in H by lia. set (t := st_now s + _) in *.
  apply bind_ok in H as ([] & s2 & H3 & H). apply modify_ok in H.
  assert (HK : 0 <= t < time_limit).
  { unfold schedule_task, schedule_task', check_key, bind, assert, key_ok in H3. cbn [t_time] in H3.
    destruct ((0 <=? t) && (t <? time_limit)) eqn:E; [lia|done]. }
  destruct (c16_schedule t HPoll 0%N s HK) as (s3 & E3 & D1 & D2 & D3). rewrite E3 in H3. injection H3 as <-.
  set (l := st_sched s3) in *.
  assert (T1 : forall k, tasks_at s' k = tasks_at s3 k) by (intros k; by subst s').
  assert (N0 : st_now s3 = st_now s) by by rewrite D1.
  destruct HV as [V1 V2 V3 V4 V5 V6 V7]. clearbody l. rewrite D1 in H.
  split_and!; [done|done|done|subst s'; cbn; by rewrite <- N0|subst s'; by apply V3|by subst s'|by subst s'|].
  assert (EA : forall b, answers s' b = answers s b) by (intros b; by subst s').
  assert (EP : st_poll s' = Some (mkPoll n a q (st_now s) t x r)) by (subst s'; reflexivity).
  split.
  - rewrite EA. by subst s'.
  - rewrite EA. by subst s'.
  - by rewrite EP.
  - intros p Hp f Hf. rewrite EP in Hp. injection Hp as <-. cbn in Hf. by eapply poll_valid_den.
  - intros p Hp. rewrite EP in Hp. injection Hp as <-. cbn [po_end]. rewrite T1, D2. apply elem_of_app. right. left.
  - intros k y Hy Hh. rewrite T1 in Hy. eexists. split; [exact EP|]. cbn. destruct (decide (k = t)) as [->|Hk]; [done|].
    rewrite D3 in Hy by done. destruct (V6 _ _ Hy Hh) as (p & Hp & _). congruence.
  - by subst s'.
Qed.
Lemma start_prel a n q x r : okrel (prel (fun _ => False)) (msg_start_poll a n q x r).
Proof.
  intros s s' [] H HV. apply pinv_ok in HV. destruct (start_run _ _ _ _ _ _ _ HV H) as (H1 & H2 & H3 & H4 & H5 & H6 & H7 & H8). cbv zeta in *.
  pose proof (po_period _ HV) as HP. split_and!.
  - by apply pinv_ok.
  - apply rtc_once. refine (P_start _ _ _ H1 _ _ _ H4 H5 H6); done.
  - intros _ p Hp. rewrite H4 in Hp. injection Hp as <-. cbn. lia.
Qed.

(** ** Answering *)
Lemma answers_insert (m : gmap addr bool) a b c : m !! a = None ->
  List.length (List.filter (fun e => Bool.eqb (snd e) c) (map_to_list (<[a:=b]> m))) =
  ((if Bool.eqb b c then 1 else 0) + List.length (List.filter (fun e => Bool.eqb (snd e) c) (map_to_list m)))%nat.
Proof.
  intros H. assert (P : map_to_list (<[a:=b]> m) ≡ₚ (a, b) :: map_to_list m) by by apply map_to_list_insert.
  assert (X : forall l1 l2 : list (addr * bool), l1 ≡ₚ l2 ->
    List.length (List.filter (fun e => Bool.eqb (snd e) c) l1) = List.length (List.filter (fun e => Bool.eqb (snd e) c) l2)).
  { intros l1 l2 HP. induction HP as [|x l1 l2 HP IH|x y l|l1 l2 l3 H1 IH1 H2 IH2]; cbn; [done| | |congruence].
    - destruct (Bool.eqb _ _); cbn; congruence.
    - by destruct (Bool.eqb (snd x) c), (Bool.eqb (snd y) c). }
  rewrite (X _ _ P). cbn. by destruct (Bool.eqb b c).
Qed.
Lemma mod_succ x : (x mod 2^64 + 1) mod 2^64 = (1 + x) mod 2^64.
Proof. rewrite Zplus_mod_idemp_l. f_equal. lia. Qed.
Lemma answer_run D a b s s' : pinv D s -> answer a b s = (s', Ok tt) ->
  exists p, st_poll s = Some p /\ st_answers s !! a = None /\ may_answer (po_req p) s a /\
    st_poll s' = Some p /\ st_answers s' = <[ a := b ]> (st_answers s) /\ st_pollhist s' = st_pollhist s /\ st_now s' = st_now s /\ pinv D s'.
Proof.
  intros HV H. unfold answer in H. apply bind_ok in H as (p0 & s1 & H0 & H). apply get_ok in H0 as [-> ->].
  destruct (st_poll s) as [p|] eqn:EC; [|by apply fail_ok in H]. exists p.
  apply bind_ok in H as ([] & s1 & H1 & H).
  assert (HQ : s1 = s /\ may_answer (po_req p) s a).
  { destruct (po_req p); cbn.
    - apply ret_ok in H1 as [-> _]. done.
    - apply bind_ok in H1 as ([qq dd] & s2 & H2 & H1). apply must_ok, is_qualified_spec in H2 as (-> & _ & HQ).
      apply ensure_ok in H1 as [-> ->]. split; [done|by apply HQ].
    - apply bind_ok in H1 as (r & s2 & H2 & H1). apply get_ok in H2 as [-> ->]. apply ensure_ok in H1 as [-> H1]. split; [done|]. lia. }
  destruct HQ as [-> HQ]. apply bind_ok in H as (old & s1 & H2 & H). apply get_ok in H2 as [-> ->].
  destruct (st_answers s !! a) as [o|] eqn:EA; [by apply fail_ok in H|].
  apply bind_ok in H as ([] & s1 & H2 & H). apply modify_ok in H2, H.
  assert (X : st_poll s' = Some p /\ st_answers s' = <[a:=b]> (st_answers s) /\ st_pollhist s' = st_pollhist s /\ st_now s' = st_now s /\
              st_sched s' = st_sched s /\ st_pperiod s' = st_pperiod s /\
              st_yes s' = (if b then w64 (st_yes s + 1) else st_yes s) /\ st_no s' = (if b then st_no s else w64 (st_no s + 1))).
  { subst s' s1. rewrite <- EC. by destruct b. }
  destruct X as (X1 & X2 & X3 & X4 & X5 & X6 & X7 & X8). split_and!; [done..|].
  destruct HV as [V1 V2 V3 V4 V5 V6 V7]. split.
  - rewrite X7. unfold answers. rewrite X2, answers_insert by done. fold (answers s true). rewrite V1. destruct b; cbn [Bool.eqb].
    + unfold w64. rewrite mod_succ. f_equal. unfold answers. lia.
    + done.
  - rewrite X8. unfold answers. rewrite X2, answers_insert by done. rewrite V2. destruct b; cbn [Bool.eqb].
    + done.
    + unfold w64. rewrite mod_succ. f_equal. unfold answers. lia.
  - by rewrite X1.
  - rewrite X1. intros q Hq. injection Hq as <-. by apply V4.
  - rewrite X1. intros q Hq. injection Hq as <-. unfold tasks_at. rewrite X5. by apply V5.
  - rewrite X1. unfold tasks_at. rewrite X5. rewrite <- EC. exact V6.
  - by rewrite X6.
Qed.
Lemma answer_prel D a b : okrel (prel D) (msg_answer a b).
Proof.
  intros s s' [] H HV. destruct (answer_run _ _ _ _ _ HV H) as (p & H1 & H2 & H3 & H4 & H5 & H6 & H7 & H8). split_and!.
  - done.
  - apply rtc_once. by eapply P_answer.
  - intros HL q Hq. rewrite H4 in Hq. injection Hq as <-. rewrite H7. by apply HL.
Qed.
Lemma msg_prel m : okrel (prel (fun _ => False)) (run_msg m).
Proof.
  destruct (match m with MStartPoll _ _ _ _ _ | MAnswer _ _ => true | _ => false end) eqn:E.
  - destruct m; try discriminate; [apply start_prel|apply answer_prel].
  - apply okrel_rel, px_msg; destruct m; intros; discriminate.
Qed.
Lemma tx_prel t s : prel (fun _ => False) s (fst (deliver_tx t s)).
Proof. apply tx_rel; [apply _|apply okrel_rel, px_ante|intros; apply msg_prel]. Qed.

(** ** The end *)
Lemma decision_spec q yes no : (forall f, q = Some f -> Frac.fden f <> 0) -> 0 <= yes -> 0 <= no ->
  exists d, poll_decision q (yes mod 2^64) (no mod 2^64) = Some d /\ (yes + no < 2^63 -> decided q yes no d).
Proof.
  intros HQ H1 H2. unfold poll_decision, decided. destruct q as [f|]; [|eauto]. specialize (HQ f eq_refl).
  destruct (_ =? 0) eqn:E.
  { exists DNegative. split; [done|]. intros H. rewrite Z.mod_small in E by lia. rewrite decide_False by lia. done. }
  set (y := Frac.wrap64 (yes mod 2^64)). set (t := Frac.wrap64 (_ + _)).
  destruct (mul_qval f (Frac.frac_int t) HQ) as (x & -> & X1 & _ & X2); [done|].
  destruct (gte_spec (Frac.frac_int y) x) as (b & -> & B); [done|lia|]. exists (if b then DPositive else DNegative).
  split; [by destruct b|]. intros H.
  assert (Y : y = yes). { unfold y. rewrite Z.mod_small by lia. apply FracProofs.wrap64_id. lia. }
  assert (T : t = yes + no). { unfold t. rewrite !Z.mod_small by lia. apply FracProofs.wrap64_id. lia. }
  rewrite Z.mod_small in E by lia. rewrite decide_True by lia.
  assert (QI : forall z, (qval (Frac.frac_int z) == inject_Z z)%Q) by (intros z; unfold qval; cbn; field).
  rewrite X2, !QI, Y, T in B. destruct b; [left|right]; split; try done; [by apply B|].
  apply Qnot_le_lt. intros L. apply B in L. done.
Qed.
Lemma end_poll_run D p s : pinv D s -> st_poll s = Some p -> D (po_end p) -> po_end p <= st_now s ->
  let s' := fst (end_poll s) in pinv D s' /\ pstep s s' /\ st_poll s' = None /\ st_now s' = st_now s /\ snd (end_poll s) = Ok tt.
Proof.
  intros HV HC HD HN. cbv zeta.
  destruct (decision_spec (po_quorum p) (answers s true) (answers s false)) as (d & E & HD2).
  { by apply (pi_quorum _ _ HV). } { unfold answers. lia. } { unfold answers. lia. }
  rewrite <- (pi_yes _ _ HV), <- (pi_no _ _ HV) in E.
  assert (EE : exists s', end_poll s = (s', Ok tt) /\ st_poll s' = None /\ st_answers s' = ∅ /\ st_yes s' = 0 /\ st_no s' = 0 /\
    st_pollhist s' = <[ po_end p / second := mkPoH p (st_yes s) (st_no s) d ]> (st_pollhist s) /\
    st_sched s' = st_sched s /\ st_now s' = st_now s /\ st_pperiod s' = st_pperiod s).
  { eexists. split; [unfold end_poll, bind, get, id; rewrite HC; unfold lift; rewrite E; reflexivity|]. done. }
  destruct EE as (s' & -> & X1 & X2 & X3 & X4 & X5 & X6 & X7 & X8). cbn [fst snd].
  rewrite (pi_yes _ _ HV), (pi_no _ _ HV) in X5. split_and!; [|by apply (P_end s s' p d)|done..].
  destruct HV as [V1 V2 V3 V4 V5 V6 V7].
  assert (A0 : forall b, answers s' b = 0) by (intros b; unfold answers; by rewrite X2, map_to_list_empty).
  split; rewrite ?A0, ?X1, ?X8; try done.
  intros k t Ht Hh. left. unfold tasks_at in Ht. rewrite X6 in Ht.
  destruct (V6 k t Ht Hh) as [?|(q & Hq & ->)]; [done|]. congruence.
Qed.
Definition pduring (D : Z -> Prop) (s0 s : St) : Prop :=
  pinv D s /\ psteps s0 s /\ st_now s = st_now s0 /\ (st_poll s = None \/ st_poll s = st_poll s0).
Lemma prel_log D s e : prel D s (s <| st_log := st_log s ++ [e] |>).
Proof. by apply prel_fields. Qed.
Lemma pduring_task D s0 t s : pduring D s0 s ->
  (t_hook t = HPoll -> forall p, st_poll s0 = Some p -> po_end p <= st_now s0 /\ D (po_end p)) ->
  pduring D s0 (after_task hooks t s) /\ (st_poll s = None \/ t_hook t = HPoll -> st_poll (after_task hooks t s) = None).
Proof.
  intros (D1 & D2 & D3 & D4) HT. destruct (decide (t_hook t = HPoll)) as [Hh|Hh].
  - specialize (HT Hh). unfold after_task. rewrite Hh. cbn [hooks].
    destruct (st_poll s) as [p|] eqn:EC.
    2:{ assert (PV : end_poll s = (s, Panic (ErrMsg "no active poll"))) by (unfold end_poll, bind, get, id; by rewrite EC).
        rewrite PV. destruct (prel_log D s (LTaskFailed t) D1) as (G1 & G2 & _).
        split; [|intros _; exact EC]. split_and!; [done|by eapply rtc_transitive|done|by left]. }
    assert (E0 : st_poll s0 = Some p) by (destruct D4 as [D4|D4]; congruence). destruct (HT _ E0) as [HT1 HT2].
    destruct (end_poll_run D p s D1 EC HT2) as (E1 & E2 & E3 & E4 & E5); [lia|].
    destruct (end_poll s) as [s1 r]. cbn [fst snd] in *. rewrite E5. split; [|done].
    split_and!; [done|eapply rtc_r; eauto|congruence|by left].
  - assert (R : (fun s s' => prel D s s' /\ st_poll s' = st_poll s /\ st_now s' = st_now s) s (after_task hooks t s)).
    { apply task_rel.
      - split; [intros x; split; [reflexivity|done]|]. intros x y z (A1 & A2 & A3) (B1 & B2 & B3). split; [by transitivity y|split; congruence].
      - intros x e. split; [apply prel_log|done].
      - intros f Hf. split; [by apply (px_hook D _ _ _ _ Hf)|]. split; [apply (poll_hook _ _ _ _ Hf Hh s)|apply (now_hook _ _ _ _ Hf s)]. }
    destruct R as (R1 & R2 & R3). destruct (R1 D1) as (G1 & G2 & _).
    split; [|intros [?|?]; [congruence|done]]. split_and!; [done|by eapply rtc_transitive|congruence|].
    destruct D4 as [D4|D4]; [left|right]; congruence.
Qed.
Lemma pduring_tasks D s0 ts : forall s, pduring D s0 s ->
  ((exists t, t ∈ ts /\ t_hook t = HPoll) -> forall p, st_poll s0 = Some p -> po_end p <= st_now s0 /\ D (po_end p)) ->
  pduring D s0 (after_tasks hooks ts s) /\ (st_poll s = None \/ (exists t, t ∈ ts /\ t_hook t = HPoll) -> st_poll (after_tasks hooks ts s) = None).
Proof.
  induction ts as [|t ts IH]; intros s HD HT; cbn.
  - split; [done|]. intros [?|(t & Ht & _)]; [done|by apply elem_of_nil in Ht].
  - destruct (pduring_task D s0 t s HD) as [H1 H2].
    { intros Hh. apply HT. exists t. split; [left|done]. }
    destruct (IH _ H1) as [H3 H4].
    { intros (x & Hx & Hh). apply HT. exists x. split; [by right|done]. }
    split; [done|]. intros [HC|(x & Hx & Hh)]; [apply H4; left; auto|].
    apply elem_of_cons in Hx as [->|Hx]; [apply H4; left; auto|apply H4; right; eauto].
Qed.
Lemma schedule_polls s s' : poll_ok s -> perform_schedule hooks s = (s', Ok tt) ->
  poll_ok s' /\ psteps s s' /\ plive s' /\ st_now s' = st_now s.
Proof.
  intros HV H. assert (HK : 0 <= st_now s + 1 < time_limit).
  { unfold perform_schedule, check_key, bind, get, assert in H. destruct (key_ok (st_now s + 1)) eqn:E; [|done].
    unfold key_ok in E. lia. }
  rewrite perform_schedule_eq in H by done. cbv zeta in H.
  set (ts := flat_map (tasks_at s) (due_keys s)) in *. set (D := fun k => k ∈ due_keys s).
  assert (HTS : forall t, t ∈ ts <-> exists k, k ∈ due_keys s /\ t ∈ tasks_at s k).
  { intros t. unfold ts. rewrite elem_of_list_In, in_flat_map. split; intros (k & H1 & H2); exists k; by rewrite !elem_of_list_In in *. }
  destruct (pduring_tasks D s ts s) as [(D1 & D2 & D3 & D4) D5].
  { split_and!; [|apply rtc_refl|done|by right]. destruct HV as [? ? ? ? ? ? ?]. split; try done. intros k t H1 H2. right. eauto. }
  { intros (t & Ht & Hh) p Hp. apply HTS in Ht as (k & Hk & Ht).
    destruct (po_only _ HV _ _ Ht Hh) as (q & Hq & ->). rewrite Hp in Hq. injection Hq as <-. split; [|done]. by apply elem_of_due in Hk as [Hk _]. }
  set (s1 := after_tasks hooks ts s) in *. clearbody s1.
  assert (HL : plive s1).
  { intros p Hp. destruct (Z.lt_ge_cases (st_now s1) (po_end p)) as [|Hd]; [done|exfalso].
    assert (E : st_poll s = Some p) by (destruct D4; congruence). pose proof (po_task _ HV _ E) as T2.
    rewrite D5 in Hp; [done|]. right. exists (Task (po_end p) HPoll 0%N). split; [|done]. apply HTS. exists (po_end p). split; [|done].
    apply elem_of_due. split; [lia|]. unfold tasks_at in T2. destruct (st_sched s !! po_end p); [eauto|]. cbn in T2. by apply elem_of_nil in T2. }
  injection H as <-. set (s2 := set st_sched _ s1).
  assert (L : forall k, tasks_at s2 k = if bool_decide (k ∈ due_keys s) then [] else tasks_at s1 k).
  { intros k. unfold tasks_at, s2. cbn [st_sched set]. change (st_sched (set st_sched _ s1)) with
      (foldr base.delete (st_sched s1) (due_keys s)). rewrite foldr_delete_lookup. by case_bool_decide. }
  split_and!.
  - split; try apply D1.
    + intros p Hp. pose proof (pi_task _ _ D1 p Hp) as T2. rewrite L, bool_decide_false; [done|].
      intros Hd. apply elem_of_due in Hd as [Hd _]. specialize (HL p Hp). lia.
    + intros k t. rewrite L. case_bool_decide as Hk; [intros X; by apply elem_of_nil in X|]. intros H1 H2.
      destruct (pi_only _ _ D1 k t H1 H2) as [?|?]; [by destruct Hk|done].
  - eapply rtc_r; [done|]. by apply P_none.
  - exact HL.
  - exact D3.
Qed.
Lemma block_polls b s s' u : poll_ok s -> run_block b s = Some (s', u) -> poll_ok s' /\ psteps s s' /\ plive s'.
Proof.
  intros HV. unfold run_block, begin_block.
  destruct (bind _ _ s) as [s1 [x|e|e]] eqn:E1; try discriminate.
  apply bind_ok in E1 as ([] & s2 & E2 & E1). apply modify_ok in E2.
  apply bind_ok in E1 as ([] & s3 & E3 & E1).
  destruct (end_block (deliver_txs (b_txs b) s1)) as [s4 [y|e|e]] eqn:E4; try discriminate.
  intros [= <- <-]. destruct x.
  assert (V2 : poll_ok s2 /\ pstep s s2).
  { subst s2. split; [|by apply P_none]. destruct HV as [? ? ? ? ? ? ?]. by split. }
  destruct V2 as (V2 & S2). pose proof (px_noding_begin (fun _ => False) (b_proposer b) (b_votes b) (b_evs b) s2 (proj2 (pinv_ok _) V2)) as (V3 & S3 & _).
  rewrite E3 in *. cbn [fst] in *. apply pinv_ok in V3.
  destruct (schedule_polls _ _ V3 E1) as (V1 & S1 & L1 & N1).
  assert (R : prel (fun _ => False) s1 (deliver_txs (b_txs b) s1)).
  { apply (bl_txs (prel _) (fun _ => True)); [intros; apply tx_prel|by apply Forall_forall]. }
  destruct (R (proj2 (pinv_ok _) V1)) as (V5 & S5 & L5). pose proof (px_end (fun _ => False) (deliver_txs (b_txs b) s1) V5) as (V4 & S4 & L4).
  rewrite E4 in *. cbn [fst] in *. apply pinv_ok in V4.
  split_and!; [done| |auto]. eapply rtc_l; [done|]. eapply rtc_transitive; [done|]. eapply rtc_transitive; [done|]. by eapply rtc_transitive.
Qed.
Lemma blocks_polls bs : forall s s' us, poll_ok s -> run_blocks bs s = Some (s', us) ->
  poll_ok s' /\ psteps s s' /\ (bs <> [] -> plive s').
Proof.
  induction bs as [|b bs IH]; intros s s' us HV H; cbn in H.
  - injection H as <- <-. split_and!; [done|apply rtc_refl|done].
  - destruct (run_block b s) as [[s1 u]|] eqn:E1; [|discriminate].
    destruct (run_blocks bs s1) as [[s2 us']|] eqn:E2; [|discriminate]. injection H as <- <-.
    destruct (block_polls _ _ _ _ HV E1) as (V1 & S1 & L1). destruct (IH _ _ _ V1 E2) as (V2 & S2 & L2).
    split_and!; [done|by eapply rtc_transitive|]. intros _. destruct bs; [|by apply L2]. cbn in E2. by injection E2 as <- <-.
Qed.
