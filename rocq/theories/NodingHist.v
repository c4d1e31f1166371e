(** * Validators over whole histories *)
From Verif Require Export GatherProofs.
Open Scope Z_scope.

(** ** All changes of a record: those of [qstep], votes (if [v]) and infractions (if [w]) *)
Inductive fstep (v w g : bool) (K : N -> Prop) (h : Z) : option ninfo -> option ninfo -> Prop :=
  | f_quiet x y : qstep g K h x y -> fstep v w g K h x y
  | f_tick x : v = true -> fstep v w g K h (Some x) (Some (x <| n_missed := 0 |> <| n_ok := n_ok x + 1 |>))
  | f_stroke x : v = true -> n_jailed x = false ->
      fstep v w g K h (Some x) (Some (x <| n_strokes := n_strokes x + 1 |> <| n_ok := 0 |> <| n_missed := n_missed x + 1 |>))
  | f_jail x u : v = true -> n_jailed x = false ->
      fstep v w g K h (Some x) (Some (x <| n_jailed := true |> <| n_unjail_at := u |> <| n_jails := n_jails x + 1 |> <| n_missed := 0 |>))
  | f_infr x e : w = true -> n_infr x = [] -> fstep v w g K h (Some x) (Some (x <| n_infr := n_infr x ++ [e] |>))
  | f_ban x e : w = true -> fstep v w g K h (Some x) (Some (x <| n_infr := n_infr x ++ [e] |> <| n_banned := true |> <| n_status := false |>)).
Notation fsteps v w g K h := (rtc (fstep v w g K h)).

Lemma qstep_mono g K h h' x y : h <= h' -> qstep g K h x y -> qstep g K h' x y.
Proof. intros Hh H. inversion H; subst; econstructor; eauto. lia. Qed.
Lemma fstep_mono v w g K h h' x y : h <= h' -> fstep v w g K h x y -> fstep v w g K h' x y.
Proof. intros Hh H. inversion H; subst; [apply f_quiet; by eapply qstep_mono|by econstructor..]. Qed.
Lemma fsteps_mono v w g K h h' x y : h <= h' -> fsteps v w g K h x y -> fsteps v w g K h' x y.
Proof. intros Hh. apply rtc_subrel. intros ? ?. by apply fstep_mono. Qed.
Lemma fsteps_q v w g K h x y : qsteps g K h x y -> fsteps v w g K h x y.
Proof. apply rtc_subrel. intros ? ?. apply f_quiet. Qed.

Definition full (v w g : bool) (K : addr -> N -> Prop) (s s' : St) : Prop :=
  st_height s <= st_height s' /\ forall z, fsteps v w g (K z) (st_height s') (st_val s !! z) (st_val s' !! z).
#[export] Instance full_preorder v w g K : PreOrder (full v w g K).
Proof.
  split; [intros s; split; [lia|intros z; apply rtc_refl]|].
  intros s1 s2 s3 [H1 Q1] [H2 Q2]. split; [lia|]. intros z. eapply rtc_transitive; [|apply Q2]. eapply fsteps_mono, Q1. done.
Qed.
Lemma full_fields v w g K s s' : st_val s' = st_val s -> st_height s' = st_height s -> full v w g K s s'.
Proof. intros H1 H2. split; [lia|]. rewrite H1. intros; apply rtc_refl. Qed.
#[export] Hint Extern 1 (full _ _ _ _ _ _) => (apply full_fields; reflexivity) : frame.
Lemma full_quiet v w g K s s' : quiet g K s s' -> full v w g K s s'.
Proof. intros [H1 H2]. split; [lia|]. intros z. apply fsteps_q. rewrite H1. apply H2. Qed.
Lemma full_put v w g K s s' a y : st_height s' = st_height s -> st_val s' = <[ a := y ]> (st_val s) ->
  fsteps v w g (K a) (st_height s) (st_val s !! a) (Some y) -> full v w g K s s'.
Proof.
  intros H1 H2 HQ. split; [lia|]. rewrite H1, H2. intros z.
  destruct (decide (a = z)) as [<-|Hz]; [by rewrite lookup_insert|rewrite lookup_insert_ne by done; apply rtc_refl].
Qed.
Lemma full_update v w g K a f : (forall x, rel aside (f x)) ->
  (forall x s s1 y, st_val s !! a = Some x -> f x s = (s1, Ok (Some y)) -> fsteps v w g (K a) (st_height s) (Some x) (Some y)) ->
  rel (full v w g K) (val_update a f).
Proof.
  intros HA HF s. destruct (val_update_out a f s (HA _)) as [HH [HV|(x & s1 & y & E & E1 & HV)]].
  - by apply full_fields.
  - eapply full_put; [done|exact HV|]. rewrite E. by eapply HF.
Qed.

Section ops.
  Context (v w g : bool) (K : addr -> N -> Prop).
  Local Ltac q := intros; eapply rel_weaken; [intros ? ?; apply full_quiet|].
  Lemma ft_switch_on a k : K a k -> rel (full v w g K) (switch_on a k).
  Proof. q. by apply qt_switch_on. Qed.
  Lemma ft_switch_off a : rel (full v w g K) (switch_off a).
  Proof. q. apply qt_switch_off. Qed.
  Lemma ft_on_status_update a : rel (full v w g K) (on_status_update a).
  Proof. q. apply qt_on_status_update. Qed.
  Lemma ft_on_stake_changed a : rel (full v w g K) (on_stake_changed a).
  Proof. q. apply qt_on_stake_changed. Qed.
  Lemma ft_unjail a : rel (full v w g K) (unjail a).
  Proof. q. apply qt_unjail. Qed.
  Lemma ft_add_to_staff a : rel (full v w g K) (add_to_staff a).
  Proof. q. apply qt_add_to_staff. Qed.
  Lemma ft_remove_from_staff a : rel (full v w g K) (remove_from_staff a).
  Proof. q. apply qt_remove_from_staff. Qed.
  Lemma ft_general_amnesty : rel (full v w g K) general_amnesty.
  Proof. q. apply qt_general_amnesty. Qed.
  Lemma ft_proposed a : rel (full v w g K) (proposed a).
  Proof. q. apply qt_proposed. Qed.

  Lemma ft_mark_tick a : v = true -> rel (full v w g K) (mark_tick a).
  Proof.
    intros Hv. apply full_update; [intros x; apply rel_ret, _|]. intros x s s1 y E H. apply ret_ok in H as [_ [= ->]].
    eapply rtc_l; [by apply f_tick|]. destruct (_ =? 0); [|apply rtc_refl]. apply rtc_once, f_quiet.
    match goal with |- qstep _ _ _ (Some ?x) (Some (set n_score (fun _ => ?v) _)) => apply (q_score _ _ _ x v) end.
  Qed.
  Lemma ft_mark_stroke a : v = true -> rel (full v w g K) (mark_stroke a).
  Proof.
    intros Hv s. unfold mark_stroke. do 2 (apply at_get; [apply _|]). apply full_update.
    - intros x. destruct (n_jailed x); [apply rel_ret, _|]. cbv zeta. apply rel_bind; [apply _| |intros; apply rel_ret, _].
      destruct (_ <=? _); apply aside_in_lottery; intros; frame.
    - intros x s0 s1 y E H. destruct (n_jailed x) eqn:EJ; [by apply ret_ok in H as [_ ?]|]. cbv zeta in H.
      apply bind_ok in H as (y' & s2 & H & [-> [= ->]]%ret_ok).
      match type of H with context[np_jail_after (st_np s) <=? n_missed ?x1] => set (x1' := x1) in *; assert (HS : fsteps v w g (K a) (st_height s0) (Some x) (Some x1')) end.
      { pose (x0 := x <| n_score := n_score x - Z.quot (n_ok x) 100 - 1 |>). apply (rtc_l _ _ (Some x0)); [apply f_quiet, q_score|].
        apply rtc_once. exact (f_stroke v w g (K a) (st_height s0) x0 Hv EJ). }
      eapply rtc_transitive; [exact HS|]. destruct (_ <=? n_missed x1').
      + apply in_lottery_exclude in H as ->. eapply rtc_l; [apply f_jail; [exact Hv|exact EJ]|]. apply rtc_once, f_quiet, q_lottery.
      + apply in_lottery_downshift in H as [n ->]. apply rtc_once, f_quiet, q_lottery.
  Qed.
  Lemma ft_mark_byzantine a e : w = true -> rel (full v w g K) (mark_byzantine a e).
  Proof.
    intros Hw. apply full_update.
    - intros x. apply rel_bind; [apply _| |intros; apply rel_ret, _].
      destruct (_ <? _)%nat; apply aside_in_lottery; intros; frame.
    - intros x s s1 y E H. apply bind_ok in H as (y' & s2 & H & [-> [= ->]]%ret_ok). cbn [n_infr] in H.
      match type of H with context[(1 <? ?n)%nat] => destruct (1 <? n)%nat eqn:B end.
      + apply in_lottery_exclude in H as ->. eapply rtc_l; [apply (f_ban _ _ _ _ _ x e Hw)|]. apply rtc_once, f_quiet, q_lottery.
      + apply in_lottery_downshift in H as [n ->].
        assert (HI : n_infr x = []).
        { apply Nat.ltb_ge in B. change (n_infr (x <| n_infr := n_infr x ++ [e] |>)) with (n_infr x ++ [e]) in B.
          rewrite app_length in B. cbn in B. destruct (n_infr x); [done|]. cbn in B. lia. }
        eapply rtc_l; [apply (f_infr _ _ _ _ _ x e Hw HI)|]. apply rtc_once, f_quiet, q_lottery.
  Qed.
  Lemma ft_votes l : v = true -> rel (full v w g K) (mark_strokes_and_ticks l).
  Proof.
    intros Hv. apply rel_mfor; [apply _|intros [c b]]. apply rel_bind; [apply _|apply sw_find_validator, _|intros a].
    destruct b; [by apply ft_mark_tick|by apply ft_mark_stroke].
  Qed.
  Lemma ft_evidence l : w = true -> rel (full v w g K) (punish_wrongdoers l).
  Proof.
    intros Hw. apply rel_mfor; [apply _|intros [c b]]. apply rel_bind; [apply _|apply sw_find_validator, _|intros a]. by apply ft_mark_byzantine.
  Qed.
  Lemma ft_gather : g = true -> rel (full v w g K) gather.
  Proof.
    intros Hg.
    assert (HU : forall a f, (forall x, exists p k n, (k = 0%N \/ k = n_pub x) /\ f x = ret (Some (x <| n_power := p |> <| n_last_pub := k |> <| n_lottery := n |>))) ->
      rel (full v w g K) (val_update a f)).
    { intros a f HF. apply full_update.
      - intros x. destruct (HF x) as (p & k & n & _ & ->). apply rel_ret, _.
      - intros x s s1 y E H. destruct (HF x) as (p & k & n & Hk & EF). rewrite EF in H. apply ret_ok in H as [_ [= ->]].
        pose (x0 := x <| n_power := p |> <| n_last_pub := k |>). apply (rtc_l _ _ (Some x0)); [by apply f_quiet, q_power|]. apply rtc_once, f_quiet, q_lottery. }
    assert (HSame : forall x : ninfo, x = x <| n_lottery := n_lottery x |>) by (by intros []).
    unfold gather. apply rel_bind; [apply _|apply rel_get, _|intros recs]. apply rel_bind; [apply _| |intros [active result]].
    { apply rel_mfold; [apply _|]. intros [ac res] [a x]. unfold gather_scan. destruct (n_active x).
      { apply rel_bind; [apply _|apply rel_assert, _|intros _]. apply rel_bind; [apply _|apply rel_modify; intros; by apply full_fields|intros; apply rel_ret, _]. }
      destruct (_ =? 0); [apply rel_ret, _|]. apply rel_bind; [apply _|apply rel_assert, _|intros _].
      apply rel_bind; [apply _|apply HU|intros; apply rel_ret, _]. intros d. exists 0, 0%N, (n_lottery d). split; [by left|]. done. }
    apply rel_bind; [apply _|apply rel_get, _|intros p]. cbv zeta. apply rel_bind; [apply _| |intros [gg result2]].
    { apply rel_mfold; [apply _|]. intros [ac res] [a x]. unfold gather_top. apply rel_bind; [apply _|apply rel_assert, _|intros _].
      apply rel_bind; [apply _|apply rel_lift, _|intros [pw g2]]. cbv zeta. apply rel_bind; [apply _| |intros y].
      { unfold if_in_lottery. destruct (_ =? 0); [apply rel_ret, _|]. apply rel_must. frame. }
      apply rel_bind; [apply _| |intros; apply rel_ret, _]. destruct (_ || _); [|apply rel_ret, _].
      apply HU. intros d. exists pw, (n_pub d), (n_lottery y). split; [by right|done]. }
    apply rel_bind; [apply _|apply rel_get, _|intros mx]. apply rel_bind; [apply _| |intros [? ?]; apply rel_ret, _].
    apply rel_mfold; [apply _|]. intros [ac res] [a x]. unfold gather_rest. destruct (_ && _).
    - apply rel_bind; [apply _|apply rel_lift, _|intros [pw g2]]. cbv zeta. destruct (_ && _); [apply rel_ret, _|].
      apply rel_bind; [apply _|apply HU|intros; apply rel_ret, _].
      intros d. exists pw, (n_pub d), (n_lottery d). split; [by right|]. done.
    - cbv zeta. apply rel_bind; [apply _|apply rel_assert, _|intros _]. apply rel_bind; [apply _| |intros y].
      { destruct (_ =? 0); [apply rel_must; frame|apply rel_ret, _]. }
      apply rel_bind; [apply _| |intros; apply rel_ret, _]. destruct (_ || _); [|apply rel_ret, _].
      apply HU. intros d. exists 0, 0%N, (n_lottery y). split; [by left|done].
  Qed.
End ops.
#[export] Hint Resolve ft_switch_off ft_on_status_update ft_on_stake_changed ft_unjail ft_add_to_staff ft_remove_from_staff
  ft_general_amnesty ft_proposed | 0 : frame.
#[export] Hint Extern 0 (rel (full true _ _ _) (mark_strokes_and_ticks _)) => (apply ft_votes; reflexivity) : frame.
#[export] Hint Extern 0 (rel (full _ true _ _) (punish_wrongdoers _)) => (apply ft_evidence; reflexivity) : frame.

Lemma full_msg v w g (K : addr -> N -> Prop) m : (forall a k, m = MOn a k -> k <> 0%N -> K a k) -> rel (full v w g K) (run_msg m).
Proof.
  intros HK. destruct m; cbn [run_msg]; try (solve [auto 8 with frame]).
  destruct (key =? 0)%N eqn:E; cbn [negb].
  - intros s. cbn. reflexivity.
  - apply rel_bind; [apply _|apply rel_ensure, _|intros _]. apply ft_switch_on. apply HK; [done|lia].
Qed.
Lemma full_tx v w g (K : addr -> N -> Prop) t s : (forall a k, MOn a k ∈ tx_msgs t -> k <> 0%N -> K a k) -> full v w g K s (fst (deliver_tx t s)).
Proof.
  intros HK. apply tx_rel; [apply _|apply okrel_rel; auto 8 with frame|]. intros m Hm. apply okrel_rel, full_msg.
  intros a k ->. by apply HK.
Qed.
Lemma full_hook v w g K h f a t : hooks h = Some f -> rel (full v w g K) (f a t).
Proof. intros H. eapply sw_hooks; [..|exact H]; auto 8 with frame. Qed.

(** ** The parameters stay proper *)
Definition good_np (s : St) : Prop := proper_nparams (st_np s).
Lemma good_np_fields s s' : st_np s' = st_np s -> keeps good_np s s'.
Proof. intros H. unfold keeps, good_np. by rewrite H. Qed.
#[export] Hint Extern 1 (keeps good_np _ _) => (apply good_np_fields; reflexivity) : frame.
Lemma good_set_nparams p : rel (keeps good_np) (set_nparams p).
Proof.
  intros s. unfold set_nparams. apply at_lift; [apply _|intros ok Hok]. apply at_assert; [apply _|intros ->].
  intros _. by apply nparams_spec.
Qed.
#[export] Hint Resolve good_set_nparams | 0 : frame.

(** ** Blocks up to the validator updates *)
Section before.
  Context (R : St -> St -> Prop) `{!PreOrder R} (okt : tx -> Prop).
  Hypothesis H_begin : forall b s, st_now s <= b_time b -> R s (begin_state b s).
  Hypothesis H_noding : forall p v e, okrel R (noding_begin p v e).
  Hypothesis H_task : forall t s, R s (after_task hooks t s).
  Hypothesis H_due : forall ks s, R s (s <| st_sched := foldr base.delete (st_sched s) ks |>).
  Hypothesis H_tx : forall t s, okt t -> R s (fst (deliver_tx t s)).
  Lemma before_end b s s1 : Forall okt (b_txs b) -> st_now s <= b_time b -> begin_block b s = (s1, Ok tt) ->
    R s (deliver_txs (b_txs b) s1) /\ st_now (deliver_txs (b_txs b) s1) = b_time b.
  Proof.
    intros HT HN E1. unfold begin_block in E1. apply bind_ok in E1 as ([] & s2 & E2 & E1). apply modify_ok in E2.
    apply bind_ok in E1 as ([] & s3 & E3 & E1). split.
    - transitivity s2; [subst s2; by apply H_begin|]. transitivity s3; [by eapply H_noding|].
      transitivity s1; [pose proof (bl_schedule R H_task H_due s3) as HS; by rewrite E1 in HS|]. by apply (bl_txs R okt).
    - rewrite now_txs. pose proof (now_schedule s3) as N1. rewrite E1 in N1. unfold same in N1. cbn [fst] in N1.
      rewrite N1. pose proof (now_noding (b_proposer b) (b_votes b) (b_evs b) s2) as N3. rewrite E3 in N3.
      unfold same in N3. cbn [fst] in N3. rewrite N3. by subst s2.
  Qed.
End before.

(** Transactions that switch validators on with keys from [K] only *)
Definition keyed_tx (K : addr -> N -> Prop) (t : tx) : Prop := forall a k, MOn a k ∈ tx_msgs t -> k <> 0%N -> K a k.
Lemma full_before K b s s1 : Forall (keyed_tx K) (b_txs b) -> st_now s <= b_time b -> begin_block b s = (s1, Ok tt) ->
  full true true false K s (deliver_txs (b_txs b) s1).
Proof.
  intros HT HN HB. eapply (before_end (full true true false K) (keyed_tx K)); [..|exact HT|exact HN|exact HB].
  - intros b' s' _. split; [cbn; lia|]. intros z. apply rtc_refl.
  - intros p v e. apply okrel_rel. auto 8 with frame.
  - intros t s'. apply task_rel; [apply _|intros; by apply full_fields|]. intros f Hf. by eapply full_hook.
  - intros ks s'. by apply full_fields.
  - intros t s' Ht. by apply full_tx.
Qed.
Lemma np_msg m : rel (keeps good_np) (run_msg m).
Proof.
  destruct m; cbn [run_msg]; try (solve [auto 8 with frame]).
  apply rel_bind; [apply _|apply rel_ensure, _|intros _]. auto 8 with frame.
Qed.
Lemma np_before b s s1 : st_now s <= b_time b -> begin_block b s = (s1, Ok tt) -> good_np s -> good_np (deliver_txs (b_txs b) s1).
Proof.
  intros HN HB. eapply (before_end (keeps good_np) (fun _ => True)); [..|exact HN|exact HB].
  - intros b' s' _. by apply good_np_fields.
  - intros p v e. apply okrel_rel. auto 8 with frame.
  - intros t s'. apply task_rel; [apply _|intros; by apply good_np_fields|]. intros f Hf. eapply sw_hooks; [..|exact Hf]; auto 8 with frame.
  - intros ks s'. by apply good_np_fields.
  - intros t s' _. apply tx_rel; [apply _|apply okrel_rel; auto 8 with frame|]. intros m _. apply okrel_rel, np_msg.
  - by apply Forall_forall.
Qed.

(** ** Sound records *)
Section sound.
  Context (K : addr -> N -> Prop).
  Definition orok (z : addr) (o : option ninfo) : Prop := match o with Some x => rok K z x | None => True end.
  Lemma rok_step z h o o' : fstep true true false (K z) h o o' -> orok z o -> orok z o'.
  Proof.
    intros H. inversion H as [x y HQ|x Hv|x Hv HJ|x u Hv HJ|x e Hw HI|x e Hw]; subst; cbn.
    2-5: (intros (R1 & R2 & R3 & R4); split_and!; cbn in *; (done || lia)).
    2: intros (R1 & R2 & R3 & R4); split_and!; cbn in *; (done || lia).
    inversion HQ; subst; cbn; try done;
      try (intros (R1 & R2 & R3 & R4); split_and!; cbn in *; (done || lia)); intros _; split_and!; cbn; (done || lia).
  Qed.
  Lemma rok_full s s' : full true true false K s s' -> (forall z x, st_val s !! z = Some x -> rok K z x) ->
    forall z x, st_val s' !! z = Some x -> rok K z x.
  Proof.
    intros [_ HF] HR z x Hx. specialize (HF z).
    assert (H0 : orok z (st_val s !! z)) by (destruct (st_val s !! z) eqn:E; [by apply HR|done]).
    assert (H1 : orok z (st_val s' !! z)); [|by rewrite Hx in H1].
    revert H0. clear Hx. induction HF as [o|o1 o2 o3 HS _ IH]; [done|]. intros H0. apply IH. by eapply rok_step.
  Qed.
  (** Powers and last keys are only changed by the updates *)
  Definition pk (o : option ninfo) : Z * N := match o with Some x => (n_power x, n_last_pub x) | None => (0, 0%N) end.
  Lemma pk_full s s' : full true true false K s s' -> forall z, pk (st_val s' !! z) = pk (st_val s !! z).
  Proof.
    intros [_ HF] z. specialize (HF z). induction HF as [o|o1 o2 o3 HS _ IH]; [done|]. rewrite IH.
    inversion HS as [x y HQ|x Hv|x Hv HJ|x u Hv HJ|x e Hw HI|x e Hw]; subst; try done. inversion HQ; subst; done.
  Qed.
  Lemma on_record_pk s k p : on_record s k p <-> p <> 0 /\ exists z, pk (st_val s !! z) = (p, k).
  Proof.
    unfold on_record. split.
    - intros (z & x & E & <- & <- & Hp). split; [done|]. exists z. by rewrite E.
    - intros (Hp & z & HE). destruct (st_val s !! z) as [x|] eqn:E; cbn in HE; [|injection HE as <- <-; done].
      injection HE as <- <-. eauto 10.
  Qed.
  Lemma in_step_full c s s' : full true true false K s s' -> in_step c s -> in_step c s'.
  Proof.
    intros HF HI k p. rewrite (HI k p), !on_record_pk. split; intros [Hp [z Hz]]; (split; [done|]); exists z;
      [by rewrite (pk_full s s' HF)|by rewrite <- (pk_full s s' HF)].
  Qed.
End sound.

(** ** Histories *)
Definition usable (K : addr -> N -> Prop) (s : St) : Prop := good_np s /\ forall z x, st_val s !! z = Some x -> rok K z x.
Section hist.
  Context (K : addr -> N -> Prop).
  Hypothesis K0 : forall z k, K z k -> k <> 0%N.
  Context (D : Prop) (HD : D -> forall z z' k, K z k -> K z' k -> z = z').

  Lemma end_ok C b s s1 : Forall (keyed_tx K) (b_txs b) -> st_now s <= b_time b -> begin_block b s = (s1, Ok tt) ->
    usable K s -> (D -> in_step C s) ->
    let sg := deliver_txs (b_txs b) s1 in
    exists s' us T L, end_block sg = (s', Ok us) /\ usable K s' /\
      (D -> in_step (apply_updates C us) s' /\ acceptable C us) /\
      (forall z, z ∈ T ++ L <-> exists x, st_val s' !! z = Some x /\ n_power x <> 0) /\
      (forall z, z ∈ T ++ L -> exists x, st_val s' !! z = Some x /\ n_last_pub x = n_pub x /\ is_Some (st_oper s' !! n_pub x)) /\
      (forall k, is_Some (st_oper sg !! k) -> is_Some (st_oper s' !! k)) /\
      (forall k a, st_oper s' !! k = Some a -> st_oper sg !! k = Some a \/ (K a k /\ is_Some (st_val sg !! a))) /\
      NoDup (T ++ L) /\ (forall z, z ∈ T ++ L -> is_validator sg z = true) /\
      Z.of_nat (List.length T) <= np_max (st_np s') /\
      (queue_ok sg -> Z.of_nat (List.length L) <= Z.max 0 (np_lucky (st_np s'))) /\
      (forall z x, st_val sg !! z = Some x -> n_active x = true -> z ∉ T ->
         Z.of_nat (List.length T) = np_max (st_np s') /\
         forall b y, b ∈ T -> st_val sg !! b = Some y -> val_better (b, y) (z, x)) /\
      (forall z x, z ∈ T ++ L -> st_val s' !! z = Some x -> n_active x = true /\ (n_lottery x = 0 <-> z ∈ T)).
  Proof.
    intros HT HN HB [HU1 HU2] HC sg. pose proof (full_before K b s s1 HT HN HB) as HF. fold sg in HF.
    destruct (gather_ok K K0 D HD C sg) as (s' & us & T & L & HG & G1 & G2 & G3 & G4 & G5 & G6 & G7 & G8 & G9 & G10 & G11 & G12).
    - by apply (np_before b s s1).
    - by eapply rok_full.
    - intros d. eapply in_step_full; [exact HF|by apply HC].
    - exists s', us, T, L. rewrite G2. split; [|split; [|done]].
      + unfold end_block, must. by rewrite HG.
      + split; [|done]. unfold good_np. rewrite G2. by apply (np_before b s s1).
  Qed.
  Lemma usable_block C b s s' us : Forall (keyed_tx K) (b_txs b) -> st_now s <= b_time b -> run_block b s = Some (s', us) ->
    usable K s -> (D -> in_step C s) ->
    usable K s' /\ (D -> in_step (apply_updates C us) s' /\ acceptable C us) /\ st_now s' = b_time b.
  Proof.
    intros HT HN HB HU HC. unfold run_block in HB. destruct (begin_block b s) as [s1 [[]|e|e]] eqn:E1; try discriminate.
    pose proof (end_ok C b s s1 HT HN E1 HU HC) as (s2 & us2 & T & L & HE & G1 & G2 & _). cbv zeta in HE. rewrite HE in HB. injection HB as <- <-.
    split_and!; [done|done|]. pose proof (now_end (deliver_txs (b_txs b) s1)) as NE. rewrite HE in NE. unfold same in NE. cbn [fst] in NE. rewrite NE.
    assert (HP : PreOrder (fun _ _ : St => True)) by (by split).
    apply (before_end (fun _ _ => True) (fun _ => True) ltac:(done) ltac:(done) ltac:(done) ltac:(done) ltac:(done) b s s1); [by apply Forall_forall|done..].
  Qed.
  Lemma usable_blocks C bs s s' us : times_from (st_now s) bs -> Forall (fun b => Forall (keyed_tx K) (b_txs b)) bs ->
    run_blocks bs s = Some (s', us) -> usable K s -> (D -> in_step C s) ->
    usable K s' /\ (D -> in_step (apply_updates C (List.concat us)) s').
  Proof.
    revert C s s' us. induction bs as [|b bs IH]; intros C s s' us HT HF H HU HC; cbn in H.
    { injection H as <- <-. done. }
    destruct (run_block b s) as [[s1 u]|] eqn:E1; [|discriminate].
    destruct (run_blocks bs s1) as [[s2 us']|] eqn:E2; [|discriminate]. injection H as <- <-.
    destruct HT as [HT1 HT2]. apply Forall_cons_1 in HF as [HF1 HF2].
    destruct (usable_block C b s s1 u HF1 HT1 E1 HU HC) as (U1 & U2 & N1).
    cbn [List.concat]. rewrite apply_updates_app. eapply (IH _ s1); [by rewrite N1|done|exact E2|done|]. intros d. by apply U2.
  Qed.
End hist.
