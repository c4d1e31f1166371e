(** * Account numbers and cards through histories *)
From Verif Require Export NameHist.
From Verif Require Import Spec_Genesis GenesisProofs NameGenesis.
Open Scope Z_scope.

(** ** Numbers have no gaps *)
Definition knum : St -> St -> Prop := keeps numbered.
#[export] Instance knum_preorder : PreOrder knum.
Proof. unfold knum. apply _. Qed.
Lemma num_fields s s' : st_accs s' = st_accs s -> st_next_acc s' = st_next_acc s -> knum s s'.
Proof. intros H1 H2. unfold knum, keeps, numbered, acc_exists. by rewrite H1, H2. Qed.
#[export] Hint Extern 1 (knum _ _) => (apply num_fields; reflexivity) : frame.
Lemma num_open s a : acc_exists s a = false -> numbered s ->
  numbered (s <| st_next_acc := st_next_acc s + 1 |> <| st_accs := <[ a := st_next_acc s ]> (st_accs s) |>).
Proof.
  intros E (HF & H0 & H). unfold numbered, acc_exists in *. split_and!; cbn.
  - destruct (decide (a = fee_collector)) as [->|Hn]; [by rewrite lookup_insert|by rewrite lookup_insert_ne].
  - lia.
  - intros n. split.
    + intros Hn. destruct (decide (n = st_next_acc s)) as [->|Hd]; [exists a; by rewrite lookup_insert|].
      destruct (proj1 (H n)) as [b Hb]; [lia|]. exists b. rewrite lookup_insert_ne; [done|]. intros <-. by rewrite Hb in E.
    + intros [b [[_ <-]|[_ Hb]]%lookup_insert_Some]; [lia|]. assert (0 <= n < st_next_acc s) by eauto using (proj2 (H n)). lia.
Qed.
Lemma num_touch a : rel knum (touch_account a).
Proof.
  intros s. unfold touch_account. apply at_get; [apply _|]. destruct (acc_exists s a) eqn:E; [cbn; reflexivity|].
  cbn. intros N. by apply num_open.
Qed.
#[export] Hint Resolve num_touch | 0 : frame.
Lemma num_set_pparams p : rel knum (set_pparams p).
Proof. frame. Qed.
Lemma num_hook h f a t : hooks h = Some f -> rel knum (f a t).
Proof. destruct h; cbn; intros H; try discriminate; injection H as <-; frame. Qed.
(** Paying the fee collector opens no account when it has one. *)
Lemma pay_creator_accs c n s s' : (let! x := new_coins uartr n in send_to_module c fee_collector x) s = (s', Ok tt) ->
  acc_exists s fee_collector = true -> st_accs s' = st_accs s /\ st_next_acc s' = st_next_acc s.
Proof.
  intros H E. apply bind_ok in H as (x & s1 & H1 & H). apply new_coins_ok in H1 as (-> & _ & ->).
  unfold send_to_module in H. apply bind_ok in H as ([] & s2 & H2 & H). unfold touch_account in H2.
  apply bind_ok in H2 as (ex & s3 & H3 & H2). apply get_ok in H3 as [-> ->]. rewrite E in H2. apply ret_ok in H2 as [-> _].
  set (m := send_coins _ _ _) in H.
  assert (R1 : rel (same st_accs) m) by (subst m; frame). assert (R2 : rel (same st_next_acc) m) by (subst m; frame).
  specialize (R1 s). specialize (R2 s). rewrite H in R1, R2. cbn in R1, R2. unfold same in R1, R2. done.
Qed.
Lemma num_create c a r p s s' : msg_create_account c a r p s = (s', Ok tt) -> knum s s'.
Proof.
  unfold msg_create_account. intros H HN. apply bind_ok in H as ([] & s1 & H1 & H). apply ensure_ok in H1 as [-> _].
  apply bind_ok in H as (x & s1 & H1 & H). apply get_ok in H1 as [-> ->].
  apply bind_ok in H as ([] & s1 & H1 & H). apply ensure_ok in H1 as [-> HX]. apply negb_true_iff in HX.
  apply bind_ok in H as (x & s1 & H1 & H). apply get_ok in H1 as [-> ->].
  apply bind_ok in H as ([] & s1 & H1 & H).
  assert (O1 : st_accs s1 = st_accs s /\ st_next_acc s1 = st_next_acc s).
  { destruct (_ && _); [eapply pay_creator_accs; [exact H1|apply HN]|by apply ret_ok in H1 as [-> _]]. }
  clear H1. destruct O1 as [O1 O2]. assert (HN1 : numbered s1) by (by apply (num_fields s s1)).
  assert (HX1 : acc_exists s1 a = false) by (unfold acc_exists in *; by rewrite O1). clear s HN HX O1 O2.
  unfold create_with_profile in H. apply bind_ok in H as (n & s2 & H2 & H).
  assert (HN2 : numbered s2).
  { unfold create_account in H2. apply bind_ok in H2 as (m & s3 & E & H2). apply get_ok in E as [-> ->].
    apply bind_ok in H2 as ([] & s3 & E & H2). apply modify_ok in E as ->. apply bind_ok in H2 as ([] & s4 & E & H2). apply modify_ok in E as ->.
    apply ret_ok in H2 as [-> _]. exact (num_open s1 a HX1 HN1). }
  clear H2 HN1 HX1 s1. apply bind_ok in H as ([] & s3 & H3 & H).
  assert (HN3 : numbered s3) by (assert (HR : rel knum (append_child r a)) by frame; specialize (HR s2); rewrite H3 in HR; by apply HR).
  apply bind_ok in H as (t & s4 & H4 & H). apply get_ok in H4 as [-> ->].
  apply bind_ok in H as ([] & s5 & H5 & H).
  assert (HN5 : numbered s5).
  { match type of H5 with schedule_compression ?t _ _ = _ => assert (HR : rel knum (schedule_compression t a)) by frame end; specialize (HR s3); rewrite H5 in HR; by apply HR. }
  apply bind_ok in H as (m & s6 & H6 & H). apply get_ok in H6 as [-> ->].
  match type of H with set_profile _ ?q _ = _ => assert (HR : rel knum (set_profile a q)) by frame end. specialize (HR s5). rewrite H in HR. by apply HR.
Qed.
Lemma num_msg m : okrel knum (run_msg m).
Proof.
  destruct m; cbn [run_msg]; try (apply okrel_rel; frame);
    try (apply okrel_rel; apply rel_bind; [apply _|apply rel_ensure, _|intros []]; frame).
  intros s s' [] H. by eapply num_create.
Qed.
Lemma num_ante t : okrel knum (ante t).
Proof.
  apply okrel_rel. unfold ante. apply rel_bind; [apply _|apply rel_ensure, _|intros []]. apply rel_bind; [apply _|apply rel_get, _|intros ok].
  do 2 (apply rel_bind; [apply _|apply rel_ensure, _|intros []]). case_decide; [apply rel_ret, _|].
  unfold send_to_module. apply rel_bind; [apply _|apply num_touch|intros []]. frame.
Qed.
Lemma num_blocks bs s s' us : times_from (st_now s) bs -> run_blocks bs s = Some (s', us) -> numbered s -> numbered s'.
Proof.
  intros HT. change (run_blocks bs s = Some (s', us) -> knum s s'). apply (bl_blocks knum (fun _ => True)); [..|done|].
  - intros b s0 _. by apply num_fields.
  - intros p v e s0 s1 x H. assert (HR : rel knum (noding_begin p v e)) by frame. specialize (HR s0). by rewrite H in HR.
  - intros t s0. apply task_rel; [apply _|intros; by apply num_fields|]. intros f Hf. by eapply num_hook.
  - intros ks s0. by apply num_fields.
  - intros t s0 _. apply tx_rel; [apply _| |intros m _; apply num_msg]. intros s1 s2 x H. by eapply num_ante.
  - intros s0 s1 x H. assert (HR : rel knum end_block) by frame. specialize (HR s0). by rewrite H in HR.
  - apply Forall_forall. intros b _. by apply Forall_forall.
Qed.

(** ** Every profile keeps its card *)
Definition card_rel (s s' : St) : Prop := names_ok s -> carded s -> names_ok s' /\ carded s'.
#[export] Instance card_rel_preorder : PreOrder card_rel.
Proof. split; [by intros s|]. intros s1 s2 s3 H1 H2 H C. destruct (H1 H C). by apply H2. Qed.
Lemma card_kept s s' : kept_names s s' -> card_rel s s'.
Proof.
  intros K N C. split; [by eapply names_kept|]. destruct K as (O & _ & _ & EP). intros a p Hp. specialize (EP a). rewrite Hp in EP.
  destruct (st_prof s !! a) as [q|] eqn:E; [|discriminate]. cbn in EP. apply core_inv in EP as [_ ->].
  destruct (C _ _ E) as (n & Hn & ->). exists n. split; [by apply O|]. by rewrite (proj2 (proj2 (proj2 (opens0_chars _ _ O)))).
Qed.
Lemma card_msg m : okrel card_rel (run_msg m).
Proof.
  destruct (writes_nick m) eqn:E.
  2: { intros s s' [] H. apply card_kept. by eapply (kn_msg m E). }
  destruct m; try discriminate; cbn [run_msg]; intros s s' [] H HN HC.
  - apply names_create in H as (EX & s1 & p' & n & O1 & EP' & HN1 & HN' & O & A1 & A2 & EP & EN); [|done].
    split; [done|]. assert (C1 : carded s1) by (apply (card_kept s s1); [by apply kept_opens|done|done]).
    pose proof (proj2 (proj2 (proj2 (opens0_chars _ _ O)))) as M. intros b q. rewrite EP. intros [[<- <-]|[_ Hq]]%lookup_insert_Some.
    + exists n. split; [done|]. rewrite M, EP'. done.
    + destruct (C1 _ _ Hq) as (k & Hk & ->). exists k. split; [by apply O|by rewrite M].
  - apply names_update in H as (o & Eo & HN' & O & EP & EN & EC); [|done]. split; [done|].
    pose proof (proj2 (proj2 (proj2 (opens0_chars _ _ O)))) as M. intros b q. rewrite EP. intros [[<- <-]|[_ Hq]]%lookup_insert_Some.
    + rewrite fold_upd_card. destruct (HC _ _ Eo) as (k & Hk & ->). exists k. split; [by apply O|by rewrite M].
    + destruct (HC _ _ Hq) as (k & Hk & ->). exists k. split; [by apply O|by rewrite M].
Qed.
Lemma card_blocks bs s s' us : times_from (st_now s) bs -> run_blocks bs s = Some (s', us) -> card_rel s s'.
Proof.
  intros HT. apply (bl_blocks card_rel (fun _ => True)); [..|done|].
  - intros b s0 _. apply card_kept. by apply kept_names_fields.
  - intros p v e s0 s1 x H. apply card_kept. assert (HR : rel kept_names (noding_begin p v e)) by frame. specialize (HR s0). by rewrite H in HR.
  - intros t s0. apply card_kept, kn_task.
  - intros ks s0. apply card_kept. by apply kept_names_fields.
  - intros t s0 _. apply tx_rel; [apply _| |intros m _; apply card_msg]. intros s1 s2 x H. apply card_kept. by eapply kn_ante.
  - intros s0 s1 x H. apply card_kept. assert (HR : rel kept_names end_block) by frame. specialize (HR s0). by rewrite H in HR.
  - apply Forall_forall. intros b _. by apply Forall_forall.
Qed.

(** ** A new chain *)
Definition gapless (s : St) : Prop := 0 <= st_next_acc s /\ forall n, 0 <= n < st_next_acc s <-> exists a, st_accs s !! a = Some n.
Lemma gapless_open a s s' : st_accs s !! a = None -> st_accs s' = <[ a := st_next_acc s ]> (st_accs s) -> st_next_acc s' = st_next_acc s + 1 -> gapless s -> gapless s'.
Proof.
  intros E E1 E2 [H0 H]. unfold gapless. rewrite E1, E2. split; [lia|]. intros n. split.
  + intros Hn. destruct (decide (n = st_next_acc s)) as [->|Hd]; [exists a; by rewrite lookup_insert|].
    destruct (proj1 (H n)) as [b Hb]; [lia|]. exists b. rewrite lookup_insert_ne; [done|]. intros <-. by rewrite Hb in E.
  + intros [b [[_ <-]|[_ Hb]]%lookup_insert_Some]; [lia|]. assert (0 <= n < st_next_acc s) by eauto using (proj2 (H n)). lia.
Qed.
Lemma gapless_list l : forall s s', NoDup (map fst l) -> (forall a, a ∈ map fst l -> st_accs s !! a = None) ->
  mfor l (fun e : addr * Z => do! create_account (fst e) in ret tt) s = (s', Ok tt) -> gapless s -> gapless s'.
Proof.
  induction l as [|[a n] l IH]; intros s s' ND HN H; cbn [mfor] in H; [by apply ret_ok in H as [-> _]|].
  apply bind_ok in H as ([] & s1 & E & H). apply bind_ok in E as (k & s2 & E & E'). apply ret_ok in E' as [-> _]. cbn [fst] in E.
  apply accs_create in E as (E1 & E2 & _). cbn [map fst] in *. apply NoDup_cons in ND as [ND1 ND2]. intros G.
  eapply IH; [done| |exact H|].
  - intros b Hb. rewrite E1, lookup_insert_ne; [apply HN; by right|]. intros <-. done.
  - eapply gapless_open; [|exact E1|exact E2|exact G]. apply HN. by left.
Qed.
Lemma init_numbered g s s' u : st_accs s = ∅ -> st_next_acc s = 0 -> NoDup (map fst (g_accs g)) -> init_genesis g s = (s', Ok u) -> numbered s'.
Proof.
  intros A0 X0 ND H. apply init_name_stages in H as (s1 & s2 & s3 & s4 & s5 & E1 & E2 & E3 & E4 & E5 & E6).
  apply name_parts in E1 as (_ & _ & _ & A1 & X1 & _). apply name_parts in E3 as (_ & _ & _ & A3 & X3 & _).
  apply name_parts in E5 as (_ & _ & _ & A5 & X5 & _). apply name_parts in E6 as (_ & _ & _ & A6 & X6 & _).
  assert (A4 : st_accs s4 = st_accs s3 /\ st_next_acc s4 = st_next_acc s3).
  { clear -E4. revert s3 E4. generalize (g_profs g). intros l. induction l as [|[a p] l IH]; intros s3 H; cbn [mfor] in H; [by apply ret_ok in H as [-> _]|].
    apply bind_ok in H as ([] & s1 & E & H). apply profile_run in E as (n & EA & V & A & X & _). destruct (IH _ H). split; congruence. }
  destruct A4 as [A4 X4]. assert (N2 : numbered s2).
  { unfold auth_import in E2. apply bind_ok in E2 as ([] & s2' & E2 & E2').
    assert (G : gapless s2').
    { eapply gapless_list; [| |exact E2|].
      - by rewrite merge_sort_Permutation.
      - intros a _. by rewrite A1, A0, lookup_empty.
      - unfold gapless. rewrite X1, X0, A1, A0. split; [lia|]. intros n. split; [lia|]. intros [a Ha]. by rewrite lookup_empty in Ha. }
    clear E2. unfold touch_account in E2'. apply bind_ok in E2' as (ex & t & E & E2'). apply get_ok in E as [-> ->]. destruct (acc_exists s2' fee_collector) eqn:EX.
    - apply ret_ok in E2' as [-> _]. by split.
    - apply bind_ok in E2' as (n & t & E & E2'). apply ret_ok in E2' as [-> _]. apply accs_create in E as (E1 & E2 & _).
      split; [unfold acc_exists; by rewrite E1, lookup_insert|]. eapply (gapless_open fee_collector s2'); [|done|done|done].
      unfold acc_exists in EX. by destruct (st_accs s2' !! fee_collector). }
  revert N2. apply num_fields; congruence.
Qed.
Lemma init_carded g s s' u : st_prof s = ∅ -> NoDup (map fst (g_profs g)) -> init_genesis g s = (s', Ok u) -> carded s'.
Proof.
  intros P0 ND H. apply init_name_stages in H as (s1 & s2 & s3 & s4 & s5 & E1 & E2 & E3 & E4 & E5 & E6).
  apply name_parts in E1 as (P1 & _). apply auth_run in E2 as [V2 _]. assert (P2 : st_prof s2 = ∅) by (unfold nview in V2; congruence).
  apply name_parts in E3 as (P3 & _). apply name_parts in E5 as (P5 & _ & _ & A5 & _ & _ & _ & _ & M5). apply name_parts in E6 as (P6 & _ & _ & A6 & _ & _ & _ & _ & M6).
  apply (profiles_import _ _ _ ND) in E4 as (V4 & A4 & I1 & I2). intros a p. rewrite P6, P5. intros Hp.
  destruct (decide (a ∈ map fst (g_profs g))) as [Ha|Ha].
  - apply elem_of_list_fmap in Ha as ([b q] & -> & Hq). cbn [fst] in *. destruct (I1 _ _ Hq) as (n & H1 & H2). exists n.
    rewrite A6, A5, A4. split; [done|]. assert (p = q <| p_card := Z.lxor n (pp_card_magic (st_pp s3)) |>) as -> by congruence. cbn.
    rewrite M6, M5. unfold cview in V4. congruence.
  - rewrite I2, P3, P2, lookup_empty in Hp by done. done.
Qed.
