(** * What others can change of one's profile *)
From Verif Require Export TariffHist Spec_Consent.
Open Scope Z_scope.

(** The profile of [z] goes on, changed at most as [G] allows. *)
Definition keptp (G : profile -> profile -> Prop) (z : addr) (s s' : St) : Prop :=
  acc_exists s z = true -> acc_exists s' z = true /\
  forall p, st_prof s !! z = Some p -> exists p', st_prof s' !! z = Some p' /\ G p p'.
#[export] Instance keptp_preorder G z `{!PreOrder G} : PreOrder (keptp G z).
Proof.
  split; [intros s H; split; [done|]; intros p E; exists p; split; [done|reflexivity]|].
  intros s1 s2 s3 H1 H2 H. destruct (H1 H) as [A1 P1]. destruct (H2 A1) as [A2 P2]. split; [done|].
  intros p E. destruct (P1 p E) as (p' & E' & G1). destruct (P2 p' E') as (p2 & E2 & G2). exists p2. split; [done|by etransitivity].
Qed.
Lemma kp_opens G z `{!PreOrder G} s s' : opens s s' -> keptp G z s s'.
Proof.
  intros O. pose proof (opens_prof _ _ O) as EP. destruct O as (_ & _ & F). intros A. split.
  - unfold acc_exists in *. destruct (st_accs s !! z) as [n|] eqn:E; [|done]. by rewrite (F z n E).
  - intros p E. exists p. rewrite EP. split; [done|reflexivity].
Qed.
Lemma rel_kp G z `{!PreOrder G} {A} (m : M A) : rel opens m -> rel (keptp G z) m.
Proof. intros H s. apply kp_opens; [done|apply H]. Qed.
Lemma kp_fields G z `{!PreOrder G} s s' : nview s' = nview s -> st_accs s' = st_accs s -> st_next_acc s' = st_next_acc s -> keptp G z s s'.
Proof. intros. by apply kp_opens, opens_fields. Qed.
Lemma kp_put G z `{!PreOrder G} s a p : (a = z -> forall o, st_prof s !! z = Some o -> G o p) ->
  keptp G z s (s <| st_prof := <[ a := p ]> (st_prof s) |>).
Proof.
  intros H A. split; [exact A|]. intros o E. cbn. destruct (decide (a = z)) as [->|N].
  - exists p. rewrite lookup_insert. split; [done|]. by apply H.
  - exists o. rewrite lookup_insert_ne by done. split; [done|reflexivity].
Qed.
Lemma kp_touch G z `{!PreOrder G} a : rel (keptp G z) (touch_account a).
Proof. apply rel_kp; [done|apply op_touch]. Qed.
Lemma kp_active G z `{!PreOrder G} a v : rel (keptp G z) (must_set_active a v).
Proof. apply rel_kp; [done|apply op_must_active]. Qed.
(** Writing the profile of somebody else *)
Lemma op_index (f : St -> St) : (forall s, st_prof (f s) = st_prof s /\ st_accs (f s) = st_accs s) ->
  forall G z, PreOrder G -> rel (keptp G z) (modify f).
Proof.
  intros H G z HG s. destruct (H s) as [H1 H2]. intros A. cbn. split; [unfold acc_exists in *; by rewrite H2|].
  intros p E. exists p. rewrite H1. split; [done|reflexivity].
Qed.
Lemma kp_other G z `{!PreOrder G} a p : a <> z -> rel (keptp G z) (set_profile a p).
Proof.
  intros N. unfold set_profile.
  assert (HI : forall f : St -> St, (forall s, st_prof (f s) = st_prof s /\ st_accs (f s) = st_accs s) -> rel (keptp G z) (modify f)).
  { intros f Hf. by apply op_index. }
  apply rel_bind; [apply _|apply rel_get, _|intros old]. apply rel_bind; [apply _|apply rel_get, _|intros nick].
  apply rel_bind; [apply _|apply rel_kp; [done|frame]|intros []].
  apply rel_bind; [apply _| |intros q].
  - destruct old as [o|].
    + apply rel_bind; [apply _| |intros []].
      * destruct (decide _); [apply rel_ret, _|]. apply rel_bind; [apply _| |intros []].
        { destruct (decide _); [apply rel_ret, _|]. by apply HI. }
        destruct (decide _); [apply rel_ret, _|]. apply bind_new; [apply _|]. intros price.
        apply rel_bind; [apply _|apply rel_kp; [done|]|intros []]; [|by apply HI].
        eapply sw_send_to_module; first [apply main_of|frame].
      * destruct (_ =? _); [apply rel_ret, _|]. apply rel_bind; [apply _| |intros []; apply rel_ret, _].
        destruct (_ =? _); [apply rel_ret, _|]. apply rel_bind; [apply _| |intros []; by apply HI].
        destruct (_ =? _); [apply rel_ret, _|]. by apply HI.
    + apply rel_bind; [apply _| |intros []].
      * destruct (decide _); [apply rel_ret, _|]. by apply HI.
      * apply rel_bind; [apply _| |intros []; apply rel_ret, _]. destruct (_ =? _); [apply rel_ret, _|]. by apply HI.
  - apply rel_bind; [apply _| |intros []].
    { intros s. cbn. apply kp_put; [done|]. intros ->. done. }
    apply rel_bind; [apply _|by apply kp_touch|intros []]. apply rel_bind; [apply _|apply rel_get, _|intros now]. cbv zeta.
    destruct (Bool.eqb _ _); [apply rel_ret, _|by apply kp_active].
Qed.
(** Writing one's own profile, nickname and card kept *)
Lemma kp_set_profile G z `{!PreOrder G} a o p s : st_prof s !! a = Some o -> G o p -> p_nick p = p_nick o -> p_card p = p_card o ->
  keptp G z s (fst (set_profile a p s)).
Proof.
  intros E HG EN EC. eapply set_profile_keep; [apply _|by apply kp_touch|intros v; by apply kp_active| |exact E|done..].
  apply kp_put; [done|]. intros -> o'. rewrite E. by intros [= <-].
Qed.

(** ** Messages of others *)
Lemma kp_pay_tariff z a g auto : a <> z -> rel (keptp eq z) (pay_tariff a g auto).
Proof.
  intros N s. destruct (pay_tariff a g auto s) as [s' r] eqn:H.
  apply pay_tariff_out in H as [[H _]|(p & b & base & fee & sf & extra & s1 & s2 & s3 & u & EP & _ & _ & _ & _ & _ & _ & C1 & _ & O2 & C3 & _ & -> & _)].
  - apply kp_opens; [apply _|exact H].
  - assert (O : opens s s3) by (transitivity s1; [apply C1|]; transitivity s2; [done|apply C3]).
    cbn [fst]. transitivity s3; [by apply kp_opens; [apply _|]|]. by apply kp_other; [apply _|].
Qed.
Ltac kp_op H := apply at_bind; [apply _|apply rel_kp; [apply _|apply H]|].
Lemma kp_buy_storage z a x : a <> z -> rel (keptp eq z) (buy_storage a x).
Proof.
  intros N s. unfold buy_storage. apply at_profile; [apply _|intros p E]. apply at_get; [apply _|].
  apply at_ensure; [apply _|intros _]. apply at_get; [apply _|]. cbv zeta. apply at_lift; [apply _|intros u _].
  apply at_get; [apply _|]. do 2 (apply at_fr; [apply _|intros ? _]). apply at_assert; [apply _|intros _].
  kp_op op_company. intros [] s1 H. apply kp_other; [apply _|done].
Qed.
Lemma kp_buy_vpn z a x : a <> z -> rel (keptp eq z) (buy_vpn a x).
Proof.
  intros N s. unfold buy_vpn. apply at_profile; [apply _|intros p E]. apply at_get; [apply _|].
  apply at_ensure; [apply _|intros _]. apply at_get; [apply _|]. apply at_fr; [apply _|intros ? _]. apply at_assert; [apply _|intros _].
  kp_op op_company. intros [] s1 H. apply kp_other; [apply _|done].
Qed.
Lemma kp_buy_im z a x : a <> z -> rel (keptp eq z) (buy_im a x).
Proof.
  intros N s. unfold buy_im. apply at_profile; [apply _|intros p E]. do 2 (apply at_get; [apply _|]). cbv zeta.
  apply at_bind; [apply _| |].
  { destruct (im_active _ _); [|cbn; reflexivity]. apply at_lift; [apply _|intros u _]. apply at_get; [apply _|].
    unfold fr. apply rel_lift, _. }
  intros q s0 H0. apply at_fr; [apply _|intros ? _]. apply at_assert; [apply _|intros _].
  kp_op op_company. intros [] s1 H. destruct (im_active _ _); [by apply kp_other; [apply _|]|].
  apply at_get; [apply _|]. kp_op op_task. intros [] s2 H2. by apply kp_other; [apply _|].
Qed.
Lemma kp_give_storage_up z a x : a <> z -> rel (keptp eq z) (give_storage_up a x).
Proof.
  intros N s. unfold give_storage_up. apply at_profile; [apply _|intros p E]. apply at_get; [apply _|]. cbv zeta.
  do 2 (apply at_ensure; [apply _|intros _]). by apply kp_other; [apply _|].
Qed.
Lemma kp_give_im_up z a x : a <> z -> rel (keptp eq z) (give_im_up a x).
Proof.
  intros N s. unfold give_im_up. apply at_profile; [apply _|intros p E]. apply at_get; [apply _|]. cbv zeta.
  apply at_ensure; [apply _|intros _]. destruct (x =? 0); [|by apply kp_other; [apply _|]].
  apply at_lift; [apply _|intros u _]. kp_op op_delete. intros [] s1 H. by apply kp_other; [apply _|].
Qed.
Lemma kp_prolong_im z a : a <> z -> rel (keptp eq z) (prolong_im a).
Proof.
  intros N s. unfold prolong_im. apply at_profile; [apply _|intros p E]. kp_op op_prolong. intros p' s1 H.
  unfold must. pose proof (kp_other eq z a p' N s1) as HS. by destruct (set_profile a _ s1) as [s2 [?|?|?]].
Qed.
Lemma kp_update z a us : a <> z -> rel (keptp eq z) (msg_update_profile a us).
Proof.
  intros N s. unfold msg_update_profile. apply at_ensure; [apply _|intros _]. apply at_profile; [apply _|intros p E].
  by apply kp_other; [apply _|].
Qed.
Lemma kp_create z c a r p s s' : msg_create_account c a r p s = (s', Ok tt) -> keptp eq z s s'.
Proof.
  intros H A. apply create_ok in H as (HX & s1 & n & O1 & HA & H).
  assert (N : a <> z) by (intros ->; congruence).
  assert (K1 : keptp eq z s s1) by (by apply kp_opens; [apply _|]).
  assert (K2 : keptp eq z s1 s').
  { match type of H with set_profile _ ?q _ = _ => pose proof (kp_other eq z a q N s1) as K end. by rewrite H in K. }
  assert (K : keptp eq z s s') by (by etransitivity). by apply K.
Qed.
Definition sets_usage (m : msg) (z : addr) : bool :=
  match m with MSetStorageCurrent _ b _ | MSetVpnCurrent _ b _ => (b =? z)%N | _ => false end.
Lemma kp_write z a f : a <> z -> rel (keptp eq z) (write_profile a f).
Proof.
  intros N s. unfold write_profile. apply at_get; [apply _|]. destruct (st_prof s !! a) as [p|] eqn:E; [|cbn; reflexivity].
  cbn. apply kp_put; [apply _|done].
Qed.
Lemma kp_msg z m s s' : run_msg m s = (s', Ok tt) -> signer m <> z -> sets_usage m z = false -> keptp eq z s s'.
Proof.
  intros H N U.
  assert (HR : forall R, PreOrder R -> rel R (run_msg m) -> R s s').
  { intros R HR HK. specialize (HK s). by rewrite H in HK. }
  destruct m; cbn in N, U; cbn [run_msg] in *;
    try (apply N.eqb_neq in U); try (apply HR; [apply _|]; apply rel_kp; [apply _|]; solve [frame]).
  - apply HR; [apply _|]. apply rel_kp; [apply _|]. apply rel_bind; [apply _|apply rel_ensure, _|intros []]. frame.
  - by eapply kp_create.
  - apply HR; [apply _|]. by apply kp_update.
  - apply HR; [apply _|]. unfold msg_set_storage_current. apply rel_bind; [apply _|apply rel_get, _|intros pp].
    apply rel_bind; [apply _|apply rel_ensure, _|intros []]. by apply kp_write.
  - apply HR; [apply _|]. unfold msg_set_vpn_current. apply rel_bind; [apply _|apply rel_get, _|intros pp].
    apply rel_bind; [apply _|apply rel_ensure, _|intros []]. by apply kp_write.
  - apply HR; [apply _|]. apply rel_bind; [apply _|apply rel_ensure, _|intros []]. by apply kp_pay_tariff.
  - apply HR; [apply _|]. apply rel_bind; [apply _|apply rel_ensure, _|intros []]. by apply kp_buy_storage.
  - apply HR; [apply _|]. apply rel_bind; [apply _|apply rel_ensure, _|intros []]. by apply kp_give_storage_up.
  - apply HR; [apply _|]. apply rel_bind; [apply _|apply rel_ensure, _|intros []]. by apply kp_buy_vpn.
  - apply HR; [apply _|]. apply rel_bind; [apply _|apply rel_ensure, _|intros []]. by apply kp_buy_im.
  - apply HR; [apply _|]. apply rel_bind; [apply _|apply rel_ensure, _|intros []]. by apply kp_give_im_up.
  - apply HR; [apply _|]. by apply kp_prolong_im.
Qed.

(** ** Histories *)
#[export] Instance aged_preorder : PreOrder aged.
Proof.
  split; [intros p; repeat split; by auto|]. intros p q r (S1 & A1 & U1 & I1) (S2 & A2 & U2 & I2).
  assert (EA : p_autopay q = p_autopay p) by exact (f_equal (fun v => v.1.1.1.1.1.1) S1).
  split; [congruence|]. split; [by auto|]. split; [intros H; rewrite U2 by congruence; by apply U1|].
  intros H. assert (Hq : p_im_autopay q = false) by (destruct (p_im_autopay q); [rewrite A1 in H by done; done|done]).
  destruct (I2 Hq) as [[-> ->]|[-> ->]]; [by apply I1|by right].
Qed.
Lemma aged_plain p p' : settings p' = settings p -> p_im_autopay p' = p_im_autopay p -> p_until p' = p_until p ->
  p_im_extra p' = p_im_extra p -> p_im_until p' = p_im_until p -> aged p p'.
Proof. intros H1 H2 H3 H4 H5. split; [done|]. split; [by rewrite H2|]. split; [done|]. intros _. by left. Qed.
Lemma aged_core p p' : aged p p' -> p_nick p' = p_nick p /\ p_card p' = p_card p.
Proof. intros (S & _). split; [exact (f_equal (fun v => v.1.2) S)|exact (f_equal snd S)]. Qed.
Lemma aged_reset pp p : aged p (reset_limits pp p).
Proof.
  unfold reset_limits. cbv zeta. apply aged_plain; repeat match goal with |- context [if ?c then _ else _] => destruct c end; done.
Qed.
Lemma aged_renewed s p b u : p_autopay p = true -> aged p (renewed s p b true u).
Proof.
  intros HA. unfold renewed. rewrite andb_false_r. cbv zeta.
  match goal with |- aged _ (reset_limits _ ?q) => transitivity q; [|apply aged_reset] end.
  destruct (_ && _); (split; [done|]; split; [done|]; split; [cbn; congruence|]; intros _; by left).
Qed.
Lemma kp_aged z a o p s : st_prof s !! a = Some o -> aged o p -> keptp aged z s (fst (set_profile a p s)).
Proof. intros E H. destruct (aged_core _ _ H) as [H1 H2]. by eapply kp_set_profile; [apply _|exact E|..]. Qed.
Lemma age_monthly z a : rel (keptp aged z) (monthly a).
Proof.
  intros s. unfold monthly. apply at_profile; [apply _|intros p E]. apply at_get; [apply _|].
  destruct (p_active _ p). { apply at_get; [apply _|]. eapply kp_aged; [exact E|apply aged_reset]. }
  destruct (p_autopay p) eqn:EA; [|apply kp_active, _].
  apply at_bind; [apply _| |intros [x|e] s1 _; [cbn; reflexivity|apply kp_active, _]].
  assert (HP : keptp aged z s (fst (pay_tariff a 0 true s))).
  { destruct (pay_tariff a 0 true s) as [s' r] eqn:H.
    apply pay_tariff_out in H as [[H _]|(p0 & b & base & fee & sf & extra & s1 & s2 & s3 & u & EP & _ & _ & _ & _ & _ & _ & C1 & _ & O2 & C3 & _ & -> & _)].
    - apply kp_opens; [apply _|exact H].
    - assert (O : opens s s3) by (transitivity s1; [apply C1|]; transitivity s2; [done|apply C3]).
      cbn [fst]. transitivity s3; [apply kp_opens; [apply _|exact O]|].
      eapply kp_aged; [rewrite (opens_prof _ _ O); exact EP|]. apply aged_renewed. congruence. }
  unfold try. destruct (pay_tariff a 0 true s) as [s1 [x|e|e]]; exact HP.
Qed.
Lemma aged_off p : aged p (p <| p_im_extra := 0 |> <| p_im_until := None |> <| p_im_autopay := false |>).
Proof. split; [done|]. split; [done|]. split; [done|]. intros _. by right. Qed.
Lemma aged_prolong p t : p_im_autopay p = true -> aged p (p <| p_im_until := Some t |>).
Proof. intros H. split; [done|]. split; [done|]. split; [done|]. congruence. Qed.
Lemma age_monthly_im z a : rel (keptp aged z) (monthly_im a).
Proof.
  intros s. unfold monthly_im. apply at_profile; [apply _|intros p E].
  apply at_bind; [apply _| |].
  - destruct (p_im_autopay p); [|cbn; reflexivity]. unfold try. pose proof (rel_kp aged z _ (op_prolong a p) s) as HP.
    destruct (prolong_core a p s) as [s1 [?|?|?]]; exact HP.
  - intros r s1 H.
    assert (HP : st_prof s1 = st_prof s /\ match r with inl p' => aged p p' | inr _ => True end).
    { destruct (p_im_autopay p) eqn:EI.
      - unfold try in H. destruct (prolong_core a p s) as [s2 [p'|e|e]] eqn:H2; try discriminate; injection H as <- <-.
        + split; [eapply rel_prof; [apply op_prolong|exact H2]|]. destruct (prolong_core_core _ _ _ _ _ H2) as [t ->]. by apply aged_prolong.
        + split; [eapply rel_prof; [apply op_prolong|exact H2]|done].
      - by apply ret_ok in H as [-> ->]. }
    destruct HP as [P1 HC]. destruct r as [p'|e]; (eapply kp_aged; [rewrite P1; exact E|]); [done|apply aged_off].
Qed.
Lemma age_must z {A} (m : M A) : rel (keptp aged z) m -> rel (keptp aged z) (must m).
Proof. intros H s. specialize (H s). unfold must. by destruct (m s) as [s1 [x|e|e]]. Qed.
Lemma age_hook z h f a t : hooks h = Some f -> rel (keptp aged z) (f a t).
Proof.
  intros H. destruct h; try discriminate; injection H as <-; try (apply rel_kp; [apply _|]; cbv beta; frame).
  - apply age_must, age_monthly.
  - apply age_must, age_monthly_im.
Qed.
Lemma keptp_weaken (G H : profile -> profile -> Prop) z s s' : (forall p q, G p q -> H p q) -> keptp G z s s' -> keptp H z s s'.
Proof. intros HGH K A. destruct (K A) as [A' P]. split; [done|]. intros p E. destruct (P p E) as (p' & E' & HG). exists p'. by auto. Qed.
Lemma age_msg z m s s' : run_msg m s = (s', Ok tt) -> signer m <> z -> keptp aged z s s'.
Proof.
  intros H N. destruct (sets_usage m z) eqn:U.
  - assert (HW : forall f, (forall p, aged p (f p)) -> rel (keptp aged z) (write_profile z f)).
    { intros f Hf s0. unfold write_profile. apply at_get; [apply _|]. destruct (st_prof s0 !! z) as [p|] eqn:E; [|cbn; reflexivity].
      cbn. apply kp_put; [apply _|]. intros _ o. rewrite E. intros [= <-]. apply Hf. }
    destruct m; cbn in U; try discriminate; apply N.eqb_eq in U; subst; cbn [run_msg] in H.
    + apply bind_ok in H as (pp & s1 & H1 & H). apply get_ok in H1 as [-> ->].
      apply bind_ok in H as ([] & s1 & H1 & H). apply ensure_ok in H1 as [-> _].
      match type of H with write_profile _ ?f _ = _ => pose proof (HW f (fun p => aged_plain _ _ eq_refl eq_refl eq_refl eq_refl eq_refl) s) as K end.
      by rewrite H in K.
    + apply bind_ok in H as (pp & s1 & H1 & H). apply get_ok in H1 as [-> ->].
      apply bind_ok in H as ([] & s1 & H1 & H). apply ensure_ok in H1 as [-> _].
      match type of H with write_profile _ ?f _ = _ => pose proof (HW f (fun p => aged_plain _ _ eq_refl eq_refl eq_refl eq_refl eq_refl) s) as K end.
      by rewrite H in K.
  - eapply keptp_weaken; [|by eapply kp_msg]. by intros p q ->.
Qed.
Lemma op_ante t : rel opens (ante t).
Proof.
  unfold ante. apply rel_bind; [apply _|apply rel_ensure, _|intros []]. apply rel_bind; [apply _|apply rel_get, _|intros ok].
  do 2 (apply rel_bind; [apply _|apply rel_ensure, _|intros []]). case_decide; [apply rel_ret, _|].
  unfold send_to_module. apply rel_bind; [apply _|apply op_touch|intros []]. frame.
Qed.
Lemma age_blocks z bs s s' us : times_from (st_now s) bs -> Forall (fun b => Forall (not_signed z) (b_txs b)) bs ->
  run_blocks bs s = Some (s', us) -> keptp aged z s s'.
Proof.
  intros HT HB. apply (bl_blocks (keptp aged z) (not_signed z)); [..|done|exact HB].
  - intros b s0 _. apply kp_fields; [apply _|done..].
  - intros p v e s0 s1 x H. apply kp_opens; [apply _|]. assert (HR : rel opens (noding_begin p v e)) by frame. specialize (HR s0). by rewrite H in HR.
  - intros t s0. apply task_rel; [apply _|intros; apply kp_fields; [apply _|done..]|]. intros f Hf. by eapply age_hook.
  - intros ks s0. apply kp_fields; [apply _|done..].
  - intros t s0 N. apply tx_rel; [apply _| |].
    + intros s1 s2 x H. pose proof (rel_kp aged z _ (op_ante t) s1) as K. by rewrite H in K.
    + intros m Hm s1 s2 [] H. eapply age_msg; [exact H|]. intros E. apply N. rewrite <-E. apply elem_of_list_fmap. exists m. by split.
  - intros s0 s1 x H. apply kp_opens; [apply _|]. assert (HR : rel opens end_block) by frame. specialize (HR s0). by rewrite H in HR.
Qed.
