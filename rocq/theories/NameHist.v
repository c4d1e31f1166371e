(** * Names and cards through histories *)
From Verif Require Export TariffProofs.
Open Scope Z_scope.

(** ** The other steps that keep them *)
Lemma core_renewed s p b auto u : core (renewed s p b auto u) = core p.
Proof.
  unfold renewed, reset_limits. cbv zeta. repeat match goal with |- context [if ?c then _ else _] => destruct c end; done.
Qed.
Lemma core_reset pp p : core (reset_limits pp p) = core p.
Proof. unfold reset_limits. cbv zeta. repeat match goal with |- context [if ?c then _ else _] => destruct c end; done. Qed.
Lemma kn_pay_tariff a g auto : rel kept_names (pay_tariff a g auto).
Proof.
  intros s. destruct (pay_tariff a g auto s) as [s' r] eqn:H.
  apply pay_tariff_out in H as [[H _]|(p & b & base & fee & sf & extra & s1 & s2 & s3 & u & EP & _ & _ & _ & _ & _ & _ & C1 & _ & O2 & C3 & _ & -> & _)].
  - by apply kept_opens.
  - assert (O : opens s s3) by (transitivity s1; [apply C1|]; transitivity s2; [done|apply C3]).
    cbn [fst]. transitivity s3; [by apply kept_opens|]. eapply kn_set_profile; [rewrite (opens_prof _ _ O); exact EP|apply core_renewed].
Qed.
Lemma kn_monthly a : rel kept_names (monthly a).
Proof.
  intros s. unfold monthly. apply at_profile; [apply _|intros p E]. apply at_get; [apply _|].
  destruct (p_active _ p). { apply at_get; [apply _|]. eapply kn_set_profile; [exact E|apply core_reset]. }
  destruct (p_autopay p); [|apply rel_kept, op_must_active].
  apply at_bind; [apply _| |].
  - unfold try. pose proof (kn_pay_tariff a 0 true s) as H. destruct (pay_tariff a 0 true s) as [s1 [x|e|e]]; exact H.
  - intros [x|e] s1 _; [cbn; reflexivity|apply rel_kept, op_must_active].
Qed.
Lemma kn_must {A} (m : M A) : rel kept_names m -> rel kept_names (must m).
Proof. intros H s. specialize (H s). unfold must. by destruct (m s) as [s1 [x|e|e]]. Qed.
Lemma kn_hook h f a t : hooks h = Some f -> rel kept_names (f a t).
Proof.
  intros H. destruct h; try discriminate; injection H as <-; try (cbv beta; frame).
  - apply kn_must, kn_monthly.
  - apply kn_must, kn_monthly_im.
Qed.

(** ** What a change of the nickname does *)
Lemma chars_key s s' n : opens0 s s' -> nick_key s' n = nick_key s n /\ trim s' n = trim s n /\ title s' n = title s n /\ lower s' n = lower s n.
Proof.
  intros (H1 & H2 & H3 & _)%opens0_chars. unfold nick_key, lower, trim, title. by rewrite H1, H2, H3.
Qed.
Lemma letters_keep s s' : opens0 s s' -> letters_ok s -> letters_ok s'.
Proof. intros (H1 & H2 & H3 & _)%opens0_chars H c. rewrite H1, H3. apply H. Qed.
Lemma names_kept s s' : kept_names s s' -> names_ok s -> names_ok s'.
Proof.
  intros (O & EN & EC & EP) H. pose proof O as (_ & OA & OG).
  assert (HP : forall a p', st_prof s' !! a = Some p' -> exists p, st_prof s !! a = Some p /\ p_nick p' = p_nick p /\ p_card p' = p_card p).
  { intros a p' E. specialize (EP a). rewrite E in EP. destruct (st_prof s !! a) as [p|]; [|discriminate]. cbn in EP.
    exists p. split; [done|]. by injection EP. }
  destruct (OA (conj (no_below s H) (no_number s H))) as [A1 A2].
  split.
  - eapply letters_keep, H. exact O.
  - intros a p' (p & E & E1 & _)%HP. destruct (chars_key s s' (p_nick p') O) as (-> & -> & _). rewrite E1, EN. intros HT. by apply H.
  - intros k a. rewrite EN. intros Hk. destruct (chars_key s s' k O) as (_ & -> & _). by eapply no_keys.
  - intros a p' (p & E & E1 & _)%HP. destruct (chars_key s s' (p_nick p') O) as (_ & -> & _).
    match goal with |- has_prefix _ (title s' ?n) = _ => destruct (chars_key s s' n O) as (_ & _ & -> & _) end. rewrite E1. by eapply H.
  - exact A1.
  - exact A2.
  - intros a p' (p & E & _)%HP. pose proof (no_profile s H a p E) as HE. unfold acc_exists in *.
    destruct (st_accs s !! a) as [n|] eqn:EA; [|done]. by rewrite (OG _ _ EA).
  - intros a p' (p & E & E1 & E2)%HP. rewrite E2, EC. intros H0.
    destruct (no_card s H a p E H0) as (HC & n & HA & HM). split; [done|]. exists n. split; [by apply OG|].
    destruct (opens0_chars _ _ O) as (_ & _ & _ & ->). done.
Qed.

(** The nickname, the record of nicknames and the card after a profile is written *)
Lemma names_set s s' a p : names_ok s -> opens0 s s' -> st_prof s' = <[ a := p ]> (st_prof s) ->
  st_nick s' = new_nicks s a (st_prof s !! a) p -> st_card s' = new_cards s a (st_prof s !! a) p ->
  (trim s (p_nick p) <> [] -> has_prefix artr_prefix (title s (trim s (p_nick p))) = false /\
     forall b, st_nick s !! nick_key s (p_nick p) = Some b -> b = a) ->
  match st_prof s !! a with
  | Some o => p_card p = p_card o
  | None => exists n, st_accs s !! a = Some n /\ p_card p = Z.lxor n (pp_card_magic (st_pp s))
  end -> names_ok s'.
Proof.
  intros H O EP EN EC HV HC. pose proof O as (_ & OA & OG). pose proof (no_letters s H) as HL.
  destruct (OA (conj (no_below s H) (no_number s H))) as [A1 A2].
  (* the keys of the others are not touched *)
  assert (HO : forall b q, b <> a -> st_prof s !! b = Some q -> trim s (p_nick q) <> [] -> st_nick s' !! nick_key s (p_nick q) = Some b).
  { intros b q Hb Eq HT. pose proof (no_nick s H b q Eq HT) as Hq. rewrite EN. unfold new_nicks.
    assert (HI : forall m : gmap (list N) addr, trim s (p_nick p) <> [] -> m !! nick_key s (p_nick q) = Some b ->
      <[ lower s (trim s (p_nick p)) := a ]> m !! nick_key s (p_nick q) = Some b).
    { intros m Hp Hm. rewrite lookup_insert_ne; [done|]. intros E. destruct (HV Hp) as [_ HV']. apply Hb, HV'.
      unfold nick_key at 1. by rewrite E. }
    destruct (st_prof s !! a) as [o|] eqn:Eo.
    - case_decide; [done|]. cbv zeta.
      assert (HD : (if decide (p_nick o = []) then st_nick s else base.delete (lower s (p_nick o)) (st_nick s)) !! nick_key s (p_nick q) = Some b).
      { case_decide; [done|]. rewrite lookup_delete_ne; [done|]. intros E.
        assert (Ek : nick_key s (p_nick o) = lower s (p_nick o)).
        { apply lower_trimmed; [done|]. rewrite E. by apply key_trimmed. }
        assert (Ht : trim s (p_nick o) <> []).
        { intros E0. unfold nick_key in Ek. rewrite E0 in Ek. cbn in Ek. symmetry in Ek. apply lower_nil in Ek. done. }
        pose proof (no_nick s H a o Eo Ht) as Ho. rewrite Ek, E in Ho. congruence. }
      destruct (decide (trim s (p_nick p) = [])); [exact HD|by apply HI].
    - case_decide; [done|]. by apply HI. }
  split.
  - by eapply letters_keep.
  - intros b q. rewrite EP. destruct (chars_key s s' (p_nick q) O) as (-> & -> & _).
    intros [[<- <-]|[Hb Eq]]%lookup_insert_Some HT; [|by apply HO].
    rewrite EN. unfold new_nicks. destruct (st_prof s !! a) as [o|] eqn:Eo.
    + case_decide as ED; [rewrite <-ED in HT |- *; by apply H|]. cbv zeta. rewrite decide_False by done. by rewrite lookup_insert.
    + rewrite decide_False by done. by rewrite lookup_insert.
  - intros k b Hk. destruct (chars_key s s' k O) as (_ & -> & _). rewrite EN in Hk. unfold new_nicks in Hk.
    assert (HI : forall m : gmap (list N) addr, (forall x, m !! k = Some x -> trim s k = k) ->
      <[ lower s (trim s (p_nick p)) := a ]> m !! k = Some b -> trim s k = k).
    { intros m Hm [[<- _]|[_ Hx]]%lookup_insert_Some; [apply (key_trimmed s (p_nick p) HL)|by eapply Hm]. }
    assert (H0 : forall x, st_nick s !! k = Some x -> trim s k = k) by (intros x Hx; by eapply no_keys).
    destruct (st_prof s !! a) as [o|].
    + destruct (decide (p_nick o = p_nick p)); [by eapply H0|]. cbv zeta in Hk.
      assert (HD : forall x, (if decide (p_nick o = []) then st_nick s else base.delete (lower s (p_nick o)) (st_nick s)) !! k = Some x -> trim s k = k).
      { intros x. destruct (decide (p_nick o = [])); [by apply H0|]. intros [_ Hx]%lookup_delete_Some. by eapply H0. }
      destruct (decide (trim s (p_nick p) = [])); [by eapply HD|by eapply HI].
    + case_decide; [by eapply H0|by eapply HI].
  - intros b q. rewrite EP. destruct (chars_key s s' (p_nick q) O) as (_ & -> & _).
    match goal with |- context [title s' ?n] => destruct (chars_key s s' n O) as (_ & _ & -> & _) end.
    intros [[<- <-]|[Hb Eq]]%lookup_insert_Some; [|by eapply H].
    destruct (decide (trim s (p_nick p) = [])) as [->|Hne]; [done|by apply HV].
  - exact A1.
  - exact A2.
  - intros b q. rewrite EP. unfold acc_exists. intros [[<- <-]|[Hb Eq]]%lookup_insert_Some.
    + destruct (st_prof s !! a) as [o|] eqn:Eo.
      * pose proof (no_profile s H a o Eo) as HE. unfold acc_exists in HE. destruct (st_accs s !! a) as [n|] eqn:EA; [|done]. by rewrite (OG _ _ EA).
      * destruct HC as (n & HA & _). by rewrite (OG _ _ HA).
    + pose proof (no_profile s H b q Eq) as HE. unfold acc_exists in HE. destruct (st_accs s !! b) as [n|] eqn:EA; [|done]. by rewrite (OG _ _ EA).
  - destruct (opens0_chars _ _ O) as (_ & _ & _ & EM). rewrite EM.
    intros b q. rewrite EP. intros [[<- <-]|[Hb Eq]]%lookup_insert_Some H0.
    + rewrite EC. unfold new_cards. destruct (st_prof s !! a) as [o|] eqn:Eo.
      * rewrite HC in *. destruct (no_card s H a o Eo H0) as (HN & n & HA & HM). split; [done|]. exists n. split; [by apply OG|done].
      * destruct HC as (n & HA & HM). destruct (Z.eqb_spec (p_card p) 0); [done|]. split; [by rewrite lookup_insert|].
        exists n. split; [by apply OG|done].
    + destruct (no_card s H b q Eq H0) as (HN & n & HA & HM). split; [|exists n; split; [by apply OG|done]].
      rewrite EC. unfold new_cards. destruct (st_prof s !! a) as [o|] eqn:Eo; [done|].
      destruct (p_card p =? 0); [done|]. rewrite lookup_insert_ne; [done|]. intros E.
      destruct HC as (n' & HA' & HM'). rewrite HM, HM' in E. apply Hb.
      assert (n' = n) as ->; [|by eapply (no_number s H)].
      apply (f_equal (fun x => Z.lxor x (pp_card_magic (st_pp s)))) in E.
      by rewrite !Z.lxor_assoc, !Z.lxor_nilpotent, !Z.lxor_0_r in E.
Qed.

(** ** Messages *)
Lemma fold_upd_card us p : p_card (fold_left apply_upd us p) = p_card p.
Proof. revert p. induction us as [|u us IH]; intros p; [done|]. cbn. rewrite IH. by destruct u. Qed.
Lemma update_ok a us s s' : msg_update_profile a us s = (s', Ok tt) ->
  exists o, st_prof s !! a = Some o /\ forallb upd_ok us = true /\ set_profile a (fold_left apply_upd us o) s = (s', Ok tt).
Proof.
  unfold msg_update_profile. intros H. apply bind_ok in H as ([] & s1 & H1 & H). apply ensure_ok in H1 as [-> H1].
  apply bind_ok in H as (p & s1 & H2 & H). unfold get_profile in H2. cbn in H2. destruct (st_prof s !! a) as [o|]; [|done].
  injection H2 as <- <-. exists o. split; [done|]. split; [|done]. by apply andb_prop in H1 as [_ H1].
Qed.
Lemma create_account_ok a s s1 s' n : opens s s1 -> acc_exists s a = false -> create_account a s1 = (s', Ok n) ->
  opens s s' /\ st_accs s' !! a = Some n.
Proof.
  intros (O1 & O2 & O3) E H. unfold create_account in H. cbn in H. injection H as <- <-. split; [|cbn; by rewrite lookup_insert].
  split; [by rewrite <-O1|]. split; [intros HA; by apply accs_open, O2|].
  intros b n Hb. cbn. rewrite lookup_insert_ne; [by apply O3|]. intros <-. unfold acc_exists in E. by rewrite Hb in E.
Qed.
Lemma op_pay_creator c n s s' : (let! x := new_coins uartr n in send_to_module c fee_collector x) s = (s', Ok tt) -> opens s s'.
Proof.
  intros H. apply bind_ok in H as (x & s1 & H1 & H). apply new_coins_ok in H1 as (-> & _ & ->). by eapply op_to_module.
Qed.
Lemma create_ok c a r p s s' : msg_create_account c a r p s = (s', Ok tt) ->
  acc_exists s a = false /\
  exists s1 n, opens s s1 /\ st_accs s1 !! a = Some n /\
    set_profile a (default p_zero p <| p_card := Z.lxor n (pp_card_magic (st_pp s1)) |>) s1 = (s', Ok tt).
Proof.
  unfold msg_create_account. intros H. apply bind_ok in H as ([] & s1 & H1 & H). apply ensure_ok in H1 as [-> _].
  apply bind_ok in H as (x & s1 & H1 & H). apply get_ok in H1 as [-> ->].
  apply bind_ok in H as ([] & s1 & H1 & H). apply ensure_ok in H1 as [-> HX]. apply negb_true_iff in HX. split; [done|].
  apply bind_ok in H as (x & s1 & H1 & H). apply get_ok in H1 as [-> ->].
  apply bind_ok in H as ([] & s1 & H1 & H).
  assert (O1 : opens s s1). { destruct (_ && _); [by eapply op_pay_creator|by apply ret_ok in H1 as [-> _]]. }
  unfold create_with_profile in H. apply bind_ok in H as (n & s2 & H2 & H). eapply create_account_ok in H2 as [O2 HA]; [|done..].
  apply bind_ok in H as ([] & s3 & H3 & H).
  assert (O3 : opens s2 s3). { assert (HR : rel opens (append_child r a)) by frame. specialize (HR s2). by rewrite H3 in HR. }
  apply bind_ok in H as (t & s4 & H4 & H). apply get_ok in H4 as [-> ->].
  apply bind_ok in H as ([] & s5 & H5 & H).
  match type of H5 with schedule_compression ?t _ _ = _ => assert (O5 : opens s3 s5); [assert (HR : rel opens (schedule_compression t a)) by frame; specialize (HR s3); by rewrite H5 in HR|] end.
  apply bind_ok in H as (m & s6 & H6 & H). apply get_ok in H6 as [-> ->].
  exists s5, n. split; [by transitivity s2; [|transitivity s3]|]. split; [|done].
  apply O5, O3. done.
Qed.

(** ** Only nicknames in use are recorded *)
Lemma core_inv p' p : Some (core p') = Some (core p) -> p_nick p' = p_nick p /\ p_card p' = p_card p.
Proof. unfold core. intros H. by injection H. Qed.
Lemma clean_kept s s' : kept_names s s' -> names_clean s -> names_clean s'.
Proof.
  intros (O & EN & EC & EP) [H1 H2]. split.
  - intros a p' E. specialize (EP a). rewrite E in EP. destruct (st_prof s !! a) as [p|] eqn:Ep; [|discriminate]. cbn in EP.
    unfold trimmed. destruct (chars_key s s' (p_nick p') O) as (_ & -> & _). apply core_inv in EP as [-> _]. by eapply H1.
  - intros k a. rewrite EN. intros (p & Ep & Hn & Hl)%H2. specialize (EP a). rewrite Ep in EP.
    destruct (st_prof s' !! a) as [p'|]; [|discriminate]. cbn in EP. exists p'.
    destruct (chars_key s s' (p_nick p') O) as (_ & _ & _ & ->). apply core_inv in EP as [-> _]. done.
Qed.
Lemma clean_set s s' a p : names_clean s -> opens0 s s' -> st_prof s' = <[ a := p ]> (st_prof s) ->
  st_nick s' = new_nicks s a (st_prof s !! a) p -> trimmed s (p_nick p) -> names_clean s'.
Proof.
  intros [H1 H2] O EP EN HT.
  assert (HL : forall n, lower s' n = lower s n) by (intros n; apply (chars_key s s' n O)).
  assert (HX : forall b q k, b <> a -> st_prof s !! b = Some q -> p_nick q <> [] /\ lower s (p_nick q) = k ->
    exists q, st_prof s' !! b = Some q /\ p_nick q <> [] /\ lower s' (p_nick q) = k).
  { intros b q k Hb Eq Hq. exists q. rewrite EP, lookup_insert_ne by done. rewrite HL. done. }
  assert (HA : forall k, p_nick p <> [] -> lower s (p_nick p) = k ->
    exists q, st_prof s' !! a = Some q /\ p_nick q <> [] /\ lower s' (p_nick q) = k).
  { intros k Hq Hk. exists p. rewrite EP, lookup_insert, HL. done. }
  unfold trimmed in HT. split.
  - intros b q. rewrite EP. unfold trimmed. destruct (chars_key s s' (p_nick q) O) as (_ & -> & _).
    intros [[<- <-]|[Hb Eq]]%lookup_insert_Some; [done|by eapply H1].
  - intros k b. rewrite EN. unfold new_nicks. rewrite HT. destruct (st_prof s !! a) as [o|] eqn:Eo.
    + destruct (decide (p_nick o = p_nick p)) as [E|E].
      { intros (q & Eq & Hq)%H2. destruct (decide (b = a)) as [->|Hb]; [|by eapply HX].
        assert (q = o) as -> by congruence. rewrite E in Hq. destruct Hq as [? ?]. by apply HA. }
      cbv zeta.
      assert (HD : forall x, (if decide (p_nick o = []) then st_nick s else base.delete (lower s (p_nick o)) (st_nick s)) !! k = Some x ->
        exists q, st_prof s' !! x = Some q /\ p_nick q <> [] /\ lower s' (p_nick q) = k).
      { intros x Hx.
        assert (Hx' : st_nick s !! k = Some x /\ (p_nick o <> [] -> lower s (p_nick o) <> k)).
        { destruct (decide (p_nick o = [])); [done|]. by apply lookup_delete_Some in Hx as [? ?]. }
        destruct Hx' as [Hk Hk2]. destruct (H2 _ _ Hk) as (q & Eq & Hq). destruct (decide (x = a)) as [->|Hb]; [|by eapply HX].
        assert (q = o) as -> by congruence. destruct Hq as [Hq1 Hq2]. by specialize (Hk2 Hq1). }
      destruct (decide (p_nick p = [])) as [E0|E0]; [apply HD|].
      intros [[Ek <-]|[_ Hk]]%lookup_insert_Some; [by apply HA|by apply HD].
    + destruct (decide (p_nick p = [])) as [E0|E0].
      * intros (q & Eq & Hq)%H2. destruct (decide (b = a)) as [->|Hb]; [congruence|by eapply HX].
      * intros [[Ek <-]|[_ Hk]]%lookup_insert_Some; [by apply HA|].
        apply H2 in Hk as (q & Eq & Hq). destruct (decide (b = a)) as [->|Hb]; [congruence|by eapply HX].
Qed.

(** ** Histories *)
Definition names_rel (s s' : St) : Prop :=
  names_ok s -> names_ok s' /\ cview s' = cview s /\ forall a c, card s a = Some c -> card s' a = Some c.
#[export] Instance names_rel_preorder : PreOrder names_rel.
Proof.
  split; [by intros s|]. intros s1 s2 s3 H1 H2 H. destruct (H1 H) as (N1 & V1 & C1). destruct (H2 N1) as (N2 & V2 & C2).
  split; [done|]. split; [by rewrite V2|]. intros a c Hc. by apply C2, C1.
Qed.
Lemma names_rel_kept s s' : kept_names s s' -> names_rel s s'.
Proof.
  intros K H. split; [by eapply names_kept|]. destruct K as ((EV & _) & _ & _ & EP). split; [done|]. intros a c. unfold card.
  specialize (EP a). destruct (st_prof s !! a) as [p|], (st_prof s' !! a) as [p'|]; try discriminate. cbn.
  apply core_inv in EP as [_ ->]. done.
Qed.
(** A message that writes a nickname *)
Definition writes_nick (m : msg) : bool := match m with MUpdateProfile _ _ | MCreateAccount _ _ _ _ => true | _ => false end.
Lemma kn_msg m : writes_nick m = false -> okrel kept_names (run_msg m).
Proof.
  intros H. apply okrel_rel. destruct m; try discriminate; cbn [run_msg]; try frame.
  - apply rel_bind; [apply _|apply rel_ensure, _|intros []]. frame.
  - unfold msg_set_storage_current. apply rel_bind; [apply _|apply rel_get, _|intros pp]. apply rel_bind; [apply _|apply rel_ensure, _|intros []].
    by apply kn_write_profile.
  - unfold msg_set_vpn_current. apply rel_bind; [apply _|apply rel_get, _|intros pp]. apply rel_bind; [apply _|apply rel_ensure, _|intros []].
    by apply kn_write_profile.
  - apply rel_bind; [apply _|apply rel_ensure, _|intros []]. apply kn_pay_tariff.
  - apply rel_bind; [apply _|apply rel_ensure, _|intros []]. apply kn_buy_storage.
  - apply rel_bind; [apply _|apply rel_ensure, _|intros []]. apply kn_give_storage_up.
  - apply rel_bind; [apply _|apply rel_ensure, _|intros []]. apply kn_buy_vpn.
  - apply rel_bind; [apply _|apply rel_ensure, _|intros []]. apply kn_buy_im.
  - apply rel_bind; [apply _|apply rel_ensure, _|intros []]. apply kn_give_im_up.
  - apply kn_prolong_im.
Qed.
(** Writing a nickname, seen from outside *)
Lemma names_update a us s s' : msg_update_profile a us s = (s', Ok tt) -> names_ok s ->
  exists o, st_prof s !! a = Some o /\ let p := fold_left apply_upd us o in
  names_ok s' /\ opens0 s s' /\ st_prof s' = <[ a := p ]> (st_prof s) /\ st_nick s' = new_nicks s a (Some o) p /\ st_card s' = st_card s.
Proof.
  intros H HN. apply update_ok in H as (o & Eo & _ & H). exists o. split; [done|]. cbv zeta.
  pose proof (fold_upd_card us o) as HC. set (p := fold_left apply_upd us o) in *. clearbody p.
  apply set_profile_ok in H as (O & EP & EN & EC & HV); [|intros o' Eo'; congruence].
  split; [eapply (names_set s s' a p); try done; by rewrite Eo|]. rewrite Eo in EN, EC. done.
Qed.
Lemma names_create c a r p s s' : msg_create_account c a r p s = (s', Ok tt) -> names_ok s ->
  st_prof s !! a = None /\ exists s1 p' n, opens s s1 /\ p' = default p_zero p <| p_card := Z.lxor n (pp_card_magic (st_pp s1)) |> /\
  names_ok s1 /\ names_ok s' /\ opens0 s1 s' /\ st_accs s1 !! a = Some n /\ st_accs s' !! a = Some n /\
  st_prof s' = <[ a := p' ]> (st_prof s1) /\ st_nick s' = new_nicks s1 a None p'.
Proof.
  intros H HN. apply create_ok in H as (HX & s1 & n & O1 & HA & H).
  assert (EX : st_prof s !! a = None).
  { destruct (st_prof s !! a) as [q|] eqn:E; [|done]. apply (no_profile s HN) in E. congruence. }
  split; [done|].
  assert (HN1 : names_ok s1) by (eapply names_kept; [by apply kept_opens|done]).
  assert (EX1 : st_prof s1 !! a = None) by (by rewrite (opens_prof _ _ O1)).
  set (p' := default p_zero p <| p_card := _ |>) in H. exists s1, p', n.
  assert (HP : p_card p' = Z.lxor n (pp_card_magic (st_pp s1))) by done.
  assert (EP' : p' = default p_zero p <| p_card := Z.lxor n (pp_card_magic (st_pp s1)) |>) by done. clearbody p'.
  apply set_profile_ok in H as (O & EP & EN & EC & HV); [|intros o' Eo'; congruence].
  split_and!; try done.
  - eapply (names_set s1 s' a p'); try done. rewrite EX1. eauto.
  - by apply O.
  - by rewrite EX1 in EN.
Qed.
Lemma names_msg m : okrel names_rel (run_msg m).
Proof.
  destruct (writes_nick m) eqn:E.
  2: { intros s s' [] H. apply names_rel_kept. by eapply (kn_msg m E). }
  destruct m; try discriminate; cbn [run_msg]; intros s s' [] H HN.
  - apply names_create in H as (EX & s1 & p' & n & O1 & EP' & HN1 & HN' & O & _ & _ & EP & EN); [|done].
    split; [done|]. apply opens_parts in O1 as (O1 & P1 & _). split; [destruct O as (-> & _), O1 as (-> & _); done|].
    intros b x. unfold card. rewrite EP, P1. intros Hc. rewrite lookup_insert_ne; [done|]. intros <-. by rewrite EX in Hc.
  - apply names_update in H as (o & Eo & HN' & O & EP & EN & EC); [|done]. split; [done|]. split; [by destruct O as (-> & _)|].
    intros b x. unfold card. rewrite EP. destruct (decide (a = b)) as [<-|Hb]; [|by rewrite lookup_insert_ne].
    rewrite lookup_insert, Eo. cbn. by rewrite fold_upd_card.
Qed.
Lemma kn_ante t : okrel kept_names (ante t).
Proof.
  apply okrel_rel. unfold ante. apply rel_bind; [apply _|apply rel_ensure, _|intros []]. apply rel_bind; [apply _|apply rel_get, _|intros ok].
  do 2 (apply rel_bind; [apply _|apply rel_ensure, _|intros []]). case_decide; [apply rel_ret, _|].
  unfold send_to_module. apply rel_bind; [apply _|apply kn_touch|intros []]. frame.
Qed.
Lemma kn_task t s : kept_names s (after_task hooks t s).
Proof.
  apply task_rel; [apply _|intros; by apply kept_names_fields|]. intros f Hf. by eapply kn_hook.
Qed.
Lemma names_blocks bs s s' us : times_from (st_now s) bs -> run_blocks bs s = Some (s', us) -> names_rel s s'.
Proof.
  intros HT. apply (bl_blocks names_rel (fun _ => True)); [..|done|].
  - intros b s0 _. apply names_rel_kept. by apply kept_names_fields.
  - intros p v e s0 s1 x H. apply names_rel_kept. assert (HR : rel kept_names (noding_begin p v e)) by frame. specialize (HR s0). by rewrite H in HR.
  - intros t s0. apply names_rel_kept, kn_task.
  - intros ks s0. apply names_rel_kept. by apply kept_names_fields.
  - intros t s0 _. apply tx_rel; [apply _| |intros m _; apply names_msg]. intros s1 s2 x H. apply names_rel_kept. by eapply kn_ante.
  - intros s0 s1 x H. apply names_rel_kept. assert (HR : rel kept_names end_block) by frame. specialize (HR s0). by rewrite H in HR.
  - apply Forall_forall. intros b _. by apply Forall_forall.
Qed.

Definition clean_rel (s0 s s' : St) : Prop :=
  st_space s = st_space s0 -> names_ok s -> names_clean s -> st_space s' = st_space s0 /\ names_ok s' /\ names_clean s'.
#[export] Instance clean_rel_preorder s0 : PreOrder (clean_rel s0).
Proof.
  split; [by intros s|]. intros s1 s2 s3 H1 H2 E H HC. destruct (H1 E H HC) as (E2 & N2 & C2). by apply H2.
Qed.
Lemma clean_rel_kept s0 s s' : kept_names s s' -> clean_rel s0 s s'.
Proof.
  intros K E H HC. split; [|split; [by eapply names_kept|by eapply clean_kept]].
  destruct K as (O & _). apply opens0_chars in O as (_ & _ & -> & _). done.
Qed.
Lemma trim_space s s0 n : st_space s = st_space s0 -> trim s n = trim s0 n.
Proof. intros E. unfold trim. by rewrite E. Qed.
Lemma fold_upd_trimmed s us p : Forall (upd_trimmed s) us -> trimmed s (p_nick p) -> trimmed s (p_nick (fold_left apply_upd us p)).
Proof. intros HF. revert p. induction HF as [|u us Hu HF IH]; intros p Hp; [done|]. cbn. apply IH. by destruct u. Qed.
Lemma clean_msg s0 m : msg_trimmed s0 m -> okrel (clean_rel s0) (run_msg m).
Proof.
  intros HM. destruct (writes_nick m) eqn:E.
  2: { intros s s' [] H. apply clean_rel_kept. by eapply (kn_msg m E). }
  destruct m; try discriminate; cbn [run_msg]; intros s s' [] H ES HN HC.
  - apply names_create in H as (EX & s1 & p' & n & O1 & EP' & HN1 & HN' & O & _ & _ & EP & EN); [|done].
    assert (E1 : st_space s1 = st_space s0).
    { apply opens_parts in O1 as (O1 & _). apply opens0_chars in O1 as (_ & _ & -> & _). done. }
    split; [apply opens0_chars in O as (_ & _ & -> & _); done|]. split; [done|].
    assert (EX1 : st_prof s1 !! a = None) by (by rewrite (opens_prof _ _ O1)).
    eapply (clean_set s1 s' a p'); try done.
    + by eapply clean_kept; [apply kept_opens|].
    + by rewrite EX1.
    + unfold trimmed. rewrite (trim_space s1 s0) by done. rewrite EP'. destruct p as [p|]; [exact HM|done].
  - apply names_update in H as (o & Eo & HN' & O & EP & EN & EC); [|done].
    split; [apply opens0_chars in O as (_ & _ & -> & _); done|]. split; [done|].
    eapply (clean_set s s' a); try done; [by rewrite Eo|].
    unfold trimmed. rewrite (trim_space s s0) by done. apply fold_upd_trimmed; [exact HM|].
    unfold trimmed. rewrite <-(trim_space s s0) by done. by eapply HC.
Qed.
Lemma clean_blocks bs s s' us : times_from (st_now s) bs -> Forall (fun b => Forall (tx_trimmed s) (b_txs b)) bs ->
  run_blocks bs s = Some (s', us) -> clean_rel s s s'.
Proof.
  intros HT HF. apply (bl_blocks (clean_rel s) (tx_trimmed s)); [..|done|done].
  - intros b s0 _. apply clean_rel_kept. by apply kept_names_fields.
  - intros p v e s0 s1 x H. apply clean_rel_kept. assert (HR : rel kept_names (noding_begin p v e)) by frame. specialize (HR s0). by rewrite H in HR.
  - intros t s0. apply clean_rel_kept, kn_task.
  - intros ks s0. apply clean_rel_kept. by apply kept_names_fields.
  - intros t s0 Ht. apply tx_rel; [apply _| |].
    + intros s1 s2 x H. apply clean_rel_kept. by eapply kn_ante.
    + intros m Hm. apply clean_msg. unfold tx_trimmed in Ht. rewrite Forall_forall in Ht. by apply Ht.
  - intros s0 s1 x H. apply clean_rel_kept. assert (HR : rel kept_names end_block) by frame. specialize (HR s0). by rewrite H in HR.
Qed.

(** ** A released nickname *)
Definition not_taken {A} (r : St * res A) : Prop := snd r <> Err (ErrMsg "nickname is already taken").
Lemma nt_bind {A B} (m : M A) (f : A -> M B) s : not_taken (m s) -> (forall s1 x, m s = (s1, Ok x) -> not_taken (f x s1)) -> not_taken (bind m f s).
Proof. unfold bind. destruct (m s) as [s1 [x|e|e]]; cbn; intros H1 H2; [by apply H2|by intros [= ->]|done]. Qed.
Lemma nt_send a b c s : not_taken (send_coins a b c s).
Proof.
  assert (HS : forall x y s0, not_taken (set_balance x y s0)).
  { intros x y s0. unfold set_balance. apply nt_bind; [unfold ensure; by destruct (coins_valid y)|]. intros s1 [] _.
    apply nt_bind; [done|]. intros s2 [] _. apply nt_bind; [|by intros s3 [[]|]].
    unfold try_all, try, recovered. by destruct (on_balance_changed x s2) as [s3 [?|?|?]]. }
  unfold send_coins, subtract_coins, add_coins. apply nt_bind.
  - apply nt_bind; [unfold ensure; by destruct (coins_valid c)|]. intros s1 [] _. rewrite run_get. apply nt_bind; [unfold ensure; by destruct (coins_ge _ _)|]. intros; apply HS.
  - intros s1 [] _. apply nt_bind; [unfold ensure; by destruct (coins_valid c)|]. intros s2 [] _. rewrite run_get. apply HS.
Qed.
Lemma not_taken_free b n s : st_nick s !! nick_key s n = None -> not_taken (msg_update_profile b [UNick n] s).
Proof.
  intros HF. unfold msg_update_profile. apply nt_bind; [unfold ensure; by destruct (_ && _)|]. intros s1 [] H1.
  apply ensure_ok in H1 as [-> _]. apply nt_bind; [unfold get_profile; rewrite run_get; by destruct (st_prof s !! b)|].
  intros s1 o H1. unfold get_profile in H1. rewrite run_get in H1. destruct (st_prof s !! b) as [o'|] eqn:E; [|discriminate]. apply ret_ok in H1 as [-> ->].
  cbn [fold_left apply_upd]. set (p := o' <| p_nick := n |>). assert (EN : p_nick p = n) by done. clearbody p.
  unfold set_profile. rewrite !run_get. rewrite EN, E. apply nt_bind.
  { unfold validate_nickname. destruct (trim s n) as [|x l] eqn:ET; [done|]. rewrite run_get. apply nt_bind; [unfold ensure; by destruct (negb _)|].
    intros s1 [] H1. apply ensure_ok in H1 as [-> _]. rewrite run_get. unfold nick_owner. unfold nick_key in HF. rewrite ET in HF. by rewrite HF. }
  intros s1 [] _. apply nt_bind.
  - apply nt_bind.
    + destruct (decide _); [done|]. apply nt_bind; [by destruct (decide _)|]. intros s2 [] _. destruct (decide _); [done|].
      apply nt_bind; [unfold new_coins; by apply nt_bind|]. intros s3 c _. apply nt_bind; [|done].
      unfold send_to_module. apply nt_bind; [|intros; apply nt_send]. unfold touch_account. rewrite run_get. by destruct (acc_exists _ _).
    + intros s2 [] _. destruct (p_card p =? 0); [done|]. apply nt_bind; [|done]. destruct (_ =? _); [done|]. apply nt_bind; [by destruct (_ =? _)|done].
  - intros s2 p' _. rewrite run_modify. apply nt_bind; [unfold touch_account; rewrite run_get; by destruct (acc_exists _ _)|].
    intros s3 [] _. rewrite run_get. destruct (Bool.eqb _ _); [done|]. unfold must_set_active, must. by destruct (set_active b _ true s3) as [s4 [?|?|?]].
Qed.
Lemma nick_released s0 s1 s2 a us : names_ok s1 -> names_clean s1 -> st_space s1 = st_space s0 ->
  Forall (upd_trimmed s0) us -> msg_update_profile a us s1 = (s2, Ok tt) ->
  nickname s1 a <> [] -> nick_key s1 (nickname s2 a) <> nick_key s1 (nickname s1 a) ->
  owner_of s2 (nickname s1 a) = None /\ st_nick s2 !! nick_key s2 (nickname s1 a) = None.
Proof.
  intros HN HC ES HU H HZ HD.
  destruct (clean_msg s0 (MUpdateProfile a us) HU s1 s2 tt H ES HN HC) as (_ & HN2 & HC2).
  apply names_update in H as (o & Eo & _ & O & EP & _ & _); [|done].
  assert (E1 : nickname s1 a = p_nick o) by (unfold nickname; by rewrite Eo). rewrite E1 in *.
  assert (HTr : trim s1 (p_nick o) = p_nick o) by (by eapply HC).
  destruct (chars_key s1 s2 (p_nick o) O) as (K1 & K2 & _ & K4).
  assert (HL : st_nick s2 !! lower s2 (p_nick o) = None).
  { destruct (st_nick s2 !! lower s2 (p_nick o)) as [b|] eqn:EB; [|done]. exfalso.
    apply HC2 in EB as (p & Ep & Hp & Hl). destruct (decide (b = a)) as [->|Hb].
    - apply HD. unfold nickname. rewrite Ep. unfold nick_key. rewrite HTr.
      assert (HT2 : trim s2 (p_nick p) = p_nick p) by (by eapply HC2). destruct (chars_key s1 s2 (p_nick p) O) as (_ & T2 & _ & L2).
      rewrite T2 in HT2. rewrite HT2, <-L2, <-K4. done.
    - rewrite EP, lookup_insert_ne in Ep by done. assert (HTp : trim s1 (p_nick p) = p_nick p) by (by eapply HC).
      pose proof (no_nick _ HN b p Ep) as N1. pose proof (no_nick _ HN a o Eo) as N2. unfold nick_key in N1, N2. rewrite HTp in N1. rewrite HTr in N2.
      destruct (chars_key s1 s2 (p_nick p) O) as (_ & _ & _ & L2). rewrite K4, L2 in Hl. rewrite Hl in N1. rewrite N2 in N1 by done.
      specialize (N1 Hp). congruence. }
  split; [exact HL|]. unfold nick_key. rewrite K2, HTr. done.
Qed.
