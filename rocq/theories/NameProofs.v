(** * Names, cards and account numbers *)
From Verif Require Export DelegHist Blocks Spec_Profile.
Open Scope Z_scope.

(** ** Trimming *)
Lemma drop_space_map sp f n : (forall c, sp (f c) = sp c) -> drop_space sp (map f n) = map f (drop_space sp n).
Proof.
  intros H. induction n as [|c n IH]; [done|]. cbn [map drop_space]. rewrite H. destruct (sp c); [exact IH|done].
Qed.
Lemma trim_lower s n : letters_ok s -> trim s (lower s n) = lower s (trim s n).
Proof.
  intros H. unfold trim, lower. rewrite drop_space_map by exact H. rewrite <-map_rev, drop_space_map by exact H.
  by rewrite map_rev.
Qed.
Lemma drop_space_head sp n : match drop_space sp n with [] => True | c :: _ => sp c = false end.
Proof. induction n as [|c n IH]; [done|]. cbn. destruct (sp c) eqn:E; [exact IH|exact E]. Qed.
Lemma drop_space_id sp n : match n with [] => True | c :: _ => sp c = false end -> drop_space sp n = n.
Proof. destruct n as [|c n]; [done|]. cbn. by intros ->. Qed.
Lemma drop_space_tail sp n : exists l, n = l ++ drop_space sp n /\ forallb sp l = true.
Proof.
  induction n as [|c n (l & E & F)]; [by exists []|]. cbn. destruct (sp c) eqn:Ec; [|by exists []].
  exists (c :: l). cbn. rewrite Ec. split; [by f_equal|done].
Qed.
Lemma trim_trim s n : trim s (trim s n) = trim s n.
Proof.
  unfold trim. set (sp := st_space s). set (m := drop_space sp n).
  assert (Hm : match m with [] => True | c :: _ => sp c = false end) by apply drop_space_head.
  set (r := drop_space sp (rev m)).
  assert (Hr : match r with [] => True | c :: _ => sp c = false end) by apply drop_space_head.
  assert (H : drop_space sp (rev r) = rev r).
  { apply drop_space_id. destruct (drop_space_tail sp (rev m)) as (l & E & F). fold r in E.
    assert (E2 : m = rev r ++ rev l) by (by rewrite <-rev_app_distr, <-E, rev_involutive).
    destruct (rev r) as [|c x] eqn:Er; [done|]. rewrite E2 in Hm. exact Hm. }
  rewrite H, rev_involutive. f_equal. by apply drop_space_id.
Qed.
Lemma lower_nil s n : lower s n = [] -> n = [].
Proof. by destruct n. Qed.
Lemma key_trimmed s n : letters_ok s -> trim s (nick_key s n) = nick_key s n.
Proof. intros H. unfold nick_key. by rewrite trim_lower, trim_trim. Qed.
Lemma lower_trimmed s n : letters_ok s -> trim s (lower s n) = lower s n -> nick_key s n = lower s n.
Proof. intros H E. unfold nick_key. by rewrite <-trim_lower. Qed.

(** ** Account numbers *)
Definition nview (s : St) := (st_prof s, st_nick s, st_card s, st_lower s, st_title s, st_space s, pp_card_magic (st_pp s)).
(** Everything about names is as before; accounts may have been opened. *)
Definition accs_ok (s : St) : Prop :=
  (forall a n, st_accs s !! a = Some n -> n < st_next_acc s) /\
  (forall a b n, st_accs s !! a = Some n -> st_accs s !! b = Some n -> a = b).
Definition opens (s s' : St) : Prop :=
  nview s' = nview s /\ (accs_ok s -> accs_ok s') /\ (forall a n, st_accs s !! a = Some n -> st_accs s' !! a = Some n).
#[export] Instance opens_preorder : PreOrder opens.
Proof.
  split; [by intros s|]. intros s1 s2 s3 (E1 & A1 & F1) (E2 & A2 & F2).
  split; [by rewrite E2|]. split; [by auto|]. intros a n H. by apply F2, F1.
Qed.
Lemma opens_fields s s' : nview s' = nview s -> st_accs s' = st_accs s -> st_next_acc s' = st_next_acc s -> opens s s'.
Proof. intros H1 H2 H3. split; [done|]. unfold accs_ok. rewrite H2, H3. done. Qed.
#[export] Hint Extern 1 (opens _ _) => (apply opens_fields; reflexivity) : frame.
Lemma accs_open s a : accs_ok s -> accs_ok (s <| st_next_acc := st_next_acc s + 1 |> <| st_accs := <[ a := st_next_acc s ]> (st_accs s) |>).
Proof.
  intros [HB HI]. split; cbn.
  - intros b n H. apply lookup_insert_Some in H as [[<- <-]|[_ H]]; [lia|]. apply HB in H. lia.
  - intros b c n H1 H2. apply lookup_insert_Some in H1 as [[<- <-]|[N1 H1]]; apply lookup_insert_Some in H2 as [[<- E]|[N2 H2]].
    + done.
    + apply HB in H2. lia.
    + subst n. apply HB in H1. lia.
    + by eapply HI.
Qed.
Lemma op_touch a : rel opens (touch_account a).
Proof.
  intros s. unfold touch_account. apply at_get; [apply _|]. destruct (acc_exists s a) eqn:E; [cbn; reflexivity|].
  cbn. split; [reflexivity|]. split; [apply accs_open|]. intros b n H. cbn. rewrite lookup_insert_ne; [done|].
  intros <-. unfold acc_exists in E. by rewrite H in E.
Qed.
Lemma op_set_pparams p : rel opens (set_pparams p).
Proof.
  intros s. unfold set_pparams. apply at_get; [apply _|]. do 2 (apply at_assert; [apply _|intros _]).
  by apply opens_fields.
Qed.
#[export] Hint Resolve op_touch op_set_pparams | 0 : frame.
Lemma op_must_active a v : rel opens (must_set_active a v).
Proof. frame. Qed.

(** ** Writing a profile whose nickname and card stay *)
Lemma run_get {A B} (g : St -> A) (f : A -> M B) s : bind (get g) f s = f (g s) s.
Proof. done. Qed.
Lemma run_modify {B} (g : St -> St) (f : unit -> M B) s : bind (modify g) f s = f tt (g s).
Proof. done. Qed.
Lemma run_ret {A B} (x : A) (f : A -> M B) s : bind (ret x) f s = f x s.
Proof. done. Qed.
Lemma run_of {A B} (m : M A) (f : A -> M B) s s1 x : m s = (s1, Ok x) -> bind m f s = f x s1.
Proof. intros H. unfold bind. by rewrite H. Qed.
Lemma run_err {A B} (m : M A) (f : A -> M B) s s1 e : m s = (s1, Err e) -> bind m f s = (s1, Err e).
Proof. intros H. unfold bind. by rewrite H. Qed.
Lemma run_panic {A B} (m : M A) (f : A -> M B) s s1 e : m s = (s1, Panic e) -> bind m f s = (s1, Panic e).
Proof. intros H. unfold bind. by rewrite H. Qed.
Lemma set_profile_two (R : St -> St -> Prop) `{!PreOrder R} a o p s :
  rel R (touch_account a) -> (forall v, rel R (must_set_active a v)) ->
  st_prof s !! a = Some o -> p_nick p = p_nick o -> p_card p = p_card o ->
  (fst (set_profile a p s) = s /\ forall x, snd (set_profile a p s) <> Ok x) \/ R (s <| st_prof := <[ a := p ]> (st_prof s) |>) (fst (set_profile a p s)).
Proof.
  intros HT HA E EN EC. unfold set_profile. do 2 rewrite run_get. rewrite E.
  assert (HVR : rel eq (validate_nickname a (trim s (p_nick p)))).
  { unfold validate_nickname. destruct (trim s (p_nick p)); [apply rel_ret, _|].
    apply rel_bind; [apply _|apply rel_get, _|intros x]. apply rel_bind; [apply _|apply rel_ensure, _|intros _].
    apply rel_bind; [apply _|apply rel_get, _|]. intros [b|]; [apply rel_ensure, _|apply rel_ret, _]. }
  specialize (HVR s). destruct (validate_nickname a (trim s (p_nick p)) s) as [s1 [[]|e|e]] eqn:HV; cbn in HVR; subst s1;
    [|left; first [rewrite (run_err _ _ _ _ _ HV)|rewrite (run_panic _ _ _ _ _ HV)]; by split..].
  rewrite (run_of _ _ _ _ _ HV). right.
  match goal with |- R _ (fst (bind ?m _ _)) => assert (HM : m s = (s, Ok p)) end.
  { rewrite decide_True by done. rewrite run_ret, EC, Z.eqb_refl. destruct (p_card o =? 0) eqn:E0.
    - unfold ret. assert (p <| p_card := p_card o |> = p) as ->; [|done]. destruct p. cbn in *. by rewrite EC.
    - done. }
  rewrite (run_of _ _ _ _ _ HM), run_modify. clear HM.
  apply at_bind; [apply _|apply HT|]. intros [] s2 H2. apply at_get; [apply _|].
  destruct (Bool.eqb _ _); [cbn; reflexivity|apply HA].
Qed.
Lemma set_profile_keep (R : St -> St -> Prop) `{!PreOrder R} a o p s :
  rel R (touch_account a) -> (forall v, rel R (must_set_active a v)) ->
  R s (s <| st_prof := <[ a := p ]> (st_prof s) |>) ->
  st_prof s !! a = Some o -> p_nick p = p_nick o -> p_card p = p_card o ->
  R s (fst (set_profile a p s)).
Proof.
  intros HT HA HW E EN EC. destruct (set_profile_two R a o p s HT HA E EN EC) as [[-> _]|H]; [reflexivity|].
  by etransitivity.
Qed.

(** ** Writing any profile *)
Definition cview (s : St) := (st_lower s, st_title s, st_space s, pp_card_magic (st_pp s)).
Definition opens0 (s s' : St) : Prop :=
  cview s' = cview s /\ (accs_ok s -> accs_ok s') /\ (forall a n, st_accs s !! a = Some n -> st_accs s' !! a = Some n).
#[export] Instance opens0_preorder : PreOrder opens0.
Proof.
  split; [by intros s|]. intros s1 s2 s3 (E1 & A1 & F1) (E2 & A2 & F2).
  split; [by rewrite E2|]. split; [by auto|]. intros a n H. by apply F2, F1.
Qed.
Lemma opens0_fields s s' : cview s' = cview s -> st_accs s' = st_accs s -> st_next_acc s' = st_next_acc s -> opens0 s s'.
Proof. intros H1 H2 H3. split; [done|]. unfold accs_ok. rewrite H2, H3. done. Qed.
Lemma opens_parts s s' : opens s s' -> opens0 s s' /\ st_prof s' = st_prof s /\ st_nick s' = st_nick s /\ st_card s' = st_card s.
Proof.
  intros (E & A & F). unfold nview in E.
  split; [|split; [|split]].
  - split; [|done]. exact (f_equal (fun v => (v.1.1.1.2, v.1.1.2, v.1.2, v.2)) E).
  - exact (f_equal (fun v => v.1.1.1.1.1.1) E).
  - exact (f_equal (fun v => v.1.1.1.1.1.2) E).
  - exact (f_equal (fun v => v.1.1.1.1.2) E).
Qed.
Lemma opens0_chars s s' : opens0 s s' -> st_lower s' = st_lower s /\ st_title s' = st_title s /\ st_space s' = st_space s /\
  pp_card_magic (st_pp s') = pp_card_magic (st_pp s).
Proof.
  intros (E & _). unfold cview in E. split; [|split; [|split]].
  - exact (f_equal (fun v => v.1.1.1) E).
  - exact (f_equal (fun v => v.1.1.2) E).
  - exact (f_equal (fun v => v.1.2) E).
  - exact (f_equal (fun v => v.2) E).
Qed.
Lemma op_to_module a c n s s' : send_to_module a c (coins_of uartr n) s = (s', Ok tt) -> opens s s'.
Proof.
  intros H. assert (HR : rel opens (send_to_module a c (coins_of uartr n))) by (eapply sw_send_to_module; first [apply main_of|frame]).
  specialize (HR s). by rewrite H in HR.
Qed.
Lemma validate_ok a n s s' : validate_nickname a n s = (s', Ok tt) ->
  s' = s /\ (n <> [] -> has_prefix artr_prefix (title s n) = false /\ forall b, st_nick s !! lower s n = Some b -> b = a).
Proof.
  intros HV. unfold validate_nickname in HV. destruct n as [|c n]; [by apply ret_ok in HV as [-> _]|].
  apply bind_ok in HV as (x & s2 & H1 & HV). apply get_ok in H1 as [-> ->].
  apply bind_ok in HV as ([] & s2 & H1 & HV). apply ensure_ok in H1 as [-> HP].
  apply bind_ok in HV as (x & s2 & H1 & HV). apply get_ok in H1 as [-> ->]. unfold nick_owner in HV.
  assert (HP' : has_prefix artr_prefix (title s (c :: n)) = false) by (by destruct (has_prefix _ _)).
  destruct (st_nick s !! _) as [b|] eqn:E.
  - apply ensure_ok in HV as [-> HB]. split; [done|]. intros _. split; [done|]. intros b' [= <-]. by apply N.eqb_eq.
  - apply ret_ok in HV as [-> _]. split; [done|]. intros _. by split.
Qed.
Definition new_nicks (s : St) (a : addr) (o : option profile) (p : profile) : gmap (list N) addr :=
  let n := trim s (p_nick p) in
  match o with
  | Some o => if decide (p_nick o = p_nick p) then st_nick s else
      let m := if decide (p_nick o = []) then st_nick s else base.delete (lower s (p_nick o)) (st_nick s) in
      if decide (n = []) then m else <[ lower s n := a ]> m
  | None => if decide (n = []) then st_nick s else <[ lower s n := a ]> (st_nick s)
  end.
Definition new_cards (s : St) (a : addr) (o : option profile) (p : profile) : gmap Z addr :=
  match o with
  | Some _ => st_card s
  | None => if p_card p =? 0 then st_card s else <[ p_card p := a ]> (st_card s)
  end.
Lemma set_profile_ok a p s s' : set_profile a p s = (s', Ok tt) ->
  (forall o, st_prof s !! a = Some o -> p_card p = p_card o) ->
  opens0 s s' /\ st_prof s' = <[ a := p ]> (st_prof s) /\
  st_nick s' = new_nicks s a (st_prof s !! a) p /\ st_card s' = new_cards s a (st_prof s !! a) p /\
  (trim s (p_nick p) <> [] -> has_prefix artr_prefix (title s (trim s (p_nick p))) = false /\
     forall b, st_nick s !! nick_key s (p_nick p) = Some b -> b = a).
Proof.
  intros H HC. unfold set_profile in H.
  apply bind_ok in H as (x & s2 & H1 & H). apply get_ok in H1 as [-> ->].
  apply bind_ok in H as (x & s2 & H1 & H). apply get_ok in H1 as [-> ->].
  apply bind_ok in H as ([] & s2 & H1 & H). apply validate_ok in H1 as [-> HV].
  apply bind_ok in H as (p' & s2 & H1 & H).
  assert (HM : p' = p /\ opens0 s s2 /\ st_prof s2 = st_prof s /\
    st_nick s2 = new_nicks s a (st_prof s !! a) p /\ st_card s2 = new_cards s a (st_prof s !! a) p).
  { clear H HV. unfold new_nicks, new_cards. destruct (st_prof s !! a) as [o|] eqn:E.
    - specialize (HC o eq_refl).
      apply bind_ok in H1 as ([] & s3 & H1 & H).
      assert (HN : opens0 s s3 /\ st_prof s3 = st_prof s /\ st_card s3 = st_card s /\
        st_nick s3 = (if decide (p_nick o = p_nick p) then st_nick s else
          let m := if decide (p_nick o = []) then st_nick s else base.delete (lower s (p_nick o)) (st_nick s) in
          if decide (trim s (p_nick p) = []) then m else <[ lower s (trim s (p_nick p)) := a ]> m)).
      { clear H HC. case_decide; [by apply ret_ok in H1 as [-> _]|].
        apply bind_ok in H1 as ([] & s4 & H0 & H1).
        assert (HD : opens0 s s4 /\ st_prof s4 = st_prof s /\ st_card s4 = st_card s /\
          st_nick s4 = if decide (p_nick o = []) then st_nick s else base.delete (lower s (p_nick o)) (st_nick s)).
        { clear H1. destruct (decide (p_nick o = [])); [by apply ret_ok in H0 as [-> _]|]. apply modify_ok in H0 as ->.
          split; [by apply opens0_fields|]. done. }
        destruct HD as (O4 & P4 & C4 & N4). clear H0. cbv zeta. destruct (decide (trim s (p_nick p) = [])); [by apply ret_ok in H1 as [-> _]|].
        apply bind_ok in H1 as (c & s5 & H0' & H1). apply new_coins_ok in H0' as (-> & _ & ->).
        apply bind_ok in H1 as ([] & s5 & H2 & H1). apply op_to_module, opens_parts in H2 as (O5 & P5 & N5 & C5).
        apply modify_ok in H1 as ->. cbn.
        assert (O6 : opens0 s s5) by (by transitivity s4). split; [|split; [|split]].
        - transitivity s5; [done|by apply opens0_fields].
        - congruence.
        - congruence.
        - rewrite N5, N4. unfold lower. destruct (opens0_chars _ _ O6) as (-> & _). done. }
      destruct HN as (O3 & P3 & C3 & N3). rewrite HC, Z.eqb_refl in H. destruct (p_card o =? 0) eqn:E0.
      + apply ret_ok in H as [-> ->]. split; [|done]. destruct p. cbn in *. by rewrite HC.
      + apply bind_ok in H as ([] & s4 & H4 & H). apply ret_ok in H4 as [-> _]. apply ret_ok in H as [-> ->]. done.
    - apply bind_ok in H1 as ([] & s3 & H1 & H). apply bind_ok in H as ([] & s4 & H2 & H). apply ret_ok in H as [-> ->].
      split; [done|].
      assert (H3 : opens0 s s3 /\ st_prof s3 = st_prof s /\ st_card s3 = st_card s /\
        st_nick s3 = if decide (trim s (p_nick p) = []) then st_nick s else <[ lower s (trim s (p_nick p)) := a ]> (st_nick s)).
      { case_decide; [by apply ret_ok in H1 as [-> _]|]. apply modify_ok in H1 as ->. split; [by apply opens0_fields|]. done. }
      destruct H3 as (O3 & P3 & C3 & N3).
      destruct (p_card p =? 0); [by apply ret_ok in H2 as [-> _]|].
      apply modify_ok in H2 as ->. cbn. rewrite C3. split; [transitivity s3; [done|by apply opens0_fields]|]. done. }
  destruct HM as (-> & O2 & P2 & N2 & C2). clear H1.
  apply bind_ok in H as ([] & s3 & H3 & H). apply modify_ok in H3.
  assert (H4 : opens s3 s').
  { apply bind_ok in H as ([] & s4 & H4 & H). transitivity s4; [pose proof (op_touch a s3) as HR; by rewrite H4 in HR|].
    apply bind_ok in H as (now & s5 & H5 & H). apply get_ok in H5 as [-> ->]. cbv zeta in H.
    destruct (Bool.eqb _ _); [by apply ret_ok in H as [-> _]|].
    match type of H with must_set_active _ ?v _ = _ => pose proof (op_must_active a v s4) as HR end. by rewrite H in HR. }
  apply opens_parts in H4 as (O4 & P4 & N4 & C4).
  assert (O3 : opens0 s2 s3) by (subst s3; by apply opens0_fields).
  split; [by transitivity s2; [|transitivity s3]|].
  split; [rewrite P4; subst s3; cbn; by rewrite P2|].
  split; [rewrite N4; subst s3; cbn; by rewrite N2|].
  split; [rewrite C4; subst s3; cbn; by rewrite C2|]. exact HV.
Qed.

(** ** Steps that change nobody's nickname, card or paid time *)
Definition core3 (p : profile) : list N * Z * option time := (p_nick p, p_card p, p_until p).
Definition kept_all (s s' : St) : Prop :=
  opens0 s s' /\ st_nick s' = st_nick s /\ st_card s' = st_card s /\
  forall a, option_map core3 (st_prof s' !! a) = option_map core3 (st_prof s !! a).
#[export] Instance kept_all_preorder : PreOrder kept_all.
Proof.
  split; [by intros s|]. intros s1 s2 s3 (O1 & N1 & C1 & P1) (O2 & N2 & C2 & P2).
  split; [by transitivity s2|]. split; [congruence|]. split; [congruence|]. intros a. by rewrite P2.
Qed.
Lemma all_opens s s' : opens s s' -> kept_all s s'.
Proof. intros (O & P & N & C)%opens_parts. split; [done|]. split; [done|]. split; [done|]. intros a. by rewrite P. Qed.
Lemma rel_all {A} (m : M A) : rel opens m -> rel kept_all m.
Proof. intros H s. apply all_opens, H. Qed.
Lemma kept_all_fields s s' : nview s' = nview s -> st_accs s' = st_accs s -> st_next_acc s' = st_next_acc s -> kept_all s s'.
Proof. intros H1 H2 H3. by apply all_opens, opens_fields. Qed.
#[export] Hint Extern 1 (kept_all _ _) => (apply kept_all_fields; reflexivity) : frame.
Lemma ka_touch a : rel kept_all (touch_account a).
Proof. apply rel_all, op_touch. Qed.
Lemma ka_set_pparams p : rel kept_all (set_pparams p).
Proof. apply rel_all, op_set_pparams. Qed.
#[export] Hint Resolve ka_touch ka_set_pparams | 0 : frame.
Lemma ka_put s a o p : st_prof s !! a = Some o -> core3 p = core3 o -> kept_all s (s <| st_prof := <[ a := p ]> (st_prof s) |>).
Proof.
  intros E EC. split; [by apply opens0_fields|]. split; [done|]. split; [done|]. intros b. cbn.
  destruct (decide (a = b)) as [<-|Hb]; [|by rewrite lookup_insert_ne]. rewrite lookup_insert, E. cbn. by rewrite EC.
Qed.
Lemma ka_set_profile a o p s : st_prof s !! a = Some o -> core3 p = core3 o -> kept_all s (fst (set_profile a p s)).
Proof.
  intros E EC. assert (EN : p_nick p = p_nick o) by exact (f_equal (fun v => v.1.1) EC). assert (EC' : p_card p = p_card o) by exact (f_equal (fun v => v.1.2) EC).
  eapply set_profile_keep; [apply _|apply ka_touch| |by eapply ka_put|done..]. intros v. apply rel_all, op_must_active.
Qed.
Lemma ka_write_profile a f : (forall p, core3 (f p) = core3 p) -> rel kept_all (write_profile a f).
Proof.
  intros HF s. unfold write_profile. apply at_get; [apply _|]. destruct (st_prof s !! a) as [p|] eqn:E; [|cbn; reflexivity].
  cbn. by eapply ka_put.
Qed.
(** The profile is what it was when it was read. *)
Lemma opens_prof s s' : opens s s' -> st_prof s' = st_prof s.
Proof. intros H. by apply opens_parts in H as (_ & ? & _). Qed.
Lemma rel_prof {A} (m : M A) s s1 x : rel opens m -> m s = (s1, x) -> st_prof s1 = st_prof s.
Proof. intros H E. specialize (H s). rewrite E in H. by apply opens_prof. Qed.
Lemma op_company a n : rel opens (pay_company a n).
Proof. frame. Qed.
Lemma op_task t h a : rel opens (schedule_task t h a).
Proof. intros s. unfold schedule_task, schedule_task'. apply at_bind; [apply _|apply sw_check_key, _|]. intros [] s1 _. by apply opens_fields. Qed.
Lemma op_delete t h a : rel opens (delete_task t h a).
Proof. frame. Qed.
Lemma at_fr (R : St -> St -> Prop) `{!PreOrder R} {A B} (o : option A) (f : A -> M B) s :
  (forall a, o = Some a -> R s (fst (f a s))) -> R s (fst (bind (fr o) f s)).
Proof. apply at_lift, _. Qed.

(** *** The purchases *)
Lemma at_profile (R : St -> St -> Prop) `{!PreOrder R} {B} a (f : profile -> M B) s :
  (forall p, st_prof s !! a = Some p -> R s (fst (f p s))) -> R s (fst (bind (get_profile a) f s)).
Proof.
  intros H. unfold bind, get_profile, bind, get, lift. destruct (st_prof s !! a) as [p|]; [by apply H|cbn; reflexivity].
Qed.
Ltac at_op H := apply at_bind; [apply _|apply rel_all; apply H|].
Lemma ka_buy_storage a x : rel kept_all (buy_storage a x).
Proof.
  intros s. unfold buy_storage. apply at_profile; [apply _|intros p E]. apply at_get; [apply _|].
  apply at_ensure; [apply _|intros _]. apply at_get; [apply _|]. cbv zeta. apply at_lift; [apply _|intros u _].
  apply at_get; [apply _|]. do 2 (apply at_fr; [apply _|intros ? _]). apply at_assert; [apply _|intros _].
  at_op op_company. intros [] s1 H. eapply ka_set_profile; [erewrite rel_prof; [exact E|apply op_company|exact H]|].
  by destruct (_ <? _).
Qed.
Lemma ka_buy_vpn a x : rel kept_all (buy_vpn a x).
Proof.
  intros s. unfold buy_vpn. apply at_profile; [apply _|intros p E]. apply at_get; [apply _|].
  apply at_ensure; [apply _|intros _]. apply at_get; [apply _|]. apply at_fr; [apply _|intros ? _]. apply at_assert; [apply _|intros _].
  at_op op_company. intros [] s1 H. eapply ka_set_profile; [erewrite rel_prof; [exact E|apply op_company|exact H]|done].
Qed.
Lemma ka_buy_im a x : rel kept_all (buy_im a x).
Proof.
  intros s. unfold buy_im. apply at_profile; [apply _|intros p E]. do 2 (apply at_get; [apply _|]). cbv zeta.
  match goal with |- context [bind ?m _ s] => assert (HR : rel eq m) end.
  { destruct (im_active _ _); [|apply rel_ret, _]. apply rel_bind; [apply _|apply rel_lift, _|intros u].
    apply rel_bind; [apply _|apply rel_get, _|intros q]. unfold fr. apply rel_lift, _. }
  apply at_bind; [apply _|rewrite <-(HR s); reflexivity|]. intros q s0 H0.
  assert (s0 = s) as -> by (specialize (HR s); by rewrite H0 in HR). clear HR H0.
  apply at_fr; [apply _|intros ? _]. apply at_assert; [apply _|intros _].
  at_op op_company. intros [] s1 H. assert (E1 : st_prof s1 !! a = Some p) by (erewrite rel_prof; [exact E|apply op_company|exact H]).
  destruct (im_active _ _); [by eapply ka_set_profile|].
  apply at_get; [apply _|]. at_op op_task. intros [] s2 H2.
  eapply ka_set_profile; [erewrite rel_prof; [exact E1|apply op_task|exact H2]|done].
Qed.
Lemma ka_give_storage_up a x : rel kept_all (give_storage_up a x).
Proof.
  intros s. unfold give_storage_up. apply at_profile; [apply _|intros p E]. apply at_get; [apply _|]. cbv zeta.
  do 2 (apply at_ensure; [apply _|intros _]). by eapply ka_set_profile.
Qed.
Lemma ka_give_im_up a x : rel kept_all (give_im_up a x).
Proof.
  intros s. unfold give_im_up. apply at_profile; [apply _|intros p E]. apply at_get; [apply _|]. cbv zeta.
  apply at_ensure; [apply _|intros _]. destruct (x =? 0); [|by eapply ka_set_profile].
  apply at_lift; [apply _|intros u _]. at_op op_delete. intros [] s1 H.
  eapply ka_set_profile; [erewrite rel_prof; [exact E|apply op_delete|exact H]|done].
Qed.
Lemma op_prolong a p : rel opens (prolong_core a p).
Proof. frame. Qed.
Lemma prolong_core_core a p s s' p' : prolong_core a p s = (s', Ok p') ->
  exists t, p' = p <| p_im_until := Some t |>.
Proof.
  unfold prolong_core. destruct (p_im_until p) as [u|]; [|intros H; by apply fail_ok in H]. intros H. mi.
  match goal with H : ret _ _ = _ |- _ => apply ret_ok in H as [_ H] | _ => idtac end. eauto.
Qed.
Lemma ka_prolong_im a : rel kept_all (prolong_im a).
Proof.
  intros s. unfold prolong_im. apply at_profile; [apply _|intros p E].
  at_op op_prolong. intros p' s1 H.
  destruct (prolong_core_core _ _ _ _ _ H) as [t ->].
  unfold must. pose proof (ka_set_profile a p (p <| p_im_until := Some t |>) s1) as HS.
  destruct (set_profile a _ s1) as [s2 [?|?|?]]; apply HS; first [done|erewrite rel_prof; [exact E|apply op_prolong|exact H]].
Qed.
Lemma ka_monthly_im a : rel kept_all (monthly_im a).
Proof.
  intros s. unfold monthly_im. apply at_profile; [apply _|intros p E].
  apply at_bind; [apply _| |].
  - destruct (p_im_autopay p); [|cbn; reflexivity]. unfold try. pose proof (rel_all _ (op_prolong a p) s) as HP.
    destruct (prolong_core a p s) as [s1 [?|?|?]]; exact HP.
  - intros r s1 H.
    assert (HP : st_prof s1 = st_prof s /\ match r with inl p' => core3 p' = core3 p | inr _ => True end).
    { destruct (p_im_autopay p).
      - unfold try in H. destruct (prolong_core a p s) as [s2 [p'|e|e]] eqn:H2; try discriminate; injection H as <- <-.
        + split; [eapply rel_prof; [apply op_prolong|exact H2]|]. by destruct (prolong_core_core _ _ _ _ _ H2) as [t ->].
        + split; [eapply rel_prof; [apply op_prolong|exact H2]|done].
      - by apply ret_ok in H as [-> ->]. }
    destruct HP as [P1 HC]. destruct r as [p'|e]; eapply ka_set_profile; try (rewrite P1; exact E); done.
Qed.

(** ** Steps that change nobody's nickname or card *)
Definition core (p : profile) : list N * Z := (p_nick p, p_card p).
Definition kept_names (s s' : St) : Prop :=
  opens0 s s' /\ st_nick s' = st_nick s /\ st_card s' = st_card s /\
  forall a, option_map core (st_prof s' !! a) = option_map core (st_prof s !! a).
#[export] Instance kept_names_preorder : PreOrder kept_names.
Proof.
  split; [by intros s|]. intros s1 s2 s3 (O1 & N1 & C1 & P1) (O2 & N2 & C2 & P2).
  split; [by transitivity s2|]. split; [congruence|]. split; [congruence|]. intros a. by rewrite P2.
Qed.
Lemma kept_opens s s' : opens s s' -> kept_names s s'.
Proof. intros (O & P & N & C)%opens_parts. split; [done|]. split; [done|]. split; [done|]. intros a. by rewrite P. Qed.
Lemma rel_kept {A} (m : M A) : rel opens m -> rel kept_names m.
Proof. intros H s. apply kept_opens, H. Qed.
Lemma kept_names_fields s s' : nview s' = nview s -> st_accs s' = st_accs s -> st_next_acc s' = st_next_acc s -> kept_names s s'.
Proof. intros H1 H2 H3. by apply kept_opens, opens_fields. Qed.
#[export] Hint Extern 1 (kept_names _ _) => (apply kept_names_fields; reflexivity) : frame.
Lemma kn_touch a : rel kept_names (touch_account a).
Proof. apply rel_kept, op_touch. Qed.
Lemma kn_set_pparams p : rel kept_names (set_pparams p).
Proof. apply rel_kept, op_set_pparams. Qed.
#[export] Hint Resolve kn_touch kn_set_pparams | 0 : frame.
Lemma kn_put s a o p : st_prof s !! a = Some o -> core p = core o -> kept_names s (s <| st_prof := <[ a := p ]> (st_prof s) |>).
Proof.
  intros E EC. split; [by apply opens0_fields|]. split; [done|]. split; [done|]. intros b. cbn.
  destruct (decide (a = b)) as [<-|Hb]; [|by rewrite lookup_insert_ne]. rewrite lookup_insert, E. cbn. by rewrite EC.
Qed.
Lemma kn_set_profile a o p s : st_prof s !! a = Some o -> core p = core o -> kept_names s (fst (set_profile a p s)).
Proof.
  intros E EC. assert (EN : p_nick p = p_nick o) by exact (f_equal fst EC). assert (EC' : p_card p = p_card o) by exact (f_equal snd EC).
  eapply set_profile_keep; [apply _|apply kn_touch| |by eapply kn_put|done..]. intros v. apply rel_kept, op_must_active.
Qed.
Lemma kn_write_profile a f : (forall p, core (f p) = core p) -> rel kept_names (write_profile a f).
Proof.
  intros HF s. unfold write_profile. apply at_get; [apply _|]. destruct (st_prof s !! a) as [p|] eqn:E; [|cbn; reflexivity].
  cbn. by eapply kn_put.
Qed.
Lemma kept_weaken s s' : kept_all s s' -> kept_names s s'.
Proof.
  intros (O & N & C & P). split; [done|]. split; [done|]. split; [done|]. intros a. specialize (P a).
  destruct (st_prof s !! a) as [p|], (st_prof s' !! a) as [p'|]; try discriminate; [|done]. cbn in *. injection P as E1 E2 _.
  unfold core. by rewrite E1, E2.
Qed.
Lemma kn_all {A} (m : M A) : rel kept_all m -> rel kept_names m.
Proof. intros H s. apply kept_weaken, H. Qed.
Lemma kn_buy_storage a x : rel kept_names (buy_storage a x).
Proof. apply kn_all, ka_buy_storage. Qed.
Lemma kn_buy_vpn a x : rel kept_names (buy_vpn a x).
Proof. apply kn_all, ka_buy_vpn. Qed.
Lemma kn_buy_im a x : rel kept_names (buy_im a x).
Proof. apply kn_all, ka_buy_im. Qed.
Lemma kn_give_storage_up a x : rel kept_names (give_storage_up a x).
Proof. apply kn_all, ka_give_storage_up. Qed.
Lemma kn_give_im_up a x : rel kept_names (give_im_up a x).
Proof. apply kn_all, ka_give_im_up. Qed.
Lemma kn_prolong_im a : rel kept_names (prolong_im a).
Proof. apply kn_all, ka_prolong_im. Qed.
Lemma kn_monthly_im a : rel kept_names (monthly_im a).
Proof. apply kn_all, ka_monthly_im. Qed.
