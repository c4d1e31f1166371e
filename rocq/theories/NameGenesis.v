(** * Names, cards and account numbers in a new chain *)
From Verif Require Import GenesisProofs ExportProofs NameHist.
Open Scope Z_scope.

(** What the other parts of the import leave alone *)
Definition name_part (s : St) := (nview s, st_accs s, st_next_acc s).
Lemma name_parts s s' : name_part s' = name_part s ->
  st_prof s' = st_prof s /\ st_nick s' = st_nick s /\ st_card s' = st_card s /\ st_accs s' = st_accs s /\ st_next_acc s' = st_next_acc s /\
  st_lower s' = st_lower s /\ st_title s' = st_title s /\ st_space s' = st_space s /\ pp_card_magic (st_pp s') = pp_card_magic (st_pp s).
Proof. unfold name_part, nview. intros E. injection E as -> -> -> -> -> -> -> -> ->. by split_and!. Qed.
Lemma opens0_part s s' : name_part s' = name_part s -> opens0 s s'.
Proof. intros (_ & _ & _ & E1 & E2 & E3 & E4 & E5 & E6)%name_parts. apply opens0_fields; [unfold cview; congruence|done|done]. Qed.

(** ** One profile *)
Lemma profile_run a p s s' : prof_import_one (a, p) s = (s', Ok tt) -> exists n, st_accs s !! a = Some n /\
  let q := p <| p_card := Z.lxor n (pp_card_magic (st_pp s)) |> in
  cview s' = cview s /\ st_accs s' = st_accs s /\ st_next_acc s' = st_next_acc s /\ st_prof s' = <[ a := q ]> (st_prof s) /\
  st_nick s' = (if decide (trim s (p_nick p) = []) then st_nick s else <[ nick_key s (p_nick p) := a ]> (st_nick s)) /\
  st_card s' = <[ p_card q := a ]> (st_card s) /\
  (trim s (p_nick p) <> [] -> has_prefix artr_prefix (title s (trim s (p_nick p))) = false).
Proof.
  intros H. unfold prof_import_one in H. cbn [fst snd] in H.
  apply bind_ok in H as (acc & s1 & E & H). apply get_ok in E as [-> ->]. apply bind_ok in H as (n & s1 & E & H). apply lift_ok in E as [-> EA].
  apply bind_ok in H as (mg & s1 & E & H). apply get_ok in E as [-> ->]. cbv zeta in H. exists n. split; [done|]. cbv zeta. set (q := p <| p_card := _ |>) in *.
  assert (EQ : p_nick q = p_nick p) by done. clearbody q.
  apply bind_ok in H as (nick & s1 & E & H). apply get_ok in E as [-> ->]. apply bind_ok in H as ([] & s1 & E1 & H). rewrite EQ in E1.
  assert (T1 : cview s1 = cview s /\ st_accs s1 = st_accs s /\ st_next_acc s1 = st_next_acc s /\ st_prof s1 = st_prof s /\ st_card s1 = st_card s /\
    st_nick s1 = if decide (trim s (p_nick p) = []) then st_nick s else <[ nick_key s (p_nick p) := a ]> (st_nick s)).
  { destruct (decide _); [by apply ret_ok in E1 as [-> _]|]. unfold nick_put in E1. apply modify_ok in E1. rewrite E1. by split_and!. }
  clear E1. destruct T1 as (V1 & A1 & X1 & P1 & C1 & N1). apply bind_ok in H as ([] & s2 & E2 & H). unfold card_put in E2. apply modify_ok in E2.
  apply bind_ok in H as ([] & s3 & E3 & H). apply modify_ok in E3.
  assert (T3 : cview s3 = cview s1 /\ st_accs s3 = st_accs s1 /\ st_next_acc s3 = st_next_acc s1 /\ st_prof s3 = <[ a := q ]> (st_prof s1) /\
    st_card s3 = <[ p_card q := a ]> (st_card s1) /\ st_nick s3 = st_nick s1) by (rewrite E3, E2; by split_and!).
  clear E3 E2 s2. destruct T3 as (V3 & A3 & X3 & P3 & C3 & N3). apply bind_ok in H as (now & s4 & E & H). apply get_ok in E as [-> ->].
  apply bind_ok in H as ([] & s4 & E4 & H). apply (proj1 (must_ok _ _ _ _)) in H.
  assert (T4 : name_part s4 = name_part s3).
  { destruct (p_active _ q); [|by apply ret_ok in E4 as [-> _]].
    assert (X : rel (same name_part) (must (set_active a true false))) by (apply rel_must; frame).
    by apply (run_rel _ _ _ _ _ X) in E4. }
  apply name_parts in T4 as (P4 & N4 & C4 & A4 & X4 & L1 & L2 & L3 & L4).
  assert (V4 : cview s4 = cview s3) by (unfold cview; congruence). clear E4.
  assert (PA : st_prof s4 !! a = Some q) by (rewrite P4, P3; apply lookup_insert).
  assert (TR : trim s4 (p_nick q) = trim s (p_nick p)) by (unfold trim; rewrite EQ; unfold cview in *; congruence).
  assert (TI : forall x, title s4 x = title s x) by (intros x; unfold title; unfold cview in *; congruence).
  assert (TA : name_part s' = name_part s4 /\ (trim s (p_nick p) <> [] -> has_prefix artr_prefix (title s (trim s (p_nick p))) = false)).
  { clear -H PA TR TI A4 A3 A1 EA.
    assert (EX : acc_exists s4 a = true) by (unfold acc_exists; by rewrite A4, A3, A1, EA).
    unfold set_profile in H. apply bind_ok in H as (o & t1 & E & H). apply get_ok in E as [-> ->]. rewrite PA in H.
    apply bind_ok in H as (nick & t1 & E & H). apply get_ok in E as [-> ->]. apply bind_ok in H as ([] & t1 & E & H). apply validate_ok in E as [-> EV].
    rewrite TR, TI in EV. split; [|intros Hn; by apply EV]. clear EV.
    rewrite decide_True in H by done. apply bind_ok in H as (q' & t2 & E2 & H). apply bind_ok in E2 as (u & t3' & E3 & E2). apply ret_ok in E3 as [-> _].
    assert (Q : t2 = s4 /\ q' = q).
    { destruct (Z.eqb_spec (p_card q) 0); [apply ret_ok in E2 as [-> ->]; split; [done|by destruct q]|]. rewrite Z.eqb_refl in E2.
      apply bind_ok in E2 as (u' & t5 & E5 & E2). apply ret_ok in E5 as [-> _]. by apply ret_ok in E2 as [-> ->]. }
    destruct Q as [-> ->]. apply bind_ok in H as (u' & t3 & E3 & H). apply modify_ok in E3.
    assert (T3 : name_part t3 = name_part s4).
    { rewrite E3. unfold name_part, nview. cbn. by rewrite (insert_id _ _ _ PA). }
    assert (EX3 : acc_exists t3 a = true) by (rewrite E3; exact EX). clear E3. apply bind_ok in H as (u2 & t5 & E5 & H).
    unfold touch_account in E5. apply bind_ok in E5 as (ex & t6 & E6 & E5). apply get_ok in E6 as [-> ->]. rewrite EX3 in E5. apply ret_ok in E5 as [-> _].
    apply bind_ok in H as (now & t6 & E6 & H). apply get_ok in E6 as [-> ->]. rewrite Bool.eqb_reflx in H. apply ret_ok in H as [-> _]. done. }
  destruct TA as [TA TP]. apply name_parts in TA as (P5 & N5 & C5 & A5 & X5 & L11 & L12 & L13 & L14).
  split_and!; [unfold cview in *; congruence|congruence|congruence|congruence|congruence|congruence|done].
Qed.
Lemma names_card0 s s' : names_ok s -> opens0 s s' -> st_prof s' = st_prof s -> st_nick s' = st_nick s -> (forall c, c <> 0 -> st_card s' !! c = st_card s !! c) -> names_ok s'.
Proof.
  intros H O EP EN EC. assert (K : kept_names s (s' <| st_card := st_card s |>)).
  { split; [|split; [done|split; [done|]]]. 2:{ intros a. cbn. by rewrite EP. }
    transitivity s'; [done|]. by apply opens0_fields. }
  apply names_kept in K; [|done]. destruct K as [K1 K2 K3 K4 K5 K6 K7 K8]. split; try done.
  intros a p Ha Hc. destruct (K8 a p Ha Hc) as [X Y]. split; [|exact Y]. rewrite EC by done. exact X.
Qed.
Lemma name_one a p s s' : names_ok s -> st_prof s !! a = None -> (trim s (p_nick p) <> [] -> st_nick s !! nick_key s (p_nick p) = None) ->
  prof_import_one (a, p) s = (s', Ok tt) -> names_ok s'.
Proof.
  intros HO HP HN H. apply profile_run in H as (n & EA & H). cbv zeta in H. set (q := p <| p_card := _ |>) in *.
  destruct H as (V & A & X & P & N & C & PR). set (s1 := s' <| st_card := new_cards s a None q |>).
  assert (O : opens0 s s') by (by apply opens0_fields).
  assert (O1 : opens0 s s1) by (transitivity s'; [done|]; by apply opens0_fields).
  assert (N1 : names_ok s1).
  { eapply (names_set s s1 a q); [done|done|exact P| | | |].
    - rewrite HP. exact N.
    - rewrite HP. done.
    - intros Ht. split; [by apply PR|]. intros b Hb. change (p_nick q) with (p_nick p) in Hb. by rewrite HN in Hb.
    - rewrite HP. by exists n. }
  eapply names_card0; [exact N1| | | |].
  - by apply opens0_fields.
  - done.
  - done.
  - intros c Hc. change (st_card s1) with (if p_card q =? 0 then st_card s else <[ p_card q := a ]> (st_card s)). rewrite C. clearbody q. destruct (Z.eqb_spec (p_card q) 0) as [E|]; [|done]. rewrite E. by rewrite lookup_insert_ne by congruence.
Qed.

(** ** All profiles of the file *)
Lemma names_import l s s' : names_ok s -> NoDup (map fst l) -> (forall a p, (a, p) ∈ l -> st_prof s !! a = None) ->
  (forall a p, (a, p) ∈ l -> trim s (p_nick p) <> [] -> st_nick s !! nick_key s (p_nick p) = None) ->
  (forall a p b q, (a, p) ∈ l -> (b, q) ∈ l -> trim s (p_nick p) <> [] -> nick_key s (p_nick p) = nick_key s (p_nick q) -> a = b) ->
  mfor l prof_import_one s = (s', Ok tt) -> names_ok s'.
Proof.
  revert s. induction l as [|[a p] l IH]; intros s HO ND HP HN HU H; cbn [mfor] in H; [by apply ret_ok in H as [-> _]|].
  apply bind_ok in H as ([] & s1 & E & H). cbn [map fst] in ND. apply NoDup_cons in ND as [ND1 ND2].
  assert (O1 : names_ok s1) by (eapply name_one; [done| | |exact E]; [by eapply HP; left|by eapply HN; left]).
  apply profile_run in E as (n & EA & V & A & X & P & N & C & PR).
  assert (NK : forall x, nick_key s1 x = nick_key s x /\ trim s1 x = trim s x) by (intros x; unfold nick_key, lower, trim; unfold cview in V; injection V as -> _ -> _; done).
  assert (Ne : forall b q, (b, q) ∈ l -> b <> a).
  { intros b q Hb ->. apply ND1. apply elem_of_list_fmap. by exists (a, q). }
  eapply IH; [done|done| | | |exact H].
  - intros b q Hb. rewrite P, lookup_insert_ne by (intros <-; by eapply Ne). eapply HP. by right.
  - intros b q Hb. rewrite (proj1 (NK _)), (proj2 (NK _)), N. intros Ht. destruct (decide _) as [|Hp]; [eapply HN; [by right|done]|].
    rewrite lookup_insert_ne; [eapply HN; [by right|done]|]. intros E. apply (Ne b q Hb). symmetry. eapply HU; [left|by right|done|done].
  - intros b q c r Hb Hc. rewrite !(proj1 (NK _)), (proj2 (NK _)). apply HU; by right.
Qed.
Lemma profiles_import l s s' : NoDup (map fst l) -> mfor l prof_import_one s = (s', Ok tt) ->
  cview s' = cview s /\ st_accs s' = st_accs s /\
  (forall a p, (a, p) ∈ l -> exists n, st_accs s !! a = Some n /\ st_prof s' !! a = Some (p <| p_card := Z.lxor n (pp_card_magic (st_pp s)) |>)) /\
  (forall a, a ∉ map fst l -> st_prof s' !! a = st_prof s !! a).
Proof.
  revert s. induction l as [|[a p] l IH]; intros s ND H; cbn [mfor] in H.
  { apply ret_ok in H as [-> _]. split_and!; [done|done| |done]. intros a p Ha. by apply elem_of_nil in Ha. }
  apply bind_ok in H as ([] & s1 & E & H). cbn [map fst] in ND. apply NoDup_cons in ND as [ND1 ND2].
  apply profile_run in E as (n & EA & V & A & X & P & _). destruct (IH s1 ND2 H) as (I1 & I2 & I3 & I4).
  assert (MG : pp_card_magic (st_pp s1) = pp_card_magic (st_pp s)) by (unfold cview in V; congruence).
  split_and!; [congruence|congruence| |].
  - intros b q Hb. apply elem_of_cons in Hb as [Hb|Hb].
    + injection Hb as -> ->. exists n. split; [done|]. rewrite I4 by done. rewrite P. apply lookup_insert.
    + destruct (I3 b q Hb) as (m & H1 & H2). exists m. rewrite A in H1. rewrite MG in H2. done.
  - intros b Hb. cbn [map fst] in Hb. apply not_elem_of_cons in Hb as [Hb1 Hb2]. rewrite I4 by done. rewrite P. by rewrite lookup_insert_ne.
Qed.

(** ** Accounts *)
Lemma accs_create a s s' n : create_account a s = (s', Ok n) -> st_accs s' = <[ a := st_next_acc s ]> (st_accs s) /\ st_next_acc s' = st_next_acc s + 1 /\
  nview s' = nview s /\ (accs_ok s -> accs_ok s').
Proof.
  intros H. unfold create_account in H. apply bind_ok in H as (m & s1 & E & H). apply get_ok in E as [-> ->].
  apply bind_ok in H as (u & s1 & E & H). apply modify_ok in E. apply bind_ok in H as (u' & s2 & E2 & H). apply modify_ok in E2. apply ret_ok in H as [-> _].
  rewrite E2, E. split_and!; [done|done|done|]. intros A. exact (accs_open s a A).
Qed.
Lemma accs_list l s s' : mfor l (fun e : addr * Z => do! create_account (fst e) in ret tt) s = (s', Ok tt) ->
  nview s' = nview s /\ (accs_ok s -> accs_ok s').
Proof.
  revert s. induction l as [|[a p] l IH]; intros s H; cbn [mfor] in H; [by apply ret_ok in H as [-> _]|].
  apply bind_ok in H as ([] & s1 & E & H). apply bind_ok in E as (n & s2 & E & E'). apply ret_ok in E' as [-> _]. cbn [fst] in E.
  apply accs_create in E as (_ & _ & E1 & E2). destruct (IH _ H) as [I1 I2]. split; [congruence|auto].
Qed.
Lemma accs_touch a s s' : touch_account a s = (s', Ok tt) -> nview s' = nview s /\ (accs_ok s -> accs_ok s') /\
  (forall b, st_accs s' !! b = if decide (b = a) then (if acc_exists s a then st_accs s !! a else Some (st_next_acc s)) else st_accs s !! b).
Proof.
  intros H. unfold touch_account in H. apply bind_ok in H as (ex & s1 & E & H). apply get_ok in E as [-> ->].
  destruct (acc_exists s a) eqn:EX.
  - apply ret_ok in H as [-> _]. split_and!; [done|done|]. intros b. by destruct (decide (b = a)) as [->|].
  - apply bind_ok in H as (n & s1 & E & H). apply ret_ok in H as [-> _]. apply accs_create in E as (E1 & _ & E2 & E3). split_and!; [done|done|].
    intros b. rewrite E1. destruct (decide (b = a)) as [->|]; [apply lookup_insert|by apply lookup_insert_ne].
Qed.
Lemma auth_run l s s' : auth_import l s = (s', Ok tt) -> nview s' = nview s /\ (accs_ok s -> accs_ok s').
Proof.
  intros H. unfold auth_import in H. apply bind_ok in H as ([] & s1 & E & H). apply accs_list in E as [E1 E2]. apply accs_touch in H as (H1 & H2 & _).
  split; [congruence|auto].
Qed.
(** Numbers given one after the other *)
Lemma accs_sorted l : forall s s', NoDup (map fst l) -> map snd l = seqZ (st_next_acc s) (Z.of_nat (List.length l)) ->
  mfor l (fun e : addr * Z => do! create_account (fst e) in ret tt) s = (s', Ok tt) ->
  (forall a n, (a, n) ∈ l -> st_accs s' !! a = Some n) /\ (forall a, a ∉ map fst l -> st_accs s' !! a = st_accs s !! a).
Proof.
  induction l as [|[a n] l IH]; intros s s' ND HS H; cbn [mfor] in H.
  { apply ret_ok in H as [-> _]. split; [|done]. intros b m Hb. by apply elem_of_nil in Hb. }
  apply bind_ok in H as ([] & s1 & E & H). apply bind_ok in E as (k & s2 & E & E'). apply ret_ok in E' as [-> _]. cbn [fst] in E.
  apply accs_create in E as (E1 & E2 & _). cbn [map fst snd List.length] in *. apply NoDup_cons in ND as [ND1 ND2].
  rewrite seqZ_cons in HS by lia. injection HS as HS1 HS2. destruct (IH s2 s' ND2) as [I1 I2]; [|exact H|].
  { rewrite E2. replace (Z.succ (st_next_acc s)) with (st_next_acc s + 1) in HS2 by lia. rewrite HS2. f_equal. lia. }
  split.
  - intros b m Hb. apply elem_of_cons in Hb as [Hb|Hb]; [|by apply I1]. injection Hb as -> ->. rewrite I2 by done. rewrite E1, HS1. apply lookup_insert.
  - intros b Hb. apply not_elem_of_cons in Hb as [Hb1 Hb2]. rewrite I2 by done. rewrite E1. by apply lookup_insert_ne.
Qed.

(** ** The whole import *)
Lemma init_name_stages g s s' u : init_genesis g s = (s', Ok u) -> exists s1 s2 s3 s4 s5,
  name_part s1 = name_part s /\ auth_import (g_accs g) s1 = (s2, Ok tt) /\ name_part s3 = name_part s2 /\
  mfor (g_profs g) prof_import_one s3 = (s4, Ok tt) /\ name_part s5 = name_part s4 /\ name_part s' = name_part s5.
Proof.
  intros H. unfold init_genesis in H.
  apply bind_ok in H as ([] & s1 & E1 & H). apply bind_ok in H as ([] & s2 & E2 & H). apply bind_ok in H as ([] & s3 & E3 & H).
  apply bind_ok in H as ([] & s4 & E4 & H). apply bind_ok in H as ([] & s5 & E5 & H). apply bind_ok in H as ([] & s6 & E6 & H).
  apply bind_ok in H as (up & s7 & E7 & H). apply bind_ok in H as ([] & s8 & E8 & H). apply bind_ok in H as ([] & s9 & E9 & H). apply ret_ok in H as [-> _].
  assert (Q1 : rel (same name_part) (sched_import (g_tasks g))) by (unfold sched_import; quiet_go).
  assert (Q3 : rel (same name_part) (ref_import (g_ref g))) by (unfold ref_import, note, put_banished; quiet_go).
  assert (Q4 : rel (same name_part) (bank_init (g_bals g) (g_supply g))) by (unfold bank_init; quiet_go).
  assert (Q6 : rel (same name_part) (del_import (g_del g))) by (unfold del_import; quiet_go).
  assert (Q7 : rel (same name_part) (noding_import (g_active g) (g_other g))) by (unfold noding_import, val_import_one; quiet_go).
  assert (Q8 : rel (same name_part) (voting_import (g_vote g))) by (unfold voting_import; quiet_go).
  assert (Q9 : rel (same name_part) (earn_import (g_earn g))) by (unfold earn_import; quiet_go).
  assert (QC : rel (same name_part) check_statuses) by (unfold check_statuses; quiet_go).
  apply (run_rel _ _ _ _ _ Q1) in E1. apply (run_rel _ _ _ _ _ Q3) in E3. apply (run_rel _ _ _ _ _ Q4) in E4. apply (run_rel _ _ _ _ _ Q6) in E6.
  apply (run_rel _ _ _ _ _ Q7) in E7. apply (run_rel _ _ _ _ _ Q8) in E8. apply (run_rel _ _ _ _ _ Q9) in E9.
  unfold prof_import in E5. apply bind_ok in E5 as ([] & s5' & E5 & E5'). apply (run_rel _ _ _ _ _ QC) in E5'.
  unfold same in *. exists s1, s2, s4, s5', s5. split_and!; [done|done|congruence|done|done|congruence].
Qed.
Lemma part_names s s' : name_part s' = name_part s -> names_ok s -> names_ok s'.
Proof.
  intros E. apply names_kept. split; [by apply opens0_part|]. apply name_parts in E as (E1 & E2 & E3 & _). split_and!; [done|done|]. intros a. by rewrite E1.
Qed.
Lemma part_chars s s' : name_part s' = name_part s -> forall x, nick_key s' x = nick_key s x /\ trim s' x = trim s x.
Proof. intros (_ & _ & _ & _ & _ & E1 & E2 & E3 & _)%name_parts x. unfold nick_key, lower, trim. by rewrite E1, E3. Qed.
Theorem init_names g s s' u : letters_ok s -> st_accs s = ∅ -> st_prof s = ∅ -> st_nick s = ∅ -> NoDup (map fst (g_profs g)) ->
  (forall a p b q, (a, p) ∈ g_profs g -> (b, q) ∈ g_profs g -> trim s (p_nick p) <> [] -> nick_key s (p_nick p) = nick_key s (p_nick q) -> a = b) ->
  init_genesis g s = (s', Ok u) -> names_ok s'.
Proof.
  intros HL HA HP HN ND HU H. apply init_name_stages in H as (s1 & s2 & s3 & s4 & s5 & E1 & E2 & E3 & E4 & E5 & E6).
  eapply part_names; [exact E6|]. eapply part_names; [exact E5|].
  apply name_parts in E1 as (P1 & N1 & C1 & A1 & X1 & L1 & L2 & L3 & L4). apply auth_run in E2 as [V2 A2].
  unfold nview in V2. injection V2 as P2 N2 C2 M1 M2 M3 M4.
  apply name_parts in E3 as (P3 & N3 & C3 & A3 & X3 & K1 & K2 & K3 & K4).
  assert (NK : forall x, nick_key s3 x = nick_key s x /\ trim s3 x = trim s x) by (intros x; unfold nick_key, lower, trim; rewrite K1, K3, M1, M3, L1, L3; done).
  assert (P : st_prof s3 = ∅) by congruence. assert (Nn : st_nick s3 = ∅) by congruence.
  assert (AO : accs_ok s2) by (apply A2; split; intros a; rewrite A1, HA, lookup_empty; done).
  eapply names_import; [|exact ND| | | |exact E4].
  - split.
    + intros c. rewrite K1, K3, M1, M3, L1, L3. apply HL.
    + intros a p. by rewrite P, lookup_empty.
    + intros k a. by rewrite Nn, lookup_empty.
    + intros a p. by rewrite P, lookup_empty.
    + intros a n. rewrite A3, X3. apply (proj1 AO).
    + intros a b n. rewrite A3. apply (proj2 AO).
    + intros a p. by rewrite P, lookup_empty.
    + intros a p. by rewrite P, lookup_empty.
  - intros a p _. by rewrite P, lookup_empty.
  - intros a p _ _. by rewrite Nn, lookup_empty.
  - intros a p b q Ha Hb. rewrite !(proj1 (NK _)), (proj2 (NK _)). by apply HU.
Qed.

(** ** Export and import *)
Theorem names_again s g s0 s' u :
  names_ok s -> (forall a p, st_prof s !! a = Some p -> exists n, st_accs s !! a = Some n /\ p_card p = Z.lxor n (pp_card_magic (st_pp s))) ->
  (forall n, 0 <= n < st_next_acc s -> exists a, st_accs s !! a = Some n) -> (forall a n, st_accs s !! a = Some n -> 0 <= n) ->
  cview s0 = cview s -> st_accs s0 = ∅ -> st_next_acc s0 = 0 -> st_prof s0 = ∅ -> st_nick s0 = ∅ ->
  export_genesis s = (s, Ok g) -> init_genesis g s0 = (s', Ok u) ->
  names_ok s' /\ (forall a, st_prof s' !! a = st_prof s !! a) /\ (forall a n, st_accs s !! a = Some n -> st_accs s' !! a = Some n) /\
  (acc_exists s fee_collector = true -> forall a, st_accs s' !! a = st_accs s !! a).
Proof.
  intros HO HC HF H0 EV A0 X0 P0 N0 HE HI. apply export_run in HE as (_ & _ & _ & EP & EA & _).
  assert (PE : forall a p, (a, p) ∈ g_profs g <-> exists q, st_prof s !! a = Some q /\ p = q <| p_card := 0 |>).
  { intros a p. rewrite EP. unfold prof_export. rewrite elem_of_list_fmap. split.
    - intros (b & E & Hb). injection E as -> ->. apply elem_of_keysN in Hb as [q Hq]. exists q. by rewrite Hq.
    - intros (q & Hq & ->). exists a. rewrite Hq. split; [done|]. apply elem_of_keysN. eauto. }
  assert (FE : map fst (g_profs g) = keysN (st_prof s)).
  { rewrite EP. unfold prof_export. rewrite map_map. cbn. apply map_id. }
  assert (ND : NoDup (map fst (g_profs g))) by (rewrite FE; apply NoDup_keysN).
  assert (NK : forall x, nick_key s0 x = nick_key s x /\ trim s0 x = trim s x) by (intros x; unfold nick_key, lower, trim; unfold cview in EV; injection EV as -> _ -> _; done).
  split.
  - eapply init_names; [|exact A0|exact P0|exact N0|exact ND| |exact HI].
    + intros c. unfold cview in EV. injection EV as -> _ -> _. apply (no_letters _ HO).
    + intros a p b q Ha Hb. rewrite !(proj1 (NK _)), (proj2 (NK _)). apply PE in Ha as (p' & Ha & ->). apply PE in Hb as (q' & Hb & ->).
      change (p_nick (p' <| p_card := 0 |>)) with (p_nick p'). change (p_nick (q' <| p_card := 0 |>)) with (p_nick q'). intros Ht Ek.
      pose proof (no_nick _ HO a p' Ha Ht) as X.
      assert (Ht' : trim s (p_nick q') <> []).
      { intros E. apply Ht. unfold nick_key in Ek. rewrite E in Ek. cbn in Ek. by apply lower_nil in Ek. }
      pose proof (no_nick _ HO b q' Hb Ht') as Y. rewrite Ek in X. congruence.
  - apply init_name_stages in HI as (s1 & s2 & s3 & s4 & s5 & E1 & E2 & E3 & E4 & E5 & E6).
    apply name_parts in E1 as (P1 & _ & _ & A1 & X1 & _ & _ & _ & L4).
    assert (AC : (forall a n, st_accs s !! a = Some n -> st_accs s2 !! a = Some n) /\ (acc_exists s fee_collector = true -> forall a, st_accs s2 !! a = st_accs s !! a)).
    { unfold auth_import in E2. apply bind_ok in E2 as ([] & s2' & E2 & E2'). set (l := merge_sort by_number (g_accs g)) in *.
      assert (PL : l ≡ₚ auth_export s) by (unfold l; rewrite EA; apply merge_sort_Permutation).
      assert (FL : map fst (auth_export s) = keysN (st_accs s)) by (unfold auth_export; rewrite map_map; cbn; apply map_id).
      assert (EL : forall a n, (a, n) ∈ l <-> st_accs s !! a = Some n).
      { intros a n. rewrite PL. unfold auth_export. rewrite elem_of_list_fmap. split.
        - intros (b & E & Hb). injection E as -> ->. apply elem_of_keysN in Hb as [m Hm]. by rewrite Hm.
        - intros Hn. exists a. rewrite Hn. split; [done|]. apply elem_of_keysN. eauto. }
      assert (NF : NoDup (map fst l)) by (rewrite PL, FL; apply NoDup_keysN).
      assert (NL : NoDup l) by (by eapply NoDup_fmap_1).
      assert (NS : NoDup (map snd l)).
      { apply NoDup_fmap_2_strong; [|done]. intros [a n] [b m] Ha Hb E. cbn in E. subst m. apply EL in Ha. apply EL in Hb. f_equal. by eapply (no_number _ HO). }
      assert (SQ : map snd l ≡ₚ seqZ 0 (st_next_acc s)).
      { apply NoDup_Permutation; [done|apply NoDup_seqZ|]. intros n. rewrite elem_of_seqZ, elem_of_list_fmap. split.
        - intros ([a m] & -> & Ha). apply EL in Ha. cbn. split; [by eapply H0|]. pose proof (no_below _ HO _ _ Ha). lia.
        - intros Hn. destruct (HF n) as [a Ha]; [lia|]. exists (a, n). split; [done|]. by apply EL. }
      assert (ST : StronglySorted Z.le (map snd l)).
      { assert (SS : StronglySorted by_number l).
        { apply StronglySorted_merge_sort; [intros x y z; unfold by_number; lia|intros x y; unfold by_number; lia]. }
        clear -SS. induction SS as [|[a n] l SS IH F]; cbn [map]; constructor; [done|]. rewrite List.Forall_forall in F. apply List.Forall_forall. intros m Hm. apply in_map_iff in Hm as ([b k] & <- & Hb). by apply F in Hb. }
      assert (S0 : map snd l = seqZ 0 (st_next_acc s)).
      { apply (StronglySorted_unique Z.le); [exact ST| |exact SQ].
        clear. generalize (st_next_acc s). intros n. unfold seqZ. generalize 0%Z. generalize (Z.to_nat n). clear n. intros n.
        assert (G : forall k j, StronglySorted Z.le ((fun i : nat => Z.add (Z.of_nat i) k) <$> seq j n)).
        { induction n as [|n IH]; intros k j; cbn; constructor; [apply IH|]. apply Forall_forall. intros m Hm.
          apply elem_of_list_fmap in Hm as (i & -> & Hi). apply elem_of_seq in Hi. lia. }
        intros k. apply G. }
      assert (LN : Z.of_nat (List.length l) = st_next_acc s \/ l = []).
      { destruct (decide (0 <= st_next_acc s)).
        - left. rewrite <- (map_length snd l), S0, seqZ_length. lia.
        - right. apply (f_equal (@List.length Z)) in S0. rewrite map_length, seqZ_length in S0. destruct l; [done|]. cbn in S0. lia. }
      apply accs_sorted in E2 as [E2 E3']; [|done|].
      2:{ rewrite X1, X0. destruct LN as [->| ->]; [done|done]. }
      apply accs_touch in E2' as (_ & _ & E2').
      assert (AC : forall a n, st_accs s !! a = Some n -> st_accs s2 !! a = Some n).
      2:{ split; [exact AC|]. intros FC a. destruct (st_accs s !! a) as [n|] eqn:Ea; [by apply AC|]. rewrite E2'.
        destruct (decide (a = fee_collector)) as [->|]; [unfold acc_exists in FC; by rewrite Ea in FC|].
        rewrite E3'; [by rewrite A1, A0, lookup_empty|]. intros ([b m] & Eb & Hb)%elem_of_list_fmap. cbn in Eb. subst b. apply EL in Hb. congruence. }
      intros a n Ha. pose proof (E2 a n ltac:(by apply EL)) as X. rewrite E2'.
      destruct (decide (a = fee_collector)) as [->|]; [|done]. unfold acc_exists. by rewrite X. }
    destruct AC as [AC AC2]. apply auth_run in E2 as [V2 _]. assert (P2 : st_prof s2 = ∅) by (unfold nview in V2; congruence).
    assert (M2 : pp_card_magic (st_pp s2) = pp_card_magic (st_pp s)) by (unfold nview in V2; unfold cview in EV; congruence).
    apply name_parts in E3 as (P3 & _ & _ & A3 & _ & _ & _ & _ & M3). apply (profiles_import _ _ _ ND) in E4 as (V4 & A4 & I1 & I2).
    apply name_parts in E5 as (P5 & _ & _ & A5 & _). apply name_parts in E6 as (P6 & _ & _ & A6 & _). split_and!.
    + intros a. rewrite P6, P5. destruct (st_prof s !! a) as [p|] eqn:Ep.
      * destruct (I1 a (p <| p_card := 0 |>)) as (n & H1 & H2); [apply PE; eauto|]. rewrite H2. f_equal. destruct (HC a p Ep) as (m & H3 & H4).
        apply AC in H3 as H5. rewrite A3, H5 in H1. injection H1 as ->. rewrite M3, M2, <- H4. by destruct p.
      * rewrite I2; [by rewrite P3, P2, lookup_empty|]. rewrite FE. intros X. apply elem_of_keysN in X as [q Hq]. congruence.
    + intros a n Ha. rewrite A6, A5, A4, A3. by apply AC.
    + intros FC a. rewrite A6, A5, A4, A3. by apply AC2.
Qed.
