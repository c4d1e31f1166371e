(** * The first month goes through *)
From Coq Require Import QArith.
From Verif Require Import Spec_Pure FracProofs FeeProofs PriceProofs NameProofs NameHist TariffHist TariffProofs RefProofs LiveProofs LiveRevoke LiveBuy Spec_Live.
Open Scope Z_scope.

Lemma add_sorted_in (l : list addr) x y : y ∈ fst (Lists.add_sorted N.compare l x) -> y = x \/ y ∈ l.
Proof.
  induction l as [|z l IH]; cbn [Lists.add_sorted]; [intros H; apply elem_of_list_singleton in H; by left|].
  destruct (N.compare z x); [by right| |intros H; cbn in H; by apply elem_of_cons in H].
  destruct (Lists.add_sorted N.compare l x) as [l' b]. cbn [fst] in *. intros H. apply elem_of_cons in H as [->|H]; [right; by left|].
  destruct (IH H); [by left|right; by right].
Qed.
Lemma cnt_length i d l : List.length (add_cnt i d l) = List.length l.
Proof. unfold add_cnt. apply alter_length. Qed.

(** The ancestors count the account that has become active. *)
Definition count_in (a : addr) (i : nat) (x : addr) (b : bu) (r : rinfo) : bu * rinfo :=
  (b, if (i =? 1)%nat then r <| r_cnt := add_cnt i 1 (r_cnt r) |> <| r_arefs := fst (Lists.add_sorted N.compare (r_arefs r) a) |>
      else r <| r_cnt := add_cnt i 1 (r_cnt r) |>).
Lemma wp_walk_in a lines : forall b x s, clock s -> goodb b s -> ownb b s -> (2 <= List.length (r_cnt (bu_get b a s)))%nat ->
  wp (walk true lines b x (count_in a)) (fun b' s' => still s s' /\ goodb b' s' /\ ownb b' s') s.
Proof.
  induction lines as [|i lines IH]; intros b x s HC HG HO HA; cbn [walk]; [apply wp_ret; split; [apply still_refl|done]|].
  destruct (x =? nobody)%N; [apply wp_ret; split; [apply still_refl|done]|].
  apply wp_bind. eapply wp_mono; [apply (wp_updatem b x true _ s (fun _ b' r' => bu_data b' = bu_data b /\
     line (r_deleg r') 0 = line (r_deleg (bu_get b x s)) 0 /\ (List.length (r_cnt (bu_get b x s)) <= List.length (r_cnt r'))%nat)); [done..|]|].
  - unfold count_in. apply wp_ret. split; [apply still_refl|].
    destruct (HG x) as (F & L & K). pose proof (larger_normalize (bu_get b x s)) as (L1 & L2). set (r := normalize (bu_get b x s)) in *.
    set (r1 := if (i =? 1)%nat then _ else _).
    assert (R1 : r_deleg r1 = r_deleg r /\ r_status r1 = r_status r /\ List.length (r_cnt r1) = List.length (r_cnt r) /\ (forall y, y ∈ r_arefs r1 -> y = a \/ y ∈ r_arefs r)).
    { unfold r1. destruct (i =? 1)%nat; cbn; rewrite cnt_length; (split_and!; [done..|]); [apply add_sorted_in|by right]. }
    destruct R1 as (R1 & R2 & R3 & R4). clearbody r1. split; [exact HG|]. split.
    { destruct (fit_normalize _ F) as [F1 F2]. split; [by rewrite R2|]. intros n Hn. specialize (F2 n Hn). unfold upto in *. by rewrite R1. }
    split; [split; [by rewrite R3|by rewrite R1]|]. split.
    { intros y Hy. apply R4 in Hy as [->|Hy]; [done|by apply K]. }
    split; [unfold long; rewrite R1; apply pad_length|]. split; [done|]. split; [rewrite R1; apply line_pad|by rewrite R3].
  - intros [b2 up] s2 (S2 & G2 & b' & r' & r2 & (Q1 & Q2 & Q3) & [E M] & D). cbn [fst snd] in *.
    assert (R2 : st_ref s2 = st_ref s) by (by destruct S2 as (sc & ix & ->)).
    assert (BG : forall y, bu_get b2 y s2 = if (y =? x)%N then r2 else bu_get b y s).
    { intros y. rewrite (bu_get_insert b' b2 x r2) by done. destruct (y =? x)%N; [done|]. by apply bu_get_ext. }
    destruct E as (st & d & ->).
    eapply wp_mono; [apply IH; [by eapply still_fields|exact G2| |]|].
    + intros y. rewrite BG. assert (DE : delegation s2 y = delegation s y) by (by destruct S2 as (sc & ix & ->)). rewrite DE.
      destruct (N.eqb_spec y x) as [->|Hy]; [|apply HO]. rewrite <- HO. exact Q2.
    + rewrite BG. destruct (N.eqb_spec a x) as [->|Ha]; [|done]. cbn. lia.
    + intros b3 s3 (S3 & G3 & O3). split; [by eapply still_trans|done].
Qed.
Lemma wp_wake a s : healthy s -> due_ok s a -> wp (must_set_active a true) (fun _ => healthy) s.
Proof.
  intros H HD. unfold must_set_active, set_active. apply wp_must. apply wp_bind, wp_get. cbn [id]. apply wp_bind.
  set (r := ref_get s a). set (rn := normalize r). pose proof (larger_normalize r) as (L1 & L2).
  assert (LC : (2 <= List.length (r_cnt rn))%nat) by (pose proof (pad_length (r_cnt r)); cbn; lia).
  eapply wp_mono; [apply (wp_updatem bu_new a false _ s (fun o b' r' => bu_data b' = ∅ /\
     line (r_deleg r') 0 = line (r_deleg r) 0 /\ (2 <= List.length (r_cnt r'))%nat))|].
  - apply (hl_clock s H).
  - by apply healthy_goodb.
  - rewrite bu_get_new. fold r. fold rn.
    assert (G : forall r' : rinfo, r_deleg r' = r_deleg rn -> r_status r' = r_status rn -> List.length (r_cnt r') = List.length (r_cnt rn) -> r_arefs r' = r_arefs rn ->
      goodb bu_new s /\ fit r' /\ larger (bu_get bu_new a s) r' /\ counters (fun z => bu_get bu_new z s) r' /\ long r' /\
      (bu_data bu_new = ∅ /\ line (r_deleg r') 0 = line (r_deleg r) 0 /\ (2 <= List.length (r_cnt r'))%nat)).
    { intros r' E1 E2 E3 E4. rewrite bu_get_new. split; [by apply healthy_goodb|]. split.
      { destruct (fit_normalize _ (healthy_fit s a H)) as [F1 F2]. split; [by rewrite E2|]. intros n Hn. specialize (F2 n Hn). unfold upto in *. by rewrite E1. }
      split; [split; [by rewrite E3|by rewrite E1]|]. split.
      { intros x Hx. rewrite bu_get_new. rewrite E4 in Hx. by apply (hl_counters s H a). }
      split; [unfold long; rewrite E1; apply pad_length|]. split; [done|]. split; [rewrite E1; apply line_pad|by rewrite E3]. }
    destruct (Bool.eqb (r_active rn) true); [apply wp_ret; split; [apply still_refl|by apply G]|].
    apply wp_bind. change (r_banishment_at rn) with (r_banishment_at r). destruct (r_banishment_at r) as [t|] eqn:ET.
    + apply wp_bind. eapply wp_mono; [apply wp_delete, HD, ET|]. intros [] s1 S1. apply wp_ret. apply wp_ret.
      split; [done|]. apply G; try done; exact (cnt_length 0 1 (r_cnt rn)).
    + apply wp_ret. apply wp_ret. split; [apply still_refl|]. apply G; try done; exact (cnt_length 0 1 (r_cnt rn)).
  - intros [b o] s1 ((sc & ix & ->) & G1 & b' & r' & r2 & (Q1 & Q2 & Q3) & [(st & d & ->) M] & D). cbn [fst snd] in *.
    set (s1 := s <| st_sched := sc |> <| st_index := ix |>) in *.
    destruct o as [parent|]; [|apply wp_ret; by apply (healthy_more s)].
    assert (BG : forall y, bu_get b y s1 = if (y =? a)%N then r' <| r_status := st |> <| r_downgrade_at := d |> else ref_get s y).
    { intros y. rewrite (bu_get_insert b' b a _ s1 D). destruct (y =? a)%N; [done|]. unfold bu_get. rewrite Q1, lookup_empty. done. }
    assert (O1 : ownb b s1).
    { intros y. rewrite BG. change (delegation s1 y) with (delegation s y). rewrite <- (hl_own s H). destruct (N.eqb_spec y a) as [->|Hy]; [exact Q2|done]. }
    assert (A1 : (2 <= List.length (r_cnt (bu_get b a s1)))%nat) by (rewrite BG, N.eqb_refl; exact Q3).
    apply wp_bind. eapply wp_mono; [apply (wp_walk_in a (seq 1 10) b parent s1 (hl_clock s H) G1 O1 A1)|].
    intros b3 s3 ((sc3 & ix3 & ->) & G3 & O3). set (s3 := s1 <| st_sched := sc3 |> <| st_index := ix3 |>) in *.
    cbn [negb]. rewrite andb_false_r. apply wp_bind, wp_ret.
    eapply wp_mono; [apply wp_commit; [apply (hl_clock s H)|apply (hl_balances s H)|apply (hl_validators s H)|done|exact O3]|].
    by intros [] s4 [H4 R4].
Qed.

(** Writing the profile of an account that becomes active *)
Lemma set_wake a o p s : healthy s -> due_ok s a -> names_ok s -> st_prof s !! a = Some o -> p_nick p = p_nick o -> p_card p = p_card o ->
  p_active (st_now s) o = false -> p_active (st_now s) p = true -> exists s', set_profile a p s = (s', Ok tt).
Proof.
  intros H HD HN E N1 N2 N3 N4. assert (A := no_profile s HN a o E).
  assert (V : validate_nickname a (trim s (p_nick p)) s = (s, Ok tt)).
  { rewrite N1. pose proof (no_nick s HN a o E) as O. pose proof (no_prefix s HN a o E) as P. unfold nick_key in O. unfold validate_nickname.
    destruct (trim s (p_nick o)) as [|c n]; [done|]. assert (EO : nick_owner s (c :: n) = Some a) by (apply O; done).
    cbv beta iota delta [bind get ensure]. rewrite P. cbn [negb]. cbv beta iota delta [ret]. rewrite EO. by rewrite N.eqb_refl. }
  set (s1 := s <| st_prof := <[ a := p ]> (st_prof s) |>).
  assert (W : wp (must_set_active a true) (fun _ => healthy) s1) by (apply wp_wake; [by apply (healthy_more s)|exact HD]).
  apply wp_run in W as (s2 & [] & W & _).
  exists s2. unfold set_profile.
  rewrite (run_bind _ _ s s (Some o)) by (unfold get; by rewrite E). rewrite (run_bind _ _ s s (trim s (p_nick p))) by done.
  rewrite (run_bind _ _ s s tt V).
  rewrite (run_bind _ _ s s p).
  2: { rewrite decide_True by done. rewrite N2, Z.eqb_refl. unfold bind, ret. destruct (Z.eqb_spec (p_card o) 0) as [X|X]; [|done]. f_equal. f_equal. rewrite <- N2. by destruct p. }
  rewrite (run_bind _ _ s s1 tt) by done. rewrite (run_bind _ _ s1 s1 tt).
  2: { unfold touch_account, bind, get. change (acc_exists s1 a) with (acc_exists s a). by rewrite A. }
  rewrite (run_bind _ _ s1 s1 (st_now s)) by done. cbv zeta. rewrite N3, N4. exact W.
Qed.
Lemma reset_same pp p : p_nick (reset_limits pp p) = p_nick p /\ p_card (reset_limits pp p) = p_card p /\ p_until (reset_limits pp p) = p_until p.
Proof. unfold reset_limits. cbv zeta. repeat match goal with |- context [if ?c then _ else _] => destruct c end; done. Qed.

Lemma live_first a g p f s : let b := storage_asked s p g in let T := month_price s + surcharge s p b in
  healthy s -> names_ok s -> due_ok s a -> st_prof s !! a = Some p -> (forall t, p_until p = Some t -> t <= st_now s) ->
  a <> nobody -> rp_company (st_rp s) <> nobody -> r_banished (ref_get s a) = false -> Frac.fden (pp_token_rate (st_pp s)) <> 0 ->
  0 <= g < 2^32 -> (g = 0 \/ (pp_base_storage (st_pp s) <= g /\ p_storage_cur p <= g * gb)) -> storage_fits s p b ->
  fee_of (month_price s) s = Some f -> 0 <= f < T -> T < 2^64 -> T <= bal s a uartr ->
  exists s', msg_pay_tariff a g s = (s', Ok tt).
Proof.
  intros b T H HN HD E U Ha Hc HB HR Hg Hs HF EF Hf HT HL. unfold msg_pay_tariff.
  assert (X : uint32 g = true) by (unfold uint32; lia). rewrite X.
  pose proof (hl_clock s H) as (C0 & C1 & C2).
  destruct (tariff_some s p b HR ltac:(apply HF)) as (sf & Esf & Dsf). destruct (big_some sf Dsf) as [extra Eex].
  pose proof (extra_price s p b sf extra HR HF Esf Eex) as ->.
  pose proof (wp_io a (rp_company (st_rp s)) T f s H Ha Hc Hf HL) as W. apply wp_run in W as (s1 & [] & W1 & H1 & K1).
  assert (O1 : opens s s1). { pose proof (op_io [(a, coins_of uartr T)] ((rp_company (st_rp s), coins_of uartr (T - f)) :: if f =? 0 then [] else [(splitter, coins_of uartr f)]) s) as R. by rewrite W1 in R. }
  assert (D1 : st_day s1 = st_day s).
  { assert (R : rel (same st_day) (input_output_coins [(a, coins_of uartr T)] ((rp_company (st_rp s), coins_of uartr (T - f)) :: if f =? 0 then [] else [(splitter, coins_of uartr f)]))) by frame.
    specialize (R s). rewrite W1 in R. exact R. }
  assert (N1 : st_now s1 = st_now s).
  { assert (R : rel (same st_now) (input_output_coins [(a, coins_of uartr T)] ((rp_company (st_rp s), coins_of uartr (T - f)) :: if f =? 0 then [] else [(splitter, coins_of uartr f)]))) by frame.
    specialize (R s). rewrite W1 in R. exact R. }
  assert (M1 : one_month s1 = one_month s) by (unfold one_month, one_day; by rewrite D1).
  assert (HN1 : names_ok s1) by (eapply names_kept; [by apply kept_opens|done]).
  assert (P1 : st_prof s1 = st_prof s) by (by apply opens_prof).
  assert (DD1 : due_ok s1 a). { intros t Ht. apply HD. destruct (K1 a) as (_ & _ & _ & K & _). by rewrite <- K. }
  assert (HM : 0 < one_month s) by (destruct HF as (HF & _); unfold one_month, one_day; lia).
  pose proof (wp_schedule (st_now s + one_month s) HRefresh a s1 ltac:(unfold one_month, one_day in *; lia)) as W. apply wp_run in W as (s2 & [] & W2 & S2).
  assert (N2 : st_now s2 = st_now s) by (destruct S2 as (x & i & ->); exact N1).
  assert (H2 : healthy s2) by (destruct S2 as (x & i & ->); by apply (healthy_more s1)).
  assert (DD2 : due_ok s2 a) by (destruct S2 as (x & i & ->); exact DD1).
  apply still_names in S2 as [HN2 P2]; [|done].
  assert (PA : p_active (st_now s) p = false). { unfold p_active. destruct (p_until p) as [t|]; [specialize (U t eq_refl); lia|done]. }
  pose (p1 := reset_limits (st_pp s) (p <| p_until := Some (st_now s + one_month s) |>)).
  destruct (reset_same (st_pp s) (p <| p_until := Some (st_now s + one_month s) |>)) as (R1 & R2 & R3). fold p1 in R1, R2, R3.
  destruct (set_wake a p p1 s2 H2 DD2 HN2) as [s3 E3]; [by rewrite P2, P1|exact R1|exact R2|by rewrite N2| |].
  { unfold p_active. rewrite R3, N2. cbn. lia. }
  exists s3. rewrite (run_bind _ _ s s tt) by done. unfold pay_tariff.
  rewrite (run_bind _ _ s s p) by (unfold get_profile; unfold bind, get, lift; by rewrite E).
  rewrite (run_bind _ _ s s (st_pp s)) by done. rewrite (asked_some s p g Hs). fold b.
  rewrite (run_bind _ _ s s (month_price s)) by (by rewrite month_base).
  rewrite (run_bind _ _ s s f) by (unfold tx_fee, bind, get; by rewrite EF).
  rewrite (run_bind _ _ s s false) by (unfold get; by rewrite HB). rewrite (run_bind _ _ s s tt) by done.
  rewrite (run_bind _ _ s s (st_now s)) by done. rewrite (run_bind _ _ s s (Some sf)) by (unfold get; by rewrite Esf).
  rewrite (run_bind _ _ s s sf) by done. rewrite PA. cbn [andb negb].
  rewrite (run_bind _ _ s s (surcharge s p b)) by (by rewrite Eex). cbv zeta. fold T.
  rewrite (run_bind _ _ s s (rp_company (st_rp s))) by done.
  assert (NC : forall n, 0 <= n -> new_coins uartr n s = (s, Ok (coins_of uartr n))).
  { intros n Hn. unfold new_coins, bind, assert. by rewrite (proj2 (Z.leb_le 0 n) Hn). }
  rewrite (run_bind _ _ s s (coins_of uartr (T - f))) by (apply NC; lia).
  rewrite (run_bind _ _ s s (coins_of uartr f)) by (apply NC; lia).
  rewrite (run_bind _ _ s s (coins_of uartr T)) by (apply NC; lia).
  rewrite (run_bind _ _ s s1 tt) by done. rewrite (run_bind _ _ s1 s1 (one_month s)) by (unfold get; by rewrite M1).
  rewrite (run_bind _ _ s1 s1 p1) by done.
  rewrite (run_bind _ _ s1 s1 (st_now s + one_month s)) by (by rewrite R3). rewrite (run_bind _ _ s1 s2 tt) by done. rewrite (run_bind _ _ s2 s3 tt) by done.
  unfold Frac.to_uint64, Frac.is_uint64.
  rewrite (run_bind _ _ s3 s3 (T - f)). 2: { match goal with |- context [if ?c then _ else _] => assert (c = true) as -> by lia end. done. }
  rewrite (run_bind _ _ s3 s3 T). 2: { match goal with |- context [if ?c then _ else _] => assert (c = true) as -> by lia end. done. }
  done.
Qed.
