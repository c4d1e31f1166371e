(** * What purchases cost *)
From Coq Require Import QArith Qround.
From Verif Require Import Spec_Pure FracProofs FeeProofs DelegProofs PureLemmas.
From Verif Require Export TariffHist Spec_Consent.
Open Scope Z_scope.

(** ** Paying the company *)
Definition mview (s : St) := (st_bal s, st_supply s, st_bp s, st_pp s, st_rp s, st_now s, st_day s).
Lemma money_set_profile a o p s s' : set_profile a p s = (s', Ok tt) -> st_prof s !! a = Some o ->
  p_nick p = p_nick o -> p_card p = p_card o ->
  mview s' = mview s /\ st_prof s' = <[ a := p ]> (st_prof s).
Proof.
  intros H E EN EC. split.
  - destruct (set_profile_two (same mview) a o p s) as [[_ HX]|HS]; try done; [frame|intros v; frame|by rewrite H in HX; destruct (HX tt)|].
    rewrite H in HS. exact HS.
  - apply set_profile_ok in H as (_ & HP & _); [done|]. intros o'. rewrite E. by intros [= <-].
Qed.
Lemma company_money a n : rel (same (fun s => (st_bp s, st_pp s, st_rp s, st_now s, st_day s))) (pay_company a n).
Proof. frame. Qed.
Lemma pay_company_ok a n s s' : pay_company a n s = (s', Ok tt) ->
  0 <= n /\ opens s s' /\ exists fee, (if n =? 0 then fee = 0 else fee_of n s = Some fee) /\ 0 <= fee <= n /\ paid s s' a n fee /\
  (st_bp s', st_pp s', st_rp s', st_now s', st_day s') = (st_bp s, st_pp s, st_rp s, st_now s, st_day s).
Proof.
  intros H. pose proof (op_company a n s) as HO. rewrite H in HO. pose proof (company_money a n s) as HV. rewrite H in HV.
  unfold pay_company in H. apply bind_ok in H as (c & s1 & H1 & H). apply new_coins_ok in H1 as (-> & Hn & ->).
  apply bind_ok in H as (f & s1 & H1 & H).
  assert (HR : same st_rp s s1). { assert (HF : rel (same st_rp) (pay_tx_fee a (coins_of uartr n))) by frame. specialize (HF s). by rewrite H1 in HF. }
  apply pay_tx_fee_ok in H1 as (fee & HF & Hf & -> & _ & B1 & _ & S1 & _).
  apply bind_ok in H as ([] & s2 & H2 & H). apply assert_ok in H2 as [-> HG].
  apply bind_ok in H as (cc & s2 & H2 & H). apply get_ok in H2 as [-> ->].
  apply send_ok in H as (_ & _ & B2 & _ & S2 & _).
  split; [done|]. split; [exact HO|]. exists fee.
  assert (HL : fee <= n).
  { apply coins_ge_amt with (d := uartr) in HG; [|by apply coins_of_valid]. rewrite !amt_coins_of, N.eqb_refl in HG. lia. }
  split; [|split; [lia|split; [|exact HV]]].
  - destruct (Z.eqb_spec n 0) as [->|N].
    + rewrite decide_True in HF by apply coins_of_zero. done.
    + rewrite decide_False in HF by (intros X; apply coins_of_empty in X; done). by rewrite amt_coins_of, N.eqb_refl in HF.
  - unfold same in HR. rewrite HR in B2. split; [|split].
    + intros x. rewrite B2, B1, !amt_sub, !amt_coins_of, N.eqb_refl. unfold at_. repeat case_match; lia.
    + intros x d Hd. rewrite B2, B1, !amt_sub, !amt_coins_of. assert ((d =? uartr)%N = false) as -> by lia. unfold at_. repeat case_match; lia.
    + unfold supply. by rewrite S2, S1.
Qed.

(** ** Prices *)
Lemma int64_price f q n : Frac.fden f <> 0 -> (qval f == q)%Q -> - 2^63 <= trunc q < 2^63 -> Frac.int64 f = Some n -> n = trunc q.
Proof.
  intros HD HV HR H. unfold Frac.int64 in H. rewrite c03_truncation in H by done. cbn in H. injection H as <-.
  rewrite (trunc_eq _ _ HV). by apply wrap64_id.
Qed.
Lemma int64_den f n : Frac.int64 f = Some n -> Frac.fden f <> 0.
Proof. unfold Frac.int64, Frac.big_int. intros H. apply oget_some in H as (b & H & _). by apply quo_den in H. Qed.
Lemma gb_priced s unit x part pf n : gb_fits s unit x part -> (qval pf == part)%Q ->
  oget (Frac.mul_int (pp_token_rate (st_pp s)) (Frac.wrap64 (x * unit))) (fun y => oget (Frac.mul y pf) Frac.int64) = Some n ->
  n = gb_price s unit x part.
Proof.
  intros (HDay & HP & HR) HQ H. rewrite (wrap64_id (x * unit)) in H by lia.
  apply oget_some in H as (y & Hy & H). apply oget_some in H as (z & Hz & H).
  pose proof (int64_den _ _ H) as HDz. destruct (mul_den _ _ _ Hz HDz) as [HDy HDp]. unfold Frac.mul_int in Hy.
  destruct (mul_den _ _ _ Hy HDy) as [HDr _]. fold (Frac.mul_int (pp_token_rate (st_pp s)) (x * unit)) in Hy.
  destruct (mul_int_qval _ (x * unit) HDr) as (y' & Ey & _ & Vy). assert (y' = y) as -> by congruence.
  destruct (mul_qval y pf HDy HDp) as (z' & Ez & _ & _ & Vz). assert (z' = z) as -> by congruence.
  unfold gb_price in *. eapply int64_price; [exact HDz| |exact HR|exact H]. rewrite Vz, Vy, HQ. reflexivity.
Qed.
Lemma gb_priced1 s unit x n : gb_fits s unit x 1 ->
  oget (Frac.mul_int (pp_token_rate (st_pp s)) (Frac.wrap64 (x * unit))) Frac.int64 = Some n ->
  n = gb_price s unit x 1.
Proof.
  intros (HDay & HP & HR) H. rewrite (wrap64_id (x * unit)) in H by lia.
  apply oget_some in H as (y & Hy & H).
  pose proof (int64_den _ _ H) as HDy. unfold Frac.mul_int in Hy.
  destruct (mul_den _ _ _ Hy HDy) as [HDr _]. fold (Frac.mul_int (pp_token_rate (st_pp s)) (x * unit)) in Hy.
  destruct (mul_int_qval _ (x * unit) HDr) as (y' & Ey & _ & Vy). assert (y' = y) as -> by congruence.
  unfold gb_price in *. eapply int64_price; [exact HDy| |exact HR|exact H]. rewrite Vy. ring.
Qed.
Lemma month_part_left s t part : month_part s t = Some part -> 0 < st_day s -> - 2^63 <= t - st_now s < 2^63 -> (qval part == month_left s t)%Q.
Proof.
  unfold month_part. intros H HD HR. assert (HS : sat64 (t - st_now s) = t - st_now s) by (unfold sat64; lia). rewrite HS in H.
  assert (HM : one_month s <> 0) by (unfold one_month, one_day; lia).
  destruct (reduce_qval (Frac.new_fraction (t - st_now s) (one_month s)) HM) as (q & Eq & _ & _ & Vq).
  assert (q = part) as -> by congruence. rewrite Vq. reflexivity.
Qed.

(** ** The purchases *)
Lemma get_profile_ok a s s' p : get_profile a s = (s', Ok p) -> s' = s /\ st_prof s !! a = Some p.
Proof. unfold get_profile. cbn. destruct (st_prof s !! a) as [q|]; [|done]. by intros [= <- <-]. Qed.
Lemma fr_ok {A} (o : option A) s s' x : fr o s = (s', Ok x) -> s' = s /\ o = Some x.
Proof. unfold fr, lift. destruct o; [|done]. by intros [= <- <-]. Qed.
(** Paying, then writing the profile *)
Lemma bought_ok a n s s1 s2 s' o p p' : pay_company a n s = (s1, Ok tt) -> calm s1 s2 -> set_profile a p' s2 = (s', Ok tt) ->
  st_prof s !! a = Some o -> p_nick p' = p_nick o -> p_card p' = p_card o -> p = p' -> bought s s' a n p.
Proof.
  intros H1 [OC EC] H2 E EN EK ->. apply pay_company_ok in H1 as (Hn & O1 & fee & HF & Hf & (B1 & B2 & B3) & HV).
  assert (EP : st_prof s2 = st_prof s) by (by rewrite (opens_prof _ _ OC), (opens_prof _ _ O1)).
  eapply (money_set_profile a o p') in H2 as [HM HP]; [|rewrite EP; exact E|done..].
  assert (EB : st_bal s' = st_bal s1).
  { transitivity (st_bal s2); [exact (f_equal (fun v => v.1.1.1.1.1.1) HM)|exact (f_equal (fun v => v.1.1.1.1.1.1) EC)]. }
  assert (ES : st_supply s' = st_supply s1).
  { transitivity (st_supply s2); [exact (f_equal (fun v => v.1.1.1.1.1.2) HM)|exact (f_equal (fun v => v.1.1.1.1.1.2) EC)]. }
  exists fee. split; [done|]. split; [done|]. split; [|by rewrite HP, EP].
  split; [|split].
  - intros x. unfold bal at 1. rewrite (balance_same _ _ EB). apply B1.
  - intros x d Hd. unfold bal at 1. rewrite (balance_same _ _ EB). by apply B2.
  - unfold supply at 1. rewrite ES. exact B3.
Qed.
Lemma calm_refl s : calm s s.
Proof. reflexivity. Qed.
Lemma buy_storage_bought a x s s' : buy_storage a x s = (s', Ok tt) ->
  exists p t n, st_prof s !! a = Some p /\ p_until p = Some t /\ st_now s < t /\ 0 < n /\
    (gb_fits s (pp_storage_price (st_pp s)) x (month_left s t) -> t - st_now s < 2^63 -> n = gb_price s (pp_storage_price (st_pp s)) x (month_left s t)) /\
    bought s s' a n (p <| p_storage_limit := plus64 (Z.max (p_storage_limit p) (pp_base_storage (st_pp s) * gb)) (x * gb) |>).
Proof.
  unfold buy_storage. intros H. apply bind_ok in H as (p & s1 & H1 & H). apply get_profile_ok in H1 as [-> EP].
  apply bind_ok in H as (now & s1 & H1 & H). apply get_ok in H1 as [-> ->].
  apply bind_ok in H as ([] & s1 & H1 & H). apply ensure_ok in H1 as [-> HA].
  apply bind_ok in H as (pp & s1 & H1 & H). apply get_ok in H1 as [-> ->]. cbv zeta in H.
  apply bind_ok in H as (t & s1 & H1 & H). apply lift_ok in H1 as [-> HU].
  assert (HU' : p_until p = Some t) by (revert HU; destruct (_ <? _); done).
  apply bind_ok in H as (o & s1 & H1 & H). apply get_ok in H1 as [-> ->].
  apply bind_ok in H as (part & s1 & H1 & H). apply fr_ok in H1 as [-> HP].
  apply bind_ok in H as (n & s1 & H1 & H). apply fr_ok in H1 as [-> HN].
  apply bind_ok in H as ([] & s1 & H1 & H). apply assert_ok in H1 as [-> Hn].
  apply bind_ok in H as ([] & s1 & H1 & H).
  unfold p_active in HA. rewrite HU' in HA.
  exists p, t, n. split; [done|]. split; [done|]. split; [lia|]. split; [lia|]. split.
  - intros HF HT. eapply gb_priced; [done| |exact HN]. eapply month_part_left; [done|apply HF|lia].
  - eapply bought_ok; [exact H1|apply calm_refl|exact H|exact EP|clear; by destruct (p_storage_limit p <? _)|clear; by destruct (p_storage_limit p <? _)|].
    unfold plus64, w64. destruct (Z.ltb_spec (p_storage_limit p) (pp_base_storage (st_pp s) * gb)).
    + rewrite Z.max_r by lia. by destruct p.
    + rewrite Z.max_l by lia. done.
Qed.
Lemma buy_vpn_bought a x s s' : buy_vpn a x s = (s', Ok tt) ->
  exists p n, st_prof s !! a = Some p /\ active_now s p = true /\ 0 <= n /\
    (gb_fits s (pp_vpn_price (st_pp s)) x 1 -> n = gb_price s (pp_vpn_price (st_pp s)) x 1) /\
    bought s s' a n (p <| p_vpn_limit := plus64 (p_vpn_limit p) (x * gb) |>).
Proof.
  unfold buy_vpn. intros H. apply bind_ok in H as (p & s1 & H1 & H). apply get_profile_ok in H1 as [-> EP].
  apply bind_ok in H as (now & s1 & H1 & H). apply get_ok in H1 as [-> ->].
  apply bind_ok in H as ([] & s1 & H1 & H). apply ensure_ok in H1 as [-> HA].
  apply bind_ok in H as (pp & s1 & H1 & H). apply get_ok in H1 as [-> ->].
  apply bind_ok in H as (n & s1 & H1 & H). apply fr_ok in H1 as [-> HN].
  apply bind_ok in H as ([] & s1 & H1 & H). apply assert_ok in H1 as [-> Hn].
  apply bind_ok in H as ([] & s1 & H1 & H).
  exists p, n. split; [done|]. split; [exact HA|]. split; [lia|]. split; [intros HF; by eapply gb_priced1|].
  eapply bought_ok; [exact H1|apply calm_refl|exact H|exact EP|done..].
Qed.
Lemma calm_task t h a : rel calm (schedule_task t h a).
Proof. frame. Qed.
Lemma calm_delete t h a : rel calm (delete_task t h a).
Proof. frame. Qed.
Lemma run_calm {A} (m : M A) s s' r : rel calm m -> m s = (s', r) -> calm s s'.
Proof. intros H E. specialize (H s). by rewrite E in H. Qed.
Lemma buy_im_bought a x s s' : buy_im a x s = (s', Ok tt) ->
  exists p n, st_prof s !! a = Some p /\ 0 < n /\
    (if im_now s p
     then exists t, p_im_until p = Some t /\
       (gb_fits s (pp_storage_price (st_pp s)) x (month_left s t) -> t - st_now s < 2^63 -> n = gb_price s (pp_storage_price (st_pp s)) x (month_left s t)) /\
       bought s s' a n (p <| p_im_extra := plus64 (p_im_extra p) x |>)
     else (gb_fits s (pp_storage_price (st_pp s)) x 1 -> n = gb_price s (pp_storage_price (st_pp s)) x 1) /\
       bought s s' a n (p <| p_im_extra := x |> <| p_im_until := Some (st_now s + one_month s) |>)).
Proof.
  unfold buy_im. intros H. apply bind_ok in H as (p & s1 & H1 & H). apply get_profile_ok in H1 as [-> EP].
  apply bind_ok in H as (now & s1 & H1 & H). apply get_ok in H1 as [-> ->].
  apply bind_ok in H as (pp & s1 & H1 & H). apply get_ok in H1 as [-> ->]. cbv zeta in H.
  apply bind_ok in H as (part & s1 & H1 & H).
  fold (im_now s p) in H1. assert (EI : im_active (st_now s) p = im_now s p) by done. rewrite EI in H, H1. clear EI.
  assert (HP : s1 = s /\ if im_now s p then exists t, p_im_until p = Some t /\ month_part s t = Some part else part = Frac.frac_int 1).
  { destruct (im_now s p); [|by apply ret_ok in H1].
    apply bind_ok in H1 as (t & s2 & H2 & H1). apply lift_ok in H2 as [-> HT].
    apply bind_ok in H1 as (o & s2 & H2 & H1). apply get_ok in H2 as [-> ->]. apply fr_ok in H1 as [-> H1]. split; [done|]. by exists t. }
  clear H1. destruct HP as [-> HP].
  apply bind_ok in H as (n & s1 & H1 & H). apply fr_ok in H1 as [-> HN].
  apply bind_ok in H as ([] & s1 & H1 & H). apply assert_ok in H1 as [-> Hn].
  apply bind_ok in H as ([] & s1 & H1 & H).
  exists p, n. split; [done|]. split; [lia|]. destruct (im_now s p) eqn:EI.
  - destruct HP as (t & HT & HP). exists t. split; [done|]. split.
    + intros HF HB. eapply gb_priced; [done| |exact HN]. eapply month_part_left; [done|apply HF|].
      unfold im_now in EI. rewrite HT in EI. apply andb_prop in EI as [_ EI]. lia.
    + eapply bought_ok; [exact H1|apply calm_refl|exact H|exact EP|done..].
  - split.
    + intros HF. eapply gb_priced; [done| |exact HN]. rewrite HP. reflexivity.
    + apply bind_ok in H as (t & s2 & H2 & H). apply get_ok in H2 as [-> ->].
      apply bind_ok in H as ([] & s2 & H2 & H). apply (run_calm _ _ _ _ (calm_task _ _ _)) in H2.
      eapply bought_ok; [exact H1|exact H2|exact H|exact EP|done..|].
      apply pay_company_ok in H1 as (_ & _ & fee & _ & _ & _ & HV).
      assert (E1 : st_now s1 = st_now s) by exact (f_equal (fun v => v.1.2) HV).
      assert (E2 : st_day s1 = st_day s) by exact (f_equal snd HV).
      unfold one_month, one_day. by rewrite E1, E2.
Qed.
Lemma prolong_im_bought a s s' : prolong_im a s = (s', Ok tt) ->
  exists p t n, st_prof s !! a = Some p /\ p_im_until p = Some t /\ p_im_extra p <> 0 /\ 0 < n /\
    (0 <= p_im_extra p < 2^63 -> gb_fits s (pp_storage_price (st_pp s)) (p_im_extra p) 1 -> n = gb_price s (pp_storage_price (st_pp s)) (p_im_extra p) 1) /\
    bought s s' a n (p <| p_im_until := Some (t + one_month s) |>).
Proof.
  unfold prolong_im. intros H. apply bind_ok in H as (p & s1 & H1 & H). apply get_profile_ok in H1 as [-> EP].
  apply bind_ok in H as (p' & s1 & H1 & H). apply (proj1 (must_ok _ _ _ _)) in H.
  unfold prolong_core in H1. destruct (p_im_until p) as [t|] eqn:HT; [|by apply fail_ok in H1].
  apply bind_ok in H1 as ([] & s2 & H2 & H1). apply ensure_ok in H2 as [-> HX].
  apply bind_ok in H1 as (pp & s2 & H2 & H1). apply get_ok in H2 as [-> ->].
  apply bind_ok in H1 as (n & s2 & H2 & H1). apply fr_ok in H2 as [-> HN].
  apply bind_ok in H1 as ([] & s2 & H2 & H1). apply assert_ok in H2 as [-> Hn].
  apply bind_ok in H1 as ([] & s2 & H2 & H1).
  apply bind_ok in H1 as (month & s3 & H3 & H1). apply get_ok in H3 as [-> ->].
  apply bind_ok in H1 as ([] & s3 & H3 & H1). apply (run_calm _ _ _ _ (calm_delete _ _ _)) in H3.
  apply bind_ok in H1 as ([] & s4 & H4 & H1). apply (run_calm _ _ _ _ (calm_task _ _ _)) in H4.
  apply ret_ok in H1 as [-> ->].
  assert (EM : one_month s2 = one_month s).
  { pose proof H2 as HX2. apply pay_company_ok in HX2 as (_ & _ & fee & _ & _ & _ & HV).
    assert (E2 : st_day s2 = st_day s) by exact (f_equal snd HV). unfold one_month, one_day. by rewrite E2. }
  exists p, t, n. split; [done|]. split; [done|]. split; [lia|]. split; [lia|]. split.
  - intros HR HF. rewrite (wrap64_id (p_im_extra p)) in HN by lia. by eapply gb_priced1.
  - eapply bought_ok; [exact H2|transitivity s3; [exact H3|exact H4]|exact H|exact EP|done..|]. by rewrite EM.
Qed.

(** ** Giving up *)
Lemma still_view s s' : st_bal s' = st_bal s -> st_supply s' = st_supply s -> still s s'.
Proof. intros H1 H2. split; [|unfold supply; by rewrite H2]. intros x d. unfold bal. by rewrite (balance_same _ _ H1). Qed.
Lemma still_write a o p s s' : set_profile a p s = (s', Ok tt) -> st_prof s !! a = Some o -> p_nick p = p_nick o -> p_card p = p_card o ->
  still s s' /\ st_prof s' = <[ a := p ]> (st_prof s).
Proof.
  intros H E EN EC. eapply money_set_profile in H as [HM HP]; [|done..]. split; [|done]. apply still_view.
  - exact (f_equal (fun v => v.1.1.1.1.1.1) HM).
  - exact (f_equal (fun v => v.1.1.1.1.1.2) HM).
Qed.
Lemma give_storage_ok a x s s' : give_storage_up a x s = (s', Ok tt) ->
  exists p, st_prof s !! a = Some p /\ let limit := Z.max (x * gb) (pp_base_storage (st_pp s) * gb) in
    p_storage_cur p <= limit < p_storage_limit p /\ still s s' /\ st_prof s' = <[ a := p <| p_storage_limit := limit |> ]> (st_prof s).
Proof.
  unfold give_storage_up. intros H. apply bind_ok in H as (p & s1 & H1 & H). apply get_profile_ok in H1 as [-> EP].
  apply bind_ok in H as (pp & s1 & H1 & H). apply get_ok in H1 as [-> ->]. cbv zeta in H.
  apply bind_ok in H as ([] & s1 & H1 & H). apply ensure_ok in H1 as [-> HA].
  apply bind_ok in H as ([] & s1 & H1 & H). apply ensure_ok in H1 as [-> HB].
  exists p. split; [done|]. cbv zeta. split; [lia|]. by eapply still_write in H as [? ?].
Qed.
Lemma give_im_ok a x s s' : give_im_up a x s = (s', Ok tt) ->
  exists p, st_prof s !! a = Some p /\ im_now s p = true /\ x < p_im_extra p /\ still s s' /\
    st_prof s' = <[ a := if x =? 0 then p <| p_im_extra := 0 |> <| p_im_until := None |> else p <| p_im_extra := x |> ]> (st_prof s) \/
  (exists p, st_prof s !! a = Some p /\ im_now s p = false /\ x < 0).
Proof.
  unfold give_im_up. intros H. apply bind_ok in H as (p & s1 & H1 & H). apply get_profile_ok in H1 as [-> EP].
  apply bind_ok in H as (now & s1 & H1 & H). apply get_ok in H1 as [-> ->]. cbv zeta in H.
  apply bind_ok in H as ([] & s1 & H1 & H). apply ensure_ok in H1 as [-> HA].
  change (im_active (st_now s) p) with (im_now s p) in HA. destruct (im_now s p) eqn:EI.
  2: { exists p. right. exists p. split; [done|]. split; [done|]. lia. }
  exists p. left. split; [done|]. split; [done|]. split; [lia|]. destruct (Z.eqb_spec x 0) as [->|N].
  - apply bind_ok in H as (u & s1 & H1 & H). apply lift_ok in H1 as [-> HU].
    apply bind_ok in H as ([] & s1 & H1 & H). apply (run_calm _ _ _ _ (calm_delete _ _ _)) in H1.
    assert (EP1 : st_prof s1 = st_prof s) by exact (opens_prof _ _ (proj1 H1)).
    eapply still_write in H as [HS HP]; [|rewrite EP1; exact EP|done..]. split; [|by rewrite HP, EP1].
    apply calm_money in H1 as (B & S & _). destruct HS as [HS1 HS2]. split; [|rewrite HS2; unfold supply; by rewrite S].
    intros y d. rewrite HS1. unfold bal. by rewrite (balance_same _ _ B).
  - by eapply still_write in H as [? ?].
Qed.

(** ** Nicknames *)
Lemma drop_space_nil sp n : drop_space sp n = [] <-> forall c, c ∈ n -> sp c = true.
Proof.
  induction n as [|c n IH]; cbn; [split; [intros _ c H; by apply elem_of_nil in H|done]|].
  destruct (sp c) eqn:E.
  - rewrite IH. split; [intros H b [->|Hb]%elem_of_cons; [done|by apply H]|]. intros H b Hb. apply H. by right.
  - split; [done|]. intros H. rewrite H in E; [done|by left].
Qed.
Lemma trim_blank s n : trim s n = [] <-> blank s n.
Proof.
  unfold trim, blank. rewrite <-drop_space_nil. set (m := drop_space (st_space s) n). split.
  - intros H. assert (HR : drop_space (st_space s) (rev m) = []) by (rewrite <-(rev_involutive (drop_space _ _)), H; done).
    pose proof (proj1 (drop_space_nil (st_space s) (rev m)) HR) as HR'.
    pose proof (drop_space_head (st_space s) n) as HH. fold m in HH. destruct m as [|c m']; [done|].
    rewrite HR' in HH; [done|]. apply elem_of_list_In, in_rev. rewrite rev_involutive. by left.
  - intros ->. done.
Qed.
Lemma nick_asked_upd us p : p_nick (fold_left apply_upd us p) = nick_asked us (p_nick p).
Proof. revert p. induction us as [|u us IH]; intros p; [done|]. cbn. rewrite IH. by destruct u. Qed.
Lemma update_price a us s s' : msg_update_profile a us s = (s', Ok tt) ->
  exists p, st_prof s !! a = Some p /\ st_prof s' = <[ a := fold_left apply_upd us p ]> (st_prof s) /\
    let n := nick_asked us (p_nick p) in
    (n = p_nick p \/ blank s n -> still s s') /\
    (n <> p_nick p -> ~ blank s n -> handed_over s s' a fee_collector nick_price).
Proof.
  intros H. apply update_ok in H as (p & EP & _ & H). exists p. split; [done|].
  pose proof (nick_asked_upd us p) as EN. pose proof (fold_upd_card us p) as EC. set (p1 := fold_left apply_upd us p) in *. clearbody p1.
  pose proof H as HW. apply set_profile_ok in HW as (_ & HW & _); [|intros o; rewrite EP; by intros [= <-]]. split; [done|].
  cbv zeta. rewrite <-EN. clear EN.
  destruct (decide (p_nick p1 = p_nick p)) as [E|E].
  { apply (still_write a p) in H as [HS _]; [|done..]. split; [done|]. by intros X. }
  unfold set_profile in H.
  apply bind_ok in H as (x & s2 & H1 & H). apply get_ok in H1 as [-> ->].
  apply bind_ok in H as (x & s2 & H1 & H). apply get_ok in H1 as [-> ->].
  apply bind_ok in H as ([] & s2 & H1 & H). apply validate_ok in H1 as [-> HV].
  apply bind_ok in H as (p' & s2 & H1 & H). rewrite EP in H1, H.
  apply bind_ok in H as ([] & s3 & H3 & H). apply modify_ok in H3 as ->.
  assert (HT : st_bal s' = st_bal s2 /\ st_supply s' = st_supply s2).
  { apply bind_ok in H as ([] & s4 & H4 & H). apply (run_calm _ _ _ _ (calm_touch _)) in H4. apply calm_money in H4 as (B4 & S4 & _).
    apply bind_ok in H as (now & s5 & H5 & H). apply get_ok in H5 as [-> ->].
    assert (HC : calm s4 s'). { destruct (Bool.eqb _ _); [apply ret_ok in H as [-> _]; reflexivity|by eapply run_calm; [apply calm_active|]]. }
    apply calm_money in HC as (B5 & S5 & _). rewrite B5, S5, B4, S4. done. }
  clear H HV. destruct HT as [HB HS].
  apply bind_ok in H1 as ([] & s3 & H1 & H).
  assert (HC : st_bal s2 = st_bal s3 /\ st_supply s2 = st_supply s3).
  { destruct (p_card p1 =? 0); [by apply ret_ok in H as [-> _]|]. apply bind_ok in H as ([] & s4 & H4 & H). apply ret_ok in H as [-> _].
    destruct (p_card p =? p_card p1); [by apply ret_ok in H4 as [-> _]|].
    apply bind_ok in H4 as ([] & s5 & H5 & H4). apply modify_ok in H4 as ->. destruct (p_card p =? 0); [by apply ret_ok in H5 as [-> _]|].
    by apply modify_ok in H5 as ->. }
  destruct HC as [HB2 HS2]. rewrite HB2 in HB. rewrite HS2 in HS. clear H HB2 HS2.
  rewrite decide_False in H1 by (intros X; by apply E).
  apply bind_ok in H1 as ([] & s4 & H4 & H).
  assert (HD : st_bal s4 = st_bal s /\ st_supply s4 = st_supply s).
  { destruct (decide (p_nick p = [])); [by apply ret_ok in H4 as [-> _]|]. by apply modify_ok in H4 as ->. }
  destruct HD as [HB4 HS4]. clear H4. rewrite <-trim_blank.
  destruct (decide (trim s (p_nick p1) = [])) as [ET|ET].
  - apply ret_ok in H as [-> _]. split; [|done]. intros _. apply still_view; congruence.
  - split; [by intros [|]|]. intros _ _.
    apply bind_ok in H as (c & s5 & H5 & H). apply new_coins_ok in H5 as (-> & _ & ->).
    apply bind_ok in H as ([] & s5 & H5 & H). apply modify_ok in H as ->. cbn in HB, HS.
    apply to_module_ok in H5 as (_ & _ & B & _ & S & _).
    assert (EB : forall x d, bal s' x d = bal s x d - at_ x a (amt (coins_of uartr nick_price) d) + at_ x fee_collector (amt (coins_of uartr nick_price) d)).
    { intros x d. transitivity (bal s5 x d); [unfold bal; by rewrite (balance_same _ _ HB)|]. rewrite B. unfold bal at 1. by rewrite (balance_same _ _ HB4). }
    split; [|split].
    + intros x. by rewrite EB, !amt_coins_of.
    + intros x d Hd. rewrite EB, !amt_coins_of. assert ((d =? uartr)%N = false) as -> by lia. unfold at_. repeat case_match; lia.
    + unfold supply. by rewrite HS, S, HS4.
Qed.

(** ** Registrations *)
Lemma create_price c a r p s s' : msg_create_account c a r p s = (s', Ok tt) -> st_prof s !! a = None ->
  if (0 <? pp_rename_price (st_pp s)) && negb (bool_decide (c ∈ pp_creators (st_pp s)))
  then handed_over s s' c fee_collector (pp_rename_price (st_pp s)) else still s s'.
Proof.
  intros H EP. unfold msg_create_account in H. apply bind_ok in H as ([] & s1 & H1 & H). apply ensure_ok in H1 as [-> _].
  apply bind_ok in H as (x & s1 & H1 & H). apply get_ok in H1 as [-> ->].
  apply bind_ok in H as ([] & s1 & H1 & H). apply ensure_ok in H1 as [-> HX].
  apply bind_ok in H as (x & s1 & H1 & H). apply get_ok in H1 as [-> ->].
  apply bind_ok in H as ([] & s1 & H1 & H).
  set (paying := (0 <? pp_rename_price (st_pp s)) && negb (bool_decide (c ∈ pp_creators (st_pp s)))) in *. clearbody paying.
  assert (O1 : opens s s1). { destruct paying; [by eapply op_pay_creator|by apply ret_ok in H1 as [-> _]]. }
  assert (HT : st_bal s' = st_bal s1 /\ st_supply s' = st_supply s1).
  { assert (EP1 : st_prof s1 !! a = None) by (by rewrite (opens_prof _ _ O1)). clear H1 O1 EP.
    unfold create_with_profile in H. apply bind_ok in H as (n & s2 & H2 & H).
    assert (C2 : st_prof s2 = st_prof s1 /\ st_bal s2 = st_bal s1 /\ st_supply s2 = st_supply s1).
    { unfold create_account in H2. cbn in H2. by injection H2 as <- _. }
    apply bind_ok in H as ([] & s3 & H3 & H).
    assert (C3 : calm s2 s3). { eapply run_calm; [|exact H3]. frame. }
    apply bind_ok in H as (t & s4 & H4 & H). apply get_ok in H4 as [-> ->].
    apply bind_ok in H as ([] & s4 & H4 & H).
    assert (C4 : calm s3 s4). { eapply run_calm; [|exact H4]. frame. }
    apply bind_ok in H as (g & s5 & H5 & H). apply get_ok in H5 as [-> ->].
    assert (C : calm s2 s4) by (by etransitivity).
    assert (EP4 : st_prof s4 !! a = None). { rewrite (opens_prof _ _ (proj1 C)). destruct C2 as [-> _]. done. }
    assert (HB : st_bal s' = st_bal s4 /\ st_supply s' = st_supply s4).
    { clear -H EP4. match type of H with set_profile _ ?q _ = _ => set (p1 := q) in *; clearbody p1 end. unfold set_profile in H.
      apply bind_ok in H as (x & s2 & H1 & H). apply get_ok in H1 as [-> ->].
      apply bind_ok in H as (x & s2 & H1 & H). apply get_ok in H1 as [-> ->].
      apply bind_ok in H as ([] & s2 & H1 & H). apply validate_ok in H1 as [-> HV].
      apply bind_ok in H as (p' & s2 & H1 & H). rewrite EP4 in H1, H.
      assert (E2 : st_bal s2 = st_bal s4 /\ st_supply s2 = st_supply s4).
      { apply bind_ok in H1 as ([] & s3 & H3 & H1). apply bind_ok in H1 as ([] & s5 & H5 & H1). apply ret_ok in H1 as [-> _].
        assert (E3 : st_bal s3 = st_bal s4 /\ st_supply s3 = st_supply s4).
        { destruct (decide _); [by apply ret_ok in H3 as [-> _]|]. by apply modify_ok in H3 as ->. }
        destruct (_ =? _); [by apply ret_ok in H5 as [-> _]|]. by apply modify_ok in H5 as ->. }
      apply bind_ok in H as ([] & s3 & H3 & H). apply modify_ok in H3 as ->.
      apply bind_ok in H as ([] & s5 & H4 & H). apply (run_calm _ _ _ _ (calm_touch _)) in H4. apply calm_money in H4 as (B4 & S4 & _).
      apply bind_ok in H as (now & s6 & H5 & H). apply get_ok in H5 as [-> ->].
      assert (HC : calm s5 s'). { destruct (Bool.eqb _ _); [apply ret_ok in H as [-> _]; reflexivity|by eapply run_calm; [apply calm_active|]]. }
      apply calm_money in HC as (B5 & S5 & _). rewrite B5, S5, B4, S4. exact E2. }
    apply calm_money in C as (B & S & _). destruct C2 as (_ & B2 & S2), HB as [B5 S5]. split; congruence. }
  clear H. destruct HT as [HB HS]. destruct paying.
  - apply bind_ok in H1 as (k & s2 & H2 & H1). apply new_coins_ok in H2 as (-> & _ & ->).
    apply to_module_ok in H1 as (_ & _ & B & _ & S & _).
    assert (EB : forall x d, bal s' x d = bal s1 x d) by (intros x d; unfold bal; by rewrite (balance_same _ _ HB)).
    split; [|split].
    + intros x. by rewrite EB, B, !amt_coins_of.
    + intros x d Hd. rewrite EB, B, !amt_coins_of. assert ((d =? uartr)%N = false) as -> by lia. unfold at_. repeat case_match; lia.
    + unfold supply. by rewrite HS, S.
  - apply ret_ok in H1 as [-> _]. by apply still_view.
Qed.
