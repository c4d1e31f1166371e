(** * C109: purchases go through *)
From Coq Require Import QArith.
From Verif Require Import Spec_Pure NameHist LiveProofs LiveBuy LiveFirst Props_Live Props_Consent Props_Profile Spec_Consent Spec_Live Witness.
Open Scope Z_scope.

(** What a purchase at the price [n] by [a] needs: the chain is in order, fees can
    be computed, the rate is a number, and [a] has a profile and can pay. *)
Definition can_pay (s : St) (a : addr) (p : profile) (n : Z) : Prop :=
  healthy s /\ names_ok s /\ fair_fee s /\ Frac.fden (pp_token_rate (st_pp s)) <> 0 /\ st_prof s !! a = Some p /\ 0 < n <= bal s a uartr.
Lemma can_fee s a p n : can_pay s a p n -> n < 2^63 -> exists f, fee_of n s = Some f /\ 0 <= f <= n.
Proof. intros (_ & _ & HF & _ & _ & H) L. apply HF. lia. Qed.
Lemma run_accept m s : acc_exists s (signer m) = true -> (exists s', run_msg m s = (s', Ok tt)) -> exists s', accepted m s s'.
Proof.
  intros HA [s' E]. destruct (accept m s (fun _ => True) HA) as (s2 & H & _); [unfold wp; by rewrite E|by exists s2].
Qed.

(** Storage, for the rest of the paid month *)
Theorem C109_storage : forall a x p t s, p_until p = Some t -> st_now s < t -> t - st_now s < 2^63 -> 0 < x < 2^32 ->
  gb_fits s (pp_storage_price (st_pp s)) x (month_left s t) ->
  can_pay s a p (gb_price s (pp_storage_price (st_pp s)) x (month_left s t)) ->
  exists s', accepted (MBuyStorage a x) s s'.
Proof.
  intros a x p t s U T1 T2 Hx HG HC. destruct (can_fee _ _ _ _ HC) as (f & F1 & F2); [apply HG|]. destruct HC as (H & HN & _ & HR & E & Hn).
  apply run_accept; [exact (no_profile s HN a p E)|]. eapply live_storage; try done. apply HG.
Qed.
Print Assumptions C109_storage.

(** Traffic *)
Theorem C109_vpn : forall a x p t s, p_until p = Some t -> st_now s < t -> 0 < x < 2^32 ->
  gb_fits s (pp_vpn_price (st_pp s)) x 1 -> can_pay s a p (gb_price s (pp_vpn_price (st_pp s)) x 1) ->
  exists s', accepted (MBuyVpn a x) s s'.
Proof.
  intros a x p t s U T1 Hx HG HC. destruct (can_fee _ _ _ _ HC) as (f & F1 & F2); [apply HG|]. destruct HC as (H & HN & _ & HR & E & Hn).
  apply run_accept; [exact (no_profile s HN a p E)|]. by eapply live_vpn.
Qed.
Print Assumptions C109_vpn.

(** Extra storage for messages: for a month, or more of it for the rest of the month *)
Theorem C109_im : forall a x p s, 0 < x < 2^32 ->
  (forall t, p_im_until p = Some t -> t - st_now s < 2^63) ->
  let part := if im_now s p then match p_im_until p with Some t => month_left s t | None => 1%Q end else 1%Q in
  gb_fits s (pp_storage_price (st_pp s)) x part -> can_pay s a p (gb_price s (pp_storage_price (st_pp s)) x part) ->
  exists s', accepted (MBuyIm a x) s s'.
Proof.
  intros a x p s Hx T part HG HC. destruct (can_fee _ _ _ _ HC) as (f & F1 & F2); [apply HG|]. destruct HC as (H & HN & _ & HR & E & Hn).
  apply run_accept; [exact (no_profile s HN a p E)|]. unfold part in *. clear part. unfold im_now in *.
  destruct (p_im_until p) as [t|] eqn:U.
  - destruct (Z.eqb_spec (p_im_extra p) 0) as [Z|Z], (Z.ltb_spec (st_now s) t) as [L|L]; cbn [negb andb] in *.
    1,2: eapply live_im_new; try done; by left.
    + eapply live_im_more; try done; [apply HG|by apply T].
    + eapply live_im_new; try done. right. intros t' Ht. rewrite U in Ht. by injection Ht as <-.
  - rewrite andb_false_r in *. eapply live_im_new; try done. right. intros t' Ht. by rewrite U in Ht.
Qed.
Print Assumptions C109_im.

(** One more month of the extra storage one has *)
Theorem C109_prolong : forall a p t s, p_im_until p = Some t -> 0 <= t -> t + one_month s < time_limit -> 0 < p_im_extra p < 2^63 ->
  gb_fits s (pp_storage_price (st_pp s)) (p_im_extra p) 1 -> can_pay s a p (gb_price s (pp_storage_price (st_pp s)) (p_im_extra p) 1) ->
  exists s', accepted (MProlongIm a) s s'.
Proof.
  intros a p t s U T1 T2 Hx HG HC. destruct (can_fee _ _ _ _ HC) as (f & F1 & F2); [apply HG|]. destruct HC as (H & HN & _ & HR & E & Hn).
  apply run_accept; [exact (no_profile s HN a p E)|]. by eapply live_im_longer.
Qed.
Print Assumptions C109_prolong.

(** The next month: an account whose month is not over, and is not banished, can
    pay for another one with as much storage as before, or with any amount that is
    not less than what is included and not less than what it uses. *)
Theorem C109_renewal : forall a g p t f s,
  let total := month_price s + surcharge s p (storage_asked s p g) in
  p_until p = Some t -> st_now s < t -> t + one_month s < time_limit -> a <> nobody -> rp_company (st_rp s) <> nobody -> banished s a = false ->
  0 <= g < 2^32 -> (g = 0 \/ (pp_base_storage (st_pp s) <= g /\ p_storage_cur p <= g * gb)) -> storage_fits s p (storage_asked s p g) ->
  fee_of (month_price s) s = Some f -> 0 <= f < total -> total < 2^64 -> can_pay s a p total ->
  exists s', accepted (MPayTariff a g) s s'.
Proof.
  intros a g p t f s total U T1 T2 Ha Hc HB Hg Hs HF EF Hf HT (H & HN & _ & HR & E & Hn).
  apply run_accept; [exact (no_profile s HN a p E)|]. eapply live_renewal; try done. by apply Hn.
Qed.
Print Assumptions C109_renewal.

(** The first month, or the first one after a break, which makes the account active *)
Theorem C109_first : forall a g p f s,
  let total := month_price s + surcharge s p (storage_asked s p g) in
  (forall t, p_until p = Some t -> t <= st_now s) -> a <> nobody -> rp_company (st_rp s) <> nobody -> banished s a = false ->
  (forall t, r_banishment_at (ref_get s a) = Some t -> 0 <= t < time_limit) ->
  0 <= g < 2^32 -> (g = 0 \/ (pp_base_storage (st_pp s) <= g /\ p_storage_cur p <= g * gb)) -> storage_fits s p (storage_asked s p g) ->
  fee_of (month_price s) s = Some f -> 0 <= f < total -> total < 2^64 -> can_pay s a p total ->
  exists s', accepted (MPayTariff a g) s s'.
Proof.
  intros a g p f s total U Ha Hc HB HD Hg Hs HF EF Hf HT (H & HN & _ & HR & E & Hn).
  apply run_accept; [exact (no_profile s HN a p E)|]. eapply live_first; try done. by apply Hn.
Qed.
Print Assumptions C109_first.

(** Account 11 has paid, and has bought extra storage after 16 days; three days later it can buy all of this. *)
Definition c109bs : list block := c90bs ++ [blk (T0 + 17 * day_ns) [tx1 (MBuyIm 11 3)]; blk (T0 + 20 * day_ns) []].
Definition c109s : St := after c109bs w0.
Definition c109p : profile := c90p <| p_im_extra := 3 |> <| p_im_until := Some (T0 + 47 * day_ns) |>.
Lemma c109_names : runs c109bs w0 = true -> names_ok c109s.
Proof.
  intros R. destruct (after_runs _ _ R) as [us E]. fold c109s in E.
  assert (T : times_from (st_now w0) c109bs) by (vm_compute; repeat split; congruence).
  destruct (names_blocks _ _ _ _ T E w0_names) as (H & _). exact H.
Qed.
Lemma can_pay_dec s a n p : healthy_check s -> st_bp s = bp0 -> Frac.fden (pp_token_rate (st_pp s)) <> 0 -> names_ok s ->
  st_prof s !! a = Some p -> 0 < n <= bal s a uartr -> can_pay s a p n.
Proof. intros H B F HN E Hn. split; [by apply healthy_checked|]. split; [done|]. split; [by apply fair_bp0|]. done. Qed.
Example C109_witness : runs c109bs w0 = true /\ im_now c109s c109p = true /\
  p_until c109p = Some (T0 + 31 * day_ns) /\ p_im_until c109p = Some (T0 + 47 * day_ns) /\ st_now c109s = T0 + 20 * day_ns /\
  gb_fits c109s (pp_storage_price (st_pp c109s)) 6 (month_left c109s (T0 + 31 * day_ns)) /\
  can_pay c109s 11 c109p (gb_price c109s (pp_storage_price (st_pp c109s)) 6 (month_left c109s (T0 + 31 * day_ns))) /\
  gb_fits c109s (pp_vpn_price (st_pp c109s)) 6 1 /\ can_pay c109s 11 c109p (gb_price c109s (pp_vpn_price (st_pp c109s)) 6 1) /\
  gb_fits c109s (pp_storage_price (st_pp c109s)) 6 (month_left c109s (T0 + 47 * day_ns)) /\
  can_pay c109s 11 c109p (gb_price c109s (pp_storage_price (st_pp c109s)) 6 (month_left c109s (T0 + 47 * day_ns))) /\
  T0 + 47 * day_ns + one_month c109s < time_limit /\
  gb_fits c109s (pp_storage_price (st_pp c109s)) (p_im_extra c109p) 1 /\
  can_pay c109s 11 c109p (gb_price c109s (pp_storage_price (st_pp c109s)) (p_im_extra c109p) 1) /\
  storage_fits c109s c109p (storage_asked c109s c109p 8) /\ surcharge c109s c109p (storage_asked c109s c109p 8) = 410000 /\ month_price c109s = 19900000 /\
  fee_of (month_price c109s) c109s = Some 59700 /\ banished c109s 11 = false /\ rp_company (st_rp c109s) = 10%N /\
  pp_base_storage (st_pp c109s) = 5 /\ p_storage_cur c109p = 0 /\ can_pay c109s 11 c109p (19900000 + 410000).
Proof.
  assert (R : runs c109bs w0 = true) by (by vm_compute). pose proof (c109_names R) as HN.
  assert (HC : forall n, (0 <? n) && (n <=? bal c109s 11 uartr) = true -> can_pay c109s 11 c109p n).
  { intros n H. apply can_pay_dec; [apply (bool_decide_unpack _); vm_compute; exact I|by vm_compute|by vm_compute|done|by vm_compute|lia]. }
  split; [exact R|]. do 4 (split; [by vm_compute|]).
  split; [unfold gb_fits; split_and!; by vm_compute|]. split; [apply HC; by vm_compute|].
  split; [unfold gb_fits; split_and!; by vm_compute|]. split; [apply HC; by vm_compute|].
  split; [unfold gb_fits; split_and!; by vm_compute|]. split; [apply HC; by vm_compute|].
  split; [by vm_compute|].
  split; [unfold gb_fits; split_and!; by vm_compute|]. split; [apply HC; by vm_compute|].
  split.
  { unfold storage_fits. split; [by vm_compute|]. do 4 (split; [split; by vm_compute|]).
    assert (EN : st_now c109s = T0 + 20 * day_ns) by (by vm_compute). rewrite EN. clear. intros t Ht. cbn in Ht. injection Ht as <-. by vm_compute. }
  do 7 (split; [by vm_compute|]). apply HC; by vm_compute.
Qed.

(** Account 11 of the beginning has not paid yet. *)
Example C109_first_witness : p_until p11 = None /\ banished w0 11 = false /\ r_banishment_at (ref_get w0 11) = None /\ rp_company (st_rp w0) = 10%N /\
  storage_fits w0 p11 (storage_asked w0 p11 8) /\ fee_of (month_price w0) w0 = Some 59700 /\
  month_price w0 + surcharge w0 p11 (storage_asked w0 p11 8) = 20200000 /\ can_pay w0 11 p11 20200000.
Proof.
  do 4 (split; [by vm_compute|]). split.
  { unfold storage_fits. split; [by vm_compute|]. do 4 (split; [split; by vm_compute|]). intros t Ht. done. }
  do 2 (split; [by vm_compute|]).
  apply can_pay_dec; [apply (bool_decide_unpack _); vm_compute; exact I|by vm_compute|by vm_compute|apply w0_names|by vm_compute|split; by vm_compute].
Qed.
