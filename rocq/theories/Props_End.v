(** * C110: the end of a month goes through *)
From Coq Require Import QArith.
From Verif Require Import Spec_Pure NameHist LiveProofs LiveRevoke LiveBuy LiveEnd Props_Live Props_Buy Props_Consent Props_Profile Spec_Consent Spec_Live Witness.
Open Scope Z_scope.

(** The task that ends the month of [a] never stops a block. It renews the month, at
    its price, if the account has asked for it and can pay; otherwise the month ends
    where it ends. If the month has been prolonged meanwhile, nothing is paid. *)
Theorem C110_month : forall t a p u f s, t_hook t = HRefresh -> t_data t = a ->
  let total := month_price s + surcharge s p (storage_asked s p 0) in
  healthy s -> names_ok s -> st_prof s !! a = Some p -> p_until p = Some u ->
  0 <= u -> u + one_month s < time_limit -> st_now s + 60 * st_day s < time_limit ->
  (p_autopay p = true -> u <= st_now s ->
     (forall t, r_banishment_at (ref_get s a) = Some t -> 0 <= t < time_limit) /\ a <> nobody /\ rp_company (st_rp s) <> nobody /\ banished s a = false /\
     Frac.fden (pp_token_rate (st_pp s)) <> 0 /\ storage_fits s p (storage_asked s p 0) /\
     fee_of (month_price s) s = Some f /\ 0 <= f < total /\ total < 2^64) ->
  exists s', goes_through t s s' /\
    until s' a = if negb (active_now s p) && p_autopay p && (total <=? bal s a uartr) then Some (u + one_month s) else Some u.
Proof.
  intros t a p u f s HH HD total H HN E U U0 U1 HT HP.
  destruct (live_end a p u f s H HN E U U0 U1 HT HP) as (s' & R & X).
  exists s'. split; [|exact X]. unfold goes_through. rewrite HH, HD. cbn [hooks]. eexists. split; [done|exact R].
Qed.
Print Assumptions C110_month.

(** The same for the extra storage for messages: it goes on for a month if the account
    has asked for it and can pay, and is gone otherwise. *)
Theorem C110_im : forall t a p s, t_hook t = HRefreshIm -> t_data t = a ->
  let price := gb_price s (pp_storage_price (st_pp s)) (p_im_extra p) 1 in
  healthy s -> names_ok s -> st_prof s !! a = Some p ->
  (p_im_autopay p = true -> a <> splitter /\ fair_fee s /\ Frac.fden (pp_token_rate (st_pp s)) <> 0 /\
     (forall u, p_im_until p = Some u -> 0 <= u /\ u + one_month s < time_limit) /\
     0 <= p_im_extra p < 2^63 /\ gb_fits s (pp_storage_price (st_pp s)) (p_im_extra p) 1 /\ (p_im_extra p <> 0 -> 0 < price)) ->
  exists s', goes_through t s s' /\
    let ended := p <| p_im_extra := 0 |> <| p_im_until := None |> <| p_im_autopay := false |> in
    st_prof s' !! a = Some (match p_im_until p with
      | Some u => if p_im_autopay p && negb (p_im_extra p =? 0) && (price <=? bal s a uartr) then p <| p_im_until := Some (u + one_month s) |> else ended
      | None => ended
      end).
Proof.
  intros t a p s HH HD price H HN E HP.
  destruct (live_im_end a p s H HN E HP) as (s' & R & X).
  exists s'. split; [|exact X]. unfold goes_through. rewrite HH, HD. cbn [hooks]. eexists. split; [done|exact R].
Qed.
Print Assumptions C110_im.

(** Account 11 has paid for a month and for extra storage for messages, and has asked
    for automatic payments; both are over. [poor]: it has sent most of its coins away. *)
Definition c110bs (poor : bool) : list block := [blk (T0 + day_ns) [tx1 (MPayTariff 11 0)];
  blk (T0 + 2 * day_ns) [tx1 (MBuyIm 11 3); tx1 (MUpdateProfile 11 [UAutoPay true; UImAutoPay true])]] ++
  (if poor then [blk (T0 + 3 * day_ns) [tx1 (MSend 11 10 {[ uartr := 19960000000 ]})]] else []).
Definition c110s (poor : bool) : St := after (c110bs poor) w0 <| st_now := T0 + 33 * day_ns |>.
Definition c110p : profile := p11 <| p_until := Some (T0 + 31 * day_ns) |> <| p_storage_limit := 5 * gb |> <| p_vpn_limit := 7 * gb |>
  <| p_im_extra := 3 |> <| p_im_until := Some (T0 + 32 * day_ns) |> <| p_autopay := true |> <| p_im_autopay := true |>.
Lemma names_now s t : names_ok s -> names_ok (s <| st_now := t |>).
Proof. intros []. constructor; done. Qed.
Lemma c110_names b : runs (c110bs b) w0 = true -> names_ok (c110s b).
Proof.
  intros R. destruct (after_runs _ _ R) as [us E]. apply names_now.
  assert (T : times_from (st_now w0) (c110bs b)) by (destruct b; vm_compute; repeat split; congruence).
  destruct (names_blocks _ _ _ _ T E w0_names) as (H & _). exact H.
Qed.
Example C110_witness : forall b, runs (c110bs b) w0 = true /\ healthy (c110s b) /\ names_ok (c110s b) /\ st_prof (c110s b) !! 11%N = Some c110p /\
  p_until c110p = Some (T0 + 31 * day_ns) /\ T0 + 31 * day_ns + one_month (c110s b) < time_limit /\ st_now (c110s b) + 60 * st_day (c110s b) < time_limit /\
  r_banishment_at (ref_get (c110s b) 11) = None /\ rp_company (st_rp (c110s b)) = 10%N /\ banished (c110s b) 11 = false /\
  Frac.fden (pp_token_rate (st_pp (c110s b))) <> 0 /\ storage_fits (c110s b) c110p (storage_asked (c110s b) c110p 0) /\
  fee_of (month_price (c110s b)) (c110s b) = Some 59700 /\ month_price (c110s b) + surcharge (c110s b) c110p (storage_asked (c110s b) c110p 0) = 19900000 /\
  fair_fee (c110s b) /\ gb_fits (c110s b) (pp_storage_price (st_pp (c110s b))) (p_im_extra c110p) 1 /\
  gb_price (c110s b) (pp_storage_price (st_pp (c110s b))) (p_im_extra c110p) 1 = 300000 /\
  bal (c110s b) 11 uartr = (if b then 9800001 else 19979800000).
Proof.
  intros b. assert (R : runs (c110bs b) w0 = true) by (destruct b; by vm_compute). pose proof (c110_names b R) as HN.
  split; [exact R|]. split; [apply healthy_checked, (bool_decide_unpack _); destruct b; vm_compute; exact I|]. split; [exact HN|].
  do 7 (split; [destruct b; by vm_compute|]). split; [destruct b; by vm_compute|].
  split.
  { unfold storage_fits. split; [destruct b; by vm_compute|]. do 4 (split; [split; destruct b; by vm_compute|]).
    assert (EN : st_now (c110s b) = T0 + 33 * day_ns) by done. rewrite EN. clear. intros t Ht. cbn in Ht. injection Ht as <-. by vm_compute. }
  do 2 (split; [destruct b; by vm_compute|]). split; [apply fair_bp0; destruct b; by vm_compute|].
  split; [unfold gb_fits; split_and!; destruct b; by vm_compute|]. split; destruct b; by vm_compute.
Qed.
(** What then happens: with the coins both go on; without, the month ends, and the cheaper extra storage goes on. *)
Example C110_result : forall b,
  until (exec (perform_refresh 11) (c110s b)) 11 = Some (T0 + (if b then 31 else 61) * day_ns) /\
  option_map p_im_until (st_prof (exec (perform_refresh_im 11) (c110s b)) !! 11%N) = Some (Some (T0 + 62 * day_ns)).
Proof. intros []; split; by vm_compute. Qed.
