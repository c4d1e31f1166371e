(** * C88-C90: who can change a profile, and what changes cost *)
From Coq Require Import QArith.
From Verif Require Import Spec_Pure PriceProofs ConsentProofs Witness.
Open Scope Z_scope.

(** ** C88 *)

(** No message signed by somebody else changes the profile of an account, except
    that a signer appointed for it reports the storage or the traffic used. *)
Theorem C88_message : forall m s s' z p, run_msg m s = (s', Ok tt) -> signer m <> z ->
  acc_exists s z = true -> st_prof s !! z = Some p ->
  st_prof s' !! z = Some p \/
  (exists v, m = MSetStorageCurrent (signer m) z v /\ signer m ∈ pp_storage_signers (st_pp s) /\
     st_prof s' !! z = Some (p <| p_storage_cur := v |>)) \/
  (exists v, m = MSetVpnCurrent (signer m) z v /\ signer m ∈ pp_vpn_signers (st_pp s) /\
     st_prof s' !! z = Some (p <| p_vpn_cur := v |>)).
Proof.
  intros m s s' z p H N A E. destruct (sets_usage m z) eqn:U.
  - right. destruct m; cbn in U; try discriminate; apply N.eqb_eq in U; subst; cbn [run_msg] in H; [left|right].
    + unfold msg_set_storage_current in H. apply bind_ok in H as (pp & s1 & H1 & H). apply get_ok in H1 as [-> ->].
      apply bind_ok in H as ([] & s1 & H1 & H). apply ensure_ok in H1 as [-> HS]. apply bool_decide_eq_true in HS.
      unfold write_profile in H. rewrite run_get, E in H. apply modify_ok in H as ->. cbn.
      exists v. split; [done|]. split; [done|]. by rewrite lookup_insert.
    + unfold msg_set_vpn_current in H. apply bind_ok in H as (pp & s1 & H1 & H). apply get_ok in H1 as [-> ->].
      apply bind_ok in H as ([] & s1 & H1 & H). apply ensure_ok in H1 as [-> HS]. apply bool_decide_eq_true in HS.
      unfold write_profile in H. rewrite run_get, E in H. apply modify_ok in H as ->. cbn.
      exists v. split; [done|]. split; [done|]. by rewrite lookup_insert.
  - left. destruct (kp_msg z m s s' H N U A) as [_ HP]. by destruct (HP p E) as (p' & E' & ->).
Qed.
Print Assumptions C88_message.
(** As long as the owner signs nothing, the settings of a profile stay as they
    are, whatever everybody else does and however much time passes; time is only
    bought for those who have asked for it. *)
Theorem C88_history : forall bs s s' us z p, times_from (st_now s) bs -> run_blocks bs s = Some (s', us) ->
  Forall (fun b => Forall (not_signed z) (b_txs b)) bs ->
  acc_exists s z = true -> st_prof s !! z = Some p -> exists p', st_prof s' !! z = Some p' /\ aged p p'.
Proof.
  intros bs s s' us z p HT H HB A E. destruct (age_blocks z bs s s' us HT HB H A) as [_ HP]. by apply HP.
Qed.
Print Assumptions C88_history.

Definition p11 : profile := p_zero <| p_card := 3735928558 |>.
Definition c88a : St := exec (run_msg (MSetStorageCurrent 10 11 7)) w0.
Definition c88bs : list block :=
  [blk (T0 + day_ns) [tx1 (MSetStorageCurrent 10 11 7); tx1 (MSend 12 11 (uc 5000000))]; blk (T0 + 40 * day_ns) [tx1 (MPayTariff 12 0)]].
Example C88_witness : acc_exists w0 11 = true /\ st_prof w0 !! 11%N = Some p11 /\
  (exists s', run_msg (MSetStorageCurrent 10 11 7) w0 = (s', Ok tt) /\ st_prof s' !! 11%N = Some (p11 <| p_storage_cur := 7 |>)) /\
  ok (eval (run_msg (MSetStorageCurrent 12 11 7)) w0) = false /\
  runs c88bs w0 = true /\ st_prof (after c88bs w0) !! 11%N = Some (p11 <| p_storage_cur := 7 |>).
Proof.
  split; [by vm_compute|]. split; [by vm_compute|]. split; [|split_and!; by vm_compute].
  exists c88a. split; [apply exec_ok; by vm_compute|by vm_compute].
Qed.
Lemma c88_unsigned : Forall (fun b => Forall (not_signed 11) (b_txs b)) c88bs.
Proof.
  repeat constructor; unfold not_signed; cbn; intros H; repeat (apply elem_of_cons in H as [H|H]; [discriminate|]); by apply elem_of_nil in H.
Qed.

(** ** C89 *)

(** Changing a profile is free, except that a new nickname, unless it is blank,
    costs 1 ARTR. *)
Theorem C89_nickname : forall a us s s', run_msg (MUpdateProfile a us) s = (s', Ok tt) ->
  exists p, st_prof s !! a = Some p /\ st_prof s' = <[ a := fold_left apply_upd us p ]> (st_prof s) /\
    let n := nick_asked us (p_nick p) in
    nickname s' a = n /\
    (n = p_nick p \/ blank s n -> still s s') /\
    (n <> p_nick p -> ~ blank s n -> handed_over s s' a fee_collector 1000000).
Proof.
  intros a us s s' H. destruct (update_price a us s s' H) as (p & E1 & E2 & E3 & E4). exists p. split; [done|]. split; [done|].
  cbv zeta. split; [|done]. unfold nickname. by rewrite E2, lookup_insert, nick_asked_upd.
Qed.
Print Assumptions C89_nickname.
(** Registering an account costs the registrant the price in force, unless the
    registrant is appointed to register accounts. *)
Theorem C89_registration : forall c a r p s s', names_ok s -> run_msg (MCreateAccount c a r p) s = (s', Ok tt) ->
  (c ∈ pp_creators (st_pp s) \/ pp_rename_price (st_pp s) <= 0 -> still s s') /\
  (c ∉ pp_creators (st_pp s) -> 0 < pp_rename_price (st_pp s) -> handed_over s s' c fee_collector (pp_rename_price (st_pp s))).
Proof.
  intros c a r p s s' HN H. cbn [run_msg] in H. pose proof H as H0. apply names_create in H0 as [EP _]; [|done].
  apply create_price in H; [|done]. destruct (Z.ltb_spec 0 (pp_rename_price (st_pp s))) as [HP|HP]; cbn [andb] in H.
  - destruct (bool_decide (c ∈ pp_creators (st_pp s))) eqn:E; cbn [negb] in H.
    + apply bool_decide_eq_true in E. split; [done|]. by intros X.
    + apply bool_decide_eq_false in E. split; [intros [?|?]; [done|lia]|done].
  - split; [done|]. lia.
Qed.
Print Assumptions C89_registration.

Definition bob : list N := [98; 111; 98]%N.
Definition c89a : St := exec (run_msg (MUpdateProfile 11 [UNick bob; UVpn true])) w0.
Definition c89b : St := exec (run_msg (MUpdateProfile 11 [UVpn false])) c89a.
Definition c89c : St := exec (run_msg (MCreateAccount 11 20 10 None)) w0.
Example C89_witness :
  (exists s', run_msg (MUpdateProfile 11 [UNick bob; UVpn true]) w0 = (s', Ok tt) /\
     nickname s' 11 = bob /\ bal w0 11 uartr - bal s' 11 uartr = 1000000 /\ bal s' fee_collector uartr - bal w0 fee_collector uartr = 1000000) /\
  (exists s', run_msg (MUpdateProfile 11 [UVpn false]) c89a = (s', Ok tt) /\ bal s' 11 uartr = bal c89a 11 uartr) /\
  (exists s', run_msg (MCreateAccount 11 20 10 None) w0 = (s', Ok tt) /\ bal w0 11 uartr - bal s' 11 uartr = 1000000).
Proof.
  split; [|split].
  - exists c89a. split; [apply exec_ok; by vm_compute|]. split_and!; by vm_compute.
  - exists c89b. split; [apply exec_ok; by vm_compute|by vm_compute].
  - exists c89c. split; [apply exec_ok; by vm_compute|by vm_compute].
Qed.

(** ** C90 *)

(** Storage: only an active account can buy it, for the rest of its month. *)
Theorem C90_storage : forall a x s s', run_msg (MBuyStorage a x) s = (s', Ok tt) ->
  exists p t n, st_prof s !! a = Some p /\ p_until p = Some t /\ st_now s < t /\ 0 < x < 2^32 /\ 0 < n /\
    let unit := pp_storage_price (st_pp s) in let part := month_left s t in
    (gb_fits s unit x part -> t - st_now s < 2^63 -> n = gb_price s unit x part) /\
    bought s s' a n (p <| p_storage_limit := plus64 (Z.max (p_storage_limit p) (pp_base_storage (st_pp s) * gb)) (x * gb) |>).
Proof.
  intros a x s s' H. cbn [run_msg] in H. apply bind_ok in H as ([] & s1 & H1 & H). apply ensure_ok in H1 as [-> HX]. unfold uint32 in HX.
  apply buy_storage_bought in H as (p & t & n & E & ET & HT & Hn & HP & HB). exists p, t, n. split_and!; first [done|lia].
Qed.
Print Assumptions C90_storage.
(** Traffic: only an active account can buy it. *)
Theorem C90_vpn : forall a x s s', run_msg (MBuyVpn a x) s = (s', Ok tt) ->
  exists p n, st_prof s !! a = Some p /\ active_now s p = true /\ 0 < x < 2^32 /\ 0 <= n /\
    let unit := pp_vpn_price (st_pp s) in
    (gb_fits s unit x 1 -> n = gb_price s unit x 1) /\
    bought s s' a n (p <| p_vpn_limit := plus64 (p_vpn_limit p) (x * gb) |>).
Proof.
  intros a x s s' H. cbn [run_msg] in H. apply bind_ok in H as ([] & s1 & H1 & H). apply ensure_ok in H1 as [-> HX]. unfold uint32 in HX.
  apply buy_vpn_bought in H as (p & n & E & HA & Hn & HP & HB). exists p, n. split_and!; first [done|lia].
Qed.
Print Assumptions C90_vpn.
(** Extra storage for messages: more of it for the rest of its month, or for a
    month from now. *)
Theorem C90_im : forall a x s s', run_msg (MBuyIm a x) s = (s', Ok tt) ->
  exists p n, st_prof s !! a = Some p /\ 0 < x < 2^32 /\ 0 < n /\ let unit := pp_storage_price (st_pp s) in
    if im_now s p
    then exists t, p_im_until p = Some t /\
      (gb_fits s unit x (month_left s t) -> t - st_now s < 2^63 -> n = gb_price s unit x (month_left s t)) /\
      bought s s' a n (p <| p_im_extra := plus64 (p_im_extra p) x |>)
    else (gb_fits s unit x 1 -> n = gb_price s unit x 1) /\
      bought s s' a n (p <| p_im_extra := x |> <| p_im_until := Some (st_now s + one_month s) |>).
Proof.
  intros a x s s' H. cbn [run_msg] in H. apply bind_ok in H as ([] & s1 & H1 & H). apply ensure_ok in H1 as [-> HX]. unfold uint32 in HX.
  apply buy_im_bought in H as (p & n & E & Hn & HB). exists p, n. split_and!; first [done|lia].
Qed.
Print Assumptions C90_im.
(** One more month of it *)
Theorem C90_prolong : forall a s s', run_msg (MProlongIm a) s = (s', Ok tt) ->
  exists p t n, st_prof s !! a = Some p /\ p_im_until p = Some t /\ p_im_extra p <> 0 /\ 0 < n /\
    let unit := pp_storage_price (st_pp s) in
    (0 <= p_im_extra p < 2^63 -> gb_fits s unit (p_im_extra p) 1 -> n = gb_price s unit (p_im_extra p) 1) /\
    bought s s' a n (p <| p_im_until := Some (t + one_month s) |>).
Proof. intros a s s' H. by apply prolong_im_bought in H. Qed.
Print Assumptions C90_prolong.
(** Giving storage up is free and final: the limit becomes what was asked for,
    but not less than the amount included or used. *)
Theorem C90_give_up : forall a x s s', run_msg (MGiveStorageUp a x) s = (s', Ok tt) ->
  exists p, st_prof s !! a = Some p /\ let limit := Z.max (x * gb) (pp_base_storage (st_pp s) * gb) in
    p_storage_cur p <= limit < p_storage_limit p /\ still s s' /\ st_prof s' = <[ a := p <| p_storage_limit := limit |> ]> (st_prof s).
Proof.
  intros a x s s' H. cbn [run_msg] in H. apply bind_ok in H as ([] & s1 & H1 & H). apply ensure_ok in H1 as [-> _]. by apply give_storage_ok.
Qed.
Print Assumptions C90_give_up.
Theorem C90_give_im_up : forall a x s s', run_msg (MGiveImUp a x) s = (s', Ok tt) ->
  exists p, st_prof s !! a = Some p /\ im_now s p = true /\ 0 <= x < p_im_extra p /\ still s s' /\
    st_prof s' = <[ a := if x =? 0 then p <| p_im_extra := 0 |> <| p_im_until := None |> else p <| p_im_extra := x |> ]> (st_prof s).
Proof.
  intros a x s s' H. cbn [run_msg] in H. apply bind_ok in H as ([] & s1 & H1 & H). apply ensure_ok in H1 as [-> HX]. unfold uint32 in HX.
  apply give_im_ok in H as (p & [(E & HI & HL & HS & HP)|(q & _ & _ & HL)]); [|lia]. exists p. split_and!; first [done|lia].
Qed.
Print Assumptions C90_give_im_up.

(** Account 11, paid for 30 days, buys storage after 15 days, traffic and extra
    storage, prolongs and gives up. *)
Definition c90bs : list block := [blk (T0 + day_ns) [tx1 (MPayTariff 11 0)]; blk (T0 + 16 * day_ns) []].
Definition c90s : St := after c90bs w0.
Definition c90p : profile := p11 <| p_until := Some (T0 + 31 * day_ns) |> <| p_storage_limit := 5 * gb |> <| p_vpn_limit := 7 * gb |>.
Definition c90a : St := exec (run_msg (MBuyStorage 11 3)) c90s.
Definition c90b : St := exec (run_msg (MBuyVpn 11 3)) c90a.
Definition c90c : St := exec (run_msg (MBuyIm 11 3)) c90b.
Definition c90d : St := exec (run_msg (MBuyIm 11 2)) c90c.
Definition c90e : St := exec (run_msg (MProlongIm 11)) c90d.
Definition c90f : St := exec (run_msg (MGiveStorageUp 11 6)) c90e.
Definition c90g : St := exec (run_msg (MGiveImUp 11 0)) c90f.
Example C90_witness : runs c90bs w0 = true /\ st_prof c90s !! 11%N = Some c90p /\
  ok (eval (run_msg (MBuyStorage 11 3)) c90s) = true /\ gb_price c90s 1000 3 (month_left c90s (T0 + 31 * day_ns)) = 150000 /\
  bal c90s 11 uartr - bal c90a 11 uartr = 150000 /\ option_map p_storage_limit (st_prof c90a !! 11%N) = Some (8 * gb) /\
  ok (eval (run_msg (MBuyVpn 11 3)) c90a) = true /\ gb_price c90a 1990 3 1 = 597000 /\
  bal c90a 11 uartr - bal c90b 11 uartr = 597000 /\ option_map p_vpn_limit (st_prof c90b !! 11%N) = Some (10 * gb) /\
  ok (eval (run_msg (MBuyIm 11 3)) c90b) = true /\ bal c90b 11 uartr - bal c90c 11 uartr = 300000 /\
  ok (eval (run_msg (MBuyIm 11 2)) c90c) = true /\ bal c90c 11 uartr - bal c90d 11 uartr = 200000 /\
  option_map p_im_extra (st_prof c90d !! 11%N) = Some 5 /\
  ok (eval (run_msg (MProlongIm 11)) c90d) = true /\ bal c90d 11 uartr - bal c90e 11 uartr = 500000 /\
  ok (eval (run_msg (MGiveStorageUp 11 6)) c90e) = true /\ option_map p_storage_limit (st_prof c90f !! 11%N) = Some (6 * gb) /\
  ok (eval (run_msg (MGiveImUp 11 0)) c90f) = true /\ option_map p_im_until (st_prof c90g !! 11%N) = Some None.
Proof. split_and!; by vm_compute. Qed.
Lemma c90_fits11 : gb_fits c90s 1000 3 (month_left c90s (T0 + 31 * day_ns)) /\ T0 + 31 * day_ns - st_now c90s < 2^63.
Proof. unfold gb_fits. split_and!; by vm_compute. Qed.
