(** * C114: those who have the right are not refused *)
From Coq Require Import QArith.
From Verif Require Import Spec_Pure BankProofs FracProofs LiveProofs Props_Live Spec_Live Witness.
Open Scope Z_scope.

(** Whoever has free coins can burn them. They are then gone, and nothing else. *)
Theorem C114_burn : forall a n s, healthy s -> acc_exists s a = true -> 0 < n < 2^63 -> n <= bal s a uartr -> n <= supply s uartr ->
  exists s', accepted (MBurn a n) s s' /\ supply s' uartr = supply s uartr - n /\
    forall x d, bal s' x d = bal s x d - (if ((x =? a) && (d =? uartr))%N%bool then n else 0).
Proof.
  intros a n s H HA Hn HB HS. apply accept; [done|]. cbn [run_msg].
  assert (W : wp (msg_burn a n) (fun _ _ => True) s).
  { unfold msg_burn. apply wp_bind, wp_ensure; [lia|]. rewrite wrap64_id by lia. unfold new_coins. apply wp_bind, wp_bind, wp_assert; [lia|]. apply wp_ret.
    unfold burn_acc_coins. apply wp_bind.
    pose proof (wp_subtract a (coins_of uartr n) s H) as W. specialize (W ltac:(apply coins_of_valid; lia) ltac:(apply ge_main; [lia|done]) ltac:(by rewrite amt_coins_of)).
    apply wp_run in W as (s1 & [] & W & _). eapply wp_of; [exact W|]. apply subtract_ok in W as (_ & _ & _ & _ & S & _).
    unfold deflate. apply wp_bind, wp_get, wp_bind, wp_assert; [rewrite S; apply ge_main; [lia|done]|]. by apply wp_modify. }
  apply wp_run in W as (s' & [] & R & _). eapply wp_of; [exact R|]. apply msg_burn_ok in R as (_ & _ & B1 & B2 & S1 & _); [|lia].
  split; [done|]. intros x d. destruct (N.eqb_spec d uartr) as [->|N].
  - rewrite B1. unfold at_. destruct (x =? a)%N; cbn [andb]; lia.
  - rewrite B2 by done. rewrite andb_false_r. lia.
Qed.
Print Assumptions C114_burn.

(** An account that may set the rate of the token can set it to any positive value, as long
    as the other parameters are valid. *)
Theorem C114_rate : forall a v s, acc_exists s a = true -> a ∈ pp_rate_signers (st_pp s) -> Frac.fden v <> 0 -> (0 < qval v)%Q -> pparams_valid (st_pp s) = true ->
  exists s', accepted (MSetRate a v) s s' /\ st_pp s' = st_pp s <| pp_token_rate := v |>.
Proof.
  intros a v s HA HS HD HV HP. apply accept; [done|]. cbn [run_msg]. unfold msg_set_rate. apply is_positive_spec in HV; [|done].
  apply wp_bind, wp_ensure; [done|]. apply wp_bind, wp_get, wp_bind, wp_ensure; [by apply bool_decide_eq_true|].
  unfold set_pparams. apply wp_bind, wp_get, wp_bind, wp_assert.
  { change (pp_card_magic (st_pp s <| pp_token_rate := v |>)) with (pp_card_magic (st_pp s)). by rewrite Z.eqb_refl. }
  cbv zeta. apply wp_bind, wp_assert.
  { unfold pparams_valid in *. repeat rewrite andb_true_iff in *. cbn. tauto. }
  apply wp_modify. change (st_pp s <| pp_token_rate := v |> <| pp_card_magic := pp_card_magic (st_pp s) |> = st_pp s <| pp_token_rate := v |>). by destruct (st_pp s).
Qed.
Print Assumptions C114_rate.

(** An account that may report the use of storage, or of traffic, can report it for every account with a profile. *)
Theorem C114_use : forall x a v p s, acc_exists s x = true -> st_prof s !! a = Some p ->
  (x ∈ pp_storage_signers (st_pp s) -> exists s', accepted (MSetStorageCurrent x a v) s s' /\ st_prof s' = <[ a := p <| p_storage_cur := v |> ]> (st_prof s)) /\
  (x ∈ pp_vpn_signers (st_pp s) -> exists s', accepted (MSetVpnCurrent x a v) s s' /\ st_prof s' = <[ a := p <| p_vpn_cur := v |> ]> (st_prof s)).
Proof.
  intros x a v p s HA E. split; intros HS; apply accept; try done; cbn [run_msg].
  - unfold msg_set_storage_current. apply wp_bind, wp_get, wp_bind, wp_ensure; [by apply bool_decide_eq_true|]. unfold write_profile. apply wp_bind, wp_get. rewrite E. by apply wp_modify.
  - unfold msg_set_vpn_current. apply wp_bind, wp_get, wp_bind, wp_ensure; [by apply bool_decide_eq_true|]. unfold write_profile. apply wp_bind, wp_get. rewrite E. by apply wp_modify.
Qed.
Print Assumptions C114_use.

(** The referrer of an account that has asked for another one can always decline. *)
Theorem C114_decline : forall a x s, acc_exists s a = true -> a <> nobody -> r_referrer (ref_get s x) = a ->
  exists s', accepted (MResolveTransition a x false) s s' /\ r_transition (ref_get s' x) = nobody /\ r_referrer (ref_get s' x) = a /\
    forall y, y <> x -> ref_get s' y = ref_get s y.
Proof.
  intros a x s HA Ha HR. apply accept; [done|]. cbn [run_msg]. unfold msg_resolve_transition.
  apply wp_bind, wp_get, wp_bind, wp_ensure; [by apply negb_true_iff, N.eqb_neq|]. apply wp_bind, wp_ensure; [rewrite HR; apply N.eqb_refl|].
  unfold cancel_transition. apply wp_bind, wp_get, wp_modify.
  set (s' := s <| st_ref := <[ x := ref_get s x <| r_transition := nobody |> ]> (st_ref s) |>).
  assert (X : ref_get s' x = ref_get s x <| r_transition := nobody |>) by (unfold ref_get at 1; subst s'; cbn; by rewrite lookup_insert).
  rewrite X. split_and!; try done. intros y Hy. unfold ref_get. subst s'. cbn. by rewrite lookup_insert_ne.
Qed.
Print Assumptions C114_decline.

Definition c114s : St := after [blk (T0 + 1000000000) [tx1 (MRequestTransition 13 10)]] w0.
Example C114_witness : healthy w0 /\ acc_exists w0 11 = true /\ 5000000 <= bal w0 11 uartr /\ 5000000 <= supply w0 uartr /\
  pparams_valid (st_pp w0) = true /\ Forall (fun a => acc_exists w0 a = true) (pp_rate_signers (st_pp w0)) /\ pp_rate_signers (st_pp w0) <> [] /\
  pp_storage_signers (st_pp w0) <> [] /\ pp_vpn_signers (st_pp w0) <> [] /\ is_Some (st_prof w0 !! 11%N) /\
  r_transition (ref_get c114s 13) = 10%N /\ acc_exists c114s (r_referrer (ref_get c114s 13)) = true.
Proof.
  split; [apply healthy_checked, (bool_decide_unpack _); vm_compute; exact I|]. do 4 (split; [by vm_compute|]).
  split; [apply (bool_decide_unpack _); vm_compute; exact I|]. do 3 (split; [by vm_compute|]). split; [vm_compute; by eexists|]. split; by vm_compute.
Qed.
