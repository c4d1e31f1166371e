(** * C117: another referrer can be asked for *)
From Coq Require Import QArith.
From Verif Require Import Spec_Pure QueryProofs ListHist LiveProofs Props_Live Spec_Referral Spec_Queries Spec_Live Witness.
Open Scope Z_scope.

Lemma chain_ends s p k : referrer s nobody = nobody -> up s k p = nobody -> forall j, (k <= j)%nat -> up s j p = nobody.
Proof. intros H0 H j Hj. induction Hj as [|j Hj IH]; [done|]. cbn [up]. by rewrite IH. Qed.
Lemma no_loop s p k n m : referrer s nobody = nobody -> up s k p = nobody -> (1 <= m)%nat -> up s n p <> nobody -> up s (m + n) p <> up s n p.
Proof.
  intros H0 H Hm Hn E.
  assert (A : forall i j x, up s (i + j) x = up s i (up s j x)) by (intros i j x; induction i as [|i IH]; [done|]; cbn [up Nat.add]; by rewrite IH).
  assert (L : forall i, up s (i * m + n) p = up s n p).
  { induction i as [|i IH]; [done|]. replace (S i * m + n)%nat with (m + (i * m + n))%nat by lia. rewrite A, IH, <- A. exact E. }
  apply Hn. rewrite <- (L k). apply (chain_ends s p k); [done..|]. nia.
Qed.

(** Whoever has the price can ask to be moved under any member who takes newcomers, is not
    below and is not the referrer already, provided nothing has been asked for before and
    the chain of referrers of the member ends. The wish is then recorded. *)
Theorem C117_ask : forall a p s, healthy s -> acc_exists s a = true -> may_move s a p ->
  referrer s nobody = nobody -> (exists n, up s n p = nobody) -> rp_transition_price (st_rp s) <= bal s a uartr ->
  exists s', accepted (MRequestTransition a p) s s' /\ r_transition (ref_get s' a) = p.
Proof.
  intros a p s H HA HM H0 [k HK] HB.
  apply (accept (MRequestTransition a p) s (fun s' => r_transition (ref_get s' a) = p)); [exact HA|].
  cbn [run_msg]. unfold msg_request_transition, request_transition. apply wp_bind.
  assert (V : exists s1, validate_transition a p true s = (s1, Ok tt)).
  { destruct (validate_transition a p true s) as [s1 [[]|e|e]] eqn:E; [by exists s1| |].
    - exfalso. exact (validate_err _ _ _ _ _ E HM).
    - apply validate_loops in E as (n & m & Hm & Hn & E). exfalso. exact (no_loop s p k n m H0 HK Hm Hn E). }
  destruct V as [s1 V]. pose proof (proj1 (StatusProofs.validate_ok _ _ _ _ _ V)) as R. subst s1. eapply wp_of; [exact V|]. apply wp_bind, wp_get, wp_bind.
  eapply (wp_mono _ (fun _ => healthy)).
  { destruct (Z.ltb_spec 0 (rp_transition_price (st_rp s))); [|by apply wp_ret]. unfold new_coins. apply wp_bind, wp_bind, wp_assert; [lia|]. apply wp_ret.
    eapply wp_mono; [apply wp_to_module_n; [exact H|lia]|]. by intros [] s1 [X _]. }
  intros [] s1 H1. apply wp_bind. unfold set_transition. apply wp_modify, wp_bind, wp_get.
  eapply wp_mono; [apply wp_schedule|].
  - pose proof (hl_clock s1 H1) as (C1 & C2 & C3). unfold one_day. cbn. lia.
  - intros [] s2 (x & i & ->). unfold ref_get. cbn. by rewrite lookup_insert.
Qed.
Print Assumptions C117_ask.

(** Account 13, who is under account 11, asks to be moved under account 12. *)
Example C117_witness : healthy w0 /\ acc_exists w0 13 = true /\ may_move w0 13 12 /\ referrer w0 nobody = nobody /\ up w0 2 12 = nobody /\
  rp_transition_price (st_rp w0) = 1000000 /\ 1000000 <= bal w0 13 uartr.
Proof.
  split; [apply healthy_checked, (bool_decide_unpack _); vm_compute; exact I|]. split; [by vm_compute|]. split.
  - split; [done|]. split; [done|]. split; [by vm_compute|]. split; [apply StatusProofs.open_iff; by vm_compute|]. split; [by vm_compute|].
    intros (n & Hn & E & X). destruct n as [|[|[|n]]]; [lia| | |].
    + revert E. by vm_compute.
    + revert E. by vm_compute.
    + apply (X 2%nat); [lia|by vm_compute].
  - split_and!; by vm_compute.
Qed.
