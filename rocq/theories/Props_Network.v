(** * C21-C24, C27, C73: the referral network as a whole *)
From Verif Require Import HoldProofs StatusProofs ListHist Witness Spec_Bank Spec_Network.

(** ** How to see that a concrete state is in order *)

(** The same, for the members only *)
Definition network_check (s : St) : Prop :=
  nobody ∉ members s /\
  Forall (fun a =>
    (referrer s a = nobody \/ referrer s a ∈ members s) /\
    up s (List.length (members s)) a = nobody /\
    Forall (fun x => referrer s x = a /\ banished s x = false) (referrals s a) /\
    (banished s a = false -> referrer s a <> nobody -> a ∈ referrals s (referrer s a)) /\
    NoDup (referrals s a) /\
    (banished s a = true -> referrals s a = [] /\ referrer s a <> nobody /\ active s a = false) /\
    active_referrals s a = filter (fun x => active s x = true) (referrals s a) /\
    (r_compression_at (ref_get s a) <> None -> active s a = false /\ banished s a = false) /\
    Forall (fun k =>
      stored_coins s a k = sum (map (fun x => stored_coins s x 0) (at_line s k a)) /\
      stored_deleg s a k = sum (map (fun x => stored_deleg s x 0) (at_line s k a))) (seq 1 9) /\
    Forall (fun k => stored_active s a k = Z.of_nat (List.length (filter (fun x => active s x = true) (at_line s k a))) mod 2 ^ 64) (seq 0 10) /\
    Forall (fun v => 0 <= v < 2 ^ 64) (r_cnt (ref_get s a))) (members s).
#[local] Instance network_check_dec s : Decision (network_check s).
Proof. unfold network_check. apply _. Defined.
Lemma not_member s a : a ∉ members s -> ref_get s a = r_zero.
Proof.
  intros H. unfold ref_get. destruct (st_ref s !! a) as [r|] eqn:E; [|done]. exfalso. apply H.
  apply elem_of_list_fmap. exists (a, r). split; [done|]. by apply elem_of_map_to_list.
Qed.
Lemma member_at_line s k a : (forall x, referrer s x = nobody \/ referrer s x ∈ members s) -> a <> nobody -> a ∉ members s -> at_line s k a = [].
Proof.
  intros H N0 N1. destruct (at_line s k a) as [|x l] eqn:E; [done|]. exfalso.
  assert (Hx : x ∈ at_line s k a) by (rewrite E; left). apply elem_of_list_filter in Hx as [[E1 _] Hx].
  destruct k as [|k]; cbn [up] in E1; [by subst|]. destruct (H (up s k x)) as [H1|H1]; congruence.
Qed.
Lemma network_checked s : network_check s -> network s.
Proof.
  intros [HN HF]. rewrite Forall_forall in HF.
  assert (D : forall a, a ∈ members s \/ ref_get s a = r_zero).
  { intros a. destruct (decide (a ∈ members s)); [by left|right; by apply not_member]. }
  assert (D' : forall a, a ∈ members s \/ (a ∉ members s /\ ref_get s a = r_zero)).
  { intros a. destruct (decide (a ∈ members s)); [by left|right; split; [done|by apply not_member]]. }
  assert (P : forall x, referrer s x = nobody \/ referrer s x ∈ members s).
  { intros x. destruct (D x) as [H|E]; [apply (HF x H)|]. left. unfold referrer. by rewrite E. }
  split.
  - pose proof (not_member s nobody HN) as E. unfold referrer, referrals. by rewrite E.
  - intros a. destruct (D a) as [H|E]; [exists (List.length (members s)); apply (HF a H)|]. exists 1%nat. cbn [up]. unfold referrer. by rewrite E.
  - intros p x Hp. split.
    + intros Hx. destruct (D p) as [H|E]; [|unfold referrals in Hx; rewrite E in Hx; by apply elem_of_nil in Hx].
      destruct (HF p H) as (_ & _ & H1 & _). rewrite Forall_forall in H1. by apply H1.
    + intros [E1 E2]. destruct (D x) as [H|E]; [|unfold referrer in E1; rewrite E in E1; by rewrite <- E1 in Hp].
      destruct (HF x H) as (_ & _ & _ & H1 & _). rewrite E1 in H1. by apply H1.
  - intros p. destruct (D p) as [H|E]; [apply (HF p H)|]. unfold referrals. rewrite E. constructor.
  - intros a Hb. destruct (D a) as [H|E]; [by apply (HF a H)|]. unfold banished in Hb. by rewrite E in Hb.
  - intros p Hp. destruct (D p) as [H|E]; [by destruct (HF p H) as (_ & _ & _ & _ & _ & _ & -> & _)|]. unfold active_referrals, referrals. by rewrite E.
  - intros a t Ht. destruct (D a) as [H|E]; [|by rewrite E in Ht]. destruct (HF a H) as (_ & _ & _ & _ & _ & _ & _ & H1 & _). apply H1. by rewrite Ht.
  - intros a k Ha Hk. destruct (D' a) as [H|[H E]].
    + destruct (HF a H) as (_ & _ & _ & _ & _ & _ & _ & _ & H1 & _). rewrite Forall_forall in H1. apply H1. apply elem_of_seq. lia.
    + rewrite member_at_line by done. unfold stored_coins, line. by rewrite E.
  - intros a k Ha Hk. destruct (D' a) as [H|[H E]].
    + destruct (HF a H) as (_ & _ & _ & _ & _ & _ & _ & _ & H1 & _). rewrite Forall_forall in H1. apply H1. apply elem_of_seq. lia.
    + rewrite member_at_line by done. unfold stored_deleg, line. by rewrite E.
  - intros a k Ha Hk. destruct (D' a) as [H|[H E]].
    + destruct (HF a H) as (_ & _ & _ & _ & _ & _ & _ & _ & _ & H1 & _). rewrite Forall_forall in H1. apply H1. apply elem_of_seq. lia.
    + rewrite member_at_line by done. unfold stored_active, line. by rewrite E.
  - intros a k. destruct (D a) as [H|E]; [|unfold stored_active, line; rewrite E; cbn [r_cnt r_zero]; rewrite lookup_nil; done].
    destruct (HF a H) as (_ & _ & _ & _ & _ & _ & _ & _ & _ & _ & H1). rewrite Forall_forall in H1. unfold stored_active, line.
    destruct (r_cnt (ref_get s a) !! k) as [v|] eqn:Ev; [|done]. apply H1. by apply elem_of_list_lookup_2 in Ev.
  - pose proof (not_member s nobody HN) as E. unfold stored_active, active, line. by rewrite E.
Qed.

Lemma network_history bs s s' us : network s -> times_from (st_now s) bs -> regular bs s -> run_blocks bs s = Some (s', us) -> network s'.
Proof. intros H HT HR HB. apply network_right. apply network_right in H. by eapply right_history. Qed.
Lemma own_line_held s x : own_line_right s x <-> held x s.
Proof.
  unfold own_line_right, held, says, r_empty, status, banished, stored_coins, stored_deleg, line, ln, holding, delegation, own_coins, own_deleg, total_coins.
  destruct (Z.eqb_spec (r_status (ref_get s x)) 0), (r_banished (ref_get s x)); cbn [negb andb]; intuition congruence.
Qed.

Lemma lists_tidied s : lists_right s <-> tidied False (fun _ => True) (fun _ => True) s.
Proof.
  split; intros H; split; try apply H; try done. split; apply H.
Qed.
Lemma lists_history bs s s' us : lists_right s -> times_from (st_now s) bs -> run_blocks bs s = Some (s', us) -> lists_right s'.
Proof. intros H HT HB. apply lists_tidied. apply lists_tidied in H. by eapply tidied_history. Qed.
Lemma member_in s a : member s a <-> a ∈ members s.
Proof.
  unfold member, members. split.
  - intros [r H]. apply elem_of_list_fmap. exists (a, r). split; [done|]. by apply elem_of_map_to_list.
  - intros H. apply elem_of_list_fmap in H as ([x r] & -> & H). apply elem_of_map_to_list in H. by exists r.
Qed.
Lemma chains_chained s Own : (forall a, referrer s a = a -> a = nobody \/ Own a) ->
  (lists_right s /\ chains_right s <-> chained Own s).
Proof.
  intros HO. split.
  - intros [L C]. unfold chained, ListProofs.tidied. split; try apply L.
    + intros _. apply ends_ranked. intros a. destruct (cr_ends _ C a) as [n Hn]. exists n. by rewrite <- up_anc.
    + intros _ x Hx. destruct (cr_known _ C x Hx) as [E|E]; [by left|right]. by apply member_in.
    + intros _. exact HO.
  - intros T. unfold chained, ListProofs.tidied in T. split; split.
    + split; apply T.
    + apply T.
    + apply T.
    + apply T.
    + apply T.
    + intros a. destruct (ranked_ends _ (td_rank T I) a) as [n Hn]. exists n. by rewrite up_anc.
    + intros a Ha. destruct (td_named T I a Ha) as [E|E]; [by left|right]. by apply member_in.
Qed.
Lemma chains_history bs s s' us : lists_right s -> chains_right s -> times_from (st_now s) bs -> run_blocks bs s = Some (s', us) ->
  chains_right s' /\ (forall a, referrer s' a = a -> a = nobody \/ referrer s a = a \/ self_made bs s a).
Proof.
  intros L C HT HB. set (Own a := referrer s a = a \/ self_made bs s a).
  assert (H0 : chained Own s). { apply chains_chained; [|done]. intros a Ha. right. by left. }
  pose proof (chained_history Own bs s s' us HT HB) as H. cbv beta in H.
  assert (H1 : chained Own s'). { apply H; [|done]. intros c a p s1 Hx. right. by exists c, p, s1. }
  assert (HO : forall a, referrer s' a = a -> a = nobody \/ Own a) by exact (td_own H1 I).
  split; [|exact HO]. by apply (chains_chained s' Own HO) in H1 as [_ H1].
Qed.
Lemma round_own s : chains_right s -> forall a n, (1 <= n)%nat -> up s n a = a -> referrer s a = a.
Proof.
  intros C a n Hn E. rewrite up_anc in E. eapply (ranked_loops (refg (ref_get s))); [|exact Hn|exact E].
  apply ends_ranked. intros x. destruct (cr_ends _ C x) as [m Hm]. exists m. by rewrite <- up_anc.
Qed.
(** Records in order have their lists in order. *)
Lemma network_lists s : network s -> lists_right s.
Proof. intros N. split; try apply N. Qed.

(** ** C24 *)

(** The claim, for histories in which nobody is registered as their own
    referrer: the chain of referrers of an account never comes back to it; an
    account is listed by its referrer, once, and by nobody else; banished ones
    are not listed.  The blocks start from any state in which the lists and the
    chains are right and nobody is their own referrer.  Missing: registrations
    as one's own referrer, see [C24_refuted]. *)
Theorem C24_partial : forall bs s s' us,
  lists_right s -> chains_right s -> (forall a, a <> nobody -> referrer s a <> a) -> times_from (st_now s) bs ->
  (forall a, ~ self_made bs s a) -> run_blocks bs s = Some (s', us) ->
  (forall a n, a <> nobody -> (1 <= n)%nat -> up s' n a <> a) /\
  (forall p x, p <> nobody -> (x ∈ referrals s' p <-> referrer s' x = p /\ banished s' x = false)) /\
  (forall p, NoDup (referrals s' p)).
Proof.
  intros bs s s' us L C HN HT HS HB. destruct (chains_history _ _ _ _ L C HT HB) as [C' HO]. split.
  - intros a n Ha Hn E. apply (round_own _ C') in E; [|done]. destruct (HO a E) as [|[E'|E']]; [done|by apply (HN a)|by apply (HS a)].
  - pose proof (lists_history _ _ _ _ L HT HB) as N. split; apply N.
Qed.
Print Assumptions C24_partial.
(** The first part of the claim, for all histories: a chain that comes back to
    an account is that of an account which is its own referrer, and which was at
    the beginning or has been registered as its own referrer since.  So there
    are no longer circles.  The chains stay right, so that one history may
    follow another. *)
Theorem C24_circles_partial : forall bs s s' us,
  lists_right s -> chains_right s -> times_from (st_now s) bs -> run_blocks bs s = Some (s', us) ->
  (forall a n, a <> nobody -> (1 <= n)%nat -> up s' n a = a -> referrer s' a = a /\ (referrer s a = a \/ self_made bs s a)) /\
  chains_right s'.
Proof.
  intros bs s s' us L C HT HB. destruct (chains_history _ _ _ _ L C HT HB) as [C' HO]. split; [|done].
  intros a n Ha Hn E. apply (round_own _ C') in E; [|done]. split; [done|]. by destruct (HO a E) as [|E'].
Qed.
Print Assumptions C24_circles_partial.
(** If moreover a banishment, when carried out, finds an account without
    referrals, then the records are in order as a whole (C23, C21). *)
Theorem C24_network_partial : forall bs s s' us,
  network s -> times_from (st_now s) bs -> regular bs s -> run_blocks bs s = Some (s', us) -> network s'.
Proof. exact network_history. Qed.
Print Assumptions C24_network_partial.

(** The second part of the claim, for all histories: an account is listed by its
    referrer, once, and by nobody else; banished ones are not listed.  The blocks
    start from any state in which this is so, and may contain registrations as
    one's own referrer and banishments of accounts with referrals. *)
Theorem C24_lists_partial : forall bs s s' us,
  lists_right s -> times_from (st_now s) bs -> run_blocks bs s = Some (s', us) ->
  (forall p x, p <> nobody -> (x ∈ referrals s' p <-> referrer s' x = p /\ banished s' x = false)) /\
  (forall p, NoDup (referrals s' p)).
Proof. intros bs s s' us H HT HB. pose proof (lists_history _ _ _ _ H HT HB) as N. split; apply N. Qed.
Print Assumptions C24_lists_partial.

(** A block of a chain in order registers an account as its own referrer. *)
Definition self_block : list block := [blk (T0 + day_ns) [tx1 (MCreateAccount 10 20 20 None)]].
Theorem C24_refuted : exists bs s s' us a,
  network s /\ times_from (st_now s) bs /\ run_blocks bs s = Some (s', us) /\ a <> nobody /\ up s' 1 a = a.
Proof.
  destruct (after_runs self_block w0) as [us H]; [by vm_compute|].
  exists self_block, w0, (after self_block w0), us, 20%N. split_and!.
  - apply network_checked, (bool_decide_unpack _). vm_compute. exact I.
  - vm_compute; repeat split; congruence.
  - exact H.
  - done.
  - by vm_compute.
Qed.
Print Assumptions C24_refuted.

(** A history with registrations, payments, delegations, subscriptions, a
    transition and compressions *)
Definition growth : list block :=
  [blk (T0 + day_ns) [tx1 (MDelegate 15 5000000000); tx1 (MCreateAccount 10 20 15 None); tx1 (MSend 10 20 (uc 7000000));
                      tx1 (MPayTariff 13 5); tx1 (MPayTariff 15 5); tx1 (MRequestTransition 15 12);
                      tx1 (MResolveTransition 13 15 true)];
   blk (T0 + 2 * day_ns) [tx1 (MDelegate 20 3000000)];
   blk (T0 + 61 * day_ns) []].
#[local] Instance network_step_dec x s : Decision (network_step x s).
Proof. unfold network_step. destruct x as [t|m]; [apply _|]. destruct m; apply _. Defined.
Lemma regular_checked bs s : bool_decide (Forall (fun p => network_step (fst p) (snd p)) (steps bs s)) = true -> regular bs s.
Proof. intros H%bool_decide_eq_true x s1 Hx. rewrite Forall_forall in H. exact (H _ Hx). Qed.
(** Records in order have their chains in order, but for the referrers of the
    banished. *)
Lemma network_chains s : network s ->
  Forall (fun a => banished s a = false \/ referrer s a = nobody \/ referrer s a ∈ members s) (members s) -> chains_right s.
Proof.
  intros N F. split.
  - intros a. destruct (nw_ends _ N a) as [n Hn]. exists n. rewrite Hn. apply N.
  - intros a Ha. rewrite Forall_forall in F. assert (HM : a ∈ members s).
    { apply member_in. unfold member. unfold banished, ref_get in Ha. destruct (st_ref s !! a); [by eexists|done]. }
    destruct (F a HM) as [E|E]; [congruence|done].
Qed.
Lemma regular_own bs s : regular bs s -> forall a, ~ self_made bs s a.
Proof. intros H a (c & p & s1 & Hx). by apply H in Hx. Qed.
Lemma w0_chains : lists_right w0 /\ chains_right w0 /\ (forall a, a <> nobody -> referrer w0 a <> a).
Proof.
  assert (N : network w0) by (apply network_checked, (bool_decide_unpack _); vm_compute; exact I). split_and!.
  - by apply network_lists.
  - apply network_chains; [done|]. apply (bool_decide_unpack _). vm_compute. exact I.
  - intros a Ha E. destruct (nw_ends _ N a) as [n Hn]. assert (X : up w0 n a = a); [|congruence].
    clear Hn. induction n as [|n IH]; [done|]. cbn [up]. by rewrite IH.
Qed.
Example C24_example :
  (lists_right w0 /\ chains_right w0 /\ (forall a, a <> nobody -> referrer w0 a <> a)) /\ (forall a, ~ self_made growth w0 a) /\
  network w0 /\ times_from (st_now w0) growth /\ regular growth w0 /\
  (exists us, run_blocks growth w0 = Some (after growth w0, us)) /\
  referrals w0 10 = [11; 12]%N /\ referrals (after (take 2 growth) w0) 12 = [15%N] /\
  referrals (after growth w0) 10 = [11; 12; 13; 14; 15]%N.
Proof.
  split; [exact w0_chains|]. split; [apply regular_own, regular_checked; by vm_compute|]. split_and!.
  - apply network_checked, (bool_decide_unpack _). vm_compute. exact I.
  - vm_compute; repeat split; congruence.
  - apply regular_checked. by vm_compute.
  - apply after_runs. by vm_compute.
  - by vm_compute.
  - by vm_compute.
  - by vm_compute.
Qed.

(** ** C23 *)

(** In the same histories, and as long as there are fewer than 2^64 members. *)
Theorem C23_partial : forall bs s s' us,
  network s -> times_from (st_now s) bs -> regular bs s -> run_blocks bs s = Some (s', us) ->
  Z.of_nat (List.length (members s')) < 2 ^ 64 ->
  forall a k, a <> nobody -> (k <= 9)%nat ->
    stored_active s' a k = Z.of_nat (List.length (filter (fun x => active s' x = true) (at_line s' k a))).
Proof.
  intros bs s s' us H HT HR HB HM a k Ha Hk. pose proof (network_history _ _ _ _ H HT HR HB) as N.
  rewrite (nw_count _ N a k Ha Hk). apply Z.mod_small. split; [lia|]. eapply Z.le_lt_trans; [|exact HM].
  apply Nat2Z.inj_le. unfold at_line. etransitivity; apply filter_length.
Qed.
Print Assumptions C23_partial.
Example C23_example :
  (exists us, run_blocks growth w0 = Some (after growth w0, us)) /\
  Z.of_nat (List.length (members (after growth w0))) < 2 ^ 64 /\
  stored_active (after (take 2 growth) w0) 10 2 = 2 /\
  filter (fun x => active (after (take 2 growth) w0) x = true) (at_line (after (take 2 growth) w0) 2 10) = [15; 13]%N.
Proof. split; [apply after_runs; by vm_compute|]. split_and!; by vm_compute. Qed.

(** ** C73 *)

(** The list of active referrals kept with an account is, up to the order, that
    of the active ones among its referrals, after all histories. *)
Theorem C73_active_referrals : forall bs s s' us,
  lists_right s -> times_from (st_now s) bs -> run_blocks bs s = Some (s', us) ->
  forall p, p <> nobody -> active_referrals s' p ≡ₚ filter (fun x => active s' x = true) (referrals s' p).
Proof. intros bs s s' us H HT HB. exact (lr_active _ (lists_history _ _ _ _ H HT HB)). Qed.
Print Assumptions C73_active_referrals.
(** The lists stay right as well, so that one history may follow another. *)
Theorem C73_lists : forall bs s s' us,
  lists_right s -> times_from (st_now s) bs -> run_blocks bs s = Some (s', us) -> lists_right s'.
Proof. exact lists_history. Qed.
Print Assumptions C73_lists.
(** An account that is its own referrer, active at first, gets a referral; both
    are listed as active.  It stops paying, is compressed and banished, and its
    referral stays under it. *)
Definition own_referrer : list block :=
  [blk (T0 + day_ns) [tx1 (MCreateAccount 10 20 20 None); tx1 (MCreateAccount 10 21 20 None); tx1 (MSend 11 20 (uc 15000000000));
                      tx1 (MSend 12 21 (uc 15000000000)); tx1 (MPayTariff 20 5); tx1 (MPayTariff 21 5)];
   blk (T0 + 40 * day_ns) [tx1 (MPayTariff 21 5)]; blk (T0 + 101 * day_ns) [tx1 (MPayTariff 21 5)];
   blk (T0 + 132 * day_ns) [tx1 (MPayTariff 21 5)]].
Example C73_example :
  (exists us, run_blocks (take 2 growth) w0 = Some (after (take 2 growth) w0, us)) /\
  active_referrals (after (take 2 growth) w0) 12 = [15%N] /\ active_referrals (after (take 2 growth) w0) 11 = [13%N] /\
  active_referrals (after growth w0) 10 = [] /\ referrals (after growth w0) 10 = [11; 12; 13; 14; 15]%N /\
  lists_right w0 /\ times_from (st_now w0) own_referrer /\
  (exists us, run_blocks own_referrer w0 = Some (after own_referrer w0, us)) /\
  active_referrals (after (take 1 own_referrer) w0) 20 = [20; 21]%N /\ active_referrals (after (take 2 own_referrer) w0) 20 = [21%N] /\
  referrals (after (take 3 own_referrer) w0) 20 = [20; 21]%N /\ referrals (after own_referrer w0) 20 = [21%N] /\
  banished (after own_referrer w0) 20 = true.
Proof.
  split; [apply after_runs; by vm_compute|]. do 4 (split; [by vm_compute|]).
  split; [apply network_lists, network_checked, (bool_decide_unpack _); vm_compute; exact I|].
  split; [vm_compute; repeat split; congruence|]. split; [apply after_runs; by vm_compute|]. split_and!; by vm_compute.
Qed.

(** ** C27 on histories *)

(** The validation of a transition comes to an end, whatever the accounts and the
    state, unless the referrers of the destination go round in a circle. *)
Theorem C27_ends_partial : forall subject parent fresh s s2 e, validate_transition subject parent fresh s = (s2, Panic e) ->
  exists n m, (1 <= m)%nat /\ up s n parent <> nobody /\ up s (m + n) parent = up s n parent.
Proof. exact validate_loops. Qed.
Print Assumptions C27_ends_partial.
(** After all histories the circle is an account which is its own referrer, and
    which was at the beginning or has been registered as its own referrer since. *)
Theorem C27_history_partial : forall bs s s' us,
  lists_right s -> chains_right s -> times_from (st_now s) bs -> run_blocks bs s = Some (s', us) ->
  forall subject parent fresh s2 e, validate_transition subject parent fresh s' = (s2, Panic e) ->
  exists n, let x := up s' n parent in x <> nobody /\ referrer s' x = x /\ (referrer s x = x \/ self_made bs s x).
Proof.
  intros bs s s' us L C HT HB subject parent fresh s2 e H. apply validate_loops in H as (n & m & Hm & H1 & H2).
  assert (U : forall i b, up s' (i + b) parent = up s' i (up s' b parent)) by (clear; induction i as [|i IHi]; intros b; cbn; [done|by rewrite IHi]).
  rewrite U in H2. exists n. cbv zeta. split; [done|]. by apply (proj1 (C24_circles_partial _ _ _ _ L C HT HB) _ m).
Qed.
Print Assumptions C27_history_partial.

(** Account 20 is registered as its own referrer, 21 under it.  The validation of
    a transition to 21 does not end; the others do. *)
Lemma self_checked bs s a :
  existsb (fun x => match fst x with SMsg (MCreateAccount _ y r _) => (y =? a)%N && (r =? a)%N | _ => false end) (steps bs s) = true -> self_made bs s a.
Proof.
  intros H. apply existsb_exists in H as ([x s1] & HI & H). cbn [fst] in H. destruct x as [|m]; [done|]. destruct m; try done.
  apply andb_true_iff in H as [H1 H2]. apply N.eqb_eq in H1 as ->. apply N.eqb_eq in H2 as ->. do 3 eexists. apply elem_of_list_In. exact HI.
Qed.
Definition own_short : list block := [blk (T0 + day_ns) [tx1 (MCreateAccount 10 20 20 None); tx1 (MCreateAccount 10 21 20 None)]].
Example C27_history_example :
  lists_right w0 /\ chains_right w0 /\ times_from (st_now w0) own_short /\
  (exists us, run_blocks own_short w0 = Some (after own_short w0, us)) /\ self_made own_short w0 20 /\
  snd (validate_transition 11 21 true (after own_short w0)) = Panic (ErrMsg "endless loop") /\
  up (after own_short w0) 1 21 = 20%N /\ up (after own_short w0) 2 21 = 20%N /\
  snd (validate_transition 21 11 true (after own_short w0)) = Ok tt /\
  (exists e, snd (validate_transition 11 15 true (after own_short w0)) = Err e).
Proof.
  split; [apply w0_chains|]. split; [apply w0_chains|]. split; [vm_compute; repeat split; congruence|].
  split; [apply after_runs; by vm_compute|]. split.
  { apply self_checked. by vm_compute. }
  do 4 (split; [by vm_compute|]). eexists. by vm_compute.
Qed.

(** ** C21 *)

(** In the same histories, and if no task or balance hook fails and everyone in
    the network was there before or has been registered: line 0 is what the
    account has, and the lines 1 to 9 are what the members of the line have.
    Missing: members that were never registered, see [C21_refuted]; failed tasks. *)
Theorem C21_partial : forall bs s s' us,
  network s -> (forall x, x ∈ members s -> own_line_right s x) ->
  times_from (st_now s) bs -> regular bs s -> run_blocks bs s = Some (s', us) ->
  aborts s' = aborts s ->
  (forall x, x ∈ members s' -> x ∈ members s \/ registered_in bs s x) ->
  forall a, a ∈ members s' -> a <> nobody ->
    stored_coins s' a 0 = holding s' a /\ stored_deleg s' a 0 = delegation s' a /\
    forall k, (1 <= k <= 9)%nat ->
      stored_coins s' a k = sum (map (holding s') (at_line s' k a)) /\
      stored_deleg s' a k = sum (map (delegation s') (at_line s' k a)).
Proof.
  intros bs s s' us H HO HT HR HB HA HM. pose proof (network_history _ _ _ _ H HT HR HB) as N.
  assert (O : forall x, x ∈ members s' -> own_line_right s' x).
  { intros x Hx. apply own_line_held. destruct (HM x Hx) as [H1|(c & r & p & s1 & H1)].
    - pose proof (proj2 (ho_blocks x _ _ _ _ HB)) as G. apply G; [done|]. by apply own_line_held, HO.
    - by eapply created_held. }
  intros a Ha Hn. split; [apply (O a Ha)|]. split; [apply (O a Ha)|]. intros k Hk.
  rewrite (nw_coins _ N a k Hn Hk), (nw_deleg _ N a k Hn Hk). split; f_equal; apply map_ext_in; intros x Hx%elem_of_list_In;
    apply elem_of_list_filter in Hx as [_ Hx]; apply (O x Hx).
Qed.
Print Assumptions C21_partial.

#[local] Instance own_line_right_dec s x : Decision (own_line_right s x).
Proof. unfold own_line_right. apply _. Defined.
Lemma own_checked s : Forall (own_line_right s) (members s) -> forall x, x ∈ members s -> own_line_right s x.
Proof. by rewrite Forall_forall. Qed.
Definition registration_of (x : step) : option addr := match x with SMsg (MCreateAccount _ a _ _) => Some a | _ => None end.
Lemma registered_checked bs s s' :
  Forall (fun x => x ∈ members s \/ Some x ∈ map (fun p => registration_of (fst p)) (steps bs s)) (members s') ->
  forall x, x ∈ members s' -> x ∈ members s \/ registered_in bs s x.
Proof.
  rewrite Forall_forall. intros H x Hx. destruct (H x Hx) as [H1|H1]; [by left|right].
  apply elem_of_list_In, in_map_iff in H1 as ([[t|m] s1] & E & H1%elem_of_list_In); [done|]. destruct m; try done. injection E as ->. by do 4 eexists.
Qed.
Example C21_example :
  (forall x, x ∈ members w0 -> own_line_right w0 x) /\ aborts (after growth w0) = aborts w0 /\
  (forall x, x ∈ members (after growth w0) -> x ∈ members w0 \/ registered_in growth w0 x) /\
  stored_coins (after growth w0) 10 1 = 99965783435 /\ at_line (after growth w0) 1 10 = [15; 11; 13; 12; 14]%N /\
  stored_coins (after growth w0) 10 2 = 6993985 /\ stored_deleg (after growth w0) 10 2 = 2991000.
Proof.
  split; [apply own_checked, (bool_decide_unpack _); vm_compute; exact I|]. split; [by vm_compute|].
  split; [apply registered_checked, (bool_decide_unpack _); vm_compute; exact I|]. split_and!; by vm_compute.
Qed.

(** The fee account of the chain has coins; someone is registered with that
    account as the referrer, which puts it in the network with nothing on
    line 0. *)
Definition odd_referrer : list block := [blk (T0 + day_ns) [tx1 (MSend 10 splitter (uc 7000000)); tx1 (MCreateAccount 10 20 splitter None)]].
Theorem C21_refuted : exists bs s s' us a,
  network s /\ (forall x, x ∈ members s -> own_line_right s x) /\ times_from (st_now s) bs /\ regular bs s /\
  run_blocks bs s = Some (s', us) /\ aborts s' = aborts s /\ a ∈ members s' /\ a <> nobody /\
  stored_coins s' a 0 = 0 /\ holding s' a = 7021000.
Proof.
  destruct (after_runs odd_referrer w0) as [us H]; [by vm_compute|].
  exists odd_referrer, w0, (after odd_referrer w0), us, splitter. split_and!.
  - apply network_checked, (bool_decide_unpack _). vm_compute. exact I.
  - apply own_checked, (bool_decide_unpack _); vm_compute; exact I.
  - vm_compute; repeat split; congruence.
  - apply regular_checked. by vm_compute.
  - exact H.
  - by vm_compute.
  - apply (bool_decide_unpack _); vm_compute; exact I.
  - done.
  - by vm_compute.
  - by vm_compute.
Qed.
Print Assumptions C21_refuted.

(** ** C22 *)

(** An account is compressed; its referral's referrals, ten lines below the
    top, come one line closer.  The tenth line of the top keeps their coins. *)
Definition long_chain : list block :=
  [blk (T0 + day_ns) (map (fun a => tx1 (MCreateAccount 10 a (if (a =? 20)%N then 12 else a - 1)%N None))
                          [20; 21; 22; 23; 24; 25; 26; 27; 28; 29]%N ++ [tx1 (MSend 10 28 (uc 7000000))]);
   blk (T0 + 60 * day_ns) []].
Theorem C22_refuted : exists bs s s' us a,
  network s /\ (forall x, x ∈ members s -> own_line_right s x) /\ times_from (st_now s) bs /\ regular bs s /\
  run_blocks bs s = Some (s', us) /\ aborts s' = aborts s /\ (forall x, x ∈ members s' -> x ∈ members s \/ registered_in bs s x) /\
  stored_coins s' a 10 = 7000000 /\ sum (map (holding s') (at_line s' 10 a)) = 0.
Proof.
  destruct (after_runs long_chain w0) as [us H]; [by vm_compute|].
  exists long_chain, w0, (after long_chain w0), us, 10%N. split_and!.
  - apply network_checked, (bool_decide_unpack _). vm_compute. exact I.
  - apply own_checked, (bool_decide_unpack _); vm_compute; exact I.
  - vm_compute; repeat split; congruence.
  - apply regular_checked. by vm_compute.
  - exact H.
  - by vm_compute.
  - apply registered_checked, (bool_decide_unpack _); vm_compute; exact I.
  - by vm_compute.
  - by vm_compute.
Qed.
Print Assumptions C22_refuted.
