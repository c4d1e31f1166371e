(** * C116: the qualified can become validators, the government can propose and vote, earners can be listed *)
From Coq Require Import QArith.
From Verif Require Import Spec_Pure QualProofs LiveProofs LiveNode Props_Live Props_Noding Props_Voting Spec_Live Spec_Noding Spec_Voting Witness.
Open Scope Z_scope.

Lemma wp_qual_in a s : healthy s -> (11 <= List.length (r_deleg (ref_get s a)))%nat -> wp (is_qualified a) (fun qd s' => s' = s /\ 0 <= snd qd < 2^63) s.
Proof.
  intros H HL. unfold is_qualified, delegated_in_network. destruct (healthy_fit s a H) as [_ HF].
  set (n := Nat.min (lines_opened (r_status (ref_get s a))) 10).
  assert (Hn : (n <= 10)%nat) by lia. specialize (HF n Hn).
  apply wp_bind, wp_bind, wp_get. apply (wp_lift _ _ (upto (ref_get s a) n)); [apply sum_upto_line; lia|].
  apply wp_bind, wp_get. apply wp_bind, wp_get. apply wp_bind, wp_get.
  destruct (match st_val s !! a with Some x => n_staff x | None => false end); [by apply wp_ret|].
  destruct (_ <? np_min_status (st_np s)); [by apply wp_ret|].
  pose proof (healthy_deleg s a H) as HD. unfold delegation in HD.
  apply wp_bind, wp_get. apply wp_bind. apply (wp_lift _ _ (amt (balance s a) uartrd)); [by apply uint64_some|].
  destruct (_ <? np_min_self (st_np s)); [by apply wp_ret|].
  apply wp_bind. apply (wp_lift _ _ (upto (ref_get s a) n)); [by apply uint64_some|].
  destruct (_ <? np_min_total (st_np s)); by apply wp_ret.
Qed.

(** No validator at work uses this key. *)
Definition key_free (s : St) (key : N) : Prop :=
  forall b, st_oper s !! key = Some b -> exists x, st_val s !! b = Some x /\ (n_active x = false \/ n_pub x <> key).

(** Whoever is qualified, has a complete place in the network, is not banned and not
    switched on can switch a validator on with any key that no validator at work uses.
    It is then at work, unless it is in jail, and nobody else's record has changed. *)
Theorem C116_on : forall a key s, healthy s -> acc_exists s a = true -> key <> 0%N -> (11 <= List.length (r_deleg (ref_get s a)))%nat ->
  qualified s a -> key_free s key -> (forall x, st_val s !! a = Some x -> n_banned x = false /\ n_status x = false) ->
  exists s', accepted (MOn a key) s s' /\ is_validator s' a = negb (jailed s a) /\ st_oper s' !! key = Some a /\
    forall b, b <> a -> st_val s' !! b = st_val s !! b.
Proof.
  intros a key s H HA HK HL HQ HF HX.
  apply (accept (MOn a key) s (fun s' => is_validator s' a = negb (jailed s a) /\ st_oper s' !! key = Some a /\ forall b, b <> a -> st_val s' !! b = st_val s !! b)); [exact HA|].
  cbn [run_msg]. apply wp_bind, wp_ensure; [by apply negb_true_iff, N.eqb_neq|]. unfold switch_on. apply wp_bind, wp_get.
  assert (B1 : negb (match st_val s !! a with Some x => n_banned x | None => false end) = true).
  { destruct (st_val s !! a) as [x|]; [|done]. by destruct (HX x eq_refl) as [-> _]. }
  assert (B2 : negb (match st_val s !! a with Some x => n_status x | None => false end) = true).
  { destruct (st_val s !! a) as [x|]; [|done]. by destruct (HX x eq_refl) as [_ ->]. }
  apply wp_bind, wp_ensure; [done|]. apply wp_bind, wp_ensure; [done|]. apply wp_bind.
  eapply (wp_mono _ (fun r s' => s' = s /\ snd r = false)).
  { unfold validator_by_cons. apply wp_bind, wp_get. destruct (st_oper s !! key) as [b|] eqn:E; [|by apply wp_ret].
    destruct (HF b E) as (x & Ex & D). apply wp_bind. eapply wp_of; [unfold val_get; rewrite Ex; reflexivity|]. apply wp_ret. split; [done|].
    cbn [snd]. destruct D as [->|D]; [done|]. rewrite bool_decide_false by congruence. apply andb_false_r. }
  intros [[o found] active] ? [-> A]. cbn [snd] in A. subst active. apply wp_bind, wp_ensure; [by rewrite andb_false_r|]. apply wp_bind.
  pose proof (wp_qual_in a s H HL) as W. apply wp_run in W as (s1 & [q d] & W & -> & D). eapply wp_of; [exact W|]. cbn [snd] in D.
  apply is_qualified_spec in W as (_ & _ & Q). apply wp_bind, wp_ensure; [by apply Q|].
  apply wp_bind. apply (wp_lift _ _ d); [apply int64_some; lia|]. apply wp_bind, wp_get, wp_bind.
  eapply (wp_mono _ (fun _ s' => is_validator s' a = negb (jailed s a) /\ forall b, b <> a -> st_val s' !! b = st_val s !! b)).
  2: { intros [] s2 [V1 V2]. apply wp_modify. split; [exact V1|]. split; [|exact V2]. change (<[ key := a ]> (st_oper s2) !! key = Some a). apply lookup_insert. }
  assert (S : forall y, (forall b, b <> a -> st_val (s <| st_val := <[ a := y ]> (st_val s) |>) !! b = st_val s !! b) /\ st_val (s <| st_val := <[ a := y ]> (st_val s) |>) !! a = Some y).
  { intros y. split; [intros b Hb; change (<[ a := y ]> (st_val s) !! b = st_val s !! b); by rewrite lookup_insert_ne|].
    change (<[ a := y ]> (st_val s) !! a = Some y). apply lookup_insert. }
  destruct (st_val s !! a) as [x|] eqn:E.
  - unfold val_update. apply wp_bind. eapply wp_of; [unfold val_get; rewrite E; reflexivity|]. apply wp_bind, wp_ret, wp_modify.
    set (y := fst _). destruct (S y) as [S1 S2]. split; [|exact S1]. unfold is_validator, jailed. rewrite S2, E. unfold n_active, y.
    destruct (score_same (st_ilog s) d (x <| n_status := true |> <| n_pub := key |>)) as (-> & -> & ->).
    change (true && negb (n_jailed x) && negb (n_banned x) = negb (n_jailed x)). destruct (HX x eq_refl) as [-> _]. by rewrite andb_true_r.
  - apply wp_modify. destruct (S (new_ninfo (st_ilog s) key d)) as [S1 S2]. split; [|exact S1]. unfold is_validator, jailed. rewrite S2, E.
    unfold n_active, new_ninfo. by destruct (score_same (st_ilog s) d (n_zero <| n_status := true |> <| n_pub := key |>)) as (-> & -> & ->).
Qed.
Print Assumptions C116_on.

(** A member of the government can propose anything valid when nothing is being voted on
    and there are other members; the proposal is then voted on. *)
Theorem C116_propose : forall a n act s, acc_exists s a = true -> a ∈ st_gov s -> (2 <= List.length (st_gov s))%nat -> st_cur s = None ->
  paction_valid act = Some true -> - 2^63 <= st_vperiod s * hour < 2^63 -> 0 <= st_now s + st_vperiod s * hour < time_limit ->
  exists s', accepted (MPropose a n act) s s' /\ st_cur s' = Some (mkProp n a (st_now s + st_vperiod s * hour) act) /\
    st_agreed s' = [a] /\ st_disagreed s' = [].
Proof.
  intros a n act s HA HG HL HC HV HW HT. apply accept; [done|]. cbn [run_msg]. unfold msg_propose.
  apply wp_bind. apply (wp_lift _ _ true); [done|]. apply wp_bind, wp_ensure; [done|]. apply wp_bind, wp_get. change (id s) with s. rewrite HC.
  apply wp_bind, wp_ensure; [unfold gov_contains; by apply bool_decide_eq_true|]. cbv zeta. rewrite FracProofs.wrap64_id by done.
  apply wp_bind, wp_modify, wp_bind. eapply wp_mono; [by apply wp_schedule|]. intros [] s1 (x & i & ->). apply wp_bind, wp_modify.
  unfold tally. cbn [List.length]. rewrite (proj2 (Nat.eqb_neq _ _)) by lia. apply wp_ret. done.
Qed.
Print Assumptions C116_propose.

(** A member of the government who has not voted yet can vote; the vote is counted. (The
    vote of the last member also ends the proposal, which is not covered here.) *)
Theorem C116_vote : forall a (agree : bool) p s, acc_exists s a = true -> a ∈ st_gov s -> st_cur s = Some p -> a ∉ st_agreed s -> a ∉ st_disagreed s ->
  List.length (st_gov s) <> S (List.length (st_agreed s) + List.length (st_disagreed s)) ->
  exists s', accepted (MVote a agree) s s' /\ st_cur s' = Some p /\
    st_agreed s' = (if agree then st_agreed s ++ [a] else st_agreed s) /\ st_disagreed s' = (if agree then st_disagreed s else st_disagreed s ++ [a]).
Proof.
  intros a agree p s HA HG HC H1 H2 HL. apply accept; [done|]. cbn [run_msg]. unfold msg_vote.
  apply wp_bind, wp_get. change (id s) with s. rewrite HC. unfold gov_contains.
  apply wp_bind, wp_ensure; [by apply bool_decide_eq_true|]. apply wp_bind, wp_ensure; [by rewrite bool_decide_false|].
  apply wp_bind, wp_ensure; [by rewrite bool_decide_false|]. cbv zeta. apply wp_bind, wp_modify. unfold tally.
  rewrite (proj2 (Nat.eqb_neq _ _)) by (destruct agree; rewrite app_length; cbn [List.length]; lia). apply wp_ret. done.
Qed.
Print Assumptions C116_vote.

(** A list of earners that is not empty is never refused. (That it is taken from anybody is
    what C46 refutes.) *)
Theorem C116_earners : forall a es s, acc_exists s a = true -> es <> [] -> exists s', accepted (MSetEarners a es) s s'.
Proof.
  intros a es s HA HE. destruct (accept (MSetEarners a es) s (fun _ => True) HA) as (s' & H & _); [|by exists s'].
  cbn [run_msg]. unfold msg_set_earners. apply wp_bind, wp_ensure; [by rewrite bool_decide_false|].
  clear HE HA. revert s. induction es as [|[b [v st]] es IH]; intros s; [by apply wp_ret|]. cbn [mfor]. apply wp_bind. unfold earn_set at 1. apply wp_modify. apply IH.
Qed.
Print Assumptions C116_earners.

(** Account 10 has switched its validator off and may switch it on, with the same key or
    another; in a government of three, it proposes and account 11 votes. *)
Definition c116s : St := after [blk (T0 + sec) [tx1 (MOff 10)]] w0.
Definition c116g : St := w0 <| st_gov := [10; 11; 12]%N |>.
Definition c116v : St := after [blk (T0 + sec) [tx1 (MPropose 10 1 (PJailAfter 3))]] c116g.
Definition c116c (key : N) (s : St) : bool :=
  match st_oper s !! key with
  | Some b => match st_val s !! b with Some x => negb (n_active x) || negb (bool_decide (n_pub x = key)) | None => false end
  | None => true
  end.
Lemma key_checked s key : c116c key s = true -> key_free s key.
Proof.
  unfold c116c. intros H b E. rewrite E in H. destruct (st_val s !! b) as [x|]; [|done]. exists x. split; [done|].
  apply orb_true_iff in H as [H|H]; [left; by apply negb_true_iff|right]. apply negb_true_iff, bool_decide_eq_false in H. done.
Qed.
Example C116_witness : healthy c116s /\ acc_exists c116s 10 = true /\ List.length (r_deleg (ref_get c116s 10)) = 11%nat /\ qualified c116s 10 /\
  key_free c116s 100 /\ key_free c116s 101 /\ st_oper c116s !! 100%N = Some 10%N /\
  (exists x, st_val c116s !! 10%N = Some x /\ n_banned x = false /\ n_status x = false) /\
  acc_exists c116g 10 = true /\ st_gov c116g = [10; 11; 12]%N /\ st_cur c116g = None /\ paction_valid (PJailAfter 3) = Some true /\
  st_vperiod c116g * hour = 86400000000000 /\ st_now c116g + 86400000000000 < time_limit /\
  acc_exists c116v 11 = true /\ st_gov c116v = [10; 11; 12]%N /\ option_map pr_act (st_cur c116v) = Some (PJailAfter 3) /\
  st_agreed c116v = [10]%N /\ st_disagreed c116v = [].
Proof.
  split; [apply healthy_checked, (bool_decide_unpack _); vm_compute; exact I|]. split; [by vm_compute|]. split; [by vm_compute|].
  split; [left; by vm_compute|]. split; [apply key_checked; by vm_compute|]. split; [apply key_checked; by vm_compute|]. split; [by vm_compute|]. split.
  { assert (B : match st_val c116s !! 10%N with Some x => negb (n_banned x) && negb (n_status x) | None => false end = true) by (by vm_compute).
    revert B. generalize c116s. intros s B. destruct (st_val s !! 10%N) as [x|]; [|done]. exists x. rewrite andb_true_iff, !negb_true_iff in B. done. }
  split_and!; by vm_compute.
Qed.
