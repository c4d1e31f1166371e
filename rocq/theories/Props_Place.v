(** * Nobody is moved in the referral network without asking: C91 *)
From Verif Require Import PlaceProofs Witness.
Open Scope Z_scope.

Lemma placed_zk s z p q : placed s z p q <-> zk z (p, q, false) s.
Proof.
  unfold placed, zk, seat, member, banished, referrer, wished. split.
  - intros (H1 & H2 & H3 & H4). split; [done|]. congruence.
  - intros [H1 H2]. injection H2 as H2 H3 H4. done.
Qed.

(** A message changes the place of a member only if it is the request of that
    member to be moved, or its referrer's answer to such a request: then the member
    is moved to where it has asked to be, or the request is dropped. *)
Theorem C91_message : forall m s s' z p q, run_msg m s = (s', Ok tt) -> placed s z p q ->
  placed s' z p q \/
  (exists d, m = MRequestTransition z d /\ placed s' z p d) \/
  (m = MResolveTransition p z true /\ q <> nobody /\ placed s' z q nobody) \/
  (m = MResolveTransition p z false /\ placed s' z p nobody).
Proof.
  intros m s s' z p q H HP. rewrite placed_zk in HP.
  assert (HU : unmoving z m \/ (exists d, m = MRequestTransition z d) \/ exists x b, m = MResolveTransition x z b).
  { destruct m; try (by left); cbn [unmoving].
    - destruct (decide (subject = z)) as [->|]; [right; left; by eexists|by left].
    - destruct (decide (subject = z)) as [->|]; [right; right; by eexists _, _|by left]. }
  destruct HU as [HU|[[d ->]|(x & b & ->)]].
  - left. apply placed_zk. by apply (pl_msg z (p, q, false) eq_refl m s s' HU H).
  - right. left. exists d. split; [done|]. cbn [run_msg] in H. unfold msg_request_transition, request_transition in H.
    apply bind_ok in H as ([] & s1 & H1 & H). assert (RV : rel (same st_ref) (validate_transition z d true)) by frame.
    specialize (RV s). rewrite H1 in RV. cbn in RV. unfold same in RV. apply (zk_ref z _ s s1 RV) in HP. clear RV H1.
    apply bind_ok in H as (price & s2 & H1 & H). apply get_ok in H1 as [-> ->]. apply bind_ok in H as ([] & s2 & H1 & H).
    assert (HP2 : zk z (p, q, false) s2).
    { destruct (_ <? _); [|by apply ret_ok in H1 as [-> _]]. unfold new_coins in H1. apply bind_ok in H1 as (c & s3 & H2 & H1).
      assert (K2 : zk z (p, q, false) s3).
      { match type of H2 with ?m _ = _ => assert (R : rel (same st_ref) m) by (repeat first [progress rel_struct|frame]) end.
        specialize (R s1). rewrite H2 in R. by apply (zk_ref z _ s1 s3 R). }
      pose proof (pl_module z (p, q, false) eq_refl z fee_collector c s3 K2) as X. by rewrite H1 in X. }
    apply bind_ok in H as ([] & s3 & H2 & H). unfold set_transition in H2. apply modify_ok in H2 as ->.
    apply bind_ok in H as (t & s4 & H2 & H). apply get_ok in H2 as [-> ->].
    assert (R : rel (same st_ref) (schedule_task (st_now s2 + one_day s2) HTransition z)) by frame.
    match type of H with schedule_task _ _ _ ?y = _ => specialize (R y) end. apply placed_zk.
    cbn [st_now] in H. unfold same in R. assert (E : st_ref s' = <[ z := ref_get s2 z <| r_transition := d |> ]> (st_ref s2)).
    { match type of H with schedule_task ?u _ _ ?y = _ => change u with (st_now s2 + one_day s2) in H end. rewrite H in R. exact R. }
    destruct HP2 as [[r0 E2] HK]. split; [rewrite E, lookup_insert; by eexists|]. unfold ref_get at 1. rewrite E, lookup_insert. cbn [default].
    unfold seat in *. cbn. injection HK as K1 K2 K3. unfold id. cbn. by rewrite K1, K3.
  - right. right. cbn [run_msg] in H. unfold msg_resolve_transition in H. apply bind_ok in H as (r & s1 & H1 & H). apply get_ok in H1 as [-> ->].
    apply bind_ok in H as ([] & s1 & H1 & H). apply ensure_ok in H1 as [-> _]. apply bind_ok in H as ([] & s1 & H1 & H). apply ensure_ok in H1 as [-> HX].
    apply N.eqb_eq in HX. assert (x = p) as ->. { destruct HP as [_ HK]. injection HK as K1 K2 K3. congruence. }
    destruct b; [left|right]; (split; [done|]).
    + pose proof (affirm_wish _ _ _ H) as HW. pose proof (affirm_seat _ z _ _ _ H HP) as HA. rewrite N.eqb_refl in HA. cbn [fst snd] in HA.
      split; [|by apply placed_zk]. destruct HP as [_ HK]. injection HK as K1 K2 K3. congruence.
    + unfold cancel_transition in H. apply modify_ok in H as ->. apply placed_zk. destruct HP as [_ HK]. injection HK as K1 K2 K3.
      split; [cbn; rewrite lookup_insert; by eexists|]. unfold ref_get at 1. cbn. rewrite lookup_insert. cbn. unfold seat. cbn. by rewrite K1, K3.
Qed.
Print Assumptions C91_message.

(** Of the scheduled tasks, the compression of an account moves those listed under
    it up to its referrer, and a request without an answer is dropped. *)
Theorem C91_task : forall t s z p q, placed s z p q -> let s' := after_task hooks t s in
  placed s' z p q \/
  (t_hook t = HCompression /\ z ∈ referrals s (t_data t) /\ placed s' z (referrer s (t_data t)) q) \/
  (t_hook t = HTransition /\ t_data t = z /\ placed s' z p nobody) \/
  (t_hook t = HBanish /\ t_data t = z).
Proof.
  intros t s z p q HP. cbv zeta. rewrite placed_zk in HP.
  destruct (decide (t_hook t = HBanish /\ t_data t = z)) as [|NB]; [by right; right; right|].
  destruct (decide (t_hook t = HTransition /\ t_data t = z)) as [[E1 E2]|NT].
  { right. right. left. split; [done|]. split; [done|]. apply placed_zk. destruct HP as [HM HK]. injection HK as K1 K2 K3.
    assert (E : st_ref (after_task hooks t s) = <[ z := ref_get s z <| r_transition := nobody |> ]> (st_ref s)) by (unfold after_task; rewrite E1, E2; reflexivity).
    split; [rewrite E, lookup_insert; by eexists|]. unfold ref_get at 1. rewrite E, lookup_insert. cbn.
    unfold seat. cbn. by rewrite K1, K3. }
  destruct (decide (t_hook t = HCompression)) as [E|NC].
  - assert (X : zk z (p, q, false) (after_task hooks t s) \/ z ∈ referrals s (t_data t) /\ zk z (referrer s (t_data t), q, false) (after_task hooks t s)).
    { pose proof (compress_seat (t_data t) z (p, q, false) s HP) as X. cbv zeta in X. cbn [fst snd] in X.
      assert (HF : forall k s1, zk z k s1 -> forall l, zk z k (s1 <| st_log := l |>)) by (intros; by apply (zk_ref z _ s1)).
      unfold after_task. rewrite E. cbn [hooks]. unfold perform_compression, bind, get.
      destruct (r_compression_at _) as [u|]; [|left; exact HP]. destruct (_ <? _); [left; exact HP|].
      unfold must. destruct (compress (t_data t) s) as [s1 [[]|e|e]]; cbn [fst] in X; exact X. }
    destruct X as [X|[X1 X2]]; [left; by apply placed_zk|right; left]. split; [done|]. split; [done|]. by apply placed_zk.
  - left. apply placed_zk. apply pl_task; [done| |done|done]. split; [intros E X; by apply NB|]. intros E. left. intros X. by apply NT.
Qed.
Print Assumptions C91_task.

(** A member that does not ask stays where it is, whatever the blocks contain,
    until it is banished or its referrer is compressed. *)
Theorem C91_history : forall bs s s' us z p, times_from (st_now s) bs -> run_blocks bs s = Some (s', us) ->
  placed s z p nobody -> (forall x s1, (x, s1) ∈ steps bs s -> no_concern z x s1) -> placed s' z p nobody.
Proof.
  intros bs s s' us z p HT H HP HC. rewrite placed_zk in *. by apply (pl_history z (p, nobody, false) eq_refl bs s s' us).
Qed.
Print Assumptions C91_history.

(** Account 15 asks to be moved from 13 to 11 and its referrer agrees, or does not;
    a third account cannot answer.  Account 13 is not concerned by the blocks of
    the first days; two months later its referrer 11 is compressed, and 13, which
    has not asked for anything, is moved up to 10. *)
Definition c91a : St := exec (run_msg (MRequestTransition 15 11)) w0.
Definition c91b : St := exec (run_msg (MResolveTransition 13 15 true)) c91a.
Definition c91c : St := exec (run_msg (MResolveTransition 13 15 false)) c91a.
Definition c91bs : list block :=
  [blk (T0 + day_ns) [tx1 (MRequestTransition 15 11); tx1 (MResolveTransition 12 15 true); tx1 (MSend 12 13 (uc 5000000))];
   blk (T0 + 3 * day_ns) [tx1 (MDelegate 13 5000000)]].
#[local] Instance no_concern_dec z x s : Decision (no_concern z x s).
Proof. unfold no_concern. destruct x as [t|m]; [apply _|]. destruct m; apply _. Defined.
#[local] Instance placed_dec s z p q : Decision (placed s z p q).
Proof. unfold placed, member. apply _. Defined.
Lemma concern_checked z bs s : bool_decide (Forall (fun p => no_concern z (fst p) (snd p)) (steps bs s)) = true ->
  forall x s1, (x, s1) ∈ steps bs s -> no_concern z x s1.
Proof. intros H%bool_decide_eq_true x s1 Hx. rewrite Forall_forall in H. exact (H _ Hx). Qed.
Example C91_witness :
  placed w0 15 13 nobody /\
  (exists s', run_msg (MRequestTransition 15 11) w0 = (s', Ok tt) /\ placed s' 15 13 11) /\
  (exists s', run_msg (MResolveTransition 13 15 true) c91a = (s', Ok tt) /\ placed s' 15 11 nobody) /\
  (exists s', run_msg (MResolveTransition 13 15 false) c91a = (s', Ok tt) /\ placed s' 15 13 nobody) /\
  ok (eval (run_msg (MResolveTransition 12 15 true)) c91a) = false /\
  times_from (st_now w0) c91bs /\ (exists us, run_blocks c91bs w0 = Some (after c91bs w0, us)) /\
  placed w0 13 11 nobody /\ (forall x s1, (x, s1) ∈ steps c91bs w0 -> no_concern 13 x s1) /\
  placed (after c91bs w0) 13 11 nobody /\
  placed (after (c91bs ++ [blk (T0 + 61 * day_ns) []]) w0) 13 10 nobody.
Proof.
  split; [apply (bool_decide_unpack _); by vm_compute|].
  split; [exists c91a; split; [apply exec_ok; by vm_compute|apply (bool_decide_unpack _); by vm_compute]|].
  split; [exists c91b; split; [apply exec_ok; by vm_compute|apply (bool_decide_unpack _); by vm_compute]|].
  split; [exists c91c; split; [apply exec_ok; by vm_compute|apply (bool_decide_unpack _); by vm_compute]|].
  split; [by vm_compute|]. split; [vm_compute; repeat split; congruence|]. split; [apply after_runs; by vm_compute|].
  split; [apply (bool_decide_unpack _); by vm_compute|]. split; [apply concern_checked; by vm_compute|].
  split; apply (bool_decide_unpack _); by vm_compute.
Qed.
