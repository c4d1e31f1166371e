(** * C25-C32, C72: statuses, registration, transitions, banishment and the
    validators' share of the commission *)
From Coq Require Import QArith.
From Verif Require Import Spec_Pure StatusProofs Witness.
Open Scope Z_scope.

(** A record changed by hand, for the examples *)
Definition put (a : addr) (f : rinfo -> rinfo) (s : St) : St := s <| st_ref := <[ a := f (ref_get s a) ]> (st_ref s) |>.

Lemma not_ok (m : M unit) s : ok (eval m s) = false -> snd (m s) <> Ok tt.
Proof. unfold eval. intros E X. by rewrite X in E. Qed.

(** ** C25 *)

(** Whatever an update with a status check does to the record of an account
    ([r1] is what it leaves), the record [r2] that gets stored has the highest
    status reachable through requirements that are met, and no deadline; or, when
    those of the present status are not met, the same status and the deadline it
    had, two days from now if it had none.  The rest of the record is stored as
    it was left. *)
Theorem C25_update : forall A (f : bu -> rinfo -> M (bu * rinfo * A)) b a s s' b' x,
  bu_updatem b a true f s = (s', Ok (b', x)) ->
  exists s1 b1 r1 r2, f b (normalize (bu_get b a s)) s = (s1, Ok (b1, r1, x)) /\ bu_get b' a s' = r2 /\
    r2 = r1 <| r_status := r_status r2 |> <| r_downgrade_at := r_downgrade_at r2 |> /\
    let g := fun y => bu_get b1 y s1 in
    (counted g r1 ->
     (meets g r1 (new_number (r_status r1)) /\ reaches_to g r1 (new_number (r_status r1)) (r_status r2) /\ r_downgrade_at r2 = None) \/
     (~ meets g r1 (new_number (r_status r1)) /\ r_status r2 = new_number (r_status r1) /\
      r_downgrade_at r2 = Some (default (st_now s1 + two_days s1) (r_downgrade_at r1)))).
Proof.
  intros A f b a s s' b' x H. apply bu_updatem_ok in H as (s1 & b1 & r1 & r2 & E & (st & d & Q) & _ & ED & ES & EC).
  destruct (EC eq_refl) as [b2 EC']. exists s1, b1, r1, r2. split_and!.
  - exact E.
  - unfold bu_get. by rewrite ED, lookup_insert.
  - rewrite Q. by destruct r1.
  - cbv zeta. intros HC. destruct (status_check_spec _ _ _ _ _ _ _ HC EC') as [(H1 & H2 & _ & H3)|(H1 & H2 & H3)]; [by left|right].
    split_and!; [done|done|]. rewrite H3. by destruct (r_downgrade_at r1).
Qed.
Print Assumptions C25_update.

(** 11 with the status of a leader, whose requirements it does not meet, gets a
    deadline; without it, its status is the one it can have. *)
Definition leader11 : St := put 11 (fun r => r <| r_status := 2 |>) w0.
Definition check11 : M unit := let! (b, _) := bu_update bu_new 11 true (fun r => (r, tt)) in bu_commit b.
Definition late11 : St := exec check11 leader11.
Example C25_example :
  ok (eval check11 leader11) = true /\ status late11 11 = 2 /\ downgrade_at late11 11 = Some (T0 + 2 * day_ns) /\
  status (exec check11 (put 11 (fun r => r <| r_status := 0 |>) w0)) 11 = 1 /\
  (exists s' b' x, bu_update bu_new 11 true (fun r => (r, tt)) leader11 = (s', Ok (b', x))) /\
  r_arefs (ref_get leader11 11) = [].
Proof.
  assert (E : ok (eval (bu_update bu_new 11 true (fun r => (r, tt))) leader11) = true) by by vm_compute.
  split_and!; [by vm_compute..| |by vm_compute].
  revert E. generalize leader11. intros s E. unfold eval in E. destruct (bu_update bu_new 11 true (fun r => (r, tt)) s) as [s' [[b' x]|e|e]]; [|done|done].
  by exists s', b', x.
Qed.

(** ** C26 *)

(** A status check does not lower a status ... *)
Theorem C26_check : forall A (f : bu -> rinfo -> M (bu * rinfo * A)) b a s s' b' x,
  bu_updatem b a true f s = (s', Ok (b', x)) ->
  exists s1 b1 r1, f b (normalize (bu_get b a s)) s = (s1, Ok (b1, r1, x)) /\ r_status r1 <= r_status (bu_get b' a s').
Proof.
  intros A f b a s s' b' x H. apply bu_updatem_ok in H as (s1 & b1 & r1 & r2 & E & _ & _ & ED & ES & EC).
  destruct (EC eq_refl) as [b2 EC']. exists s1, b1, r1. split; [exact E|].
  unfold bu_get. rewrite ED, lookup_insert. cbn. by apply status_check_up in EC'.
Qed.
Print Assumptions C26_check.

(** ... and the scheduled downgrade takes one step down at most, only if the
    deadline has passed, and from the account it is for. *)
Theorem C26_downgrade : forall a s s', perform_downgrade a s = (s', Ok tt) ->
  (forall y, y <> a -> ref_get s' y = ref_get s y) /\
  (status s' a < status s a ->
     status s a <= ladder (status s' a) /\ exists t, downgrade_at s a = Some t /\ t <= st_now s) /\
  ((forall t, downgrade_at s a = Some t -> st_now s < t) -> status s a <= status s' a).
Proof.
  intros a s s' H. apply perform_downgrade_ok in H as (H1 & H2 & H3). split_and!; [done| |].
  - intros L. split; [|by apply H3]. revert H2 L. generalize (status s a) (status s' a). intros x y. unfold prev_status, ladder.
    destruct (Z.eqb_spec (x - 1) 8), (Z.eqb_spec y 7); lia.
  - intros HT. destruct (Z.le_gt_cases (status s a) (status s' a)) as [|L]; [done|]. apply H3 in L as (t & E & L). specialize (HT t E). lia.
Qed.
Print Assumptions C26_downgrade.

Example C26_example :
  ok (eval (perform_downgrade 11) late11) = true /\ status (exec (perform_downgrade 11) late11) 11 = 2 /\
  ok (eval (perform_downgrade 11) (late11 <| st_now := T0 + 2 * day_ns |>)) = true /\
  status (exec (perform_downgrade 11) (late11 <| st_now := T0 + 2 * day_ns |>)) 11 = 1.
Proof. split_and!; by vm_compute. Qed.

(** ** C27 *)

(** Neither a request nor the approval of a transition is accepted when the
    destination is the account itself or one below it. *)
Theorem C27_request : forall subject parent s s', msg_request_transition subject parent s = (s', Ok tt) ->
  parent <> subject /\ ~ below s parent subject.
Proof.
  intros subject parent s s' H. unfold msg_request_transition, request_transition in H.
  apply bind_ok in H as ([] & s1 & E & _). apply validate_ok in E as (_ & _ & H1 & _ & _ & _ & H2). split; [done|].
  intros (n & Hn & E & HN). destruct (H2 n E) as (m & Hm & Em). by apply (HN m).
Qed.
Print Assumptions C27_request.
Theorem C27_approve : forall signer subject s s', msg_resolve_transition signer subject true s = (s', Ok tt) ->
  signer = referrer s subject /\ r_transition (ref_get s subject) <> subject /\ ~ below s (r_transition (ref_get s subject)) subject.
Proof.
  intros signer subject s s' H. unfold msg_resolve_transition in H.
  apply bind_ok in H as (r & s1 & E & H). apply get_ok in E as [-> ->].
  apply bind_ok in H as (u & s1 & E & H). apply ensure_ok in E as [-> _].
  apply bind_ok in H as (u1 & s1 & E & H). apply ensure_ok in E as [-> E1]. apply N.eqb_eq in E1.
  unfold affirm_transition in H. apply bind_ok in H as (r & s1 & E & H). apply get_ok in E as [-> ->].
  apply bind_ok in H as ([] & s1 & E & _). apply validate_ok in E as (_ & _ & H1 & _ & _ & _ & H2). split_and!; [done|done|].
  intros (n & Hn & E & HN). destruct (H2 n E) as (m & Hm & Em). by apply (HN m).
Qed.
Print Assumptions C27_approve.

(** The loop of the validation ends if no chain of referrers is circular ([rk]
    gives every account a smaller number than its referrals').  Missing: that no
    reachable structure is circular, see [C27_refuted]. *)
Theorem C27_terminates_partial : forall subject parent fresh s (rk : addr -> nat),
  (forall x, referrer s x <> nobody -> (rk (referrer s x) < rk x)%nat) -> referrer s nobody = nobody ->
  forall s' e, validate_transition subject parent fresh s <> (s', Panic e).
Proof. intros subject parent fresh s rk. apply validate_halts. Qed.
Print Assumptions C27_terminates_partial.

(** An account can be registered with itself as its referrer (by anyone); the
    validation of a transition to that account does not end. *)
Definition self20 : St := exec (msg_create_account 10 20 20 None) w0.
Theorem C27_refuted : exists s s' subject parent e,
  msg_create_account 10 20 20 None s = (s', Ok tt) /\ referrer s' 20 = 20%N /\
  snd (validate_transition subject parent true s') = Panic e.
Proof.
  exists w0, self20, 11%N, 20%N, (ErrMsg "endless loop"). split_and!.
  - apply exec_ok. by vm_compute.
  - by vm_compute.
  - by vm_compute.
Qed.
Print Assumptions C27_refuted.

Example C27_example :
  ok (eval (msg_request_transition 15 11) w0) = true /\
  ok (eval (msg_resolve_transition 13 15 true) (exec (msg_request_transition 15 11) w0)) = true /\
  below w0 15 11 /\ ok (eval (msg_request_transition 11 15) w0) = false /\
  (exists rk : addr -> nat, (forall x, referrer w0 x <> nobody -> (rk (referrer w0 x) < rk x)%nat) /\ referrer w0 nobody = nobody).
Proof.
  assert (E : [referrer w0 10; referrer w0 11; referrer w0 12; referrer w0 13; referrer w0 14; referrer w0 15] = [nobody; 10; 10; 11; 11; 13]%N) by by vm_compute.
  assert (P : map_Forall (fun (a : addr) r => a ∈ [10; 11; 12; 13; 14; 15]%N) (st_ref w0)) by (apply (bool_decide_unpack _); by vm_compute).
  split_and!; [by vm_compute|by vm_compute| |by vm_compute|].
  - revert E. generalize w0. intros s [= E0 E1 E2 E3 E4 E5]. exists 2%nat. split; [lia|]. cbn [up]. rewrite E5, E3. split; [done|].
    intros [|[|[|]]] H; cbn [up]; rewrite ?E5, ?E3; try done. lia.
  - exists N.to_nat. revert E P. generalize w0. intros s [= E0 E1 E2 E3 E4 E5] P. split.
    + intros x Hx. assert (x ∈ [10; 11; 12; 13; 14; 15]%N) as Hin.
      { unfold referrer, ref_get in Hx. destruct (st_ref s !! x) as [r|] eqn:Er; [|done]. exact (P x r Er). }
      rewrite !elem_of_cons, elem_of_nil in Hin. destruct Hin as [->|[->|[->|[->|[->|[->|[]]]]]]]; rewrite ?E0, ?E1, ?E2, ?E3, ?E4, ?E5 in *; first [done | cbn; lia].
    + unfold referrer, ref_get. destruct (st_ref s !! nobody) as [r|] eqn:Er; [|done]. apply P in Er. by rewrite !elem_of_cons, elem_of_nil in Er; naive_solver.
Qed.

(** ** C28 *)

(** A transition to an account that is not registered is accepted and carried
    out. *)
Definition trans99 : St := exec (msg_request_transition 15 99) w0.
Theorem C28_refuted : exists s s1 s2 subject parent,
  ~ registered s parent /\ msg_request_transition subject parent s = (s1, Ok tt) /\
  msg_resolve_transition (referrer s subject) subject true s1 = (s2, Ok tt) /\ referrer s2 subject = parent.
Proof.
  exists w0, trans99, (exec (msg_resolve_transition 13 15 true) trans99), 15%N, 99%N.
  assert (E : referrer w0 15 = 13%N) by by vm_compute. rewrite E. split_and!.
  - assert (N : st_ref w0 !! 99%N = None) by by vm_compute. revert N. generalize w0. intros s N [x X]. congruence.
  - apply exec_ok. by vm_compute.
  - apply exec_ok. by vm_compute.
  - by vm_compute.
Qed.
Print Assumptions C28_refuted.

(** What is checked of the destination: it is an account other than the subject
    and its present referrer and takes referrals.  Missing: that it is
    registered. *)
Theorem C28_partial : forall subject parent s s', msg_request_transition subject parent s = (s', Ok tt) ->
  parent <> nobody /\ parent <> subject /\ parent <> referrer s subject /\ open_account s parent /\
  r_transition (ref_get s subject) = nobody.
Proof.
  intros subject parent s s' H. unfold msg_request_transition, request_transition in H.
  apply bind_ok in H as ([] & s1 & E & _). by apply validate_ok in E as (_ & H1 & H2 & H3 & H4 & H5 & _).
Qed.
Print Assumptions C28_partial.
Example C28_example : exists s', msg_request_transition 15 11 w0 = (s', Ok tt) /\ registered w0 11 /\
  snd (msg_request_transition 15 13 w0) <> Ok tt /\ snd (msg_request_transition 15 15 w0) <> Ok tt.
Proof.
  exists (exec (msg_request_transition 15 11) w0). split_and!.
  - apply exec_ok. by vm_compute.
  - assert (E : bool_decide (is_Some (st_ref w0 !! 11%N)) = true) by by vm_compute. revert E. generalize w0. intros s E. by apply bool_decide_eq_true in E.
  - apply not_ok. by vm_compute.
  - apply not_ok. by vm_compute.
Qed.

(** ** C29 *)

(** A banished account had a referrer, was inactive, had at most the dust
    delegated (as the network counts it) and was not banished before ... *)
Theorem C29_who : forall a s s', banish a s = (s', Ok tt) ->
  referrer s a <> nobody /\ active s a = false /\ banished s a = false /\ line (r_deleg (ref_get s a)) 0 <= bp_dust (st_bp s).
Proof.
  intros a s s' H. unfold banish in H. apply bind_ok in H as ([] & s1 & E & _). by apply banish_core_ok in E as (H1 & H2 & H3 & H4 & _).
Qed.
Print Assumptions C29_who.
(** ... and disappears from its referrer's list, and only there and only it. *)
Theorem C29_effect : forall a s s', banish_core a s = (s', Ok tt) ->
  banished s' a = true /\
  (a ∈ referrals s (referrer s a) -> referrals s (referrer s a) ≡ₚ a :: referrals s' (referrer s a)) /\
  (forall y, y <> referrer s a -> referrals s' y = referrals s y) /\
  (forall y, referrer s' y = referrer s y /\ active s' y = active s y) /\ (forall y, y <> a -> banished s' y = banished s y).
Proof. intros a s s' H. by apply banish_core_ok in H as (_ & _ & _ & _ & H). Qed.
Print Assumptions C29_effect.
Definition out12 : St := exec (banish 12) w0.
Example C29_example : banish 12 w0 = (out12, Ok tt) /\ banished out12 12 = true /\ referrals w0 10 = [11; 12]%N /\ referrals out12 10 = [11]%N /\
  ok (eval (banish_core 12) w0) = true /\
  ok (eval (banish 10) w0) = false /\ ok (eval (banish 12) out12) = false.
Proof. split_and!; [apply exec_ok; by vm_compute|by vm_compute..]. Qed.

(** ** C30 *)
Theorem C30_come_back : forall a s s', come_back a s = (s', Ok tt) -> returned s s' a.
Proof. exact come_back_ok. Qed.
Print Assumptions C30_come_back.

(** When the balance of a banished account changes, it returns if its delegated
    coins have changed to more than the dust; otherwise it stays where it is.
    (The chain of its referrers is supposed not to come back to it.) *)
Theorem C30_returns : forall a s s', on_balance_changed a s = (s', Ok tt) -> banished s a = true -> active s a = false ->
  referrer s a <> nobody -> ~ below s a a -> referrer s nobody = nobody ->
  let moved := line (r_deleg (ref_get s a)) 0 <> own_deleg s a in
  (moved /\ bp_dust (st_bp s) < own_deleg s a /\ returned s s' a) \/
  ~ (moved /\ bp_dust (st_bp s) < own_deleg s a) /\
    banished s' a = true /\ referrer s' a = referrer s a /\ (forall y, referrals s' y = referrals s y).
Proof.
  intros a s s' H H1 H2 H3 H4 H5. assert (a <> nobody) as Ha by congruence. apply balance_changed_back; try done.
  intros n Hn E. apply H4. exists n. split_and!; [done|done|]. intros m Hm. rewrite up_anc. rewrite up_anc in E.
  eapply (anc_below (ref := refg (ref_get s)) H5 m n); [done|]. by rewrite E.
Qed.
Print Assumptions C30_returns.
Definition back12 : St := exec (msg_delegate 12 5000000) out12.
Example C30_example :
  banished out12 12 = true /\ referrer out12 12 = 10%N /\ active out12 12 = false /\
  ok (eval (msg_delegate 12 5000000) out12) = true /\ banished back12 12 = false /\ referrer back12 12 = 10%N /\ referrals back12 10 = [11; 12]%N /\
  ok (eval (come_back 12) out12) = true /\
  (* 11 is closed: 13 comes back to 10 *)
  let s := put 11 (fun r => r <| r_compression_at := None |>) (exec (banish 14) w0) in
  ok (eval (msg_delegate 14 5000000) s) = true /\ referrer s 14 = 11%N /\ referrer (exec (msg_delegate 14 5000000) s) 14 = 10%N.
Proof. cbv zeta. split_and!; by vm_compute. Qed.

(** ** C31 *)

(** The validators among the first twenty referrers share by the table: each one
    gets what its status entitles it to at its distance less what nearer ones
    have got. *)
Theorem C31_exact : forall s x, vfees_up 20 0 None s (referrer s x) =
  Some (map (fun e => (fst e, Frac.Fr (snd e) 1000)) (parts_paid s 1 0 (ancestors s 20 x))).
Proof. intros s x. by apply (vfees_shares 20 0 None s x). Qed.
Print Assumptions C31_exact.
(** Altogether at most 6 permille, to at most six accounts, each of which is an
    active validator among the first twenty referrers and gets something, not
    more than its status entitles it to. *)
Theorem C31_bounds : forall s x l, vfees_up 20 0 None s (referrer s x) = Some l ->
  (total_share l <= 6 # 1000)%Q /\ (List.length l <= 6)%nat /\
  forall b f, (b, f) ∈ l -> (0 < qval f)%Q /\
    exists i, (1 <= i <= 20)%nat /\ b = up s i x /\ b <> nobody /\ is_active_validator s b = true /\
              (qval f <= Qmake (permille (status s b) i) 1000)%Q /\ 3 <= status s b.
Proof.
  intros s x l H. rewrite C31_exact in H.
  destruct (shares_sum s (ancestors s 20 x) 1 0) as (S1 & S2 & S3).
  assert (S4 : forall b k, (b, k) ∈ parts_paid s 1 0 (ancestors s 20 x) ->
    exists j, (0 < j <= 20)%nat /\ b = up s j x /\ b <> nobody /\ is_active_validator s b = true /\ 0 < k <= permille (status s b) j)
    by (intros b k; apply (shares_who s x 20 0 0 b k); lia).
  revert H S1 S2 S3 S4. generalize (parts_paid s 1 0 (ancestors s 20 x)). intros ps H S1 S2 S3 S4. injection H as <-.
  assert (QV : forall k, (qval (Frac.Fr k 1000) == k # 1000)%Q) by (intros k; unfold qval, Qdiv, Qeq; cbn; lia).
  assert (ET : forall l, (total_share (map (fun e : addr * Z => (fst e, Frac.Fr (snd e) 1000)) l) == Qmake (fold_right (fun e t => (snd e + t)%Z) 0%Z l) 1000)%Q).
  { induction l as [|[b k] l IH]; [done|]. cbn [total_share map fold_right fst snd]. unfold total_share in IH. rewrite IH, QV.
    unfold Qplus, Qeq. cbn. lia. }
  split_and!.
  - rewrite ET. unfold Qle. cbn. lia.
  - rewrite map_length. lia.
  - intros b f HF. apply elem_of_list_fmap in HF as ([c k] & [= -> ->] & HF). specialize (S3 _ _ HF). split.
    + rewrite QV. unfold Qlt. cbn. lia.
    + destruct (S4 c k HF) as (i & Hi & E1 & E2 & E3 & E4). exists i. split_and!; try done; try lia.
      * rewrite QV. unfold Qle. cbn. lia.
      * unfold permille in E4. revert E4. repeat match goal with |- context [Z.leb ?a ?b] => destruct (Z.leb_spec a b) end; cbn; try lia;
          repeat match goal with |- context [Nat.leb ?a ?b] => destruct (Nat.leb_spec a b) end; cbn; lia.
Qed.
Print Assumptions C31_bounds.
Definition rich10 : St := put 10 (fun r => r <| r_status := 9 |>) w0 <| st_height := 1000 |>.
Example C31_example : vfees_up 20 0 None rich10 (referrer rich10 15) = Some [(10%N, Frac.Fr 6 1000)].
Proof. by vm_compute. Qed.

(** ** C32 *)

(** A new account is attached, as the last of the list, to an account that takes
    referrals; nobody else's place changes. *)
Theorem C32_append : forall parent child s s', append_child parent child s = (s', Ok tt) ->
  parent <> nobody /\ ~ registered s child /\ open_account s parent /\
  referrer s' child = parent /\ (parent <> child -> referrals s' child = [] /\ referrals s' parent = referrals s parent ++ [child]) /\
  (forall y, y <> child -> referrer s' y = referrer s y /\ (y <> parent -> referrals s' y = referrals s y)).
Proof.
  intros parent child s s' H. apply append_child_ok in H as (H1 & H2 & H3 & H4 & H5 & H6 & _). split_and!; try done.
  intros [x X]. congruence.
Qed.
Print Assumptions C32_append.
(** A registration succeeds only if its referrer takes referrals: at the very
    moment of the attachment (after the fee has been paid), hence at the start if
    there is no fee. *)
Theorem C32_register : forall creator a parent p s s', msg_create_account creator a parent p s = (s', Ok tt) ->
  exists s1 s2, append_child parent a s1 = (s2, Ok tt) /\ open_account s1 parent /\ referrer s2 a = parent /\ open_account s2 parent /\
    (creator ∈ pp_creators (st_pp s) \/ pp_rename_price (st_pp s) <= 0 -> open_account s parent).
Proof.
  intros creator a parent p s s' H. unfold msg_create_account in H.
  apply bind_ok in H as (u & s1 & X & H). apply ensure_ok in X as [-> _].
  apply bind_ok in H as (ex & s2 & X & H). apply get_ok in X as [-> ->].
  apply bind_ok in H as (u2 & s3 & X & H). apply ensure_ok in X as [-> _].
  apply bind_ok in H as (pp & s4 & X & H). apply get_ok in X as [-> ->].
  apply bind_ok in H as (u3 & s5 & X & H).
  unfold create_with_profile in H. apply bind_ok in H as (n & s6 & X6 & H). apply bind_ok in H as ([] & s7 & E & _).
  exists s6, s7. split; [done|]. apply append_child_ok in E as (_ & _ & E1 & E2 & _ & _ & E3). split_and!; [done..|].
  intros HF. assert (C : core_of s6 = core_of s5). { assert (R : rel (same core_of) (create_account a)) by frame. specialize (R s5). by rewrite X6 in R. }
  assert (s5 = s) as ->.
  { destruct ((0 <? pp_rename_price (st_pp s)) && negb (bool_decide (creator ∈ pp_creators (st_pp s)))) eqn:EF; [|by apply ret_ok in X as [-> _]].
    apply andb_true_iff in EF as [F1 F2]. apply Z.ltb_lt in F1. apply negb_true_iff, bool_decide_eq_false in F2. destruct HF; [done|lia]. }
  by apply (core_open _ _ _ C).
Qed.
Print Assumptions C32_register.
Example C32_example : exists s', msg_create_account 10 20 15 None w0 = (s', Ok tt) /\
  let s1 := put 11 (fun r => r <| r_compression_at := None |>) w0 in ok (eval (msg_create_account 10 20 11 None) s1) = false.
Proof. exists (exec (msg_create_account 10 20 15 None) w0). split; [apply exec_ok; by vm_compute|by vm_compute]. Qed.

(** ** C72 *)

(** Nothing requires the referrer of a new account to be registered: the account
    is attached to a top-level account that appears out of nothing, and the owner
    of that address cannot register any more. *)
Definition under99 : St := exec (msg_create_account 10 20 99 None) w0.
Theorem C72_refuted : exists s s' creator a parent,
  msg_create_account creator a parent None s = (s', Ok tt) /\ ~ registered s parent /\ registered s' parent /\
  referrer s' parent = nobody /\
  (forall r, snd (append_child r parent s') <> Ok tt) /\ snd (msg_create_account creator parent creator None s') <> Ok tt.
Proof.
  exists w0, under99, 10%N, 20%N, 99%N.
  assert (N : st_ref w0 !! 99%N = None) by by vm_compute.
  assert (E : bool_decide (is_Some (st_ref under99 !! 99%N)) = true) by by vm_compute. apply bool_decide_eq_true in E.
  split_and!.
  - apply exec_ok. by vm_compute.
  - revert N. generalize w0. intros s N [x X]. congruence.
  - exact E.
  - by vm_compute.
  - revert E. clear N. generalize under99. intros s E r.
    destruct (append_child r 99 s) as [s1 [[]|e|e]] eqn:H; [|done|done]. exfalso.
    apply append_child_ok in H as (_ & H & _). destruct E as [y Y]. congruence.
  - apply not_ok. by vm_compute.
Qed.
Print Assumptions C72_refuted.
