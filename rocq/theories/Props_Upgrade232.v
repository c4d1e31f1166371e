(** * C102, C103 again: where the records can be read, the steps of the upgrade to 2.3.2 do not give up *)
From Verif Require Import Upgrade BankProofs ModeProofs RefProofs UpgradeMore UpgradeGo Witness Props_Upgrade.
From Verif Require Import Spec_Upgrade232.

(** ** C102 *)

(** Where the records can be read and no top-level account is banished, every
    member under a banished account is moved to an open account above it, nobody
    else is moved, and nobody is banished or pardoned.  (Missing: the lists of
    referrals, see [C102_refuted].) *)
Theorem C102_done_partial : forall s s', legible s -> (forall a, banished s a = true -> referrer s a <> nobody) ->
  transfer_from_banished s = (s', Ok tt) ->
  (forall a, member s a -> referrer s a <> nobody -> banished s (referrer s a) = true ->
     open s (referrer s' a) /\ banished s' (referrer s' a) = false /\ exists n, (0 < n)%nat /\ referrer s' a = up s n a) /\
  (forall a, ~ (member s a /\ referrer s a <> nobody /\ banished s (referrer s a) = true) -> referrer s' a = referrer s a) /\
  (forall a, registered s' a <-> registered s a) /\ (forall a, banished s' a = banished s a).
Proof.
  intros s s' LG TOP H. destruct (transfer_done s s' LG TOP H) as (A & B & C & D). split_and!; try done.
  intros a H1 H2 H3. destruct (C a H1 H2 H3) as (O & n & U). split_and!; [done| |exists (S n); split; [lia|done]].
  rewrite B. destruct (banished s (referrer s' a)) eqn:E; [|done]. exfalso. destruct O as [_ [O|[O _]]]; [|congruence]. by apply TOP in O.
Qed.
Print Assumptions C102_done_partial.

Definition lines_there (r : rinfo) : bool := (11 <=? List.length (r_coins r))%nat && (11 <=? List.length (r_deleg r))%nat.
Definition legible_b (s : St) (n : nat) : bool :=
  forallb (fun a => lines_there (ref_get s a) && ((referrer s a =? nobody)%N || bool_decide (is_Some (st_ref s !! referrer s a)))
                    && (up s n a =? nobody)%N) (keysN (st_ref s))
  && bool_decide (st_ref s !! nobody = None).
Lemma legible_dec s n : (0 < n)%nat -> legible_b s n = true -> legible s.
Proof.
  intros Hn H. unfold legible_b in H. apply andb_true_iff in H as [H HN]. rewrite forallb_forall in H. apply bool_decide_eq_true in HN.
  assert (K : forall a, registered s a -> lines_there (ref_get s a) = true /\ ((referrer s a =? nobody)%N || bool_decide (is_Some (st_ref s !! referrer s a))) = true /\ (up s n a =? nobody)%N = true).
  { intros a Ha. apply elem_of_keysN, elem_of_list_In in Ha. apply H in Ha. rewrite !andb_true_iff in Ha. tauto. }
  split.
  - intros a Ha. apply K in Ha as (Ha & _). unfold lines_there in Ha. apply andb_true_iff in Ha as [X Y]. apply Nat.leb_le in X, Y. done.
  - intros a Ha. apply K in Ha as (_ & Ha & _). apply orb_true_iff in Ha as [Ha|Ha]; [left; by apply N.eqb_eq|right]. by apply bool_decide_eq_true in Ha.
  - unfold registered. rewrite HN. by intros [].
  - intros a. destruct (st_ref s !! a) as [r|] eqn:E.
    + exists n. destruct (K a) as (_ & _ & X); [unfold registered; eauto|]. by apply N.eqb_eq.
    + exists 1%nat. cbn. unfold referrer, ref_get. by rewrite E.
Qed.
Lemma top_dec s : forallb (fun a => negb (banished s a) || negb (referrer s a =? nobody)%N) (keysN (st_ref s)) = true ->
  forall a, banished s a = true -> referrer s a <> nobody.
Proof.
  intros H a Ha. rewrite forallb_forall in H. destruct (st_ref s !! a) as [r|] eqn:E.
  - assert (X : a ∈ keysN (st_ref s)) by (apply elem_of_keysN; eauto). apply elem_of_list_In, H in X. rewrite Ha in X. cbn in X.
    apply negb_true_iff, N.eqb_neq in X. done.
  - unfold banished, ref_get in Ha. by rewrite E in Ha.
Qed.
Example C102_done_witness : legible before_232 /\ (forall a, banished before_232 a = true -> referrer before_232 a <> nobody) /\
  transfer_from_banished before_232 = (exec transfer_from_banished before_232, Ok tt) /\
  member before_232 14 /\ referrer before_232 14 = 11%N /\ banished before_232 11 = true.
Proof.
  split; [apply (legible_dec _ 20); [lia|by vm_compute]|]. split; [apply top_dec; by vm_compute|].
  split; [apply exec_ok; by vm_compute|]. split; [split; [vm_compute; by eexists|by vm_compute]|]. split; by vm_compute.
Qed.

(** ** C103 *)

(** Where the records can be read, the delegations of the banished accounts fit
    into 64 bits and their records say that they have them, the banished accounts
    with a delegation above the dust, and only they, are pardoned, start anew, and
    come back under their referrer if it is open; otherwise they stay under it or
    become top-level accounts.  (Missing: the nearest open account, see
    [C103_refuted].) *)
Theorem C103_done_partial : forall s s', legible s ->
  (forall a, banished s a = true -> - 2 ^ 63 <= bal s a uartrd < 2 ^ 63) ->
  (forall a, banished s a = true -> bp_dust (st_bp s) < bal s a uartrd -> stored_deleg s a 0 <> 0) ->
  unbanish_delegated s = (s', Ok tt) ->
  (forall a, banished s' a = true <-> banished s a = true /\ bal s a uartrd <= bp_dust (st_bp s)) /\
  (forall a, banished s a = true -> bp_dust (st_bp s) < bal s a uartrd ->
     status s' a = 1 /\ r_banishment_at (ref_get s' a) = None /\ r_compression_at (ref_get s' a) = None /\
     (referrer s a <> nobody -> open s (referrer s a) -> referrer s' a = referrer s a /\ a ∈ referrals s' (referrer s a)) /\
     (referrer s' a = nobody \/ referrer s' a = referrer s a)) /\
  (forall a, banished s a = false \/ bal s a uartrd <= bp_dust (st_bp s) -> referrer s' a = referrer s a).
Proof.
  intros s s' LG H1 H2 H.
  destruct (unbanish_done s s' LG) as [[G I] N]; [| done | done |].
  { intros a Ha. specialize (H1 a Ha). unfold Frac.is_int64. apply andb_true_iff. rewrite !Z.leb_le. lia. }
  assert (D : forall a, (exists r r', st_ref s !! a = Some r /\ st_ref s' !! a = Some r' /\ ref_get s a = r /\ ref_get s' a = r') \/ (ref_get s a = r_zero /\ ref_get s' a = r_zero)).
  { intros a. unfold ref_get. destruct (st_ref s !! a) as [r|] eqn:E.
    - destruct (proj2 (G a)) as [r' E']; [rewrite E; eauto|]. left. exists r, r'. by rewrite E'.
    - right. destruct (st_ref s' !! a) eqn:E'; [|done]. destruct (proj1 (G a)) as [? X]; [rewrite E'; eauto|congruence]. }
  assert (KK : forall a r, st_ref s !! a = Some r -> a ∈ keysN (st_ref s)) by (intros a r E; apply elem_of_keysN; eauto).
  assert (RI : forall a r, rich s a r = true <-> r_banished r = true /\ bp_dust (st_bp s) < bal s a uartrd).
  { intros a r. unfold rich. by rewrite andb_true_iff, Z.ltb_lt. }
  split_and!.
  - intros a. unfold banished. destruct (D a) as [(r & r' & E1 & E2 & -> & ->)|[-> ->]]; [|naive_solver].
    destruct (I a r r' E1 E2) as (_ & _ & X3 & _ & X5). destruct (rich s a r) eqn:R.
    + destruct (X5 (KK _ _ E1) eq_refl) as (Y & _). rewrite Y. apply RI in R as [R1 R2]. split; [done|]. intros [_ ?]. lia.
    + destruct (X3 eq_refl) as [-> _]. split; [|by intros []]. intros B. split; [done|]. destruct (Z.le_gt_cases (bal s a uartrd) (bp_dust (st_bp s))); [done|].
      assert (rich s a r = true) by (apply RI; split; [done|lia]). congruence.
  - intros a HB HD. specialize (N a). unfold banished, status, referrer in *. destruct (D a) as [(r & r' & E1 & E2 & G1 & G2)|[Z _]]; [|by rewrite Z in HB].
    rewrite G1, G2 in *. destruct (I a r r' E1 E2) as (_ & _ & _ & X4 & X5). destruct (X5 (KK _ _ E1)) as (_ & Y2 & Y3 & Y4 & _ & Y6); [by apply RI|].
    split_and!; try done. intros HN HO. apply open_closed in HO as [[p Hp] HC]. assert (EP : ref_get s (r_referrer r) = p) by (unfold ref_get; by rewrite Hp). rewrite EP in HC.
    destruct (Y6 p Hp HC HN) as (Z1 & p' & Z2 & Z3). split; [done|]. unfold referrals, ref_get. by rewrite Z2.
  - intros a HO. unfold banished, referrer in *. destruct (D a) as [(r & r' & E1 & E2 & G1 & G2)|[-> ->]]; [|done].
    rewrite G1, G2 in *. destruct (I a r r' E1 E2) as (_ & _ & X3 & _ & _). apply X3. destruct (rich s a r) eqn:R; [|done]. apply RI in R as [R1 R2].
    destruct HO; [congruence|lia].
Qed.
Print Assumptions C103_done_partial.
Lemma banished_dec s (f : addr -> bool) : forallb (fun a => negb (banished s a) || f a) (keysN (st_ref s)) = true ->
  forall a, banished s a = true -> f a = true.
Proof.
  intros H a Ha. rewrite forallb_forall in H. destruct (st_ref s !! a) as [r|] eqn:E.
  - assert (X : a ∈ keysN (st_ref s)) by (apply elem_of_keysN; eauto). apply elem_of_list_In, H in X. by rewrite Ha in X.
  - unfold banished, ref_get in Ha. by rewrite E in Ha.
Qed.
Lemma fit_dec s : forallb (fun a => negb (banished s a) || ((- 2 ^ 63 <=? bal s a uartrd) && (bal s a uartrd <? 2 ^ 63))) (keysN (st_ref s)) = true ->
  forall a, banished s a = true -> - 2 ^ 63 <= bal s a uartrd < 2 ^ 63.
Proof. intros H a Ha. apply (banished_dec _ _ H) in Ha. apply andb_true_iff in Ha as [X Y]. apply Z.leb_le in X. apply Z.ltb_lt in Y. exact (conj X Y). Qed.
Lemma says_dec s : forallb (fun a => negb (banished s a) || (negb (bp_dust (st_bp s) <? bal s a uartrd) || negb (stored_deleg s a 0 =? 0))) (keysN (st_ref s)) = true ->
  forall a, banished s a = true -> bp_dust (st_bp s) < bal s a uartrd -> stored_deleg s a 0 <> 0.
Proof.
  intros H a Ha HD. apply (banished_dec _ _ H) in Ha. apply Z.ltb_lt in HD. rewrite HD in Ha. cbn [negb orb] in Ha. apply negb_true_iff, Z.eqb_neq in Ha. exact Ha.
Qed.
Example C103_done_witness : legible before_un /\
  (forall a, banished before_un a = true -> - 2 ^ 63 <= bal before_un a uartrd < 2 ^ 63) /\
  (forall a, banished before_un a = true -> bp_dust (st_bp before_un) < bal before_un a uartrd -> stored_deleg before_un a 0 <> 0) /\
  unbanish_delegated before_un = (exec unbanish_delegated before_un, Ok tt) /\ banished before_un 14 = true /\
  bp_dust (st_bp before_un) < bal before_un 14 uartrd /\ referrer before_un 14 = 11%N /\ open before_un 11.
Proof.
  split; [apply (legible_dec _ 20); [lia|by vm_compute]|]. split; [apply fit_dec; by vm_compute|]. split; [apply says_dec; by vm_compute|].
  split; [apply exec_ok; by vm_compute|]. split; [by vm_compute|]. split; [by vm_compute|]. split; [by vm_compute|].
  apply open_closed; split; [vm_compute; by eexists|by vm_compute].
Qed.
