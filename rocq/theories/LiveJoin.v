(** * Newcomers can join *)
From Coq Require Import QArith.
From Verif Require Import Spec_Pure RefProofs NameProofs NameHist LiveProofs LiveBuy Spec_Live.
Open Scope Z_scope.

Lemma wp_walkD (D : addr -> Z) f lines : (forall i x b r, exists c, fst (f i x b r) = mkBu (bu_data b) c /\
    exists l, snd (f i x b r) = r <| r_coins := l |> <| r_deleg := add_at i 0 (r_deleg r) |>) ->
  forall b x s, clock s -> goodb b s -> (forall y, line (r_deleg (bu_get b y s)) 0 = D y) ->
  wp (walk true lines b x f) (fun b' s' => still s s' /\ goodb b' s' /\ forall y, line (r_deleg (bu_get b' y s')) 0 = D y) s.
Proof.
  intros Hf. induction lines as [|i lines IH]; intros b x s HC HG HO; cbn [walk]; [apply wp_ret; split; [apply still_refl|done]|].
  destruct (x =? nobody)%N; [apply wp_ret; split; [apply still_refl|done]|].
  apply wp_bind. eapply wp_mono; [apply (wp_updatem b x true _ s (fun _ b' r' => bu_data b' = bu_data b /\ line (r_deleg r') 0 = D x)); [done..|]|].
  - specialize (Hf i x b (normalize (bu_get b x s))). destruct (f i x b (normalize (bu_get b x s))) as [b1 r1].
    cbn [fst snd] in Hf. destruct Hf as (c & -> & l & ->). apply wp_ret. split; [apply still_refl|].
    destruct (HG x) as (F & L & K). pose proof (larger_normalize (bu_get b x s)) as (L1 & L2). split; [exact HG|]. split.
    { destruct (fit_normalize _ F) as [F1 F2]. split; [done|]. intros n Hn. specialize (F2 n Hn).
      rewrite (upto_ext (normalize (bu_get b x s))); [done|]. intros k. cbn. apply line_add0. }
    split.
    { split; [exact L1|]. cbn. unfold add_at. rewrite alter_length. apply pad_longer. }
    split; [exact K|]. split.
    { unfold long. cbn. unfold add_at. rewrite alter_length. apply pad_length. }
    split; [done|]. cbn. rewrite line_add0, line_pad. apply HO.
  - intros [b2 up] s2 (S2 & G2 & b' & r' & r2 & [Q1 Q2] & [E M] & Dd). cbn [fst snd] in *.
    eapply wp_mono; [apply IH; [by eapply still_fields|exact G2|]|].
    + destruct S2 as (sc & ix & ->). intros y. rewrite (bu_get_insert b' b2 x r2) by done.
      destruct (N.eqb_spec y x) as [->|Hy].
      * destruct E as (e1 & e2 & ->). exact Q2.
      * rewrite (bu_get_ext b b' s _ y); [apply HO|done|done].
    + intros b3 s3 (S3 & G3 & O3). split; [by eapply still_trans|done].
Qed.

Lemma new_lines p c k : line (r_deleg (new_rinfo p c 0)) k = 0.
Proof. unfold new_rinfo. cbn [r_deleg normalize]. do 12 (destruct k as [|k]; [done|]). done. Qed.

Lemma wp_append parent child s : healthy s -> parent <> nobody -> parent <> child -> ref_exists s child = false -> delegation s child = 0 ->
  registration_closed s (ref_get s parent) = false -> wp (append_child parent child) (fun _ => healthy) s.
Proof.
  intros H HP HC HE HD HR. unfold append_child, append_child_core. apply wp_bind, wp_ensure; [by apply negb_true_iff, N.eqb_neq|].
  apply wp_bind, wp_get, wp_bind, wp_ensure; [by rewrite HE|]. apply wp_bind, wp_get. change (id s) with s. cbv zeta.
  assert (OD : own_deleg s child = 0) by exact HD. rewrite OD. set (c := own_coins s child).
  set (r := new_rinfo parent c 0 <| r_compression_at := Some (st_now s + compression_period s) |>).
  set (b0 := bu_set child r bu_new).
  assert (LR : forall k, line (r_deleg r) k = 0) by (intros k; exact (new_lines parent c k)).
  assert (FR : fit r).
  { split; [cbn; lia|]. intros n Hn. rewrite (upto_ext (r_zero)); [|intros k; rewrite LR; cbn; by destruct k].
    do 11 (destruct n as [|n]; [vm_compute; split; congruence|]). lia. }
  assert (RC : ref_get s child = r_zero).
  { unfold ref_exists in HE. unfold ref_get. by destruct (st_ref s !! child). }
  assert (G0 : goodb b0 s).
  { apply (goodb_insert bu_new b0 child r); [by apply healthy_goodb|done|done| |].
    - rewrite bu_get_new, RC. split; cbn; lia.
    - intros x Hx. by apply elem_of_nil in Hx. }
  assert (L0 : forall y, line (r_deleg (bu_get b0 y s)) 0 = delegation s y).
  { intros y. rewrite (bu_get_insert bu_new b0 child r) by done. destruct (N.eqb_spec y child) as [->|]; [by rewrite LR|]. rewrite bu_get_new. apply (hl_own s H). }
  assert (BP : bu_get b0 parent s = ref_get s parent).
  { rewrite (bu_get_insert bu_new b0 child r) by done. destruct (N.eqb_spec parent child); [done|]. apply bu_get_new. }
  apply wp_bind. eapply wp_mono; [apply (wp_updatem b0 parent true _ s (fun x b' r' => snd x = false /\ bu_data b' = bu_data b0 /\ line (r_deleg r') 0 = delegation s parent))|].
  - apply (hl_clock s H).
  - done.
  - rewrite BP. apply wp_ret. split; [apply still_refl|]. split; [done|]. set (rp := normalize (ref_get s parent)).
    pose proof (larger_normalize (ref_get s parent)) as (L1 & L2). split.
    { destruct (fit_normalize _ (healthy_fit s parent H)) as [F1 F2]. split; [done|]. intros n Hn. specialize (F2 n Hn).
      rewrite (upto_ext rp); [done|]. intros k. cbn. apply line_add0. }
    split; [rewrite BP; split; [exact L1|cbn; unfold add_at; rewrite alter_length; apply pad_longer]|].
    split; [destruct (G0 parent) as (_ & _ & K); rewrite BP in K; exact K|].
    split; [unfold long; cbn; unfold add_at; rewrite alter_length; apply pad_length|].
    split; [exact HR|]. split; [done|]. cbn. change (line (add_at 1 0 (pad (r_deleg (ref_get s parent)))) 0 = delegation s parent). rewrite line_add0, line_pad. apply (hl_own s H).
  - intros [b1 [anc closed]] s1 ((sc & ix & ->) & G1 & b' & r' & r2 & (Q1 & Q2 & Q3) & [E M] & Dd). cbn [fst snd] in *. subst closed.
    apply wp_bind, wp_ensure; [done|]. apply wp_bind. set (s1 := s <| st_sched := sc |> <| st_index := ix |>) in *.
    assert (L1 : forall y, line (r_deleg (bu_get b1 y s1)) 0 = delegation s y).
    { intros y. rewrite (bu_get_insert b' b1 parent r2) by done. destruct (N.eqb_spec y parent) as [->|].
      - destruct E as (e1 & e2 & ->). exact Q3.
      - rewrite (bu_get_ext b0 b' s s1 y) by done. apply L0. }
    eapply wp_mono; [apply (wp_walkD (delegation s)); [|apply (hl_clock s H)|exact (goodb_ext b1 (bu_call EvStake parent b1) s1 s1 eq_refl eq_refl G1)|]|].
    + intros i x b2 r3. cbn [fst snd]. eexists. split; [reflexivity|]. eexists. reflexivity.
    + intros y. rewrite (bu_get_ext b1 (bu_call EvStake parent b1) s1 s1 y) by done. apply L1.
    + intros b3 s3 ((sc3 & ix3 & ->) & G3 & O3). eapply wp_mono; [apply wp_commit|].
      * apply (hl_clock s H).
      * apply (hl_balances s H).
      * apply (hl_validators s H).
      * exact G3.
      * exact O3.
      * by intros [] s4 [H4 _].
Qed.

(** The profile of a newcomer, without a paid month *)
Lemma wp_newprof a p s : st_prof s !! a = None -> p_active (st_now s) p = false ->
  (trim s (p_nick p) <> [] -> has_prefix artr_prefix (title s (trim s (p_nick p))) = false /\ st_nick s !! nick_key s (p_nick p) = None) ->
  wp (set_profile a p) (fun _ _ => True) s.
Proof.
  intros E PA HP. unfold set_profile. apply wp_bind, wp_get. rewrite E. apply wp_bind, wp_get. apply wp_bind.
  eapply (wp_mono _ (fun _ s' => s' = s)).
  { unfold validate_nickname. unfold nick_key in HP. destruct (trim s (p_nick p)) as [|c n] eqn:T; [by apply wp_ret|]. destruct HP as (P1 & P2); [done|].
    apply wp_bind, wp_get, wp_bind. rewrite P1. apply wp_ensure; [done|]. apply wp_bind, wp_get. unfold nick_owner. rewrite P2. by apply wp_ret. }
  intros [] ? ->. apply wp_bind.
  eapply (wp_mono _ (fun q s' => q = p /\ st_now s' = st_now s)).
  { apply wp_bind. eapply (wp_mono _ (fun _ s' => st_now s' = st_now s)).
    - destruct (decide _); [by apply wp_ret|by apply wp_modify].
    - intros [] s1 N1. apply wp_bind. destruct (p_card p =? 0); [by apply wp_ret; apply wp_ret|]. apply wp_modify. by apply wp_ret. }
  intros q s1 [-> N1]. apply wp_bind, wp_modify, wp_bind. eapply (wp_mono _ (fun _ s' => st_now s' = st_now s)).
  { unfold wp, touch_account, bind, get. destruct (acc_exists _ a); exact N1. }
  intros [] s2 N2. apply wp_bind, wp_get. cbv zeta. rewrite N2, PA. by apply wp_ret.
Qed.

Lemma wp_join c a r p s : healthy s -> names_ok s -> c <> nobody -> a <> nobody -> r <> nobody -> r <> a ->
  acc_exists s a = false -> ref_exists s a = false -> delegation s a = 0 -> registration_closed s (ref_get s r) = false ->
  c ∈ pp_creators (st_pp s) \/ pp_rename_price (st_pp s) <= 0 ->
  st_now s + 60 * st_day s < time_limit -> p_active (st_now s) (default p_zero p) = false ->
  (let n := p_nick (default p_zero p) in trim s n <> [] -> has_prefix artr_prefix (title s (trim s n)) = false /\ st_nick s !! nick_key s n = None) ->
  wp (msg_create_account c a r p) (fun _ _ => True) s.
Proof.
  intros H HN H1 H2 H3 H4 H5 H6 H7 H8 H9 HT HA HP. unfold msg_create_account.
  apply wp_bind, wp_ensure. { by rewrite (proj2 (N.eqb_neq c nobody) H1), (proj2 (N.eqb_neq a nobody) H2), (proj2 (N.eqb_neq r nobody) H3). }
  apply wp_bind, wp_get, wp_bind, wp_ensure; [by rewrite H5|]. apply wp_bind, wp_get, wp_bind.
  assert (B : (0 <? pp_rename_price (st_pp s)) && negb (bool_decide (c ∈ pp_creators (st_pp s))) = false).
  { destruct H9 as [H9|H9]; [rewrite bool_decide_true by done; apply andb_false_r|]. apply andb_false_iff. left. lia. }
  rewrite B. apply wp_ret. unfold create_with_profile.
  assert (PN : st_prof s !! a = None).
  { destruct (st_prof s !! a) as [q|] eqn:E; [|done]. apply (no_profile s HN) in E. congruence. }
  apply wp_bind. unfold create_account. apply wp_bind, wp_get, wp_bind, wp_modify, wp_bind, wp_modify, wp_ret.
  set (s1 := s <| st_next_acc := _ |> <| st_accs := _ |>).
  assert (HH : healthy s1) by (destruct H; by constructor).
  pose proof (wp_append r a s1 HH H3 H4 H6 H7 H8) as W. apply wp_run in W as (s2 & [] & W & HH2).
  assert (N2 : (nview s2, st_now s2, st_day s2) = (nview s1, st_now s1, st_day s1)).
  { assert (R : rel (same (fun s => (nview s, st_now s, st_day s))) (append_child r a)) by frame.
    specialize (R s1). rewrite W in R. exact R. }
  injection N2 as P1 P2 P3 P4 P5 P6 P7 P8 P9.
  apply wp_bind. eapply wp_of; [exact W|]. apply wp_bind, wp_get, wp_bind.
  assert (T2 : 0 <= st_now s2 + compression_period s2 < time_limit).
  { pose proof (hl_clock s H) as (C1 & C2 & _). unfold compression_period, one_month, one_day. rewrite P8, P9. cbn. lia. }
  eapply wp_mono; [apply (wp_schedule _ HCompression a s2 T2)|]. intros [] s3 (sc & ix & ->). apply wp_bind, wp_get.
  apply wp_newprof.
  - cbn. by rewrite P1.
  - cbn. rewrite P8. exact HA.
  - unfold trim, title, nick_key, lower in *. cbn. unfold trim. cbn. rewrite P2, P4, P5, P6. exact HP.
Qed.
