(** * Right records are those of a network *)
From Verif Require Export RefHist.
From Coq Require Import Logic.ConstructiveEpsilon.
Open Scope Z_scope.

Lemma sum_sumz (f : addr -> Z) l : sum (map f l) = sumz f l.
Proof. induction l as [|x l IH]; [done|]. cbn [map sum fold_right sumz foldr]. fold (sum (map f l)). by rewrite IH. Qed.
Lemma sumz_filter (f : addr -> Z) (P : addr -> Prop) `{!forall x, Decision (P x)} l :
  sumz f (filter P l) = sumz (fun x => if decide (P x) then f x else 0) l.
Proof.
  induction l as [|x l IH]; [done|]. rewrite filter_cons. cbn. fold (sumz (fun x => if decide (P x) then f x else 0) l).
  rewrite <- IH. destruct (decide (P x)); done.
Qed.
Lemma sumz_count (act : addr -> bool) l :
  sumz (fun x => if act x then 1 else 0) l = Z.of_nat (List.length (filter (fun x => act x = true) l)).
Proof.
  induction l as [|x l IH]; [done|]. rewrite filter_cons. cbn [sumz foldr]. fold (sumz (fun x => if act x then 1 else 0) l).
  rewrite IH. destruct (act x) eqn:E; cbn [decide]; destruct (decide _) as [d|d]; try congruence; cbn [List.length]; lia.
Qed.
Lemma up_anc s n a : up s n a = anc (refg (ref_get s)) n a.
Proof. induction n as [|n IH]; cbn; [done|]. by rewrite IH. Qed.
Lemma members_spec s x : x ∈ members s <-> is_Some (st_ref s !! x).
Proof.
  unfold members. rewrite elem_of_list_fmap. split.
  - intros ([k r] & -> & H). apply elem_of_map_to_list in H. cbn. eauto.
  - intros [r H]. exists (x, r). split; [done|]. by apply elem_of_map_to_list.
Qed.
Lemma members_nodup s : NoDup (members s).
Proof. apply NoDup_fst_map_to_list. Qed.
Lemma stranger s x : ~ x ∈ members s -> ref_get s x = r_zero.
Proof.
  rewrite members_spec. unfold ref_get. intros H. destruct (st_ref s !! x) eqn:E; [|done]. exfalso. apply H. eauto.
Qed.

Section total.
  Context (s : St).
  Let ref := refg (ref_get s). Let refs := refsg (ref_get s). Let ban := bang (ref_get s).
  Hypothesis H_no : ref nobody = nobody.
  Hypothesis H_list : forall a x, a <> nobody -> (x ∈ refs a <-> ref x = a /\ ban x = false).
  Hypothesis H_nodup : forall a, NoDup (refs a).
  Hypothesis H_leaf : forall a, ban a = true -> refs a = [].
  Definition tot (f : addr -> Z) (k : nat) (a : addr) : Z := sumz f (at_line s k a).

  Lemma chain_not_ban n x : ban x = false -> anc ref n x <> nobody -> ban (anc ref n x) = false.
  Proof.
    induction n as [|n IH]; intros Hx Hn; cbn in *; [done|].
    assert (anc ref n x <> nobody) as A by (intros E; rewrite E, H_no in Hn; done). specialize (IH Hx A).
    destruct (ban (ref (anc ref n x))) eqn:E; [|done]. apply H_leaf in E.
    assert (B : anc ref n x ∈ refs (ref (anc ref n x))) by (apply H_list; auto). rewrite E in B. by apply elem_of_nil in B.
  Qed.
  Lemma tot_step f k a : a <> nobody -> tot f (S k) a = sumz (tot f k) (refs a).
  Proof.
    intros Ha. unfold tot, at_line. rewrite sumz_filter.
    rewrite (sumz_ext (fun c => sumz f (filter _ _))
      (fun c => sumz (fun x => if decide (up s k x = c /\ banished s x = false) then f x else 0) (members s)))
      by (intros; apply sumz_filter).
    rewrite sumz_swap. apply sumz_ext. intros x _. cbn [up].
    destruct (decide (referrer s (up s k x) = a /\ banished s x = false)) as [[E B]|N].
    - assert (Hu : up s k x ∈ refs a).
      { apply H_list; [done|]. split; [exact E|]. rewrite up_anc. apply chain_not_ban; [exact B|].
        intros E1. rewrite up_anc in E. unfold referrer in E. change (ref (anc ref k x) = a) in E. congruence. }
      rewrite (sumz_single _ (refs a) (up s k x) (H_nodup a) Hu).
      + by rewrite decide_True by done.
      + intros d _ Hd. rewrite decide_False; [done|]. intros [E1 _]. congruence.
    - symmetry. apply sumz_zero. intros c Hc. rewrite decide_False; [done|]. intros [E1 B]. apply N.
      apply H_list in Hc as [Hc _]; [|done]. split; [|done]. by rewrite E1.
  Qed.
  Lemma tot_zero f a : a ∈ members s -> ban a = false -> tot f 0 a = f a.
  Proof.
    intros Hm Hb. unfold tot, at_line. rewrite sumz_filter, (sumz_single _ (members s) a (members_nodup s) Hm).
    - by rewrite decide_True by done.
    - intros d _ Hd. rewrite decide_False; [done|]. intros [E1 _]. cbn in E1. congruence.
  Qed.
  Lemma tot_zero_other f a : ~ (a ∈ members s /\ ban a = false) -> tot f 0 a = 0.
  Proof.
    intros N. unfold tot, at_line. rewrite sumz_filter. apply sumz_zero. intros c Hc. rewrite decide_False; [done|].
    intros [E B]. cbn in E. subst c. by apply N.
  Qed.
  Lemma listed_member a c : a <> nobody -> c ∈ refs a -> c ∈ members s /\ ban c = false /\ c <> nobody.
  Proof.
    intros Ha Hc. apply H_list in Hc as [E B]; [|done]. split_and!; [|done|].
    - destruct (decide (c ∈ members s)) as [|N]; [done|]. apply stranger in N. unfold ref, refg in E. rewrite N in E. cbn in E. congruence.
    - intros ->. congruence.
  Qed.
  Lemma lined_tot M (line : addr -> nat -> Z) :
    lined M refs line <-> forall a k, a <> nobody -> (1 <= k <= 9)%nat -> cong M (line a k) (tot (fun x => line x 0%nat) k a).
  Proof.
    split.
    - intros HL a k Ha Hk. destruct k as [|k]; [lia|]. revert a Ha. induction k as [|k IH]; intros a Ha.
      + eapply cong_trans; [apply HL; [done|lia]|]. rewrite tot_step by done. cbn [Nat.sub]. apply sumz_cong.
        intros c Hc. apply listed_member in Hc as (H1 & H2 & _); [|done]. rewrite tot_zero by done. apply cong_refl.
      + eapply cong_trans; [apply HL; [done|lia]|]. rewrite tot_step by done. apply sumz_cong.
        intros c Hc. apply listed_member in Hc as (H1 & H2 & H3); [|done].
        replace (S (S k) - 1)%nat with (S k) by lia. apply IH; [lia|done].
    - intros HT a k Ha Hk. destruct k as [|k]; [lia|]. eapply cong_trans; [by apply HT|]. rewrite tot_step by done.
      replace (S k - 1)%nat with k by lia. apply sumz_cong.
      intros c Hc. apply listed_member in Hc as (H1 & H2 & H3); [|done]. destruct k as [|k].
      + rewrite tot_zero by done. apply cong_refl.
      + apply cong_sym, HT; [done|lia].
  Qed.
End total.

Lemma chain_rank (ref : addr -> addr) : ref nobody = nobody -> (forall a, exists n, anc ref n a = nobody) ->
  exists rk : addr -> nat, forall x, ref x <> nobody -> (rk (ref x) < rk x)%nat.
Proof.
  intros Hno H.
  assert (D : forall a n, {anc ref n a = nobody} + {anc ref n a <> nobody}) by (intros; apply decide; apply _).
  exists (fun a => proj1_sig (epsilon_smallest (fun n => anc ref n a = nobody) (D a) (H a))).
  intros x Hx. destruct (epsilon_smallest _ (D x) (H x)) as (n & Hn & Hmin).
  destruct (epsilon_smallest _ (D (ref x)) (H (ref x))) as (m & Hm & Hmin'). cbn.
  destruct n as [|n]; [cbn in Hn; subst x; congruence|]. rewrite anc_S in Hn. specialize (Hmin' n Hn). lia.
Qed.

Theorem network_right s : network s <-> right s.
Proof.
  unfold right. split.
  - intros [[N1 N2] NE NL NO NB NA NC C1 C2 C3 NR NN].
    assert (HL : forall a, bang (ref_get s) a = true -> refsg (ref_get s) a = []) by (intros a Ha; by apply NB in Ha as [? _]).
    assert (LT := lined_tot s N1 NL NO HL).
    assert (C0 : forall x, cntg (ref_get s) x 0%nat = if actg (ref_get s) x then 1 else 0).
    { intros x. destruct (decide (x = nobody)) as [->|Hx]; [exact NN|]. change (stored_active s x 0 = if active s x then 1 else 0).
      rewrite (C3 x 0%nat Hx ltac:(lia)), <- sumz_count. fold (tot s (fun x => if active s x then 1 else 0) 0 x).
      destruct (decide (x ∈ members s /\ bang (ref_get s) x = false)) as [[H1 H2]|H].
      - rewrite tot_zero by done. by destruct (active s x).
      - rewrite tot_zero_other by done. destruct (active s x) eqn:E; [|done]. exfalso. apply H. split.
        + destruct (decide (x ∈ members s)) as [|Hm]; [done|]. apply stranger in Hm. unfold active in E. by rewrite Hm in E.
        + destruct (bang (ref_get s) x) eqn:EB; [|done]. apply NB in EB as (_ & _ & EB). congruence. }
    split.
    + split; [exact N1| |exact NL|exact NO|].
      * apply chain_rank; [exact N1|]. intros a. destruct (NE a) as [n Hn]. exists n. by rewrite <- up_anc.
      * intros a Ha. by apply NB in Ha as (? & ? & _).
    + apply LT. intros a k Ha Hk. apply cong_eq. unfold tot. rewrite <- sum_sumz. by apply C1.
    + apply LT. intros a k Ha Hk. apply cong_eq. unfold tot. rewrite <- sum_sumz. by apply C2.
    + apply LT. intros a k Ha Hk. unfold tot. rewrite (sumz_ext _ (fun x => if active s x then 1 else 0)) by (intros; apply C0).
      rewrite sumz_count. apply (cong_trans _ _ (Z.of_nat (List.length (filter (fun x => active s x = true) (at_line s k a))) mod 2 ^ 64)).
      * apply cong_eq, C3; [done|lia].
      * apply cong_u64.
    + exact C0.
    + intros a k. apply NR.
    + intros a Ha. by apply NB in Ha as (_ & _ & ?).
    + exact NA.
    + exact NC.
    + exact N2.
  - intros S. pose proof (sn_forest S) as F.
    assert (HL : forall a, bang (ref_get s) a = true -> refsg (ref_get s) a = []) by (intros a Ha; by apply (f_leaf F) in Ha as [? _]).
    assert (LT := lined_tot s (f_nobody F) (f_list F) (f_nodup F) HL). split.
    + split; [exact (f_nobody F)|exact (sn_none S)].
    + intros a. destruct (f_rank F) as [rk Hrk]. exists (Datatypes.S (rk a)).
      destruct (decide (up s (Datatypes.S (rk a)) a = nobody)) as [|N]; [done|]. rewrite up_anc in N.
      apply (anc_rank rk Hrk (f_nobody F)) in N. lia.
    + exact (f_list F).
    + exact (f_nodup F).
    + intros a Ha. destruct (f_leaf F a Ha). split_and!; [done|done|]. by apply (sn_ban S).
    + exact (sn_arefs S).
    + exact (sn_comp S).
    + intros a k Ha Hk. rewrite sum_sumz. apply cong_zero. by apply (proj1 (LT _ _) (sn_coins S)).
    + intros a k Ha Hk. rewrite sum_sumz. apply cong_zero. by apply (proj1 (LT _ _) (sn_deleg S)).
    + intros a k Ha Hk. rewrite <- sumz_count. fold (tot s (fun x => if active s x then 1 else 0) k a).
      destruct k as [|k].
      * change (cntg (ref_get s) a 0%nat = tot s (fun x => if active s x then 1 else 0) 0 a mod 2 ^ 64). rewrite (sn_cnt0 S).
        destruct (decide (a ∈ members s /\ bang (ref_get s) a = false)) as [[H1 H2]|H].
        -- rewrite tot_zero by done. unfold actg, active. by destruct (r_active _).
        -- rewrite tot_zero_other by done. unfold actg. destruct (r_active (ref_get s a)) eqn:E; [|done]. exfalso. apply H. split.
           ++ destruct (decide (a ∈ members s)) as [|Hm]; [done|]. apply stranger in Hm. by rewrite Hm in E.
           ++ destruct (bang (ref_get s) a) eqn:EB; [|done]. apply (sn_ban S) in EB. unfold actg in EB. congruence.
      * apply cong_small; [apply (sn_range S)|]. eapply cong_trans; [apply (proj1 (LT _ _) (sn_cnt S)); [done|lia]|].
        apply cong_eq, sumz_ext. intros; apply (sn_cnt0 S).
    + intros a k. apply (sn_range S).
    + apply (sn_cnt0 S).
Qed.
