(** * Records that describe a forest with right totals *)
From Verif Require Export RefProofs.

Definition coinsg (g : addr -> rinfo) : addr -> nat -> Z := fun a k => ln (r_coins (g a)) k.
Definition delegg (g : addr -> rinfo) : addr -> nat -> Z := fun a k => ln (r_deleg (g a)) k.
Definition cntg (g : addr -> rinfo) : addr -> nat -> Z := fun a k => ln (r_cnt (g a)) k.

Definition arefsg (g : addr -> rinfo) : addr -> list addr := fun a => r_arefs (g a).

Record sane (g : addr -> rinfo) : Prop := mkSane {
  sn_forest : forest (refg g) (refsg g) (bang g);
  sn_coins : lined 0 (refsg g) (coinsg g);
  sn_deleg : lined 0 (refsg g) (delegg g);
  sn_cnt : lined (2 ^ 64) (refsg g) (cntg g);
  sn_cnt0 : forall a, cntg g a 0%nat = if actg g a then 1 else 0;
  sn_range : forall a, ranged (r_cnt (g a));
  sn_ban : forall a, bang g a = true -> actg g a = false;
  sn_arefs : forall a, a <> nobody -> arefsg g a ≡ₚ filter (fun x => actg g x = true) (refsg g a);
  sn_comp : forall a t, r_compression_at (g a) = Some t -> actg g a = false /\ bang g a = false;
  sn_none : refsg g nobody = [] }.
Arguments sn_forest {_}. Arguments sn_coins {_}. Arguments sn_deleg {_}. Arguments sn_cnt {_}.
Arguments sn_cnt0 {_}. Arguments sn_range {_}. Arguments sn_ban {_}. Arguments sn_comp {_}. Arguments sn_arefs {_}. Arguments sn_none {_}.

Lemma lined_ext M refs refs' line line' :
  (forall a, refs' a = refs a) -> (forall a k, line' a k = line a k) -> lined M refs line -> lined M refs' line'.
Proof.
  intros H1 H2 H a k Ha Hk. rewrite H1, H2. rewrite (sumz_ext _ (fun c => line c (k - 1)%nat)) by (intros; apply H2). by apply H.
Qed.
Lemma sane_like g g' : (forall a, like (g a) (g' a)) -> sane g -> sane g'.
Proof.
  intros H S. split.
  - apply (forest_ext (refg g) (refsg g) (bang g)); [intros x; apply H|intros x; unfold refsg; by rewrite (lk_refs _ _ (H x))|intros x; apply H|apply S].
  - apply (lined_ext 0 (refsg g) _ (coinsg g)); [intros x; apply H|intros x k; apply H|apply S].
  - apply (lined_ext 0 (refsg g) _ (delegg g)); [intros x; apply H|intros x k; apply H|apply S].
  - apply (lined_ext _ (refsg g) _ (cntg g)); [intros x; apply H|intros x k; apply H|apply S].
  - intros a. unfold cntg, actg. rewrite (lk_cnt _ _ (H a)), (lk_act _ _ (H a)). apply (sn_cnt0 S).
  - intros a k. rewrite (lk_cnt _ _ (H a)). apply (sn_range S).
  - intros a. unfold bang, actg. rewrite (lk_act _ _ (H a)), (lk_ban _ _ (H a)). apply (sn_ban S).
  - intros a Ha. unfold arefsg, refsg. rewrite (lk_arefs _ _ (H a)), (lk_refs _ _ (H a)).
    rewrite (list_filter_iff _ (fun x => actg g x = true)); [by apply (sn_arefs S)|]. intros x. unfold actg. by rewrite (lk_act _ _ (H x)).
  - intros a t. unfold bang, actg. rewrite (lk_act _ _ (H a)), (lk_ban _ _ (H a)), (lk_comp _ _ (H a)). apply (sn_comp S).
  - unfold refsg. rewrite (lk_refs _ _ (H nobody)). apply (sn_none S).
Qed.
Lemma sane_ext g g' : (forall a, g' a = g a) -> sane g -> sane g'.
Proof. intros H. apply sane_like. intros a. rewrite H. apply like_refl. Qed.

Definition first (c : Z) : nat -> Z := fun j => if (j =? 0)%nat then c else 0.
Lemma adj_first ref c q y k : @adj ref (first c) q y k =
  match pos ref (seq 1 10) q y with Some i => if (k =? i)%nat then c else 0 | None => 0 end.
Proof.
  unfold adj, first. destruct (pos ref (seq 1 10) q y) as [i|]; [|done].
  destruct (Nat.leb_spec i k), (Nat.eqb_spec k i), (Nat.eqb_spec (k - i) 0); try lia; done.
Qed.
Lemma adj_zero M ref S q y k : (forall j, (j <= 9)%nat -> cong M (S j) 0) -> (k <= 9)%nat -> cong M (@adj ref S q y k) 0.
Proof.
  intros H Hk. unfold adj. destruct (pos ref (seq 1 10) q y) as [i|]; [|apply cong_refl].
  destruct (Nat.leb_spec i k); [|apply cong_refl]. apply H. lia.
Qed.

Lemma list_filter_iff_strong (P Q : addr -> Prop) `{!forall x, Decision (P x), !forall x, Decision (Q x)} (l : list addr) :
  (forall x, x ∈ l -> P x <-> Q x) -> filter P l = filter Q l.
Proof.
  induction l as [|x l IH]; intros HPQ; [done|]. rewrite !filter_cons, IH by (intros y Hy; apply HPQ; by right).
  specialize (HPQ x ltac:(left)). destruct (decide (P x)), (decide (Q x)); tauto || done.
Qed.

Section sane.
  Context (g g' : addr -> rinfo) (S : sane g).

  Lemma leaf_lines x k : x <> nobody -> refsg g x = [] -> (1 <= k <= 9)%nat ->
    coinsg g x k = 0 /\ delegg g x k = 0 /\ cntg g x k = 0.
  Proof using S.
    intros Hx Hl Hk. pose proof (sn_coins S x k Hx Hk) as H1. pose proof (sn_deleg S x k Hx Hk) as H2.
    pose proof (sn_cnt S x k Hx Hk) as H3. rewrite Hl in H1, H2, H3. cbn in H1, H2, H3.
    apply cong_zero in H1, H2. split_and!; [done..|].
    apply cong_small in H3; [exact H3|]. apply (sn_range S).
  Qed.
  Lemma leaf_cnt x j : x <> nobody -> refsg g x = [] -> actg g x = false -> (j <= 9)%nat -> cntg g x j = 0.
  Proof using S.
    intros Hx Hl Ha Hj. destruct j as [|j]; [rewrite (sn_cnt0 S), Ha; done|]. apply leaf_lines; [done|done|lia].
  Qed.

  (** The subscription of [x] starts or ends. *)
  Lemma sane_active x v : actg g x = negb v -> bang g x = false ->
    (forall y, refg g' y = refg g y) -> (forall y, refsg g' y = refsg g y) -> (forall y, bang g' y = bang g y) ->
    (forall y, actg g' y = if (y =? x)%N then v else actg g y) ->
    (forall y t, r_compression_at (g' y) = Some t -> if (y =? x)%N then v = false else r_compression_at (g y) = Some t) ->
    (forall y k, coinsg g' y k = coinsg g y k) -> (forall y k, delegg g' y k = delegg g y k) ->
    (forall y, ranged (r_cnt (g' y))) ->
    (forall y k, (k <= 9)%nat -> cong (2 ^ 64) (cntg g' y k)
       (cntg g y k + (if (y =? x)%N then if (k =? 0)%nat then (if v then 1 else -1) else 0 else 0)
        + @adj (refg g) (first (if v then 1 else -1)) (refg g x) y k)) ->
    (forall y, y <> nobody -> if (y =? refg g x)%N
       then (if v then arefsg g' y ≡ₚ x :: arefsg g y else x ∈ arefsg g y -> arefsg g y ≡ₚ x :: arefsg g' y)
       else arefsg g' y = arefsg g y) ->
    sane g'.
  Proof using S.
    intros Ax Bx HR HRS HB HA HC Hcoins Hdeleg HRG Hcnt HAR. pose proof (sn_forest S) as F.
    assert (A0 : forall ref d q y, @adj ref (first d) q y 0%nat = 0).
    { intros ref d q y. rewrite adj_first. destruct (pos ref (seq 1 10) q y) as [i|] eqn:E; [|done].
      apply pos_some in E as [E _]. destruct (Nat.eqb_spec 0 i); [lia|done]. }
    split.
    - apply (forest_ext (refg g) (refsg g) (bang g)); [done|intros y; by rewrite HRS|done|done].
    - apply (lined_ext 0 (refsg g) _ (coinsg g)); [done..|apply S].
    - apply (lined_ext 0 (refsg g) _ (delegg g)); [done..|apply S].
    - apply (lined_ext _ (refsg g) _ (cntg g')); [done..|].
      apply (lined_own F _ (cntg g) (cntg g') (sn_cnt S) x (if v then 1 else -1)); [done|]. intros y k Hy Hk. by apply Hcnt.
    - intros a. pose proof (Hcnt a 0%nat ltac:(lia)) as E. rewrite A0, (sn_cnt0 S), Z.add_0_r in E. cbn in E.
      apply cong_small in E; [|apply HRG]. rewrite E, HA. destruct (N.eqb_spec a x) as [E0|]; [subst a; rewrite Ax; by destruct v|].
      rewrite Z.add_0_r. by destruct (actg g a).
    - done.
    - intros a. rewrite HB, HA. destruct (N.eqb_spec a x) as [E0|]; [subst a; congruence|apply S].
    - intros a Ha. specialize (HAR a Ha). rewrite HRS. destruct (N.eqb_spec a (refg g x)) as [E|E].
      + assert (Hin : x ∈ refsg g a) by (apply (f_list F); auto).
        apply elem_of_Permutation in Hin as [l El]. pose proof (f_nodup F a) as Hn. rewrite El in Hn. apply NoDup_cons in Hn as [Hn _].
        pose proof (sn_arefs S a Ha) as HS. rewrite (filter_Permutation _ _ _ El) in HS. rewrite (filter_Permutation _ _ _ El).
        rewrite filter_cons in HS. rewrite filter_cons. rewrite HA, N.eqb_refl.
        assert (FE : filter (fun y => actg g' y = true) l = filter (fun y => actg g y = true) l).
        { clear -HA Hn. induction l as [|y l IH]; [done|]. apply not_elem_of_cons in Hn as [H1 H2]. rewrite !filter_cons, IH by done.
          rewrite HA. by rewrite (proj2 (N.eqb_neq y x)) by done. }
        rewrite FE. rewrite Ax in HS. destruct v; cbn [negb] in HS.
        * destruct (decide (false = true)); [done|]. destruct (decide (true = true)); [|done]. by rewrite HAR, HS.
        * destruct (decide (true = true)); [|done]. destruct (decide (false = true)); [done|].
          apply (Permutation_cons_inv (a := x)). rewrite <- HS. symmetry. apply HAR. rewrite HS. left.
      + rewrite HAR, (sn_arefs S a Ha). rewrite (list_filter_iff_strong (fun y => actg g' y = true) (fun y => actg g y = true)); [done|].
        intros y Hy. rewrite HA. destruct (N.eqb_spec y x) as [->|]; [|done]. exfalso. apply (f_list F) in Hy as [Hy _]; [|done]. congruence.
    - intros a t Ha. specialize (HC a t Ha). rewrite HA, HB. destruct (N.eqb_spec a x) as [E0|]; [subst a; done|]. by apply (sn_comp S) in HC.
    - rewrite HRS. apply (sn_none S).
  Qed.

  Hypothesis H_act : forall y, actg g' y = actg g y.
  Lemma same_filter (l : list addr) : filter (fun x => actg g' x = true) l = filter (fun x => actg g x = true) l.
  Proof using H_act. apply list_filter_iff. intros x. by rewrite H_act. Qed.

  Lemma sane_attach x q c d :
    x <> nobody -> q <> nobody -> bang g q = false -> (forall n, anc (refg g) n q <> x) ->
    refg g x = nobody \/ bang g x = true -> refsg g x = [] -> actg g x = false ->
    (forall y, refg g' y = upd (refg g) x q y) ->
    (forall y, refsg g' y = upd (refsg g) q (refsg g q ++ [x]) y) ->
    (forall y, bang g' y = upd (bang g) x false y) ->
    (forall y t, r_compression_at (g' y) = Some t -> y = x \/ r_compression_at (g y) = Some t) ->
    (forall y k, (k <= 9)%nat -> coinsg g' y k =
       (if (y =? x)%N then first c k else coinsg g y k) + @adj (refg g') (first c) q y k) ->
    (forall y k, (k <= 9)%nat -> delegg g' y k =
       (if (y =? x)%N then first d k else delegg g y k) + @adj (refg g') (first d) q y k) ->
    (forall y k, cntg g' y k = cntg g y k) -> (forall y, arefsg g' y = arefsg g y) ->
    sane g'.
  Proof using S H_act.
    intros Hx Hq Bq Hc Hfree Hl Ax HR HRS HB HC Hcoins Hdeleg Hcnt HAR.
    assert (F' : forest (refg g') (refsg g') (bang g')).
    { eapply (forest_ext _ _ _ _ _ _ HR); [intros y; by rewrite HRS|exact HB|].
      apply forest_attach; [apply S|done..]. }
    assert (Hxq : x <> q). { intros E. apply (Hc 0%nat). by rewrite E. }
    assert (Bq' : bang g' q = false) by (rewrite HB; unfold upd; by destruct (q =? x)%N).
    split.
    - exact F'.
    - apply (lined_attach (sn_forest S) 0 (coinsg g) _ (sn_coins S) x q (first c) F'); [done..| |].
      + intros k Hk. unfold refsg in Hl |- *. rewrite Hl. unfold first. destruct (Nat.eqb_spec k 0); [lia|apply cong_refl].
      + intros y k Hy Hk. rewrite Hcoins by done. apply cong_refl.
    - apply (lined_attach (sn_forest S) 0 (delegg g) _ (sn_deleg S) x q (first d) F'); [done..| |].
      + intros k Hk. unfold refsg in Hl |- *. rewrite Hl. unfold first. destruct (Nat.eqb_spec k 0); [lia|apply cong_refl].
      + intros y k Hy Hk. rewrite Hdeleg by done. apply cong_refl.
    - apply (lined_attach (sn_forest S) _ (cntg g) _ (sn_cnt S) x q (cntg g x) F'); [done..| |].
      + intros k Hk. by apply (sn_cnt S).
      + intros y k Hy Hk. rewrite Hcnt. eapply cong_trans; [|apply cong_add; [apply cong_refl|apply cong_sym, adj_zero; [|done]]].
        * apply cong_eq. rewrite Z.add_0_r. by destruct (N.eqb_spec y x) as [->|].
        * intros j Hj. rewrite leaf_cnt by done. apply cong_refl.
    - intros a. rewrite Hcnt, H_act. apply S.
    - intros a k. change (0 <= cntg g' a k < 2 ^ 64). rewrite Hcnt. apply (sn_range S a).
    - intros a. rewrite HB, H_act. unfold upd. destruct (a =? x)%N; [done|apply S].
    - intros a Ha. rewrite HAR, HRS, same_filter, (sn_arefs S a Ha). unfold upd. destruct (N.eqb_spec a q) as [->|]; [|done].
      rewrite filter_app, filter_cons_False by congruence. by rewrite app_nil_r.
    - intros a t Ha. rewrite HB, H_act. unfold upd. destruct (N.eqb_spec a x) as [->|Hax]; [done|].
      apply HC in Ha as [Ha|Ha]; [done|]. by apply (sn_comp S) in Ha.
    - rewrite HRS, upd_other by congruence. apply (sn_none S).
  Qed.

  Lemma sane_banish x l :
    refg g x <> nobody -> refsg g x = [] -> actg g x = false -> refsg g (refg g x) ≡ₚ x :: l ->
    (forall y, refg g' y = refg g y) ->
    (forall y, refsg g' y ≡ₚ upd (refsg g) (refg g x) l y) ->
    (forall y, bang g' y = upd (bang g) x true y) ->
    (forall y t, r_compression_at (g' y) = Some t -> y <> x /\ r_compression_at (g y) = Some t) ->
    (forall y k, (k <= 9)%nat -> coinsg g' y k =
       coinsg g y k + @adj (refg g') (first (- coinsg g x 0%nat)) (refg g x) y k) ->
    (forall y k, (k <= 9)%nat -> delegg g' y k =
       delegg g y k + @adj (refg g') (first (- delegg g x 0%nat)) (refg g x) y k) ->
    (forall y k, cntg g' y k = cntg g y k) -> (forall y, arefsg g' y = arefsg g y) ->
    sane g'.
  Proof using S H_act.
    intros Hr Hl Ax El HR HRS HB HC Hcoins Hdeleg Hcnt HAR. pose proof (sn_forest S) as F.
    assert (Hx : x <> nobody) by (intros E; rewrite E in Hr; apply Hr, F).
    assert (F' : forest (refg g') (refsg g') (bang g')).
    { eapply (forest_ext _ _ _ _ _ _ HR); [exact HRS|exact HB|]. by apply forest_banish. }
    destruct (f_rank F) as [rk Hrk].
    assert (Hpx : refg g x <> x). { intros E. pose proof (Hrk x Hr) as L. rewrite E in L. lia. }
    assert (Bq' : bang g' (refg g x) = false).
    { rewrite HB, upd_other by done. destruct (bang g (refg g x)) eqn:E; [|done]. apply (f_leaf F) in E as [E _].
      rewrite E in El. by apply Permutation_nil_cons in El. }
    split.
    - exact F'.
    - apply (lined_detach (ref := refg g) 0 (coinsg g) _ (sn_coins S) x l F'); [done..|].
      intros y k Hy Hk. rewrite Hcoins by done. apply cong_add; [apply cong_refl|]. apply cong_eq. unfold adj.
      destruct (pos _ _ _ _) as [i|]; [|done]. destruct (Nat.leb_spec i k); [|done]. unfold first.
      destruct (Nat.eqb_spec (k - i) 0) as [->|]; [done|]. destruct (leaf_lines x (k - i) Hx Hl ltac:(lia)) as (-> & _ & _). done.
    - apply (lined_detach (ref := refg g) 0 (delegg g) _ (sn_deleg S) x l F'); [done..|].
      intros y k Hy Hk. rewrite Hdeleg by done. apply cong_add; [apply cong_refl|]. apply cong_eq. unfold adj.
      destruct (pos _ _ _ _) as [i|]; [|done]. destruct (Nat.leb_spec i k); [|done]. unfold first.
      destruct (Nat.eqb_spec (k - i) 0) as [->|]; [done|]. destruct (leaf_lines x (k - i) Hx Hl ltac:(lia)) as (_ & -> & _). done.
    - apply (lined_detach (ref := refg g) _ (cntg g) _ (sn_cnt S) x l F'); [done..|].
      intros y k Hy Hk. rewrite Hcnt. eapply cong_trans; [|apply cong_add; [apply cong_refl|apply cong_sym, adj_zero; [|done]]].
      + apply cong_eq. lia.
      + intros j Hj. rewrite leaf_cnt by done. apply cong_refl.
    - intros a. rewrite Hcnt, H_act. apply S.
    - intros a k. change (0 <= cntg g' a k < 2 ^ 64). rewrite Hcnt. apply (sn_range S a).
    - intros a. rewrite HB, H_act. unfold upd. destruct (N.eqb_spec a x) as [->|]; [done|apply S].
    - intros a Ha. rewrite HAR, (filter_Permutation _ _ _ (HRS a)), same_filter, (sn_arefs S a Ha). unfold upd.
      destruct (N.eqb_spec a (refg g x)) as [->|]; [|done]. rewrite (filter_Permutation _ _ _ El), filter_cons_False by congruence. done.
    - intros a t Ha. rewrite HB, H_act. apply HC in Ha as [Hax Ha]. rewrite upd_other by done. by apply (sn_comp S) in Ha.
    - apply Permutation_nil_r. rewrite HRS, upd_other by congruence. by rewrite (sn_none S).
  Qed.

  Lemma sane_own x c d :
    (forall y, refg g' y = refg g y) -> (forall y, refsg g' y = refsg g y) -> (forall y, bang g' y = bang g y) ->
    (forall y t, r_compression_at (g' y) = Some t -> r_compression_at (g y) = Some t) ->
    (forall y k, (k <= 9)%nat -> coinsg g' y k =
       (if (y =? x)%N && (k =? 0)%nat then c else coinsg g y k)
       + if bang g x then 0 else @adj (refg g) (first (c - coinsg g x 0%nat)) (refg g x) y k) ->
    (forall y k, (k <= 9)%nat -> delegg g' y k =
       (if (y =? x)%N && (k =? 0)%nat then d else delegg g y k)
       + if bang g x then 0 else @adj (refg g) (first (d - delegg g x 0%nat)) (refg g x) y k) ->
    (forall y k, cntg g' y k = cntg g y k) -> (forall y, arefsg g' y = arefsg g y) ->
    sane g'.
  Proof using S H_act.
    intros HR HRS HB HC Hcoins Hdeleg Hcnt HAR. pose proof (sn_forest S) as F.
    assert (A : forall (line line' : addr -> nat -> Z) v, lined 0 (refsg g) line ->
      (forall y k, (k <= 9)%nat -> line' y k =
       (if (y =? x)%N && (k =? 0)%nat then v else line y k)
       + if bang g x then 0 else @adj (refg g) (first (v - line x 0%nat)) (refg g x) y k) -> lined 0 (refsg g) line').
    { intros line line' v HL H'. destruct (bang g x) eqn:Bx.
      - apply (lined_alone F 0 line line' HL x Bx). intros y k Hy Hk Hne. rewrite H' by done. apply cong_eq.
        destruct (N.eqb_spec y x), (Nat.eqb_spec k 0); cbn; try lia; destruct Hne; congruence.
      - apply (lined_own F 0 line line' HL x (v - line x 0%nat)); [done|].
        intros y k Hy Hk. rewrite H' by done. apply cong_add; [|apply cong_refl]. apply cong_eq.
        destruct (N.eqb_spec y x) as [->|], (Nat.eqb_spec k 0) as [->|]; cbn; lia. }
    split.
    - apply (forest_ext (refg g) (refsg g) (bang g)); [done|intros y; by rewrite HRS|done|apply S].
    - apply (lined_ext 0 (refsg g) _ (coinsg g')); [done|done|]. apply (A (coinsg g) (coinsg g') c); [apply (sn_coins S)|exact Hcoins].
    - apply (lined_ext 0 (refsg g) _ (delegg g')); [done|done|]. apply (A (delegg g) (delegg g') d); [apply (sn_deleg S)|exact Hdeleg].
    - apply (lined_ext _ (refsg g) _ (cntg g)); [done|done|apply S].
    - intros a. rewrite Hcnt, H_act. apply S.
    - intros a k. change (0 <= cntg g' a k < 2 ^ 64). rewrite Hcnt. apply (sn_range S a).
    - intros a. rewrite HB, H_act. apply S.
    - intros a Ha. rewrite HAR, HRS, same_filter. by apply (sn_arefs S).
    - intros a t Ha. rewrite HB, H_act. apply HC in Ha. by apply (sn_comp S) in Ha.
    - rewrite HRS. apply (sn_none S).
  Qed.

  (** The referrals of [x] go to its referrer. *)
  Lemma sane_compress x : refg g x <> nobody -> bang g x = false -> actg g x = false ->
    (forall y, refg g' y = moved (refg g) (refsg g x) (refg g x) y) ->
    (forall y, refsg g' y = upd (upd (refsg g) x []) (refg g x) (refsg g (refg g x) ++ refsg g x) y) ->
    (forall y, bang g' y = bang g y) ->
    (forall y t, r_compression_at (g' y) = Some t -> r_compression_at (g y) = Some t) ->
    (forall y k, (k <= 9)%nat -> coinsg g' y k =
       (if (y =? x)%N then first (coinsg g x 0%nat) k else coinsg g y k)
       + @adj (refg g') (fun j => coinsg g x (j + 1)%nat - if (j =? 0)%nat then 0 else coinsg g x j) (refg g x) y k) ->
    (forall y k, (k <= 9)%nat -> delegg g' y k =
       (if (y =? x)%N then first (delegg g x 0%nat) k else delegg g y k)
       + @adj (refg g') (fun j => delegg g x (j + 1)%nat - if (j =? 0)%nat then 0 else delegg g x j) (refg g x) y k) ->
    (forall y, ranged (r_cnt (g' y))) ->
    (forall y k, (k <= 9)%nat -> cong (2 ^ 64) (cntg g' y k)
       ((if (y =? x)%N then 0 else cntg g y k)
       + @adj (refg g') (fun j => cntg g x (j + 1)%nat - if (j =? 0)%nat then 0 else cntg g x j) (refg g x) y k)) ->
    (forall y, arefsg g' y ≡ₚ upd (upd (arefsg g) x []) (refg g x) (arefsg g (refg g x) ++ arefsg g x) y) ->
    sane g'.
  Proof using S H_act.
    intros Hr Bx Ax HR HRS HB HC Hcoins Hdeleg HRG Hcnt HAR. pose proof (sn_forest S) as F.
    assert (Hx : x <> nobody) by (intros E; rewrite E in Hr; apply Hr, F).
    assert (F' : forest (refg g') (refsg g') (bang g')).
    { eapply (forest_ext _ _ _ _ _ _ HR); [intros y; by rewrite HRS|exact HB|]. by apply forest_compress. }
    assert (Bq' : bang g' (refg g x) = false) by (rewrite HB; by apply (parent_not_ban F)).
    assert (A0 : forall S' y, @adj (refg g') S' (refg g x) y 0%nat = 0).
    { intros S' y. unfold adj. destruct (pos _ (seq 1 10) _ y) as [i|] eqn:E; [|done].
      apply pos_some in E as [E _]. destruct (Nat.leb_spec i 0); [lia|done]. }
    assert (C0 : cntg g x 0%nat = 0) by (rewrite (sn_cnt0 S), Ax; done).
    split.
    - exact F'.
    - apply (lined_compress F 0 (coinsg g) _ (sn_coins S) x F'); [done..|]. intros y k Hy Hk. rewrite Hcoins by done. apply cong_refl.
    - apply (lined_compress F 0 (delegg g) _ (sn_deleg S) x F'); [done..|]. intros y k Hy Hk. rewrite Hdeleg by done. apply cong_refl.
    - apply (lined_compress F _ (cntg g) _ (sn_cnt S) x F'); [done..|]. intros y k Hy Hk.
      eapply cong_trans; [by apply Hcnt|]. apply cong_eq. rewrite C0. by destruct (y =? x)%N, (k =? 0)%nat.
    - intros a. pose proof (Hcnt a 0%nat ltac:(lia)) as E. rewrite A0, (sn_cnt0 S), Z.add_0_r in E.
      apply cong_small in E; [|apply HRG]. rewrite E, H_act. destruct (N.eqb_spec a x) as [E0|]; [subst a; by rewrite Ax|]. by destruct (actg g a).
    - done.
    - intros a. rewrite HB, H_act. apply S.
    - intros a Ha. rewrite HAR, HRS, same_filter. unfold upd. destruct (N.eqb_spec a (refg g x)) as [->|].
      + rewrite filter_app. by rewrite (sn_arefs S (refg g x) Hr), (sn_arefs S x Hx).
      + destruct (N.eqb_spec a x) as [E0|]; [subst a; done|]. by apply (sn_arefs S).
    - intros a t Ha. rewrite HB, H_act. apply HC in Ha. by apply (sn_comp S) in Ha.
    - rewrite HRS. unfold upd. rewrite (proj2 (N.eqb_neq nobody (refg g x))) by congruence. destruct (nobody =? x)%N; [done|apply (sn_none S)].
  Qed.

  (** [x] and everything below it moves under [q]. *)
  Lemma sane_move x q l : refg g x <> nobody -> bang g x = false -> q <> nobody -> bang g q = false ->
    (forall n, anc (refg g) n q <> x) ->
    refsg g (refg g x) ≡ₚ x :: l -> refg g x <> q ->
    (forall y, refg g' y = upd (refg g) x q y) ->
    (forall y, refsg g' y ≡ₚ upd (upd (refsg g) (refg g x) l) q (refsg g q ++ [x]) y) ->
    (forall y, bang g' y = bang g y) ->
    (forall y t, r_compression_at (g' y) = Some t -> r_compression_at (g y) = Some t) ->
    (forall y k, (k <= 9)%nat -> coinsg g' y k = coinsg g y k
       + @adj (refg g') (fun j => - coinsg g x j) (refg g x) y k + @adj (refg g') (coinsg g x) q y k) ->
    (forall y k, (k <= 9)%nat -> delegg g' y k = delegg g y k
       + @adj (refg g') (fun j => - delegg g x j) (refg g x) y k + @adj (refg g') (delegg g x) q y k) ->
    (forall y, ranged (r_cnt (g' y))) ->
    (forall y k, (k <= 9)%nat -> cong (2 ^ 64) (cntg g' y k) (cntg g y k
       + @adj (refg g') (fun j => - cntg g x j) (refg g x) y k + @adj (refg g') (cntg g x) q y k)) ->
    (forall y, y <> nobody -> arefsg g' y ≡ₚ filter (fun c => actg g c = true) (refsg g' y)) ->
    sane g'.
  Proof using S H_act.
    intros Hr Bx Hq Bq Hc El Hpq HR HRS HB HC Hcoins Hdeleg HRG Hcnt HAR. pose proof (sn_forest S) as F.
    assert (Hx : x <> nobody) by (intros E; rewrite E in Hr; apply Hr, F).
    destruct (f_rank F) as [rk Hrk].
    assert (Hpx : refg g x <> x). { intros E. pose proof (Hrk x Hr) as L. rewrite E in L. lia. }
    set (p := refg g x) in *. set (ref1 := upd (refg g) x nobody). set (refs1 := upd (refsg g) p l).
    assert (F1 : forest ref1 refs1 (bang g)) by (by apply forest_detach).
    assert (Bp : bang g p = false) by (by apply (parent_not_ban F)).
    assert (up1 : forall c, (forall n, anc (refg g) n c <> x) -> forall n, anc ref1 n c = anc (refg g) n c).
    { intros c Hn n. induction n as [|n IH]; [done|]. cbn. rewrite IH. unfold ref1. apply upd_other, Hn. }
    assert (Hp : forall n, anc (refg g) n p <> x).
    { intros n E. apply (anc_acyclic rk Hrk (f_nobody F) (Datatypes.S n) x Hx ltac:(lia)). rewrite anc_S. exact E. }
    assert (Hc1 : forall n, anc ref1 n q <> x) by (intros n; rewrite up1 by done; apply Hc).
    assert (F2 : forest (upd ref1 x q) (upd refs1 q (refs1 q ++ [x])) (upd (bang g) x false)).
    { apply forest_attach; [done..|]. left. unfold ref1. apply upd_same. }
    assert (Hlq : refs1 q = refsg g q) by (unfold refs1; by rewrite upd_other by congruence).
    assert (F' : forest (refg g') (refsg g') (bang g')).
    { eapply forest_ext; [| | |exact F2].
      - intros y. rewrite HR. unfold ref1, upd. by destruct (y =? x)%N.
      - intros y. rewrite HRS, Hlq. done.
      - intros y. rewrite HB. unfold upd. destruct (N.eqb_spec y x) as [->|]; done. }
    assert (P1 : forall c y, (forall n, anc (refg g) n c <> x) -> pos ref1 (seq 1 10) c y = pos (refg g') (seq 1 10) c y).
    { intros c y Hn. symmetry. apply pos_ext. intros n _. rewrite up1 by done. rewrite HR. unfold ref1. by rewrite !upd_other by done. }
    assert (LN : forall M (line line' : addr -> nat -> Z), lined M (refsg g) line ->
      (forall y k, (k <= 9)%nat -> cong M (line' y k) (line y k
       + @adj (refg g') (fun j => - line x j) p y k + @adj (refg g') (line x) q y k)) -> lined M (refsg g') line').
    { intros M line line' HL H'.
      set (line1 := fun y k => line y k + @adj ref1 (fun j => - line x j) p y k).
      assert (L1 : lined M refs1 line1).
      { apply (lined_detach (ref := refg g) M line line1 HL x l F1); [done..|]. intros y k _ _. apply cong_refl. }
      assert (NX : forall k, line1 x k = line x k).
      { intros k. unfold line1, adj. destruct (pos ref1 (seq 1 10) p x) as [i|] eqn:E; [|lia].
        apply pos_some in E as (_ & _ & E). rewrite up1 in E by done. by destruct (Hp _ E). }
      intros a k Ha Hk. rewrite (sumz_perm _ _ _ (HRS a)), <- Hlq.
      assert (L2 : lined M (upd refs1 q (refs1 q ++ [x])) line'); [|apply (L2 a k Ha Hk)].
      apply (lined_attach F1 M line1 line' L1 x q (line x) F2).
      - intros E. apply (Hc 0%nat). by rewrite E.
      - done.
      - rewrite upd_other; [done|]. intros E. apply (Hc 0%nat). exact E.
      - done.
      - left. unfold ref1. apply upd_same.
      - intros j Hj. rewrite <- NX. by apply L1.
      - intros y j Hy Hj. eapply cong_trans; [by apply H'|]. apply cong_eq.
        assert (E1 : @adj (refg g') (fun j => - line x j) p y j = @adj ref1 (fun j => - line x j) p y j).
        { unfold adj. by rewrite P1. }
        assert (E2 : @adj (refg g') (line x) q y j = @adj (upd ref1 x q) (line x) q y j).
        { unfold adj. rewrite <- P1 by done. rewrite (pos_ext ref1 (upd ref1 x q)); [done|]. intros n _. apply upd_other, Hc1. }
        rewrite E1, E2. destruct (N.eqb_spec y x) as [->|]; [|done]. f_equal. apply NX. }
    assert (A0 : forall S' c y, @adj (refg g') S' c y 0%nat = 0).
    { intros S' c y. unfold adj. destruct (pos _ (seq 1 10) _ y) as [i|] eqn:E; [|done].
      apply pos_some in E as [E _]. destruct (Nat.leb_spec i 0); [lia|done]. }
    split.
    - exact F'.
    - apply (LN 0 (coinsg g)); [apply S|]. intros y k Hk. rewrite Hcoins by done. apply cong_refl.
    - apply (LN 0 (delegg g)); [apply S|]. intros y k Hk. rewrite Hdeleg by done. apply cong_refl.
    - apply (LN _ (cntg g)); [apply S|]. exact Hcnt.
    - intros a. pose proof (Hcnt a 0%nat ltac:(lia)) as E. rewrite !A0, (sn_cnt0 S), !Z.add_0_r in E.
      apply cong_small in E; [|apply HRG]. rewrite E, H_act. by destruct (actg g a).
    - done.
    - intros a. rewrite HB, H_act. apply S.
    - intros a Ha. rewrite same_filter. by apply HAR.
    - intros a t Ha. rewrite HB, H_act. apply HC in Ha. by apply (sn_comp S) in Ha.
    - apply Permutation_nil_r. rewrite HRS, !upd_other by congruence. by rewrite (sn_none S).
  Qed.
End sane.
