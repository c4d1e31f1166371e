(** * Each operation on the referral records keeps them right *)
From Verif Require Export RefSane StatusProofs.

Local Notation upd := RefTheory.upd.

(** ** Amounts added along a chain *)
Definition delta (ref : addr -> addr) (lines : list nat) (q : addr) (c : Z) (y : addr) (k : nat) : Z :=
  match pos ref lines q y with Some i => if (k =? i)%nat then c else 0 | None => 0 end.
Lemma adj_delta ref c q y k : @adj ref (first c) q y k = delta ref (seq 1 10) q c y k.
Proof. apply adj_first. Qed.
Lemma ln_add_line i c d r k : (i < 11)%nat ->
  ln (r_coins (add_line i c d (normalize r))) k = ln (r_coins r) k + (if (k =? i)%nat then c else 0) /\
  ln (r_deleg (add_line i c d (normalize r))) k = ln (r_deleg r) k + (if (k =? i)%nat then d else 0) /\
  ln (r_cnt (add_line i c d (normalize r))) k = ln (r_cnt r) k.
Proof.
  intros Hi. unfold add_line. cbn. split_and!.
  - rewrite ln_add_at by (pose proof (len_pad (r_coins r)); lia). by rewrite ln_pad.
  - rewrite ln_add_at by (pose proof (len_pad (r_deleg r)); lia). by rewrite ln_pad.
  - apply ln_pad.
Qed.
Lemma eqs_lines r r' k : eqs r r' -> ln (r_coins r') k = ln (r_coins r) k /\ ln (r_deleg r') k = ln (r_deleg r) k /\ ln (r_cnt r') k = ln (r_cnt r) k.
Proof. intros (st & d & ->). done. Qed.

(** The records [g'] are [g] with [c] and [d] added on the lines [lines] of the
    accounts from [q] upwards *)
Definition plus (g g' : addr -> rinfo) (lines : list nat) (q : addr) (c d : Z) : Prop :=
  forall y, shape (g' y) = shape (g y) /\ forall k,
    ln (r_coins (g' y)) k = ln (r_coins (g y)) k + delta (refg g) lines q c y k /\
    ln (r_deleg (g' y)) k = ln (r_deleg (g y)) k + delta (refg g) lines q d y k /\
    ln (r_cnt (g' y)) k = ln (r_cnt (g y)) k.
Definition ranked (g : addr -> rinfo) : Prop := exists rk : addr -> nat, forall x, refg g x <> nobody -> (rk (refg g x) < rk x)%nat.

Lemma walk_plus check i n c d (cb : addr -> bu -> bu) b a s s' b' :
  (forall x b, bu_data (cb x b) = bu_data b) -> (i + n <= 11)%nat -> ranked (fun y => bu_get b y s) ->
  walk check (seq i n) b a (fun i x b r => (cb x b, add_line i c d r)) s = (s', Ok b') ->
  st_ref s' = st_ref s /\ plus (fun y => bu_get b y s) (fun y => bu_get b' y s') (seq i n) a c d.
Proof.
  intros HC Hin [rk Hrk] H. pose proof H as H0. apply walk_lines in H0 as [_ HS]; [|done].
  apply (walk_ok _ _ _ (fun i _ r => add_line i c d r) rk) in H as [ES H]; [|cbn; auto|done|done].
  split; [done|]. intros y. split; [apply HS|]. intros k. specialize (H y). unfold delta.
  destruct (pos _ _ _ _) as [j|] eqn:E.
  - apply pos_some in E as [E _]. destruct (eqs_lines _ _ k H) as (-> & -> & ->).
    destruct (ln_add_line j c d (bu_get b y s) k ltac:(lia)) as (-> & -> & ->). done.
  - cbv beta. rewrite H. split_and!; lia.
Qed.

(** The update of the first of a chain together with the rest *)
Definition sub_refs (F : list addr -> list addr) (r : rinfo) : rinfo := r <| r_referrals := F (r_referrals r) |>.
Lemma chain_plus {A} (F : list addr -> list addr) (X : rinfo -> A) cb b p c d s s1 b1 x b1' s3 b3 :
  let g := fun y => bu_get b y s in
  (forall x b, bu_data (cb x b) = bu_data b) -> ranked g -> p <> nobody ->
  bu_update b p true (fun r => (add_line 1 c d (r <| r_referrals := F (r_referrals r) |>), X r)) s = (s1, Ok (b1, x)) ->
  bu_data b1' = bu_data b1 ->
  (b3 = b1' /\ s3 = s1 /\ (refg g p = nobody \/ (c = 0 /\ d = 0))) \/
    walk true (seq 2 9) b1' (refg g p) (fun i x b r => (cb x b, add_line i c d r)) s1 = (s3, Ok b3) ->
  x = X (normalize (g p)) /\ st_ref s3 = st_ref s /\
  forall y, let r := g y in let r' := bu_get b3 y s3 in
    shape r' = shape (if (y =? p)%N then sub_refs F r else r) /\ forall k,
    ln (r_coins r') k = ln (r_coins r) k + delta (refg g) (seq 1 10) p c y k /\
    ln (r_deleg r') k = ln (r_deleg r) k + delta (refg g) (seq 1 10) p d y k /\
    ln (r_cnt r') k = ln (r_cnt r) k.
Proof.
  cbv zeta. intros HC [rk Hrk] Hp HU HD HW. set (g := fun y => bu_get b y s) in *.
  apply bu_update_ok in HU as (r2 & HX & Q & _ & ED & ES). cbn [fst snd] in HX, Q. split; [done|].
  set (g1 := fun y => bu_get b1' y s1).
  assert (G1 : forall y, g1 y = if (y =? p)%N then r2 else g y).
  { intros y. unfold g1. rewrite (bu_get_ext b1' b1' s s1 y) by done. rewrite (bu_get_insert b b1' p r2 s); [done|congruence]. }
  assert (R1 : forall y, refg g1 y = refg g y).
  { intros y. unfold refg. rewrite G1. destruct (N.eqb_spec y p) as [E0|]; [|done]. subst y. destruct Q as (st & dd & ->). done. }
  assert (first_ : forall y k, let r := g y in let r' := g1 y in
    shape r' = shape (if (y =? p)%N then sub_refs F r else r) /\
    ln (r_coins r') k = ln (r_coins r) k + (if (y =? p)%N then if (k =? 1)%nat then c else 0 else 0) /\
    ln (r_deleg r') k = ln (r_deleg r) k + (if (y =? p)%N then if (k =? 1)%nat then d else 0 else 0) /\
    ln (r_cnt r') k = ln (r_cnt r) k).
  { intros y k. cbv zeta. rewrite G1. destruct (N.eqb_spec y p) as [E0|]; [subst y|split_and!; try done; lia].
    split; [rewrite (shape_eqs _ _ Q); done|]. destruct (eqs_lines _ _ k Q) as (-> & -> & ->).
    apply (ln_add_line 1 c d (sub_refs F (g p)) k ltac:(lia)). }
  assert (D : forall z y k, delta (refg g) (seq 1 10) p z y k =
    (if (y =? p)%N then if (k =? 1)%nat then z else 0 else 0) + delta (refg g) (seq 2 9) (refg g p) z y k).
  { intros z y k. unfold delta. change (seq 1 10) with (1%nat :: seq 2 9). cbn [pos]. rewrite (proj2 (N.eqb_neq p nobody) Hp).
    destruct (N.eqb_spec y p) as [E0|]; [subst y|lia].
    destruct (pos_later (refg g) rk (seq 2 9) p p Hrk Hp ltac:(lia)) as [E|E]; [rewrite E; lia|].
    rewrite E. cbn. lia. }
  assert (P : st_ref s3 = st_ref s /\ plus g1 (fun y => bu_get b3 y s3) (seq 2 9) (refg g p) c d).
  { destruct HW as [(-> & -> & HN)|HW].
    - split; [done|]. intros y. split; [done|]. intros k.
      assert (Z0 : forall z, z = 0 \/ refg g p = nobody -> delta (refg g1) (seq 2 9) (refg g p) z y k = 0).
      { intros z [->|E]; [unfold delta; destruct (pos _ _ _ _) as [i|]; [by destruct (k =? i)%nat|done]|]. rewrite E. done. }
      rewrite !Z0 by tauto. unfold g1. split_and!; lia.
    - apply walk_plus in HW as [W1 W2]; [|done|lia|exists rk; intros y; change (refg g1 y <> nobody -> (rk (refg g1 y) < rk y)%nat); rewrite R1; apply Hrk].
      split; [congruence|]. exact W2. }
  destruct P as [P1 P2]. split; [done|]. intros y. destruct (P2 y) as [S2 L2]. split.
  - rewrite S2. apply (first_ y 0%nat).
  - intros k. destruct (L2 k) as (-> & -> & ->). destruct (first_ y k) as (_ & -> & -> & ->).
    assert (DE : forall z, delta (refg g1) (seq 2 9) (refg g p) z y k = delta (refg g) (seq 2 9) (refg g p) z y k).
    { intros z. unfold delta. by rewrite (pos_ext (refg g) (refg g1)) by (intros; apply R1). }
    rewrite !D, !DE, !Z.add_assoc. done.
Qed.

(** ** Attaching an account without referrals *)
Lemma delta_upd g x q v c y k : (forall n, anc (refg g) n q <> x) ->
  delta (upd (refg g) x v) (seq 1 10) q c y k = delta (refg g) (seq 1 10) q c y k.
Proof. intros H. unfold delta. rewrite (pos_ext (refg g) (upd (refg g) x v)); [done|]. intros n _. apply upd_other, H. Qed.
Lemma delta_ext ref ref' lines q c y k : (forall x, ref' x = ref x) -> delta ref' lines q c y k = delta ref lines q c y k.
Proof. intros H. unfold delta. by rewrite (pos_ext ref ref') by (intros; apply H). Qed.
Lemma attach_sane g g3 x q c d : sane g -> x <> nobody -> q <> nobody -> bang g q = false -> (forall n, anc (refg g) n q <> x) ->
  refg g x = nobody \/ bang g x = true -> refsg g x = [] -> actg g x = false ->
  (r_referrer (g3 x) = q /\ r_referrals (g3 x) = [] /\ r_banished (g3 x) = false /\ r_active (g3 x) = false /\
   r_arefs (g3 x) = r_arefs (g x) /\ forall k, (k <= 9)%nat -> ln (r_coins (g3 x)) k = first c k /\ ln (r_deleg (g3 x)) k = first d k) ->
  (forall k, ln (r_cnt (g3 x)) k = ln (r_cnt (g x)) k) ->
  (forall y, y <> x -> shape (g3 y) = shape (if (y =? q)%N then sub_refs (fun l => l ++ [x]) (g y) else g y) /\ forall k,
    ln (r_coins (g3 y)) k = ln (r_coins (g y)) k + delta (refg g) (seq 1 10) q c y k /\
    ln (r_deleg (g3 y)) k = ln (r_deleg (g y)) k + delta (refg g) (seq 1 10) q d y k /\
    ln (r_cnt (g3 y)) k = ln (r_cnt (g y)) k) ->
  sane g3.
Proof.
  intros S Hx Hq Bq Hc Hfree Hl Ax (X1 & X2 & X3 & X4 & X5 & X6) X7 HY.
  assert (Hqx : q <> x) by apply (Hc 0%nat).
  assert (SY : forall y, y <> x -> r_referrer (g3 y) = r_referrer (g y) /\ r_banished (g3 y) = r_banished (g y) /\ r_active (g3 y) = r_active (g y) /\
     r_arefs (g3 y) = r_arefs (g y) /\ r_compression_at (g3 y) = r_compression_at (g y) /\
     r_referrals (g3 y) = if (y =? q)%N then r_referrals (g y) ++ [x] else r_referrals (g y)).
  { intros y Hy. destruct (HY y Hy) as [HS _]. apply shape_inj in HS as (Y1 & Y2 & Y3 & Y4 & Y5 & Y6). by destruct (y =? q)%N. }
  assert (HR : forall y, refg g3 y = upd (refg g) x q y).
  { intros y. unfold refg, upd. destruct (N.eqb_spec y x) as [E0|Hy]; [by subst y|]. apply (SY y Hy). }
  assert (NX : forall z k, delta (refg g) (seq 1 10) q z x k = 0).
  { intros z k. unfold delta. destruct (pos _ _ _ _) as [i|] eqn:E; [|done]. apply pos_some in E as (_ & _ & E). by destruct (Hc _ E). }
  assert (ADJ : forall z y k, @adj (refg g3) (first z) q y k = delta (refg g) (seq 1 10) q z y k).
  { intros z y k. rewrite adj_delta, (delta_ext _ _ _ _ _ _ _ HR). by apply delta_upd. }
  eapply (sane_attach g g3 S _ x q c d); try done.
  - intros y. unfold refsg, upd. destruct (N.eqb_spec y x) as [E0|Hy].
    + subst y. rewrite (proj2 (N.eqb_neq x q)) by congruence. by rewrite X2.
    + destruct (SY y Hy) as (_ & _ & _ & _ & _ & ->). by destruct (N.eqb_spec y q) as [E0|]; [subst y|].
  - intros y. unfold bang, upd. destruct (N.eqb_spec y x) as [E0|Hy]; [by subst y|]. apply (SY y Hy).
  - intros y t Ht. destruct (N.eq_dec y x) as [E0|Hy]; [by left|right]. destruct (SY y Hy) as (_ & _ & _ & _ & <- & _). done.
  - intros y k Hk. rewrite ADJ. unfold coinsg. destruct (N.eqb_spec y x) as [E0|Hy].
    + subst y. rewrite NX. destruct (X6 k Hk) as [-> _]. lia.
    + destruct (HY y Hy) as [_ HL]. destruct (HL k) as (-> & _). done.
  - intros y k Hk. rewrite ADJ. unfold delegg. destruct (N.eqb_spec y x) as [E0|Hy].
    + subst y. rewrite NX. destruct (X6 k Hk) as [_ ->]. lia.
    + destruct (HY y Hy) as [_ HL]. destruct (HL k) as (_ & -> & _). done.
  - intros y k. unfold cntg. destruct (N.eq_dec y x) as [E0|Hy]; [subst y; apply X7|]. destruct (HY y Hy) as [_ HL]. apply HL.
  - intros y. unfold arefsg. destruct (N.eq_dec y x) as [E0|Hy]; [by subst y|]. apply (SY y Hy).
  Unshelve. intros y. unfold actg. destruct (N.eq_dec y x) as [E0|Hy]; [subst y; unfold actg in Ax; congruence|]. apply (SY y Hy).
Qed.
Lemma attach_ranked g g0 x q : sane g -> x <> nobody -> q <> nobody -> bang g q = false -> (forall n, anc (refg g) n q <> x) ->
  refg g x = nobody \/ bang g x = true -> (forall y, refg g0 y = upd (refg g) x q y) -> ranked g0.
Proof.
  intros S Hx Hq Bq Hc Hfree HR. destruct (f_rank (forest_attach _ _ _ x q (sn_forest S) Hx Hq Bq Hc Hfree)) as [rk Hrk].
  exists rk. intros y. rewrite HR. apply Hrk.
Qed.
Lemma sane_ranked g : sane g -> ranked g.
Proof. intros S. exact (f_rank (sn_forest S)). Qed.
(** Nobody below an account without listed referrals that is not banished itself *)
Lemma no_below g x q : sane g -> q <> x -> x <> nobody -> refsg g x = [] -> bang g q = false -> forall n, anc (refg g) n q <> x.
Proof.
  intros S Hqx Hx Hl Bq n E. destruct n as [|n]; [done|]. cbn in E.
  assert (N0 : anc (refg g) n q <> nobody).
  { intros E0. rewrite E0, (f_nobody (sn_forest S)) in E. congruence. }
  assert (A : anc (refg g) n q ∈ refsg g x).
  { apply (f_list (sn_forest S)); [done|]. split; [done|]. by apply (anc_not_ban (sn_forest S)). }
  rewrite Hl in A. by apply elem_of_nil in A.
Qed.
Lemma open_not_ban g s q : sane g -> registration_closed s (g q) = false -> bang g q = false.
Proof.
  intros S H. destruct (bang g q) eqn:E; [|done]. destruct (f_leaf (sn_forest S) q E) as [_ E2].
  unfold registration_closed in H. unfold bang, refg in *. rewrite E, (proj2 (N.eqb_neq _ _) E2) in H. done.
Qed.

Definition right (s : St) : Prop := sane (ref_get s).
Lemma right_ref s s' : st_ref s' = st_ref s -> right s -> right s'.
Proof. intros E. apply sane_ext. intros a. unfold ref_get. by rewrite E. Qed.
Lemma right_cm m s : cm s (fun b => sane (fun y => bu_get b y s)) m s -> right s -> right (fst (m s)).
Proof.
  intros H R. destruct (m s) as [s' r] eqn:E. cbn. destruct (H s' r E) as [E1|(b & S & G)]; [by eapply right_ref|].
  eapply sane_ext; [exact G|exact S].
Qed.
Lemma cm_commit' s0 b s : st_ref s = st_ref s0 -> sane (fun y => bu_get b y s) -> cm s0 (fun b => sane (fun y => bu_get b y s0)) (bu_commit b) s.
Proof.
  intros E S. apply cm_commit; [done|]. eapply sane_ext; [|exact S]. intros y. by apply bu_get_ext.
Qed.

Lemma append_core_right p c sk sc s : p <> c -> c <> nobody -> (sk = true -> bang (ref_get s) p = false) -> right s ->
  right (fst (append_child_core p c sk sc s)).
Proof.
  intros Hpc Hc HB R. apply right_cm; [|done]. unfold append_child_core.
  apply cm_ensure; [done|]. intros Hp. apply negb_true_iff, N.eqb_neq in Hp.
  apply cm_get. apply cm_ensure; [done|]. intros EN. apply cm_get. unfold id. cbv zeta.
  assert (E0 : ref_get s c = r_zero). { unfold ref_get. unfold ref_exists in EN. by destruct (st_ref s !! c). }
  set (cc := own_coins s c). set (dd := own_deleg s c).
  set (r0 := if sc then _ else new_rinfo p cc dd).
  assert (X0 : r_referrer r0 = p /\ r_referrals r0 = [] /\ r_banished r0 = false /\ r_active r0 = false /\
     r_arefs r0 = [] /\ (forall k, ln (r_coins r0) k = first cc k /\ ln (r_deleg r0) k = first dd k /\ ln (r_cnt r0) k = 0)).
  { unfold r0. destruct sc; (split_and!; [done..|]; intros k; unfold new_rinfo, first; cbn;
    destruct k as [|k]; [split_and!; done|]; unfold ln; do 11 (destruct k as [|k]; [split_and!; done|]); split_and!; done). }
  clearbody r0 cc dd. set (b0 := bu_set c r0 bu_new).
  assert (G0 : forall y, bu_get b0 y s = if (y =? c)%N then r0 else ref_get s y).
  { intros y. rewrite (bu_get_insert bu_new b0 c r0 s) by done. by rewrite bu_get_new. }
  apply cm_bind; [done|frame|]. intros [b1 [an closed]] s1 EU ES1. apply cm_ensure; [done|]. intros HO.
  apply cm_bind; [done|apply sw_walk; [apply _|frame|frame]|]. intros b3 s3 EW ES3.
  apply cm_commit'; [done|].
  assert (EO : an = r_referrer (bu_get b0 p s) /\ closed = negb sk && registration_closed s (normalize (bu_get b0 p s))).
  { pose proof EU as EU'. apply bu_update_ok in EU' as (r2 & EX & _). cbn [snd] in EX. by injection EX as -> ->. }
  destruct EO as [-> ->]. rewrite G0, (proj2 (N.eqb_neq p c) Hpc) in EW, HO. cbn [negb andb] in HO. apply negb_true_iff in HO.
  assert (Bp : bang (ref_get s) p = false) by (destruct sk; [by apply HB|eapply open_not_ban; [exact R|exact HO]]).
  assert (Hl : refsg (ref_get s) c = []) by (unfold refsg; by rewrite E0).
  assert (Hcc : forall n, anc (refg (ref_get s)) n p <> c) by (by apply no_below).
  assert (HF : refg (ref_get s) c = nobody) by (unfold refg; by rewrite E0).
  assert (R0 : forall y, refg (fun y => bu_get b0 y s) y = upd (refg (ref_get s)) c p y).
  { intros y. unfold refg, upd. rewrite G0. destruct (y =? c)%N; [apply X0|done]. }
  eapply (chain_plus (fun l => l ++ [c]) _ (fun a b => bu_call EvStake a b) b0 p cc dd s s1 b1 _ (bu_call EvStake p b1) s3 b3) in EU as (_ & _ & H); [|done| |done|done|].
  - apply (attach_sane (ref_get s) _ c p cc dd); [done..|by left|done|unfold actg; by rewrite E0| | |].
    + destruct (H c) as [HS HL]. rewrite (proj2 (N.eqb_neq c p)), G0, N.eqb_refl in HS by congruence.
      destruct X0 as (X1 & X2 & X3 & X4 & X5 & X6). apply shape_inj in HS as (Y1 & Y2 & Y3 & Y4 & Y5 & Y6).
      split_and!; [congruence..|rewrite E0; cbn; congruence|]. intros k Hk. destruct (HL k) as (-> & -> & _).
      assert (Z0 : forall z, delta (refg (fun y => bu_get b0 y s)) (seq 1 10) p z c k = 0).
      { intros z. rewrite (delta_ext _ _ _ _ _ _ _ R0), delta_upd by done. unfold delta. destruct (pos _ _ _ _) as [i|] eqn:E; [|done].
        apply pos_some in E as (_ & _ & E). by destruct (Hcc _ E). }
      rewrite !Z0, !Z.add_0_r, G0, N.eqb_refl. destruct (X6 k) as (-> & -> & _). done.
    + intros k. destruct (H c) as [_ HL]. destruct (HL k) as (_ & _ & ->). rewrite G0, N.eqb_refl, E0.
      destruct X0 as (_ & _ & _ & _ & _ & X6). destruct (X6 k) as (_ & _ & ->). by destruct k.
    + intros y Hy. destruct (H y) as [HS HL]. rewrite G0, (proj2 (N.eqb_neq y c) Hy) in HS. split; [exact HS|]. intros k.
      destruct (HL k) as (-> & -> & ->). rewrite G0, (proj2 (N.eqb_neq y c) Hy).
      rewrite !(delta_ext _ _ _ _ _ _ _ R0), !delta_upd by done. done.
  - eapply (attach_ranked (ref_get s) _ c p); [done..|by left|exact R0].
  - right. unfold refg. rewrite G0, (proj2 (N.eqb_neq p c) Hpc). exact EW.
Qed.
Lemma append_right p c s : p <> c -> c <> nobody -> right s -> right (fst (append_child p c s)).
Proof. intros H1 H2. by apply append_core_right. Qed.

(** ** The way back *)
Lemma banned_facts g a : sane g -> bang g a = true -> a <> nobody /\ refsg g a = [] /\ refg g a <> nobody /\ actg g a = false /\
  (forall k, (1 <= k <= 9)%nat -> coinsg g a k = 0 /\ delegg g a k = 0).
Proof.
  intros S B. destruct (f_leaf (sn_forest S) a B) as [E1 E2].
  assert (Ha : a <> nobody) by (intros ->; apply E2, (f_nobody (sn_forest S))).
  split_and!; [done|done|done|by apply (sn_ban S)|]. intros k Hk. destruct (leaf_lines g S a k Ha E1 Hk) as (H1 & H2 & _). done.
Qed.
Lemma anc_ext ref ref' n a : (forall x, ref' x = ref x) -> anc ref' n a = anc ref n a.
Proof. intros H. induction n as [|n IH]; [done|]. cbn. by rewrite IH, H. Qed.
Lemma nearest_facts g f b a s s' q : (forall y, bu_get b y s = g y) -> sane g -> bang g a = true ->
  nearest_open f b (refg g a) s = (s', Ok q) -> s' = s /\ q <> nobody /\ bang g q = false /\ (forall n, anc (refg g) n q <> a).
Proof.
  intros G S B H. destruct (banned_facts _ _ S B) as (Ha & _ & Hr & _ & _).
  assert (GR : forall x, refg (fun y => bu_get b y s) x = refg g x) by (intros x; unfold refg; by rewrite G).
  apply nearest_ok in H as [-> [[H1 _]|(n & H1 & H2 & H3 & _)]]; [done|].
  rewrite (anc_ext (refg g) _ n _ GR) in H1. split_and!; [done|done| |].
  - eapply (open_not_ban g); [done|]. by rewrite <- G.
  - intros m E. destruct (f_rank (sn_forest S)) as [rk Hrk].
    apply (anc_acyclic rk Hrk (f_nobody (sn_forest S)) (m + Datatypes.S n) a Ha ltac:(lia)).
    rewrite anc_add, anc_S. congruence.
Qed.
Ltac same_ref := repeat first [ frame | progress rel_struct | apply sw_bu_updatem; [apply _|frame|frame|intros ? ?] | apply sw_walk; [apply _|frame|frame] ].
Lemma come_back_right a s : right s -> bang (ref_get s) a = true -> right (fst (come_back a s)).
Proof.
  intros R B. apply right_cm; [|done]. unfold come_back.
  destruct (banned_facts _ _ R B) as (Ha & Hl & Hr & Aa & HL0).
  apply cm_bind; [done|same_ref|]. intros [b [[q c] d]] s1 E ES1.
  apply bu_updatem_ok in E as (s2 & b1 & r1 & r2 & E & _ & E2 & ED & ES & _). rewrite (E2 eq_refl) in ED. clear E2. rewrite bu_get_new in E.
  apply bind_ok in E as (f & s3 & X & E). apply get_ok in X as [-> ->].
  apply bind_ok in E as (p & s3 & X & E).
  change (r_referrer (normalize (ref_get s a))) with (refg (ref_get s) a) in X.
  apply (nearest_facts (ref_get s)) in X as (-> & Hp & Bp & Hup); [|apply bu_get_new|done|done].
  apply ret_ok in E as [-> E]. injection E as -> -> -> -> ->.
  set (r1' := normalize (ref_get s a) <| r_referrer := p |> <| r_banished := false |> <| r_banishment_at := None |>
              <| r_compression_at := None |> <| r_status := 1 |>) in ED.
  set (c := default 0 (pad (r_coins (ref_get s a)) !! 0%nat)). set (d := default 0 (pad (r_deleg (ref_get s a)) !! 0%nat)).
  assert (X0 : r_referrer r1' = p /\ r_referrals r1' = [] /\ r_banished r1' = false /\ r_active r1' = false /\
     r_arefs r1' = r_arefs (ref_get s a) /\ (forall k, ln (r_cnt r1') k = ln (r_cnt (ref_get s a)) k) /\
     (forall k, (k <= 9)%nat -> ln (r_coins r1') k = first c k /\ ln (r_deleg r1') k = first d k)).
  { split_and!; try done.
    - intros k. apply ln_pad.
    - intros k Hk. change (ln (r_coins r1') k) with (ln (pad (r_coins (ref_get s a))) k). change (ln (r_deleg r1') k) with (ln (pad (r_deleg (ref_get s a))) k).
      unfold c, d, first. destruct (Nat.eqb_spec k 0) as [->|]; [done|]. rewrite !ln_pad. apply HL0. lia. }
  clearbody r1' c d.
  assert (G0 : forall y, bu_get b y s1 = if (y =? a)%N then r1' else ref_get s y).
  { intros y. rewrite (bu_get_ext b b s s1 y) by done. rewrite (bu_get_insert bu_new b a r1' s) by done. by rewrite bu_get_new. }
  rewrite (proj2 (N.eqb_neq p nobody) Hp).
  apply cm_bind; [done|same_ref|]. intros b3 s3 EW ES3. apply cm_commit'; [done|].
  apply bind_ok in EW as ([b2 up2] & s2 & EU & EW).
  assert (Hpa : p <> a) by apply (Hup 0%nat).
  assert (EO : up2 = r_referrer (bu_get b p s1)).
  { pose proof EU as EU'. apply bu_update_ok in EU' as (? & EX & _). done. }
  assert (R0 : forall y, refg (fun y => bu_get b y s1) y = upd (refg (ref_get s)) a p y).
  { intros y. unfold refg, upd. rewrite G0. destruct (y =? a)%N; [apply X0|done]. }
  apply (chain_plus (fun l => l ++ [a]) r_referrer (fun _ b => b) b p c d s1 s2 b2 up2 b2 s3 b3) in EU as (_ & _ & H); [|done| |done|done|].
  - destruct X0 as (X1 & X2 & X3 & X4 & X5 & X6 & X7). apply (attach_sane (ref_get s) _ a p c d); [done..|by right|done|done| | |].
    + destruct (H a) as [HS HL]. rewrite (proj2 (N.eqb_neq a p)), G0, N.eqb_refl in HS by congruence.
      apply shape_inj in HS as (Y1 & Y2 & Y3 & Y4 & Y5 & Y6).
      split_and!; [congruence..|]. intros k Hk. destruct (HL k) as (-> & -> & _).
      assert (Z0 : forall z, delta (refg (fun y => bu_get b y s1)) (seq 1 10) p z a k = 0).
      { intros z. rewrite (delta_ext _ _ _ _ _ _ _ R0), delta_upd by done. unfold delta. destruct (pos _ _ _ _) as [i|] eqn:E; [|done].
        apply pos_some in E as (_ & _ & E). by destruct (Hup _ E). }
      rewrite !Z0, !Z.add_0_r, G0, N.eqb_refl. by apply X7.
    + intros k. destruct (H a) as [_ HL]. destruct (HL k) as (_ & _ & ->). rewrite G0, N.eqb_refl. apply X6.
    + intros y Hy. destruct (H y) as [HS HL]. rewrite G0, (proj2 (N.eqb_neq y a) Hy) in HS. split; [exact HS|]. intros k.
      destruct (HL k) as (-> & -> & ->). rewrite G0, (proj2 (N.eqb_neq y a) Hy).
      rewrite !(delta_ext _ _ _ _ _ _ _ R0), !delta_upd by done. done.
  - eapply (attach_ranked (ref_get s) _ a p); [done..|by right|exact R0].
  - destruct ((up2 =? nobody)%N || ((c =? 0) && (d =? 0))) eqn:ET.
    + apply ret_ok in EW as [-> ->]. left. split_and!; [done..|]. unfold refg. rewrite <- EO.
      apply orb_true_iff in ET as [ET|ET]; [left; by apply N.eqb_eq|right]. apply andb_true_iff in ET as [E1 E2].
      split; by apply Z.eqb_eq.
    + right. unfold refg. rewrite <- EO. exact EW.
Qed.

(** ** A balance has changed *)
Lemma own_sane g g3 a nb nd : sane g ->
  (forall y, shape (g3 y) = shape (g y) /\ forall k,
    ln (r_coins (g3 y)) k = (if (y =? a)%N && (k =? 0)%nat then nb else coinsg g y k)
      + (if bang g a then 0 else delta (refg g) (seq 1 10) (refg g a) (nb - coinsg g a 0%nat) y k) /\
    ln (r_deleg (g3 y)) k = (if (y =? a)%N && (k =? 0)%nat then nd else delegg g y k)
      + (if bang g a then 0 else delta (refg g) (seq 1 10) (refg g a) (nd - delegg g a 0%nat) y k) /\
    ln (r_cnt (g3 y)) k = ln (r_cnt (g y)) k) ->
  sane g3.
Proof.
  intros S H.
  assert (SY : forall y, r_referrer (g3 y) = r_referrer (g y) /\ r_referrals (g3 y) = r_referrals (g y) /\ r_banished (g3 y) = r_banished (g y) /\
     r_active (g3 y) = r_active (g y) /\ r_arefs (g3 y) = r_arefs (g y) /\ r_compression_at (g3 y) = r_compression_at (g y)).
  { intros y. destruct (H y) as [HS _]. by apply shape_inj in HS. }
  eapply (sane_own g g3 S _ a nb nd).
  - intros y. apply (SY y).
  - intros y. apply (SY y).
  - intros y. apply (SY y).
  - intros y t. destruct (SY y) as (_ & _ & _ & _ & _ & ->). done.
  - intros y k _. unfold coinsg at 1. destruct (H y) as [_ HL]. destruct (HL k) as (-> & _). by rewrite adj_delta.
  - intros y k _. unfold delegg at 1. destruct (H y) as [_ HL]. destruct (HL k) as (_ & -> & _). by rewrite adj_delta.
  - intros y k. destruct (H y) as [_ HL]. apply (HL k).
  - intros y. apply (SY y).
  Unshelve. intros y. apply (SY y).
Qed.
Lemma ln_set_own nb nd r k :
  ln (r_coins (set_own nb nd r)) k = (if (k =? 0)%nat && (0 <? List.length (r_coins r))%nat then nb else ln (r_coins r) k) /\
  ln (r_deleg (set_own nb nd r)) k = (if (k =? 0)%nat && (0 <? List.length (r_deleg r))%nat then nd else ln (r_deleg r) k).
Proof.
  change (r_coins (set_own nb nd r)) with (<[ 0%nat := nb ]> (r_coins r)). change (r_deleg (set_own nb nd r)) with (<[ 0%nat := nd ]> (r_deleg r)).
  unfold ln. split.
  - destruct (Nat.eqb_spec k 0) as [->|]; [|by rewrite list_lookup_insert_ne by done].
    destruct (Nat.ltb_spec 0 (List.length (r_coins r))); [by rewrite list_lookup_insert by lia|]. cbn. by rewrite list_insert_ge by lia.
  - destruct (Nat.eqb_spec k 0) as [->|]; [|by rewrite list_lookup_insert_ne by done].
    destruct (Nat.ltb_spec 0 (List.length (r_deleg r))); [by rewrite list_lookup_insert by lia|]. cbn. by rewrite list_insert_ge by lia.
Qed.

(** The record of [a] after its own amounts, and the walk from its referrer *)
Lemma own_walk g1 r0 r2 b2 s2 b3 s3 s a nb nd (cb : addr -> bu -> bu) :
  sane g1 -> g1 a = r0 -> (0 < List.length (r_coins r0))%nat -> (0 < List.length (r_deleg r0))%nat ->
  eqs (set_own nb nd r0) r2 -> (forall x b, bu_data (cb x b) = bu_data b) ->
  (forall y, bu_get b2 y s2 = if (y =? a)%N then r2 else g1 y) -> st_ref s2 = st_ref s ->
  (if r_banished r0 then b3 = b2 /\ s3 = s2 else
   walk true (seq 1 10) b2 (r_referrer r0) (fun i x b r =>
     (cb x b, add_line i (nb - ln (r_coins r0) 0) (nd - ln (r_deleg r0) 0) r)) s2 = (s3, Ok b3)) ->
  sane (fun y => bu_get b3 y s3).
Proof.
  intros S G0 L1 L2 Q HC G2 ES HW. set (g2 := fun y => bu_get b2 y s2).
  assert (Q0 : shape r2 = shape r0) by (rewrite (shape_eqs _ _ Q); done).
  assert (SH : forall y, shape (g2 y) = shape (g1 y)).
  { intros y. unfold g2. rewrite G2. destruct (N.eqb_spec y a) as [E0|]; [subst y; by rewrite G0|done]. }
  assert (RE : forall y, refg g2 y = refg g1 y) by (intros y; specialize (SH y); by apply shape_inj in SH as [SH _]).
  assert (LN : forall y k, ln (r_coins (g2 y)) k = (if (y =? a)%N && (k =? 0)%nat then nb else coinsg g1 y k) /\
    ln (r_deleg (g2 y)) k = (if (y =? a)%N && (k =? 0)%nat then nd else delegg g1 y k) /\
    ln (r_cnt (g2 y)) k = ln (r_cnt (g1 y)) k).
  { intros y k. unfold g2. rewrite G2. destruct (N.eqb_spec y a) as [E0|]; [subst y|done].
    destruct (eqs_lines _ _ k Q) as (-> & -> & ->). destruct (ln_set_own nb nd r0 k) as [-> ->].
    rewrite (proj2 (Nat.ltb_lt _ _) L1), (proj2 (Nat.ltb_lt _ _) L2), !andb_true_r. unfold coinsg, delegg. rewrite G0. done. }
  apply (own_sane g1 _ a nb nd); [done|]. intros y.
  assert (B0 : bang g1 a = r_banished r0) by (unfold bang; by rewrite G0). rewrite B0.
  assert (C0 : coinsg g1 a 0%nat = ln (r_coins r0) 0 /\ delegg g1 a 0%nat = ln (r_deleg r0) 0 /\ refg g1 a = r_referrer r0).
  { unfold coinsg, delegg, refg. by rewrite G0. }
  destruct C0 as (-> & -> & ->). destruct (r_banished r0).
  - destruct HW as [-> ->]. split; [apply SH|]. intros k. destruct (LN y k) as (H1 & H2 & H3). unfold g2 in *. rewrite H1, H2, H3, !Z.add_0_r. done.
  - apply walk_plus in HW as [_ HW]; [|done|lia|]; cycle 1.
    { destruct (sane_ranked _ S) as [rk Hrk]. exists rk. intros x. change (refg g2 x <> nobody -> (rk (refg g2 x) < rk x)%nat). rewrite RE. apply Hrk. }
    destruct (HW y) as [W1 W2]. split; [rewrite W1; apply SH|]. intros k. destruct (W2 k) as (-> & -> & ->).
    change (fun y => bu_get b2 y s2) with g2. change (bu_get b2 y s2) with (g2 y). destruct (LN y k) as (-> & -> & ->).
    rewrite !(delta_ext _ _ _ _ _ _ _ RE). done.
Qed.
Lemma revive_sane g a b r s s' b' r' : (forall y, bu_get b y s = g y) -> sane g -> bang g a = true -> like (g a) r ->
  (0 < List.length (r_coins r))%nat -> (0 < List.length (r_deleg r))%nat ->
  revive a b r s = (s', Ok (b', r')) ->
  st_ref s' = st_ref s /\ sane (fun y => if (y =? a)%N then r' else bu_get b' y s') /\
  r_banished r' = false /\ r_coins r' = r_coins r /\ r_deleg r' = r_deleg r.
Proof.
  intros G S B [K1 K2 K3 K4 K5 K6 K7 K8 K9] L1 L2 H. destruct (banned_facts _ _ S B) as (Ha & Hl & Hr & Aa & HL0).
  unfold revive in H. apply bind_ok in H as (f & s1 & E & H). apply get_ok in E as [-> ->].
  apply bind_ok in H as (p & s1 & X & H). rewrite K1 in X.
  apply (nearest_facts g) in X as (-> & Hp & Bp & Hup); [|done|done|done]. cbv zeta in H.
  rewrite (proj2 (N.eqb_neq p nobody) Hp) in H.
  set (c := default 0 (r_coins r !! 0%nat)) in H. set (d := default 0 (r_deleg r !! 0%nat)) in H.
  set (r1 := r <| r_referrer := p |> <| r_banished := false |> <| r_status := 1 |>) in H.
  assert (X0 : r_referrer r1 = p /\ r_referrals r1 = [] /\ r_banished r1 = false /\ r_active r1 = false /\
     r_arefs r1 = r_arefs (g a) /\ (forall k, ln (r_cnt r1) k = ln (r_cnt (g a)) k) /\
     (forall k, (k <= 9)%nat -> ln (r_coins r1) k = first c k /\ ln (r_deleg r1) k = first d k) /\
     r_coins r1 = r_coins r /\ r_deleg r1 = r_deleg r).
  { unfold refsg, actg in Hl, Aa. split_and!; try done.
    - by rewrite <- Hl, <- K2.
    - by rewrite <- Aa, <- K4.
    - intros k Hk. change (ln (r_coins r1) k) with (ln (r_coins r) k). change (ln (r_deleg r1) k) with (ln (r_deleg r) k).
      unfold c, d, first. destruct (Nat.eqb_spec k 0) as [->|]; [done|]. rewrite K7, K8. apply HL0. lia. }
  clearbody r1 c d.
  apply bind_ok in H as ([b2 up2] & s2 & EU & EW).
  assert (Hpa : p <> a) by apply (Hup 0%nat).
  assert (EO : up2 = r_referrer (bu_get b p s)).
  { pose proof EU as EU'. apply bu_update_ok in EU' as (? & EX & _). done. }
  assert (R0 : forall y, refg (fun y => bu_get b y s) y = refg g y) by (intros y; unfold refg; by rewrite G).
  assert (W : exists b3, b' = b3 /\ r' = r1 /\ ((b3 = b2 /\ s' = s2 /\ (refg (fun y => bu_get b y s) p = nobody \/ (c = 0 /\ d = 0))) \/
    walk true (seq 2 9) b2 (refg (fun y => bu_get b y s) p) (fun i _ b p => (b, add_line i c d p)) s2 = (s', Ok b3))).
  { unfold refg. rewrite <- EO. destruct (((c =? 0) && (d =? 0)) || (up2 =? nobody)%N) eqn:ET.
    - apply ret_ok in EW as [-> EW]. injection EW as -> ->. exists b2. split_and!; [done..|]. left. split_and!; [done..|].
      apply orb_true_iff in ET as [ET|ET]; [right|left; by apply N.eqb_eq]. apply andb_true_iff in ET as [E1 E2]. split; by apply Z.eqb_eq.
    - apply bind_ok in EW as (b3 & s3 & EW & X). apply ret_ok in X as [-> X]. injection X as -> ->. exists b3. split_and!; [done..|by right]. }
  destruct W as (b3 & E3 & E4 & W). subst b' r'.
  assert (RK : ranked (fun y => bu_get b y s)).
  { destruct (sane_ranked _ S) as [rk Hrk]. exists rk. intros y. rewrite R0. apply Hrk. }
  pose proof (chain_plus (fun l => l ++ [a]) r_referrer (fun _ b => b) b p c d s s2 b2 up2 b2 s' b3 (fun _ _ => eq_refl) RK Hp EU eq_refl W) as (_ & ES & HH).
  destruct X0 as (X1 & X2 & X3 & X4 & X5 & X6 & X7 & X8 & X9).
  split_and!; [done| |done|done|done].
  apply (attach_sane g _ a p c d); [done..|by right|done|done| | |].
  - cbv beta. rewrite N.eqb_refl. by split_and!.
  - intros k. rewrite N.eqb_refl. apply X6.
  - intros y Hy. cbv beta. rewrite (proj2 (N.eqb_neq y a) Hy). destruct (HH y) as [HS HL]. rewrite G in HS. split; [exact HS|]. intros k.
    destruct (HL k) as (-> & -> & ->). rewrite G. rewrite !(delta_ext _ _ _ _ _ _ _ R0). done.
Qed.

Lemma like_normalize r : like r (normalize r).
Proof. split; try done; intros k; apply ln_pad. Qed.
Lemma obc_right a s : right s -> right (fst (on_balance_changed a s)).
Proof.
  intros R. apply right_cm; [|done]. unfold on_balance_changed. apply cm_get. unfold id. cbv zeta.
  change (bu_updatem bu_new a true _) with (bu_updatem bu_new a true (obc_body (own_coins s a) (own_deleg s a) (bp_dust (st_bp s)) s a)).
  apply cm_bind; [done| |].
  { apply rel_try. apply sw_bu_updatem; [apply _|frame|frame|]. intros b r. apply obc_body_rel. }
  intros out s1 E ES1. apply try_ok in E. destruct out as [[b [[[dc dd] node] ban]]|e]; cycle 1.
  { destruct e; first [by apply cm_ret|by apply cm_fail]. }
  apply bu_updatem_ok in E as (s2 & b1 & r1 & r2 & E & Q & _ & ED & ES & _). rewrite bu_get_new in E.
  apply obc_body_ok in E as (_ & r0 & -> & X & H1).
  set (nb := own_coins s a) in *. set (nd := own_deleg s a) in *. clearbody nb nd.
  set (r := normalize (ref_get s a)) in *.
  assert (LR : like (ref_get s a) r) by apply like_normalize.
  assert (LL : (0 < List.length (r_coins r))%nat /\ (0 < List.length (r_deleg r))%nat).
  { unfold r. cbn. pose proof (len_pad (r_coins (ref_get s a))). pose proof (len_pad (r_deleg (ref_get s a))). lia. }
  clearbody r. destruct LL as [LL1 LL2]. injection X as -> -> -> ->.
  assert (K : exists g1, sane g1 /\ g1 a = r0 /\ r_coins r0 = r_coins r /\ r_deleg r0 = r_deleg r /\
    (forall y, bu_get b y s1 = if (y =? a)%N then r2 else g1 y)).
  { destruct H1 as [(ba & -> & D1 & C1 & _)|(A1 & A2 & _ & _ & ba & b4 & s4 & D4 & C4 & H1)].
    - exists (fun y => if (y =? a)%N then r <| r_banishment_at := ba |> else ref_get s y). split_and!; try done.
      + eapply sane_like; [|exact R]. intros y. destruct (N.eqb_spec y a) as [E0|]; [subst y|apply like_refl].
        eapply like_trans; [exact LR|]. by split.
      + by rewrite N.eqb_refl.
      + intros y. rewrite (bu_get_ext b b s s1 y); [|done|congruence]. rewrite (bu_get_insert bu_new b a r2 s); [|by rewrite ED, D1].
        destruct (y =? a)%N; [done|apply bu_get_new].
    - assert (E4 : st_ref s4 = st_ref s) by (unfold core_of in C4; congruence).
      assert (G4 : forall y, bu_get b4 y s4 = ref_get s y).
      { intros y. rewrite <- bu_get_new. by apply bu_get_ext. }
      apply (revive_sane (ref_get s)) in H1 as (E1 & S1 & Z1 & Z2 & Z3); [|done|done|unfold bang; by rewrite <- (lk_ban _ _ LR)|eapply like_trans; [exact LR|by split]|done|done].
      exists (fun y => if (y =? a)%N then r0 else bu_get b1 y s2). split_and!; [done|by rewrite N.eqb_refl|done|done|].
      intros y. rewrite (bu_get_ext b b s2 s1 y) by done. rewrite (bu_get_insert b1 b a r2 s2) by done. by destruct (y =? a)%N. }
  destruct K as (g1 & S1 & G1 & E1 & E2 & G2). clear H1.
  assert (EC : default 0 (r_coins r !! 0%nat) = ln (r_coins r0) 0 /\ default 0 (r_deleg r !! 0%nat) = ln (r_deleg r0) 0) by (rewrite E1, E2; done).
  destruct EC as [EC1 EC2]. rewrite EC1, EC2. clear EC1 EC2.
  apply cm_bind; [done|same_ref|]. intros b3 s3 EW ES3. apply cm_commit'; [done|].
  eapply (own_walk g1 r0 r2 b s1 b3 s3 s a nb nd (fun x b => if nd - ln (r_deleg r0) 0 =? 0 then b else bu_call EvStake x b));
    [done|done|congruence|congruence|done| |done|done|].
  - intros x b0. by destruct (_ =? 0).
  - destruct (r_banished r0); [apply ret_ok in EW as [-> ->]; done|exact EW].
Qed.

(** ** Banishment *)
Lemma banish_right a s : right s -> refsg (ref_get s) a = [] -> right (fst (banish_core a s)).
Proof.
  intros R Hl. apply right_cm; [|done]. unfold banish_core. apply cm_get.
  apply cm_bind; [done|same_ref|]. intros [b [[p c] d]] s1 E ES1.
  apply bu_updatem_ok in E as (s2 & b1 & r1 & r2 & E & _ & E2 & ED & ES & _). rewrite (E2 eq_refl) in ED. clear E2. rewrite bu_get_new in E.
  cbv zeta in E. apply bind_ok in E as (? & s3 & X & E). apply ensure_ok in X as [-> X1].
  apply bind_ok in E as (? & s3 & X & E). apply ensure_ok in X as [-> X2].
  apply bind_ok in E as (? & s3 & X & E). apply lift_ok in X as [-> _].
  apply bind_ok in E as (? & s3 & X & E). apply ensure_ok in X as [-> _].
  apply bind_ok in E as (? & s3 & X & E). apply ensure_ok in X as [-> X4].
  apply negb_true_iff in X1, X2, X4. apply N.eqb_neq in X1.
  change (refg (ref_get s) a <> nobody) in X1. change (actg (ref_get s) a = false) in X2. change (bang (ref_get s) a = false) in X4.
  apply ret_ok in E as [-> E]. injection E as -> -> -> -> ->. change (r_referrer (ref_get s a)) with (refg (ref_get s) a).
  set (r1' := normalize (ref_get s a) <| r_banished := true |> <| r_status := 0 |> <| r_compression_at := None |>
              <| r_downgrade_at := None |> <| r_banishment_at := None |>) in ED.
  set (c := default 0 (pad (r_coins (ref_get s a)) !! 0%nat)). set (d := default 0 (pad (r_deleg (ref_get s a)) !! 0%nat)).
  assert (EC : c = coinsg (ref_get s) a 0%nat) by apply (ln_pad _ 0). assert (EDD : d = delegg (ref_get s) a 0%nat) by apply (ln_pad _ 0).
  assert (X0 : r_referrer r1' = refg (ref_get s) a /\ r_referrals r1' = [] /\ r_banished r1' = true /\ r_active r1' = false /\
     r_arefs r1' = r_arefs (ref_get s a) /\ r_compression_at r1' = None /\ (forall k, ln (r_cnt r1') k = ln (r_cnt (ref_get s a)) k) /\
     (forall k, ln (r_coins r1') k = ln (r_coins (ref_get s a)) k /\ ln (r_deleg r1') k = ln (r_deleg (ref_get s a)) k)).
  { split_and!; try done; intros k; [|split]; apply ln_pad. }
  clearbody r1' c d.
  assert (G0 : forall y, bu_get b y s1 = if (y =? a)%N then r1' else ref_get s y).
  { intros y. rewrite (bu_get_ext b b s s1 y) by done. rewrite (bu_get_insert bu_new b a r1' s) by done. by rewrite bu_get_new. }
  set (p := refg (ref_get s) a) in *.
  assert (Hpa : p <> a).
  { intros E0. destruct (f_rank (sn_forest R)) as [rk Hrk]. pose proof (Hrk a X1) as L. fold p in L. rewrite E0 in L. lia. }
  assert (R0 : forall y, refg (fun y => bu_get b y s1) y = refg (ref_get s) y).
  { intros y. unfold refg. rewrite G0. destruct (N.eqb_spec y a) as [E0|]; [subst y; apply X0|done]. }
  assert (RK : ranked (fun y => bu_get b y s1)).
  { destruct (sane_ranked _ R) as [rk Hrk]. exists rk. intros y. rewrite R0. apply Hrk. }
  apply cm_bind; [done|same_ref|]. intros [b2 up2] s2 EU ES2.
  assert (EO : up2 = refg (fun y => bu_get b y s1) p).
  { pose proof EU as EU'. apply bu_update_ok in EU' as (? & EX & _). done. }
  apply cm_bind; [done|same_ref|]. intros b3 s3 EW ES3. apply cm_commit'; [done|].
  assert (W : (b3 = b2 /\ s3 = s2 /\ (refg (fun y => bu_get b y s1) p = nobody \/ (- c = 0 /\ - d = 0))) \/
    walk true (seq 2 9) b2 (refg (fun y => bu_get b y s1) p) (fun i _ b p => (b, add_line i (- c) (- d) p)) s2 = (s3, Ok b3)).
  { rewrite <- EO. destruct ((up2 =? nobody)%N || ((c =? 0) && (d =? 0))) eqn:ET; [|by right].
    apply ret_ok in EW as [-> ->]. left. split_and!; [done..|].
    apply orb_true_iff in ET as [ET|ET]; [left; by apply N.eqb_eq|right]. apply andb_true_iff in ET as [E1 E2].
    apply Z.eqb_eq in E1, E2. lia. }
  pose proof (chain_plus (fun l => fst (Lists.remove_fast N.compare l a)) r_referrer (fun _ b => b) b p (- c) (- d) s1 s2 b2 up2 b2 s3 b3
    (fun _ _ => eq_refl) RK X1 EU eq_refl W) as (_ & _ & HH). clear EW W EU.
  destruct X0 as (Y1 & Y2 & Y3 & Y4 & Y5 & Y6 & Y7 & Y8).
  set (g3 := fun y => bu_get b3 y s3) in *.
  assert (SH : forall y, refg g3 y = refg (ref_get s) y /\ bang g3 y = (if (y =? a)%N then true else bang (ref_get s) y) /\
    actg g3 y = actg (ref_get s) y /\ arefsg g3 y = arefsg (ref_get s) y /\
    r_compression_at (g3 y) = (if (y =? a)%N then None else r_compression_at (ref_get s y)) /\
    refsg g3 y = if (y =? p)%N then fst (Lists.remove_fast N.compare (refsg (ref_get s) p) a) else refsg (ref_get s) y).
  { intros y. destruct (HH y) as [HS _]. cbv zeta in HS. fold (g3 y) in HS. unfold refg, bang, actg, arefsg, refsg. rewrite G0 in HS.
    destruct (N.eqb_spec y a) as [E0|Hy].
    - subst y. rewrite (proj2 (N.eqb_neq a p)) in * by congruence. apply shape_inj in HS as (Z1 & Z2 & Z3 & Z4 & Z5 & Z6).
      unfold refsg, actg in Hl, X2. split_and!; first [congruence|by rewrite Z1].
    - destruct (N.eqb_spec y p) as [E0|Hp].
      + subst y. apply shape_inj in HS as (Z1 & Z2 & Z3 & Z4 & Z5 & Z6). by split_and!.
      + apply shape_inj in HS as (Z1 & Z2 & Z3 & Z4 & Z5 & Z6). by split_and!. }
  assert (LN : forall y k, coinsg g3 y k = coinsg (ref_get s) y k + delta (refg (ref_get s)) (seq 1 10) p (- c) y k /\
     delegg g3 y k = delegg (ref_get s) y k + delta (refg (ref_get s)) (seq 1 10) p (- d) y k /\ cntg g3 y k = cntg (ref_get s) y k).
  { intros y k. destruct (HH y) as [_ HL]. destruct (HL k) as (Z1 & Z2 & Z3). fold (g3 y) in Z1, Z2, Z3.
    rewrite (delta_ext _ _ _ _ _ _ _ R0) in Z1. rewrite (delta_ext _ _ _ _ _ _ _ R0) in Z2. unfold coinsg, delegg, cntg. rewrite Z1, Z2, Z3, G0.
    destruct (N.eqb_spec y a) as [E0|]; [|done]. subst y. destruct (Y8 k) as [-> ->]. by rewrite Y7. }
  assert (Hx : a <> nobody) by (intros E0; apply X1; unfold p; rewrite E0; apply (sn_forest R)).
  assert (ADJ : forall z y k, @adj (refg g3) (first z) p y k = delta (refg (ref_get s)) (seq 1 10) p z y k).
  { intros z y k. rewrite adj_delta. apply delta_ext. intros w. apply SH. }
  eapply (sane_banish (ref_get s) g3 R _ a (fst (Lists.remove_fast N.compare (refsg (ref_get s) p) a))); try done.
  - destruct (remove_fast_perm (refsg (ref_get s) p) a) as [[HN _]|HP]; [|exact HP].
    exfalso. apply HN. apply (f_list (sn_forest R)); [done|]. done.
  - intros y. apply SH.
  - intros y. unfold upd. destruct (SH y) as (_ & _ & _ & _ & _ & ->). fold p. by destruct (N.eqb_spec y p).
  - intros y. unfold upd. destruct (SH y) as (_ & -> & _). done.
  - intros y t Ht. destruct (SH y) as (_ & _ & _ & _ & HC & _). rewrite HC in Ht. by destruct (N.eqb_spec y a).
  - intros y k _. fold p. rewrite ADJ, <- EC. apply LN.
  - intros y k _. fold p. rewrite ADJ, <- EDD. apply LN.
  - intros y k. apply LN.
  - intros y. apply SH.
  Unshelve. intros y. apply SH.
Qed.
