(** The remaining operations on the referral network keep it sane: the start and
    end of a subscription, compression and transitions. *)
From Verif Require Export RefOps.
Local Notation upd := RefTheory.upd.

Lemma add_sorted_perm (l : list addr) x : x ∉ l -> fst (Lists.add_sorted N.compare l x) ≡ₚ x :: l.
Proof.
  induction l as [|y l IH]; intros H; [done|]. apply not_elem_of_cons in H as [H1 H2]. cbn [Lists.add_sorted].
  destruct (N.compare_spec y x) as [E|L|L]; [congruence| |done].
  specialize (IH H2). destruct (Lists.add_sorted N.compare l x) as [l' b]. cbn [fst] in *. rewrite IH. apply perm_swap.
Qed.
Lemma remove_ordered_perm (l : list addr) x : x ∈ l -> l ≡ₚ x :: fst (Lists.remove_ordered N.compare l x).
Proof.
  induction l as [|y l IH]; intros H; [by apply elem_of_nil in H|]. cbn [Lists.remove_ordered]. unfold Lists.eqk.
  destruct (N.compare_spec y x) as [E|L|L]; [by subst y| |].
  all: apply elem_of_cons in H as [E|H]; [lia|]; specialize (IH H); destruct (Lists.remove_ordered N.compare l x) as [l' b]; cbn [fst] in *.
  all: rewrite IH at 1; apply perm_swap.
Qed.
Lemma merge_sorted_perm (l1 l2 : list addr) : (forall x, x ∈ l1 -> x ∈ l2 -> False) -> Lists.merge_sorted N.compare l1 l2 ≡ₚ l1 ++ l2.
Proof.
  revert l2. induction l1 as [|x l1 IH1]; intros l2; [by destruct l2|].
  induction l2 as [|y l2 IH2]; intros H; [cbn; by rewrite app_nil_r|]. cbn [Lists.merge_sorted].
  destruct (N.compare_spec x y) as [E|L|L].
  - exfalso. apply (H x); [apply elem_of_cons; by left|rewrite E; apply elem_of_cons; by left].
  - cbn. apply perm_skip, IH1. intros z Hz. apply H. apply elem_of_cons. by right.
  - change ((fix go (l2 : list addr) : list addr := _) l2) with (Lists.merge_sorted N.compare (x :: l1) l2).
    rewrite IH2 by (intros z Hz Hz'; apply (H z); [done|apply elem_of_cons; by right]).
    change (y :: (x :: l1) ++ l2) with ([y] ++ (x :: l1) ++ l2). rewrite (Permutation_app_comm (x :: l1) l2), (Permutation_app_comm (x :: l1) (y :: l2)). done.
Qed.

(** ** Subscriptions *)
Lemma set_active_right a v check s : right s -> (v = true -> bang (ref_get s) a = false) -> right (fst (set_active a v check s)).
Proof.
  intros R Hb. apply right_cm; [|done]. unfold set_active. apply cm_get. unfold id. cbv zeta.
  apply cm_bind; [done|same_ref|]. intros [b o] s1 E ES1.
  apply bu_updatem_ok in E as (s2 & b1 & r1 & r2 & E & _ & E2 & ED & ES & _). rewrite (E2 eq_refl) in ED. clear E2. rewrite bu_get_new in E.
  change (r_active (normalize (ref_get s a))) with (actg (ref_get s) a) in E.
  destruct (Bool.eqb_spec (actg (ref_get s) a) v) as [EA|EA].
  { apply ret_ok in E as [-> E]. injection E as -> -> ->. by apply cm_ret. }
  set (dl := if v then 1 else -1) in *.
  apply bind_ok in E as (r' & s5 & E & E').
  apply ret_ok in E' as [-> E']. injection E' as -> -> ->. change (r_referrer (normalize (ref_get s a))) with (refg (ref_get s) a).
  assert (Hv : actg (ref_get s) a = negb v) by (by destruct (actg _ _), v).
  assert (Ba : bang (ref_get s) a = false).
  { destruct v; [by apply Hb|]. destruct (bang _ a) eqn:B; [|done]. apply (sn_ban R) in B. congruence. }
  assert (X0 : shape r' = (refg (ref_get s) a, refsg (ref_get s) a, false, v, arefsg (ref_get s) a,
     if v then None else Some (st_now s + compression_period s)) /\
     (forall k, ln (r_coins r') k = coinsg (ref_get s) a k) /\ (forall k, ln (r_deleg r') k = delegg (ref_get s) a k) /\
     r_cnt r' = add_cnt 0 dl (pad (r_cnt (ref_get s a)))).
  { unfold bang in Ba. unfold refg, refsg, arefsg, coinsg, delegg.
    assert (X1 : exists r0, r_banishment_at r0 = r_banishment_at r0 /\ r' = r0 /\ exists ba, r0 = normalize (ref_get s a) <| r_active := v |> <| r_cnt := add_cnt 0 dl (r_cnt (normalize (ref_get s a))) |>
                <| r_compression_at := if v then None else Some (st_now s + compression_period s) |> <| r_banishment_at := ba |>).
    { destruct (r_banishment_at (normalize (ref_get s a))) as [t|] eqn:Eb; [destruct v|].
      - apply bind_ok in E as (? & ? & _ & E). apply ret_ok in E as [-> ->]. eexists. split_and!; [done..|]. by exists None.
      - apply ret_ok in E as [-> ->]. eexists. split_and!; [done..|]. exists (Some t). rewrite <- Eb. done.
      - apply ret_ok in E as [-> ->]. eexists. split_and!; [done..|]. exists None. rewrite <- Eb. done. }
    destruct X1 as (r0 & _ & -> & ba & ->). split_and!; [| | |done].
    - unfold shape. cbn. by rewrite Ba.
    - intros k. apply ln_pad.
    - intros k. apply ln_pad. }
  destruct X0 as (X1 & X2 & X3 & X4). clear E. try clear s2 ES. unfold shape in X1. injection X1 as Y1 Y2 Y3 Y4 Y5 Y6.
  assert (G0 : forall y, bu_get b y s1 = if (y =? a)%N then r' else ref_get s y).
  { intros y. rewrite (bu_get_ext b b s s1 y) by done. rewrite (bu_get_insert bu_new b a r' s) by done. by rewrite bu_get_new. }
  assert (R0 : forall y, refg (fun y => bu_get b y s1) y = refg (ref_get s) y).
  { intros y. unfold refg. rewrite G0. destruct (N.eqb_spec y a) as [E0|]; [subst y; done|done]. }
  destruct (f_rank (sn_forest R)) as [rk Hrk].
  apply cm_bind; [done|same_ref|]. intros b3 s3 EW ES3.
  apply cm_bind; [done|same_ref|]. intros ? s4 ESch ES4. apply cm_commit'; [done|].
  eapply sane_ext; [intros y; apply (bu_get_ext b3 b3 s3 s4); [done|congruence]|].
  eapply (walk_ok check (seq 1 10) _ (fun i x r => let r' := r <| r_cnt := add_cnt i dl (r_cnt r) |> in
      if (i =? 1)%nat then r' <| r_arefs := if v then fst (Lists.add_sorted N.compare (r_arefs r) a)
                                  else fst (Lists.remove_ordered N.compare (r_arefs r) a) |> else r') rk) in EW as [_ HW];
    [|by intros|intros i x r; by destruct (i =? 1)%nat|intros x; rewrite R0; apply Hrk].
  set (g3 := fun y => bu_get b3 y s3) in *. set (p := refg (ref_get s) a) in *.
  assert (PE : forall y, pos (refg (fun y => bu_get b y s1)) (seq 1 10) p y = pos (refg (ref_get s)) (seq 1 10) p y).
  { intros y. apply pos_ext. intros n _. symmetry. rewrite <- (R0 (anc _ _ _)). done. }
  assert (NA : pos (refg (ref_get s)) (seq 1 10) p a = None).
  { destruct (pos _ _ _ _) as [i|] eqn:EP; [|done]. apply pos_some in EP as (_ & Hn & EP). exfalso.
    apply (anc_acyclic rk Hrk (f_nobody (sn_forest R)) (Datatypes.S (i - 1)) a Hn ltac:(lia)). rewrite anc_S. exact EP. }
  assert (HY : forall y, match pos (refg (ref_get s)) (seq 1 10) p y with
    | Some i => y <> a /\ refg g3 y = refg (ref_get s) y /\ refsg g3 y = refsg (ref_get s) y /\ bang g3 y = bang (ref_get s) y /\
        actg g3 y = actg (ref_get s) y /\ r_compression_at (g3 y) = r_compression_at (ref_get s y) /\
        (forall k, coinsg g3 y k = coinsg (ref_get s) y k) /\ (forall k, delegg g3 y k = delegg (ref_get s) y k) /\
        r_cnt (g3 y) = add_cnt i dl (pad (r_cnt (ref_get s y))) /\
        arefsg g3 y = (if (i =? 1)%nat then (if v then fst (Lists.add_sorted N.compare (arefsg (ref_get s) y) a)
                                  else fst (Lists.remove_ordered N.compare (arefsg (ref_get s) y) a)) else arefsg (ref_get s) y)
    | None => g3 y = if (y =? a)%N then r' else ref_get s y
    end).
  { intros y. specialize (HW y). rewrite PE in HW. destruct (pos (refg (ref_get s)) (seq 1 10) p y) as [i|] eqn:EP.
    - assert (Hy : y <> a) by congruence. rewrite G0, (proj2 (N.eqb_neq y a) Hy) in HW. destruct HW as (st & dd & HW).
      change (bu_get b3 y s3) with (g3 y) in HW.
      unfold refg, refsg, bang, actg, arefsg, coinsg, delegg. rewrite HW. destruct (i =? 1)%nat; split_and!; try done; intros k; apply ln_pad.
    - rewrite G0 in HW. exact HW. }
  clearbody g3. clear HW G0 R0 PE.
  eapply (sane_active (ref_get s) g3 R a v); try done.
  - intros y. specialize (HY y). destruct (pos _ _ _ y) as [i|]; [apply HY|]. unfold refg. rewrite HY. destruct (N.eqb_spec y a) as [E0|]; [subst y; done|done].
  - intros y. specialize (HY y). destruct (pos _ _ _ y) as [i|]; [apply HY|]. unfold refsg. rewrite HY. destruct (N.eqb_spec y a) as [E0|]; [subst y; done|done].
  - intros y. specialize (HY y). destruct (pos _ _ _ y) as [i|]; [apply HY|]. unfold bang. rewrite HY. destruct (N.eqb_spec y a) as [E0|]; [subst y; unfold bang in Ba; congruence|done].
  - intros y. specialize (HY y). destruct (pos _ _ _ y) as [i|]; [rewrite (proj2 (N.eqb_neq y a)) by apply HY; apply HY|].
    unfold actg. rewrite HY. by destruct (N.eqb_spec y a).
  - intros y t Ht. specialize (HY y). destruct (pos _ _ _ y) as [i|].
    + rewrite (proj2 (N.eqb_neq y a)) by apply HY. by destruct HY as (_ & _ & _ & _ & _ & <- & _).
    + rewrite HY in Ht. destruct (N.eqb_spec y a); [|done]. destruct v; congruence.
  - intros y k. specialize (HY y). destruct (pos _ _ _ y) as [i|]; [apply HY|]. unfold coinsg. rewrite HY. destruct (N.eqb_spec y a) as [E0|]; [subst y; apply X2|done].
  - intros y k. specialize (HY y). destruct (pos _ _ _ y) as [i|]; [apply HY|]. unfold delegg. rewrite HY. destruct (N.eqb_spec y a) as [E0|]; [subst y; apply X3|done].
  - intros y. specialize (HY y). pose proof (ranged_pad _ (sn_range R y)) as RG. destruct (pos _ _ _ y) as [i|].
    + destruct HY as (_ & _ & _ & _ & _ & _ & _ & _ & -> & _). by apply ranged_add_cnt.
    + rewrite HY. destruct (N.eqb_spec y a) as [E0|]; [subst y; rewrite X4; by apply ranged_add_cnt|apply (sn_range R)].
  - intros y k Hk. fold dl. rewrite adj_delta. unfold delta. fold p. specialize (HY y). unfold cntg.
    pose proof (len_pad (r_cnt (ref_get s y))) as LP.
    destruct (pos _ _ _ y) as [i|] eqn:EP.
    + rewrite (proj2 (N.eqb_neq y a)) by apply HY. apply pos_some in EP as (Hi & _). destruct HY as (_ & _ & _ & _ & _ & _ & _ & _ & -> & _).
      eapply cong_trans; [apply ln_add_cnt_cong; lia|]. rewrite ln_pad. apply cong_eq. lia.
    + rewrite HY. destruct (N.eqb_spec y a) as [E0|]; [subst y|apply cong_eq; lia].
      rewrite X4. eapply cong_trans; [apply ln_add_cnt_cong; lia|]. rewrite ln_pad. apply cong_eq. destruct (k =? 0)%nat; lia.
  - intros y Hy. fold p. specialize (HY y).
    assert (PF : pos (refg (ref_get s)) (seq 1 10) p y = Some 1%nat <-> y = p).
    { split; [intros EP; apply pos_some in EP as (_ & _ & EP); done|]. intros ->.
      apply pos_intro with (rk := rk); [done|apply (sn_forest R)|lia|done|done]. }
    destruct (N.eqb_spec y p) as [E0|Hp].
    + rewrite (proj2 PF E0) in HY. destruct HY as (_ & _ & _ & _ & _ & _ & _ & _ & _ & HA). cbn in HA. rewrite HA.
      destruct v; [apply add_sorted_perm|apply remove_ordered_perm].
      rewrite (sn_arefs R) by done. rewrite elem_of_list_filter. intros [HF _]. congruence.
    + destruct (pos _ _ _ y) as [i|].
      * destruct HY as (_ & _ & _ & _ & _ & _ & _ & _ & _ & HA). rewrite HA. destruct (Nat.eqb_spec i 1) as [E1|]; [|done].
        subst i. by destruct (Hp (proj1 PF eq_refl)).
      * unfold arefsg. rewrite HY. by destruct (N.eqb_spec y a) as [E0|]; [subst y|].
Qed.

(** ** Compression *)
Lemma fold_add_at k v n l : (k + n < List.length l)%nat -> forall m,
  ln (fold_left (fun l i => add_at (k + i)%nat (v i) l) (seq 1 n) l) m =
  ln l m + (if (k <? m)%nat && (m <=? k + n)%nat then v (m - k)%nat else 0) /\
  List.length (fold_left (fun l i => add_at (k + i)%nat (v i) l) (seq 1 n) l) = List.length l.
Proof.
  induction n as [|n IH]; intros Hn m.
  { cbn [seq fold_left]. split; [|done]. destruct (Nat.ltb_spec k m), (Nat.leb_spec m (k + 0)); cbn [andb]; lia. }
  rewrite seq_S, fold_left_app. set (l' := fold_left _ (seq 1 n) l) in *. destruct (IH ltac:(lia) m) as [E1 E2]. cbn [fold_left].
  split; [|by rewrite len_add_at]. rewrite ln_add_at by lia. rewrite E1.
  destruct (Nat.ltb_spec k m), (Nat.leb_spec m (k + n)), (Nat.leb_spec m (k + Datatypes.S n)), (Nat.eqb_spec m (k + (1 + n))); cbn [andb]; try lia.
  subst m. replace (k + (1 + n) - k)%nat with (1 + n)%nat by lia. lia.
Qed.
Lemma fold_add_cnt k v n l : (k + n < List.length l)%nat -> forall m,
  cong (2 ^ 64) (ln (fold_left (fun l i => add_cnt (k + i)%nat (v i) l) (seq 1 n) l) m)
    (ln l m + (if (k <? m)%nat && (m <=? k + n)%nat then v (m - k)%nat else 0)) /\
  List.length (fold_left (fun l i => add_cnt (k + i)%nat (v i) l) (seq 1 n) l) = List.length l /\
  (ranged l -> ranged (fold_left (fun l i => add_cnt (k + i)%nat (v i) l) (seq 1 n) l)).
Proof.
  induction n as [|n IH]; intros Hn m.
  { cbn [seq fold_left]. split_and!; [|done|done]. apply cong_eq. destruct (Nat.ltb_spec k m), (Nat.leb_spec m (k + 0)); cbn [andb]; lia. }
  rewrite seq_S, fold_left_app. set (l' := fold_left _ (seq 1 n) l) in *. destruct (IH ltac:(lia) m) as (E1 & E2 & E3). cbn [fold_left].
  split_and!; [|by rewrite len_add_cnt|intros HR; by apply ranged_add_cnt, E3].
  eapply cong_trans; [apply ln_add_cnt_cong; lia|]. eapply cong_trans; [apply cong_add; [exact E1|apply cong_refl]|]. apply cong_eq.
  destruct (Nat.ltb_spec k m), (Nat.leb_spec m (k + n)), (Nat.leb_spec m (k + Datatypes.S n)), (Nat.eqb_spec m (k + (1 + n))); cbn [andb]; try lia.
  subst m. replace (k + (1 + n) - k)%nat with (1 + n)%nat by lia. lia.
Qed.
(** What an ancestor at distance [i] gains on its line [k] *)
Definition gain (src : nat -> Z) (i k : nat) : Z :=
  if (i <=? k)%nat then src (k - i + 1)%nat - (if (k - i =? 0)%nat then 0 else src (k - i)%nat) else 0.
Lemma ln_line_shift i src l k : (1 <= i <= 10)%nat -> (11 <= List.length l)%nat -> (k <= 9)%nat ->
  ln (line_shift i src l) k = ln l k + gain (ln src) i k.
Proof.
  intros Hi HL Hk. unfold line_shift. cbv zeta.
  destruct (Nat.eq_dec i 10) as [E0|].
  { subst i. change (seq 1 (9 - 10)) with (@nil nat). cbn [fold_left]. rewrite ln_add_at by lia. unfold gain.
    destruct (Nat.eqb_spec k 10), (Nat.leb_spec 10 k); lia. }
  edestruct (fold_add_at i (fun j => default 0 (src !! (j + 1)%nat) - default 0 (src !! j)) (9 - i) (add_at i (default 0 (src !! 1%nat)) l)) as [-> _];
    [rewrite len_add_at; lia|]. rewrite ln_add_at by lia. unfold gain.
  change (default 0 (src !! 1%nat)) with (ln src 1). fold (ln src (k - i + 1)) (ln src (k - i)).
  destruct (Nat.eqb_spec k i), (Nat.ltb_spec i k), (Nat.leb_spec k (i + (9 - i))), (Nat.leb_spec i k), (Nat.eqb_spec (k - i) 0); cbn [andb]; try lia.
  subst k. rewrite Nat.sub_diag. cbn. lia.
Qed.
Lemma ln_cnt_shift i src l k : (1 <= i <= 10)%nat -> (11 <= List.length l)%nat -> (k <= 9)%nat ->
  cong (2 ^ 64) (ln (cnt_shift i src l) k) (ln l k + gain (ln src) i k) /\ (ranged l -> ranged (cnt_shift i src l)).
Proof.
  intros Hi HL Hk. unfold cnt_shift. cbv zeta.
  destruct (Nat.eq_dec i 10) as [E0|].
  { subst i. change (seq 1 (9 - 10)) with (@nil nat). cbn [fold_left]. split; [|apply ranged_add_cnt].
    eapply cong_trans; [apply ln_add_cnt_cong; lia|]. apply cong_eq. unfold gain. destruct (Nat.eqb_spec k 10), (Nat.leb_spec 10 k); lia. }
  edestruct (fold_add_cnt i (fun j => default 0 (src !! (j + 1)%nat) - default 0 (src !! j)) (9 - i) (add_cnt i (default 0 (src !! 1%nat)) l)) as (E1 & _ & E3);
    [rewrite len_add_cnt; lia|]. split; [|intros HR; by apply E3, ranged_add_cnt].
  eapply cong_trans; [exact E1|]. eapply cong_trans; [apply cong_add; [apply ln_add_cnt_cong; lia|apply cong_refl]|]. apply cong_eq. unfold gain.
  change (default 0 (src !! 1%nat)) with (ln src 1). fold (ln src (k - i + 1)) (ln src (k - i)).
  destruct (Nat.eqb_spec k i), (Nat.ltb_spec i k), (Nat.leb_spec k (i + (9 - i))), (Nat.leb_spec i k), (Nat.eqb_spec (k - i) 0); cbn [andb]; try lia.
  subst k. rewrite Nat.sub_diag. cbn. lia.
Qed.
Lemma adj_gain ref (src : nat -> Z) q y k : @adj ref (fun j => src (j + 1)%nat - if (j =? 0)%nat then 0 else src j) q y k =
  match pos ref (seq 1 10) q y with Some i => gain src i k | None => 0 end.
Proof. unfold adj, gain. by destruct (pos _ _ _ _). Qed.

Lemma mfold_referrer p l : forall b s s' b',
  mfold l b (fun b child => let! (b, _) := bu_update b child false (fun r => (r <| r_referrer := p |>, tt)) in ret b) s = (s', Ok b') ->
  st_ref s' = st_ref s /\ forall y, if bool_decide (y ∈ l) then like (bu_get b y s <| r_referrer := p |>) (bu_get b' y s') else bu_get b' y s' = bu_get b y s.
Proof.
  induction l as [|x l IH]; intros b s s' b' H; cbn [mfold] in H.
  { apply ret_ok in H as [-> ->]. split; [done|]. intros y. by rewrite bool_decide_false by apply not_elem_of_nil. }
  apply bind_ok in H as (b1 & s1 & E & H). apply bind_ok in E as ([b2 u] & s2 & E & E'). apply ret_ok in E' as [-> ->].
  apply bu_update_ok in E as (r2 & _ & _ & E2 & ED & ES). rewrite (E2 eq_refl) in ED. cbn [fst] in ED. clear E2.
  apply IH in H as [ES' H]. split; [congruence|]. intros y. specialize (H y).
  assert (G : bu_get b2 y s2 = if (y =? x)%N then normalize (bu_get b x s) <| r_referrer := p |> else bu_get b y s).
  { rewrite (bu_get_ext b2 b2 s s2 y) by done. by apply bu_get_insert. }
  rewrite G in H. destruct (N.eqb_spec y x) as [E0|Hy].
  - subst y. rewrite bool_decide_true by (apply elem_of_cons; by left).
    assert (L : like (bu_get b x s <| r_referrer := p |>) (normalize (bu_get b x s) <| r_referrer := p |>)).
    { split; try done; intros k; apply ln_pad. }
    destruct (bool_decide (x ∈ l)); [|rewrite H; exact L]. eapply like_trans; [|exact H]. exact L.
  - destruct (decide (y ∈ l)) as [Hl|Hl].
    + rewrite bool_decide_true in H |- * by (try apply elem_of_cons; auto). exact H.
    + rewrite bool_decide_false in H by done. rewrite bool_decide_false by (rewrite elem_of_cons; tauto). exact H.
Qed.
Lemma compress_right a s : right s -> actg (ref_get s) a = false -> bang (ref_get s) a = false -> right (fst (compress a s)).
Proof.
  intros R Aa Ba. apply right_cm; [|done]. unfold compress. apply cm_get.
  apply cm_bind; [done|same_ref|]. intros [b old] s1 E ES1.
  apply bu_updatem_ok in E as (s2 & b1 & r1 & r2 & E & _ & E2 & ED & ES & _). rewrite (E2 eq_refl) in ED. clear E2. rewrite bu_get_new in E.
  change (r_referrer (normalize (ref_get s a))) with (refg (ref_get s) a) in E.
  destruct (N.eqb_spec (refg (ref_get s) a) nobody) as [|Hr]; [by apply fail_ok in E|]. cbv zeta in E.
  apply bind_ok in E as (u00 & s00 & _ & E). apply bind_ok in E as (own & s3 & X & E). apply lift_ok in X as [-> _].
  apply bind_ok in E as (r' & s5 & X & E). apply ret_ok in E as [-> E]. injection E as -> -> ->.
  set (g := ref_get s) in *.
  assert (X0 : shape r' = (refg g a, [], false, false, [], None) /\ (forall k, (k <= 10)%nat -> ln (r_cnt r') k = 0) /\ ranged (r_cnt r') /\
     (forall k, (k <= 10)%nat -> ln (r_coins r') k = first (coinsg g a 0%nat) k /\ ln (r_deleg r') k = first (delegg g a 0%nat) k)).
  { assert (X1 : exists ba, r' = normalize (ref_get s a) <| r_referrals := [] |> <| r_arefs := [] |> <| r_cnt := repeat 0 11 |>
                <| r_coins := keep_first (r_coins (normalize (ref_get s a))) |> <| r_deleg := keep_first (r_deleg (normalize (ref_get s a))) |>
                <| r_compression_at := None |> <| r_status := 1 |> <| r_banishment_at := ba |>).
    { destruct (own <=? _).
      - unfold schedule_banishment in X. apply bind_ok in X as (t & s6 & _ & X). apply bind_ok in X as (u & s7 & _ & X).
        apply ret_ok in X as [-> ->]. by exists (Some t).
      - apply ret_ok in X as [-> ->]. by exists (r_banishment_at (ref_get s a)). }
    destruct X1 as [ba ->]. unfold bang, actg, g in Aa, Ba. split_and!.
    - unfold shape. cbn. by rewrite Aa, Ba.
    - intros k Hk. cbn. unfold ln. do 11 (destruct k as [|k]; [done|]). done.
    - intros k. cbn. unfold ln. do 11 (destruct k as [|k]; [done|]). done.
    - intros k Hk. pose proof (ln_pad (r_coins (ref_get s a)) 0) as L1. pose proof (ln_pad (r_deleg (ref_get s a)) 0) as L2.
      unfold coinsg, delegg, g. rewrite <- L1, <- L2. clear.
      unfold first. do 11 (destruct k as [|k]; [done|]). done. }
  clear X. destruct X0 as (X1 & X2 & X3 & X4). unfold shape in X1. injection X1 as Y1 Y2 Y3 Y4 Y5 Y6.
  set (p := refg g a) in *. change (r_referrals (ref_get s a)) with (refsg g a).
  assert (GS : forall y, bu_get b y s1 = if (y =? a)%N then r' else g y).
  { intros y. rewrite (bu_get_ext b b s s1 y) by done. rewrite (bu_get_insert bu_new b a r' s) by done. by rewrite bu_get_new. }
  apply cm_bind; [done|same_ref|]. intros b2 s6 EM ES6.
  set (old := normalize (g a)) in *. change (r_referrer old) with p in EM |- *. change (r_referrals old) with (refsg g a) in EM |- *.
  change (r_arefs old) with (arefsg g a).
  assert (O1 : forall k, ln (r_coins old) k = coinsg g a k) by (intros k; apply ln_pad).
  assert (O2 : forall k, ln (r_deleg old) k = delegg g a k) by (intros k; apply ln_pad).
  assert (O3 : forall k, ln (r_cnt old) k = cntg g a k) by (intros k; apply ln_pad).
  clearbody old. apply mfold_referrer in EM as [_ EM].
  pose proof (sn_forest R) as F. fold g in F.
  assert (Hx : a <> nobody) by (intros E0; apply Hr; unfold p; rewrite E0; apply F).
  destruct (f_rank F) as [rk0 Hrk0].
  assert (Hpa : p <> a). { intros E0. pose proof (Hrk0 a Hr) as L. fold p in L. rewrite E0 in L. lia. }
  assert (CH : forall y, y ∈ refsg g a -> y <> a /\ y <> p).
  { intros y Hy. apply (f_list F) in Hy as [Hy _]; [|done]. split; intros E0; subst y; [by apply Hpa|].
    pose proof (Hrk0 a Hr) as L1. fold p in L1. pose proof (Hrk0 p ltac:(by rewrite Hy)) as L2. rewrite Hy in L2. lia. }
  set (g2 := fun y => bu_get b2 y s6) in *.
  assert (G2 : forall y, if (y =? a)%N then g2 y = r' else if bool_decide (y ∈ refsg g a) then like (g y <| r_referrer := p |>) (g2 y) else g2 y = g y).
  { intros y. specialize (EM y). change (bu_get b2 y s6) with (g2 y) in EM. rewrite GS in EM. destruct (N.eqb_spec y a) as [E0|]; [|exact EM].
    subst y. rewrite bool_decide_false in EM; [exact EM|]. intros HI. by apply CH in HI as [? _]. }
  clear EM GS ED.
  pose proof (forest_compress _ _ _ a F Hr) as F'. fold p in F'. destruct (f_rank F') as [rk Hrk].
  assert (R2 : forall y, refg g2 y = moved (refg g) (refsg g a) p y).
  { intros y. specialize (G2 y). unfold moved, refg. destruct (N.eqb_spec y a) as [E0|Hy].
    - subst y. rewrite G2. rewrite bool_decide_false; [done|]. intros HI. by apply CH in HI as [? _].
    - destruct (bool_decide (y ∈ refsg g a)); [by rewrite (lk_ref _ _ G2)|by rewrite G2]. }
  apply cm_bind; [done|same_ref|]. intros b3 s7 EW ES7. apply cm_commit'; [done|].
  eapply (walk_ok true (seq 1 10) _ (fun k x r => let r' := r <| r_coins := line_shift k (r_coins old) (r_coins r) |>
                <| r_deleg := line_shift k (r_deleg old) (r_deleg r) |>
                <| r_cnt := cnt_shift k (r_cnt old) (r_cnt r) |> in
     if (k =? 1)%nat
     then r' <| r_referrals := r_referrals r ++ refsg g a |>
             <| r_arefs := Lists.merge_sorted N.compare (r_arefs r) (arefsg g a) |>
     else r') rk) in EW as [_ HW]; [|by intros|intros i x r; by destruct (i =? 1)%nat|].
  2:{ intros x. change (refg (fun y => bu_get b2 y s6) x) with (refg g2 x). rewrite R2. apply Hrk. }
  set (g3 := fun y => bu_get b3 y s7) in *.
  assert (NA : pos (refg g2) (seq 1 10) p a = None).
  { destruct (pos _ _ _ _) as [i|] eqn:EP; [|done]. apply pos_some in EP as (_ & Hn & EP). exfalso.
    assert (RA : refg g2 a = p). { rewrite R2. unfold moved. rewrite bool_decide_false; [done|]. intros HI. by apply CH in HI as [? _]. }
    assert (Hrk2 : forall x, refg g2 x <> nobody -> (rk (refg g2 x) < rk x)%nat) by (intros x; rewrite R2; apply Hrk).
    apply (anc_acyclic rk Hrk2 ltac:(rewrite R2; apply F') (Datatypes.S (i - 1)) a Hn ltac:(lia)). rewrite anc_S, RA. exact EP. }
  assert (L2 : forall y, y <> a -> (if bool_decide (y ∈ refsg g a) then refg g2 y = p else refg g2 y = refg g y) /\ refsg g2 y = refsg g y /\ bang g2 y = bang g y /\ actg g2 y = actg g y /\
    arefsg g2 y = arefsg g y /\ r_compression_at (g2 y) = r_compression_at (g y) /\ (forall k, coinsg g2 y k = coinsg g y k) /\
    (forall k, delegg g2 y k = delegg g y k) /\ (forall k, cntg g2 y k = cntg g y k)).
  { intros y Hy. specialize (G2 y). rewrite (proj2 (N.eqb_neq y a) Hy) in G2.
    destruct (bool_decide (y ∈ refsg g a)); unfold refg, refsg, bang, actg, arefsg, coinsg, delegg, cntg;
      [destruct G2; by split_and!|rewrite G2; by split_and!]. }
  assert (PF : forall y, y <> nobody -> pos (refg g2) (seq 1 10) p y = Some 1%nat <-> y = p).
  { intros y Hy. split; [intros EP; apply pos_some in EP as (_ & _ & EP); done|]. intros ->.
    apply pos_intro with (rk := rk); [intros x; rewrite R2; apply Hrk|rewrite R2; apply F'|lia|done|done]. }
  assert (HY : forall y, match pos (refg g2) (seq 1 10) p y with
    | Some i => y <> a /\ refg g3 y = refg g2 y /\ bang g3 y = bang g2 y /\ actg g3 y = actg g2 y /\
        r_compression_at (g3 y) = r_compression_at (g2 y) /\
        (forall k, (k <= 9)%nat -> coinsg g3 y k = coinsg g2 y k + gain (coinsg g a) i k) /\
        (forall k, (k <= 9)%nat -> delegg g3 y k = delegg g2 y k + gain (delegg g a) i k) /\
        (forall k, (k <= 9)%nat -> cong (2 ^ 64) (cntg g3 y k) (cntg g2 y k + gain (cntg g a) i k)) /\
        (ranged (r_cnt (g2 y)) -> ranged (r_cnt (g3 y))) /\
        refsg g3 y = (if (i =? 1)%nat then refsg g2 y ++ refsg g a else refsg g2 y) /\
        arefsg g3 y = (if (i =? 1)%nat then Lists.merge_sorted N.compare (arefsg g2 y) (arefsg g a) else arefsg g2 y)
    | None => g3 y = g2 y
    end).
  { intros y. specialize (HW y). change (refg (fun y => bu_get b2 y s6)) with (refg g2) in HW. change (bu_get b2 y s6) with (g2 y) in HW. change (bu_get b3 y s7) with (g3 y) in HW.
    destruct (pos (refg g2) (seq 1 10) p y) as [i|] eqn:EP; [|exact HW].
    assert (Hy : y <> a) by congruence. destruct HW as (st & dd & HW). apply pos_some in EP as (Hi & _).
    unfold refg, refsg, bang, actg, arefsg, coinsg, delegg, cntg.
    assert (Q1 : r_coins (g3 y) = line_shift i (r_coins old) (pad (r_coins (g2 y))) /\ r_deleg (g3 y) = line_shift i (r_deleg old) (pad (r_deleg (g2 y))) /\
                 r_cnt (g3 y) = cnt_shift i (r_cnt old) (pad (r_cnt (g2 y)))).
    { rewrite HW. by destruct (i =? 1)%nat. }
    destruct Q1 as (Q1 & Q2 & Q3). pose proof (len_pad (r_coins (g2 y))). pose proof (len_pad (r_deleg (g2 y))). pose proof (len_pad (r_cnt (g2 y))).
    assert (GE : forall f f' k, (forall k, f k = f' k) -> gain f i k = gain f' i k).
    { intros f f' k Hf. unfold gain. by rewrite !Hf. }
    split_and!; try (rewrite HW; by destruct (i =? 1)%nat).
    - done.
    - intros k Hk. rewrite Q1, ln_line_shift by lia. rewrite ln_pad. f_equal. by apply GE.
    - intros k Hk. rewrite Q2, ln_line_shift by lia. rewrite ln_pad. f_equal. by apply GE.
    - intros k Hk. rewrite Q3. eapply cong_trans; [apply ln_cnt_shift; lia|]. rewrite ln_pad. apply cong_eq. f_equal. by apply GE.
    - intros HR. rewrite Q3. apply (ln_cnt_shift i (r_cnt old) (pad (r_cnt (g2 y))) 0); [lia..|]. by apply ranged_pad. }
  clearbody g3. clear HW.
  assert (GA : g2 a = r') by (specialize (G2 a); by rewrite N.eqb_refl in G2).
  assert (HR : forall y, refg g3 y = refg g2 y).
  { intros y. specialize (HY y). destruct (pos _ _ _ y) as [i|]; [apply HY|]. unfold refg. by rewrite HY. }
  assert (PE : forall y, pos (refg g3) (seq 1 10) p y = pos (refg g2) (seq 1 10) p y).
  { intros y. apply pos_ext. intros n _. apply HR. }
  eapply (sane_compress g g3 R _ a); try done.
  - intros y. rewrite HR. apply R2.
  - intros y. fold p. specialize (HY y). unfold upd. destruct (N.eqb_spec y p) as [E0|Hp].
    + subst y. rewrite (proj2 (PF p Hr) eq_refl) in HY. destruct HY as (_ & _ & _ & _ & _ & _ & _ & _ & _ & -> & _). cbn.
      by destruct (L2 p Hpa) as (_ & -> & _).
    + assert (HY' : refsg g3 y = refsg g2 y).
      { destruct (pos _ _ _ y) as [i|] eqn:EP; [|unfold refsg; by rewrite HY]. destruct HY as (_ & _ & _ & _ & _ & _ & _ & _ & _ & -> & _).
        destruct (Nat.eqb_spec i 1) as [E1|]; [|done]. subst i. pose proof EP as EP'. apply pos_some in EP' as (_ & Hn & _). by apply PF in EP. }
      rewrite HY'. destruct (N.eqb_spec y a) as [E0|Hy]; [subst y; unfold refsg; by rewrite GA|]. by destruct (L2 y Hy) as (_ & -> & _).
  - intros y. specialize (HY y). assert (HY' : bang g3 y = bang g2 y).
    { destruct (pos _ _ _ y) as [i|]; [apply HY|unfold bang; by rewrite HY]. }
    rewrite HY'. destruct (N.eq_dec y a) as [E0|Hy]; [subst y; unfold bang in *; rewrite GA; congruence|]. by destruct (L2 y Hy) as (_ & _ & -> & _).
  - intros y t Ht. specialize (HY y). assert (HY' : r_compression_at (g3 y) = r_compression_at (g2 y)).
    { destruct (pos _ _ _ y) as [i|]; [apply HY|by rewrite HY]. }
    rewrite HY' in Ht. destruct (N.eq_dec y a) as [E0|Hy]; [subst y; rewrite GA in Ht; congruence|]. by destruct (L2 y Hy) as (_ & _ & _ & _ & _ & <- & _).
  - intros y k Hk. rewrite adj_gain. fold p. rewrite PE. specialize (HY y). destruct (N.eqb_spec y a) as [E0|Hy].
    + subst y. rewrite NA in HY |- *. unfold coinsg at 1. rewrite HY, GA. destruct (X4 k ltac:(lia)) as [-> _]. lia.
    + destruct (L2 y Hy) as (_ & _ & _ & _ & _ & _ & L & _). destruct (pos _ _ _ y) as [i|].
      * destruct HY as (_ & _ & _ & _ & _ & -> & _); [|done]. by rewrite L.
      * unfold coinsg at 1. rewrite HY. fold (coinsg g2 y k). rewrite L. lia.
  - intros y k Hk. rewrite adj_gain. fold p. rewrite PE. specialize (HY y). destruct (N.eqb_spec y a) as [E0|Hy].
    + subst y. rewrite NA in HY |- *. unfold delegg at 1. rewrite HY, GA. destruct (X4 k ltac:(lia)) as [_ ->]. lia.
    + destruct (L2 y Hy) as (_ & _ & _ & _ & _ & _ & _ & L & _). destruct (pos _ _ _ y) as [i|].
      * destruct HY as (_ & _ & _ & _ & _ & _ & -> & _); [|done]. by rewrite L.
      * unfold delegg at 1. rewrite HY. fold (delegg g2 y k). rewrite L. lia.
  - intros y. specialize (HY y). assert (RG : ranged (r_cnt (g2 y))).
    { destruct (N.eq_dec y a) as [E0|Hy]; [subst y; by rewrite GA|]. destruct (L2 y Hy) as (_ & _ & _ & _ & _ & _ & _ & _ & L).
      intros k. unfold cntg in L. rewrite L. apply (sn_range R). }
    destruct (pos _ _ _ y) as [i|]; [by apply HY|by rewrite HY].
  - intros y k Hk. rewrite adj_gain. fold p. rewrite PE. specialize (HY y). destruct (N.eqb_spec y a) as [E0|Hy].
    + subst y. rewrite NA in HY |- *. unfold cntg at 1. rewrite HY, GA, X2 by lia. apply cong_eq. lia.
    + destruct (L2 y Hy) as (_ & _ & _ & _ & _ & _ & _ & _ & L). destruct (pos _ _ _ y) as [i|].
      * destruct HY as (_ & _ & _ & _ & _ & _ & _ & HY & _). specialize (HY k Hk). by rewrite L in HY.
      * unfold cntg at 1. rewrite HY. fold (cntg g2 y k). rewrite L. apply cong_eq. lia.
  - intros y. fold p. specialize (HY y). unfold upd. destruct (N.eqb_spec y p) as [E0|Hp].
    + subst y. rewrite (proj2 (PF p Hr) eq_refl) in HY. destruct HY as (_ & _ & _ & _ & _ & _ & _ & _ & _ & _ & ->). cbn [Nat.eqb].
      destruct (L2 p Hpa) as (_ & _ & _ & _ & -> & _). apply merge_sorted_perm. intros z. change (sane g) in R.
      rewrite (sn_arefs R p Hr), (sn_arefs R a Hx), !elem_of_list_filter. intros [_ H1] [_ H2].
      apply (f_list F) in H1 as [H1 _]; [|done]. apply (f_list F) in H2 as [H2 _]; [|done]. congruence.
    + assert (HY' : arefsg g3 y = arefsg g2 y).
      { destruct (pos _ _ _ y) as [i|] eqn:EP; [|unfold arefsg; by rewrite HY]. destruct HY as (_ & _ & _ & _ & _ & _ & _ & _ & _ & _ & ->).
        destruct (Nat.eqb_spec i 1) as [E1|]; [|done]. subst i. pose proof EP as EP'. apply pos_some in EP' as (_ & Hn & _). by apply PF in EP. }
      rewrite HY'. destruct (N.eqb_spec y a) as [E0|Hy]; [subst y; unfold arefsg; by rewrite GA, Y5|]. by destruct (L2 y Hy) as (_ & _ & _ & _ & -> & _).
  Unshelve. intros y. specialize (HY y). assert (HY' : actg g3 y = actg g2 y).
    { destruct (pos _ _ _ y) as [i|]; [apply HY|unfold actg; by rewrite HY]. }
    rewrite HY'. destruct (N.eq_dec y a) as [E0|Hy]; [subst y; unfold actg in *; rewrite GA; congruence|]. by destruct (L2 y Hy) as (_ & _ & _ & -> & _).
Qed.
