(** * The lists of referrals agree with the referrers, whatever happens

    Unlike [sane], this does not depend on the referrers forming a forest, so
    that it also holds where an account has become its own referrer.  If wanted
    ([R]), it also says that the only circles are accounts that are their own
    referrers, and that these are among [Own]; [B] are the accounts with a record. *)
From Verif Require Export RefHist.
Open Scope Z_scope.

(** *** Chains of referrers that end, if not in an account that is its own *)
Definition ranked (ref : addr -> addr) : Prop :=
  exists rk : addr -> nat, forall x, ref x = x \/ (rk (ref x) < rk x)%nat.
Lemma ranked_ext ref ref' : (forall x, ref' x = ref x) -> ranked ref -> ranked ref'.
Proof. intros H [rk K]. exists rk. intros x. rewrite H. apply K. Qed.
Lemma rank_anc ref (rk : addr -> nat) : (forall x, ref x = x \/ (rk (ref x) < rk x)%nat) -> forall n a, (rk (anc ref n a) <= rk a)%nat.
Proof.
  intros K n a. induction n as [|n IH]; [done|]. cbn. destruct (K (anc ref n a)) as [E|L]; [by rewrite E|lia].
Qed.
Lemma ranked_up ref a n : ranked ref -> ranked (RefTheory.upd ref a (anc ref n (ref a))).
Proof.
  intros [rk K]. exists rk. intros x. unfold RefTheory.upd. destruct (N.eqb_spec x a) as [->|]; [|apply K].
  pose proof (rank_anc ref rk K n (ref a)) as L. destruct (K a) as [E|L']; [|right; lia].
  left. rewrite E. clear - E. induction n as [|n IH]; [done|]. cbn. by rewrite IH.
Qed.
Lemma ranked_new ref c q : ranked ref -> (forall x, ref x = c -> x = c) -> ranked (RefTheory.upd ref c q).
Proof.
  intros [rk K] H. exists (fun y => if (y =? c)%N then Datatypes.S (rk q) else rk y). intros x. unfold RefTheory.upd.
  destruct (N.eqb_spec x c) as [->|Hx].
  - destruct (N.eqb_spec q c) as [->|]; [by left|right; lia].
  - destruct (N.eqb_spec (ref x) c) as [E|]; [by apply H in E|apply K].
Qed.
Lemma ranked_move ref x q : ranked ref -> (forall n, anc ref n q <> x) -> ranked (RefTheory.upd ref x q).
Proof.
  intros [rk K] H. set (thru y := bool_decide (x ∈ map (fun n => anc ref n y) (seq 0 (Datatypes.S (rk y))))).
  assert (A : forall y n, ref y = y -> anc ref n y = y).
  { intros y n E. induction n as [|n IH]; [done|]. cbn. by rewrite IH. }
  assert (F : forall k y, (rk y <= k)%nat -> forall n, anc ref n y = x -> exists m, (m <= rk y)%nat /\ anc ref m y = x).
  { induction k as [|k IH]; intros y L n E; (destruct (K y) as [E0|L0]; [exists 0%nat; rewrite (A y n E0) in E; split; [lia|done]|]); [lia|].
    destruct n as [|n]; [exists 0%nat; split; [lia|done]|]. rewrite anc_S in E. destruct (IH (ref y) ltac:(lia) n E) as (m & Lm & Em).
    exists (Datatypes.S m). split; [lia|]. by rewrite anc_S. }
  assert (T : forall y, thru y = true <-> exists n, anc ref n y = x).
  { intros y. unfold thru. rewrite bool_decide_eq_true. split.
    - intros HI. apply elem_of_list_In, in_map_iff in HI as (n & E & _). by exists n.
    - intros [n E]. destruct (F (rk y) y ltac:(lia) n E) as (m & L & Em).
      apply elem_of_list_In, in_map_iff. exists m. split; [done|]. apply in_seq. lia. }
  exists (fun y => if thru y then (rk y + rk q + 1)%nat else rk y). intros y. unfold RefTheory.upd.
  assert (Tq : thru q = false). { destruct (thru q) eqn:E; [|done]. apply T in E as [n E]. by apply H in E. }
  destruct (N.eqb_spec y x) as [->|Hy].
  - right. assert (Tx : thru x = true) by (apply T; by exists 0%nat). rewrite Tx, Tq. lia.
  - destruct (K y) as [E|L]; [by left|right].
    assert (TE : thru (ref y) = thru y).
    { apply eq_true_iff_eq. rewrite !T. split; intros [n E]; [exists (Datatypes.S n); by rewrite anc_S|].
      destruct n as [|n]; [cbn in E; congruence|]. exists n. by rewrite <- anc_S. }
    rewrite TE. destruct (thru y); lia.
Qed.
Lemma ranked_lift ref a (l : list addr) : ranked ref -> (forall x, x ∈ l -> ref x = a) ->
  ranked (fun y => if bool_decide (y ∈ l) then ref a else ref y).
Proof.
  intros [rk K] H. exists rk. intros x. destruct (bool_decide_reflect (x ∈ l)) as [Hx|]; [|apply K].
  apply H in Hx. destruct (K x) as [E|L]; destruct (K a) as [E'|L'].
  - left. congruence.
  - left. congruence.
  - right. congruence.
  - right. rewrite Hx in L. lia.
Qed.

Section lists.
Context {R : Prop} {B Own : addr -> Prop}.
Record tidy (g : addr -> rinfo) : Prop := mkTidy {
  td_nobody : refg g nobody = nobody;
  td_none : refsg g nobody = [];
  td_list : forall p x, p <> nobody -> (x ∈ refsg g p <-> refg g x = p /\ bang g x = false);
  td_once : forall p, NoDup (refsg g p);
  td_ban : forall a, bang g a = true -> actg g a = false;
  td_arefs : forall p, p <> nobody -> arefsg g p ≡ₚ filter (fun x => actg g x = true) (refsg g p);
  td_rank : R -> ranked (refg g);
  td_named : R -> forall x, bang g x = true -> refg g x = nobody \/ B (refg g x);
  td_own : R -> forall x, refg g x = x -> x = nobody \/ Own x }.
Arguments td_nobody {_}. Arguments td_none {_}. Arguments td_list {_}. Arguments td_once {_}. Arguments td_ban {_}. Arguments td_arefs {_}. Arguments td_rank {_}. Arguments td_named {_}. Arguments td_own {_}.

Lemma tidy_shape g g' : (forall y, shape (g' y) = shape (g y)) -> tidy g -> tidy g'.
Proof.
  intros H T.
  assert (HY : forall y, refg g' y = refg g y /\ refsg g' y = refsg g y /\ bang g' y = bang g y /\ actg g' y = actg g y /\ arefsg g' y = arefsg g y).
  { intros y. specialize (H y). apply shape_inj in H as (H1 & H2 & H3 & H4 & H5 & _). by split_and!. }
  split.
  - destruct (HY nobody) as (-> & _). apply T.
  - destruct (HY nobody) as (_ & -> & _). apply T.
  - intros p x Hp. destruct (HY p) as (_ & -> & _). destruct (HY x) as (-> & _ & -> & _). by apply T.
  - intros p. destruct (HY p) as (_ & -> & _). apply T.
  - intros a. destruct (HY a) as (_ & _ & -> & -> & _). apply T.
  - intros p Hp. destruct (HY p) as (_ & -> & _ & _ & ->).
    rewrite (list_filter_iff _ (fun x => actg g x = true)); [by apply T|]. intros x. by destruct (HY x) as (_ & _ & _ & -> & _).
  - intros HR. eapply ranked_ext; [|by apply T]. intros x. by destruct (HY x) as (-> & _).
  - intros HR x. destruct (HY x) as (-> & _ & -> & _). by apply T.
  - intros HR x. destruct (HY x) as (-> & _). by apply T.
Qed.
Lemma like_shape r r' : like r r' -> shape r' = shape r.
Proof. intros []. unfold shape. congruence. Qed.
Lemma tidy_like g g' : (forall y, like (g y) (g' y)) -> tidy g -> tidy g'.
Proof. intros H. apply tidy_shape. intros y. apply like_shape, H. Qed.
Lemma tidy_ext g g' : (forall y, g' y = g y) -> tidy g -> tidy g'.
Proof. intros H. apply tidy_shape. intros y. by rewrite H. Qed.

(** One account changes its referrer, its banishment or its subscription, and
    goes in and out of the lists accordingly. *)
Definition listed (g : addr -> rinfo) (x p : addr) : list addr :=
  if (refg g x =? p)%N && negb (bang g x) then [x] else [].
Definition alisted (g : addr -> rinfo) (x p : addr) : list addr :=
  if (refg g x =? p)%N && negb (bang g x) && actg g x then [x] else [].
Lemma tidy_one g g' x : tidy g ->
  (forall y, y <> x -> refg g' y = refg g y /\ bang g' y = bang g y /\ actg g' y = actg g y) ->
  (bang g' x = true -> actg g' x = false) -> (x = nobody -> refg g' x = nobody) -> refsg g' nobody = [] ->
  (forall p, p <> nobody -> exists l, refsg g p ≡ₚ listed g x p ++ l /\ refsg g' p ≡ₚ listed g' x p ++ l) ->
  (forall p, p <> nobody -> exists l, arefsg g p ≡ₚ alisted g x p ++ l /\ arefsg g' p ≡ₚ alisted g' x p ++ l) ->
  (R -> ranked (RefTheory.upd (refg g) x (refg g' x))) ->
  (R -> bang g' x = true -> refg g' x = nobody \/ B (refg g' x)) ->
  (R -> refg g' x = x -> x = nobody \/ Own x) ->
  tidy g'.
Proof.
  intros T HY HB HX HN HL HA HK HM HO.
  assert (K : forall p, p <> nobody -> exists l, x ∉ l /\ NoDup l /\ refsg g p ≡ₚ listed g x p ++ l /\ refsg g' p ≡ₚ listed g' x p ++ l).
  { intros p Hp. destruct (HL p Hp) as (l & E1 & E2). exists l.
    pose proof (td_once T p) as ND. rewrite E1 in ND. apply NoDup_app in ND as (_ & ND1 & ND2). split_and!; try done.
    intros Hx. assert (HI : x ∈ refsg g p) by (rewrite E1; apply elem_of_app; by right).
    apply (td_list T) in HI as [F1 F2]; [|done]. apply (ND1 x); [|done]. unfold listed. rewrite F1, F2, N.eqb_refl. left. }
  assert (L : forall g p y, y ∈ listed g x p <-> y = x /\ refg g x = p /\ bang g x = false).
  { intros h p y. unfold listed. destruct (N.eqb_spec (refg h x) p) as [E|E]; cbn [andb]; [destruct (bang h x); cbn [negb]|].
    - rewrite elem_of_nil. naive_solver.
    - rewrite elem_of_list_singleton. naive_solver.
    - rewrite elem_of_nil. naive_solver. }
  split.
  - destruct (N.eq_dec nobody x) as [E|E]; [subst x; by apply HX|]. destruct (HY nobody E) as (-> & _). apply T.
  - exact HN.
  - intros p y Hp. destruct (K p Hp) as (l & Nx & ND & E1 & E2). rewrite E2, elem_of_app, L.
    destruct (N.eq_dec y x) as [->|Hy].
    + split; [intros [(_ & H1 & H2)|H]; [done|by destruct Nx]|]. intros [H1 H2]. by left.
    + destruct (HY y Hy) as (-> & -> & _). rewrite <- (td_list T p y Hp), E1, elem_of_app, L. naive_solver.
  - intros p. destruct (N.eq_dec p nobody) as [->|Hp]; [rewrite HN; constructor|].
    destruct (K p Hp) as (l & Nx & ND & E1 & E2). rewrite E2. unfold listed. destruct (_ && _); [|done].
    cbn. by apply NoDup_cons.
  - intros a. destruct (N.eq_dec a x) as [->|Ha]; [done|]. destruct (HY a Ha) as (_ & -> & ->). apply T.
  - intros p Hp. destruct (K p Hp) as (l & Nx & ND & E1 & E2). destruct (HA p Hp) as (la & A1 & A2).
    pose proof (td_arefs T p Hp) as A. rewrite A2, (filter_Permutation _ _ _ E2), filter_app.
    rewrite A1, (filter_Permutation _ _ _ E1), filter_app in A.
    assert (F : forall h, alisted h x p = filter (fun x => actg h x = true) (listed h x p)).
    { intros h. unfold alisted, listed. destruct (_ && negb _); cbn [andb]; [|done]. destruct (actg h x) eqn:EA.
      - by rewrite filter_cons_True.
      - by rewrite filter_cons_False by congruence. }
    rewrite F in A |- *. apply Permutation_app_inv_l in A. rewrite A. apply Permutation_app_head.
    clear - Nx HY. induction l as [|y l IH]; [done|]. apply not_elem_of_cons in Nx as [N1 N2]. specialize (IH N2).
    destruct (HY y ltac:(congruence)) as (_ & _ & E). destruct (decide (actg g y = true)).
    + rewrite !filter_cons_True by congruence. by rewrite IH.
    + rewrite !filter_cons_False by congruence. done.
  - intros HR. eapply ranked_ext; [|exact (HK HR)]. intros y. unfold RefTheory.upd. destruct (N.eqb_spec y x) as [->|Hy]; [done|]. by destruct (HY y Hy) as (-> & _).
  - intros HR y. destruct (N.eq_dec y x) as [->|Hy]; [by apply HM|]. destruct (HY y Hy) as (-> & -> & _). by apply T.
  - intros HR y. destruct (N.eq_dec y x) as [->|Hy]; [by apply HO|]. destruct (HY y Hy) as (-> & _). by apply T.
Qed.
(** ... where the referrer stays *)
Lemma ranked_stays g x : ranked (refg g) -> ranked (RefTheory.upd (refg g) x (refg g x)).
Proof. apply ranked_ext. intros y. unfold RefTheory.upd. by destruct (N.eqb_spec y x) as [->|]. Qed.

Definition tidied (s : St) : Prop := tidy (ref_get s).
Lemma tidied_ref s s' : st_ref s' = st_ref s -> tidied s -> tidied s'.
Proof. intros E. apply tidy_ext. intros a. unfold ref_get. by rewrite E. Qed.
Lemma tidied_cm m s : cm s (fun b => tidy (fun y => bu_get b y s)) m s -> tidied s -> tidied (fst (m s)).
Proof.
  intros H T0. destruct (m s) as [s' r] eqn:E. cbn. destruct (H s' r E) as [E1|(b & S & G)]; [by eapply tidied_ref|].
  eapply tidy_ext; [exact G|exact S].
Qed.
Lemma tidied_commit s0 b s : st_ref s = st_ref s0 -> tidy (fun y => bu_get b y s) -> cm s0 (fun b => tidy (fun y => bu_get b y s0)) (bu_commit b) s.
Proof.
  intros E S. apply cm_commit; [done|]. eapply tidy_ext; [|exact S]. intros y. by apply bu_get_ext.
Qed.

(** The update of the first of a chain together with the rest *)
Lemma chain_shape {A} (F : list addr -> list addr) (X : rinfo -> A) cb b p q c d s s1 b1 x b1' s3 b3 :
  (forall x b, bu_data (cb x b) = bu_data b) ->
  bu_update b p true (fun r => (add_line 1 c d (r <| r_referrals := F (r_referrals r) |>), X r)) s = (s1, Ok (b1, x)) ->
  bu_data b1' = bu_data b1 ->
  (b3 = b1' /\ s3 = s1) \/ walk true (seq 2 9) b1' q (fun i x b r => (cb x b, add_line i c d r)) s1 = (s3, Ok b3) ->
  forall y, shape (bu_get b3 y s3) = shape (if (y =? p)%N then sub_refs F (bu_get b y s) else bu_get b y s).
Proof.
  intros HC HU HD HW. apply bu_update_ok in HU as (r2 & HX & Q & _ & ED & ES). cbn [fst snd] in HX, Q.
  assert (G1 : forall y, shape (bu_get b1' y s1) = shape (if (y =? p)%N then sub_refs F (bu_get b y s) else bu_get b y s)).
  { intros y. rewrite (bu_get_ext b1' b1' s s1 y) by done. rewrite (bu_get_insert b b1' p r2 s); [|congruence].
    destruct (N.eqb_spec y p) as [E0|]; [|done]. subst y. by rewrite (shape_eqs _ _ Q). }
  destruct HW as [[-> ->]|HW]; [exact G1|]. apply walk_lines in HW as [_ HW]; [|done]. intros y. by rewrite HW.
Qed.

(** *** Registration *)
Lemma append_tidy p c sk sc s : c <> nobody -> (R -> ~ B c) -> (R -> p = c -> Own c) -> tidied s -> tidied (fst (append_child_core p c sk sc s)).
Proof.
  intros Hc HBc HWc T. apply tidied_cm; [|done]. unfold append_child_core.
  apply cm_ensure; [done|]. intros Hp. apply negb_true_iff, N.eqb_neq in Hp.
  apply cm_get. apply cm_ensure; [done|]. intros EN. apply cm_get. unfold id. cbv zeta.
  assert (E0 : ref_get s c = r_zero). { unfold ref_get. unfold ref_exists in EN. by destruct (st_ref s !! c). }
  set (r0 := if sc then _ else new_rinfo p _ _).
  assert (X0 : r_referrer r0 = p /\ r_referrals r0 = [] /\ r_banished r0 = false /\ r_active r0 = false /\ r_arefs r0 = []).
  { unfold r0. by destruct sc. }
  clearbody r0. set (b0 := bu_set c r0 bu_new).
  assert (G0 : forall y, bu_get b0 y s = if (y =? c)%N then r0 else ref_get s y).
  { intros y. rewrite (bu_get_insert bu_new b0 c r0 s) by done. by rewrite bu_get_new. }
  apply cm_bind; [done|frame|]. intros [b1 [an closed]] s1 EU ES1. apply cm_ensure; [done|]. intros HO.
  apply cm_bind; [done|apply sw_walk; [apply _|frame|frame]|]. intros b3 s3 EW ES3. apply tidied_commit; [done|].
  pose proof (chain_shape (fun l => l ++ [c]) _ (fun a b => bu_call EvStake a b) b0 p an _ _ s s1 b1 _ (bu_call EvStake p b1) s3 b3
    (fun _ _ => eq_refl) EU eq_refl (or_intror EW)) as H. clear EU EW.
  set (g3 := fun y => bu_get b3 y s3) in *. change (forall y, shape (g3 y) = shape (if (y =? p)%N then sub_refs (fun l => l ++ [c]) (bu_get b0 y s) else bu_get b0 y s)) in H.
  clearbody g3. destruct X0 as (X1 & X2 & X3 & X4 & X5).
  set (g := ref_get s) in *. assert (T0 : tidy g) by exact T. clear T. rename T0 into T.
  assert (HY : forall y, refg g3 y = (if (y =? c)%N then p else refg g y) /\ bang g3 y = (if (y =? c)%N then false else bang g y) /\
    actg g3 y = (if (y =? c)%N then false else actg g y) /\ refsg g3 y = (if (y =? p)%N then refsg g y ++ [c] else refsg g y) /\
    arefsg g3 y = arefsg g y).
  { intros y. specialize (H y). rewrite G0 in H. unfold refg, bang, actg, refsg, arefsg.
    destruct (N.eqb_spec y c) as [Ec|Hyc].
    - subst y. rewrite E0. cbn [r_referrals r_arefs r_zero]. destruct (N.eqb_spec c p) as [Ep|Hcp]; apply shape_inj in H as (H1 & H2 & H3 & H4 & H5 & _).
      + cbn in H1, H2, H3, H4, H5. rewrite X2 in H2. by split_and!; first [congruence|rewrite H2].
      + by split_and!; congruence.
    - destruct (N.eqb_spec y p) as [Ep|Hyp]; apply shape_inj in H as (H1 & H2 & H3 & H4 & H5 & _); by split_and!. }
  assert (Gc : refg g c = nobody /\ bang g c = false /\ actg g c = false) by (unfold refg, bang, actg; by rewrite E0).
  destruct Gc as (Gc1 & Gc2 & Gc3). destruct (HY c) as (C1 & C2 & C3 & _). rewrite N.eqb_refl in C1, C2, C3.
  apply (tidy_one g g3 c); [done|..].
  - intros y Hy. destruct (HY y) as (-> & -> & -> & _). by rewrite (proj2 (N.eqb_neq y c) Hy).
  - congruence.
  - congruence.
  - destruct (HY nobody) as (_ & _ & _ & -> & _). rewrite (proj2 (N.eqb_neq nobody p)) by congruence. apply T.
  - intros q Hq. exists (refsg g q). unfold listed. rewrite Gc1, (proj2 (N.eqb_neq nobody q)) by congruence. split; [done|].
    destruct (HY q) as (_ & _ & _ & -> & _). rewrite C1, C2. cbn [negb]. rewrite (N.eqb_sym p q). destruct (q =? p)%N; cbn [andb]; [|done].
    apply Permutation_app_comm.
  - intros q Hq. exists (arefsg g q). unfold alisted. rewrite Gc3, C3, !andb_false_r. split; [done|]. by destruct (HY q) as (_ & _ & _ & _ & ->).
  - intros HR. apply ranked_new; [by apply T|]. intros x Ex. exfalso. destruct (bang g x) eqn:Bx.
    + destruct (td_named T HR x Bx) as [E|E]; [congruence|]. rewrite Ex in E. by apply (HBc HR).
    + assert (HI : x ∈ refsg g c) by (by apply (td_list T)). unfold refsg in HI. rewrite E0 in HI. by apply elem_of_nil in HI.
  - rewrite C2. done.
  - rewrite C1. intros HR E. right. by apply HWc.
Qed.

(** *** The way back *)
Lemma nearest_tidy g f b a s s' q : (forall y, bu_get b y s = g y) -> bang g a = true ->
  refg g nobody = nobody -> nearest_open f b (refg g a) s = (s', Ok q) -> s' = s /\ (q <> a \/ q = nobody) /\ (a = nobody -> q = nobody) /\ exists n, q = anc (refg g) n (refg g a).
Proof.
  intros G Ba N0 H. apply nearest_ok in H as [-> [[H0 H1]|(n & H1 & H2 & H3 & H4)]].
  { split_and!; [done|by right|done|]. exists 0%nat. cbn. congruence. }
  split; [done|].
  assert (AE : forall n, anc (refg (fun y => bu_get b y s)) n (refg g a) = anc (refg g) n (refg g a)).
  { intros m. induction m as [|m IH]; [done|]. cbn. rewrite IH. unfold refg. by rewrite G. }
  assert (Na : a <> nobody).
  { intros E0. rewrite E0, N0 in H1, H4. destruct n as [|n]; [done|]. destruct (H4 0%nat ltac:(lia)) as [H5 _]. done. }
  split; [left|split; [done|exists n; by rewrite H1, AE]]. intros ->.
  rewrite G in H3. unfold registration_closed in H3. unfold bang in Ba. rewrite Ba in H3. cbn [orb] in H3. rewrite andb_true_r in H3.
  apply negb_false_iff, N.eqb_eq in H3. unfold refg in H1 at 2. 
  destruct n as [|n].
  - cbn in H1. congruence.
  - destruct (H4 0%nat ltac:(lia)) as [H5 _]. cbn in H5. unfold refg in H5. congruence.
Qed.
(** A banished account is listed by [q] again, or nobody is left above it. *)
Lemma tidy_return g g' a q : tidy g -> bang g a = true -> q <> a \/ q = nobody -> (a = nobody -> q = nobody) -> (exists n, q = anc (refg g) n (refg g a)) ->
  (forall y, y <> a -> shape (g' y) = shape (if (y =? q)%N && negb (q =? nobody)%N then sub_refs (fun l => l ++ [a]) (g y) else g y)) ->
  refg g' a = q -> bang g' a = false -> actg g' a = actg g a -> refsg g' a = refsg g a -> arefsg g' a = arefsg g a -> tidy g'.
Proof.
  intros T Ba Hq Ha Hn H X1 X2 X3 X4 X5. pose proof (td_ban T a Ba) as Aa.
  assert (HY : forall y, y <> a -> refg g' y = refg g y /\ bang g' y = bang g y /\ actg g' y = actg g y /\ arefsg g' y = arefsg g y /\
     refsg g' y = if (y =? q)%N && negb (q =? nobody)%N then refsg g y ++ [a] else refsg g y).
  { intros y Hy. specialize (H y Hy). unfold refg, bang, actg, arefsg, refsg. destruct (_ && _); apply shape_inj in H as (H1 & H2 & H3 & H4 & H5 & _); by split_and!. }
  apply (tidy_one g g' a); [done|..].
  - intros y Hy. by destruct (HY y Hy) as (-> & -> & -> & _).
  - congruence.
  - rewrite X1. exact Ha.
  - destruct (N.eq_dec nobody a) as [E|E]; [subst a; rewrite X4; apply T|]. destruct (HY nobody E) as (_ & _ & _ & _ & ->).
    destruct (N.eqb_spec nobody q) as [E1|]; [|apply T]. rewrite <- E1. apply T.
  - intros p Hp. exists (refsg g p). unfold listed. rewrite Ba, X2, X1, andb_false_r, andb_true_r. split; [done|].
    destruct (N.eq_dec p a) as [E|E].
    + subst p. rewrite X4. destruct (N.eqb_spec q a) as [E1|]; [|done]. destruct Hq; congruence.
    + destruct (HY p E) as (_ & _ & _ & _ & ->). rewrite (N.eqb_sym q p). destruct (N.eqb_spec p q) as [E1|]; [|done]. cbn [andb].
      rewrite <- E1, (proj2 (N.eqb_neq p nobody) Hp). apply Permutation_app_comm.
  - intros p Hp. exists (arefsg g p). unfold alisted. rewrite X3, Aa, !andb_false_r. split; [done|].
    destruct (N.eq_dec p a) as [E|E]; [subst p; by rewrite X5|]. by destruct (HY p E) as (_ & _ & _ & -> & _).
  - intros HR. destruct Hn as [n ->]. rewrite X1. apply ranked_up. by apply T.
  - rewrite X2. done.
  - rewrite X1. intros _ E. destruct Hq; [done|]. left. congruence.
Qed.
Lemma come_back_tidy a s : tidied s -> bang (ref_get s) a = true -> tidied (fst (come_back a s)).
Proof.
  intros T Ba. apply tidied_cm; [|done]. unfold come_back.
  apply cm_bind; [done|same_ref|]. intros [b [[q c] d]] s1 E ES1.
  apply bu_updatem_ok in E as (s2 & b1 & r1 & r2 & E & _ & E2 & ED & ES & _). rewrite (E2 eq_refl) in ED. clear E2. rewrite bu_get_new in E.
  apply bind_ok in E as (f & s3 & X & E). apply get_ok in X as [-> ->].
  apply bind_ok in E as (p & s3 & X & E).
  change (r_referrer (normalize (ref_get s a))) with (refg (ref_get s) a) in X.
  apply (nearest_tidy (ref_get s)) in X as (-> & Hp & Hpn & Hpa); [|apply bu_get_new|done|apply T].
  apply ret_ok in E as [-> E]. injection E as -> -> -> -> ->.
  set (r1' := normalize (ref_get s a) <| r_referrer := p |> <| r_banished := false |> <| r_banishment_at := None |>
              <| r_compression_at := None |> <| r_status := 1 |>) in ED.
  assert (X0 : r_referrer r1' = p /\ r_referrals r1' = refsg (ref_get s) a /\ r_banished r1' = false /\ r_active r1' = actg (ref_get s) a /\
     r_arefs r1' = arefsg (ref_get s) a) by done.
  clearbody r1'. destruct X0 as (X1 & X2 & X3 & X4 & X5).
  set (c := default 0 (pad (r_coins (ref_get s a)) !! 0%nat)). set (d := default 0 (pad (r_deleg (ref_get s a)) !! 0%nat)).
  assert (G0 : forall y, bu_get b y s1 = if (y =? a)%N then r1' else ref_get s y).
  { intros y. rewrite (bu_get_ext b b s s1 y) by done. rewrite (bu_get_insert bu_new b a r1' s) by done. by rewrite bu_get_new. }
  apply cm_bind; [done|same_ref|]. intros b3 s3 EW ES3. apply tidied_commit; [done|].
  assert (H : forall y, shape (bu_get b3 y s3) = shape (if (y =? p)%N && negb (p =? nobody)%N then sub_refs (fun l => l ++ [a]) (bu_get b y s1) else bu_get b y s1)).
  { destruct (N.eqb_spec p nobody) as [Ep|Ep].
    - subst p. apply ret_ok in EW as [-> ->]. intros y. cbn [negb]. by rewrite andb_false_r.
    - apply bind_ok in EW as ([b2 up2] & s2 & EU & EW). intros y. cbn [negb]. rewrite andb_true_r. revert y.
      eapply (chain_shape (fun l => l ++ [a]) r_referrer (fun _ b => b) b p up2 c d s1 s2 b2 up2 b2 s3 b3 (fun _ _ => eq_refl) EU eq_refl).
      destruct (_ || _) in EW; [apply ret_ok in EW as [-> ->]; by left|by right]. }
  clear EW. set (g3 := fun y => bu_get b3 y s3) in *.
  assert (Ga : shape (g3 a) = shape r1').
  { specialize (H a). change (bu_get b3 a s3) with (g3 a) in H. rewrite H, G0, N.eqb_refl.
    destruct (N.eqb_spec a p) as [E0|]; [|done]. destruct Hp as [Hp|Hp]; [congruence|]. subst p. by rewrite N.eqb_refl. }
  apply shape_inj in Ga as (A1 & A2 & A3 & A4 & A5 & _).
  apply (tidy_return (ref_get s) g3 a p); [done|done|done|done|done| |unfold refg, bang, actg, refsg, arefsg in *; congruence..].
  intros y Hy. specialize (H y). rewrite G0, (proj2 (N.eqb_neq y a) Hy) in H. exact H.
Qed.

(** *** A balance has changed *)
Lemma revive_tidy g a b r s s' b' r' : (forall y, bu_get b y s = g y) -> tidy g -> bang g a = true -> shape r = shape (g a) ->
  revive a b r s = (s', Ok (b', r')) -> st_ref s' = st_ref s /\ tidy (fun y => if (y =? a)%N then r' else bu_get b' y s').
Proof.
  intros G T Ba SH H. apply shape_inj in SH as (K1 & K2 & K3 & K4 & K5 & _).
  unfold revive in H. apply bind_ok in H as (f & s1 & E & H). apply get_ok in E as [-> ->].
  apply bind_ok in H as (p & s1 & X & H). rewrite K1 in X.
  apply (nearest_tidy g) in X as (-> & Hp & Hpn & Hpa); [|done|done|apply T]. cbv zeta in H.
  set (r1 := r <| r_referrer := p |> <| r_banished := false |> <| r_status := 1 |>) in H.
  assert (X0 : r_referrer r1 = p /\ r_referrals r1 = r_referrals r /\ r_banished r1 = false /\ r_active r1 = r_active r /\ r_arefs r1 = r_arefs r) by done.
  clearbody r1. destruct X0 as (X1 & X2 & X3 & X4 & X5).
  assert (W : st_ref s' = st_ref s /\ r' = r1 /\ forall y, shape (bu_get b' y s') = shape (if (y =? p)%N && negb (p =? nobody)%N then sub_refs (fun l => l ++ [a]) (g y) else g y)).
  { destruct (N.eqb_spec p nobody) as [Ep|Ep].
    - apply ret_ok in H as [-> H]. injection H as -> ->. split_and!; [done..|]. intros y. cbn [negb]. by rewrite andb_false_r, G.
    - apply bind_ok in H as ([b2 up2] & s2 & EU & EW).
      assert (ES2 : st_ref s2 = st_ref s) by (pose proof EU as EU'; apply bu_update_ok in EU' as (? & _ & _ & _ & _ & EU'); exact EU').
      set (c := default 0 (r_coins r !! 0%nat)) in *. set (d := default 0 (r_deleg r !! 0%nat)) in *.
      assert (EW' : r' = r1 /\ st_ref s' = st_ref s2 /\ ((b' = b2 /\ s' = s2) \/ walk true (seq 2 9) b2 up2 (fun i _ b p => (b, add_line i c d p)) s2 = (s', Ok b'))).
      { destruct (_ || _) in EW.
        - apply ret_ok in EW as [-> EW]. injection EW as -> ->. split_and!; [done..|by left].
        - apply bind_ok in EW as (b3 & s3 & EW & X). apply ret_ok in X as [-> X]. injection X as -> ->. split_and!; [done| |by right].
          apply (walk_lines true (seq 2 9) c d (fun _ b => b)) in EW as [EW _]; done. }
      destruct EW' as (-> & ES' & EW'). split_and!; [congruence|done|]. intros y. cbn [negb]. rewrite andb_true_r, <- G. revert y.
      exact (chain_shape (fun l => l ++ [a]) r_referrer (fun _ b => b) b p up2 c d s s2 b2 up2 b2 s' b' (fun _ _ => eq_refl) EU eq_refl EW'). }
  destruct W as (W1 & -> & W2). split; [done|].
  apply (tidy_return g _ a p); [done|done|done|done|done| |unfold refg, bang, actg, refsg, arefsg; rewrite N.eqb_refl; congruence..].
  intros y Hy. cbv beta. rewrite (proj2 (N.eqb_neq y a) Hy). apply W2.
Qed.
Lemma obc_tidy a s : tidied s -> tidied (fst (on_balance_changed a s)).
Proof.
  intros T. apply tidied_cm; [|done]. unfold on_balance_changed. apply cm_get. unfold id. cbv zeta.
  change (bu_updatem bu_new a true _) with (bu_updatem bu_new a true (obc_body (own_coins s a) (own_deleg s a) (bp_dust (st_bp s)) s a)).
  apply cm_bind; [done| |].
  { apply rel_try. apply sw_bu_updatem; [apply _|frame|frame|]. intros b r. apply obc_body_rel. }
  intros out s1 E ES1. apply try_ok in E. destruct out as [[b [[[dc dd] node] ban]]|e]; cycle 1.
  { destruct e; first [by apply cm_ret|by apply cm_fail]. }
  apply bu_updatem_ok in E as (s2 & b1 & r1 & r2 & E & Q & _ & ED & ES & _). rewrite bu_get_new in E.
  apply obc_body_ok in E as (_ & r0 & -> & X & H1). injection X as -> -> -> ->.
  assert (Q0 : shape r2 = shape r0) by (rewrite (shape_eqs _ _ Q); done). clear Q.
  assert (K : tidy (fun y => bu_get b y s1)).
  { destruct H1 as [(ba & -> & D1 & C1 & _)|(A1 & A2 & _ & _ & ba & b4 & s4 & D4 & C4 & H1)].
    - eapply tidy_shape; [|exact T]. intros y. rewrite (bu_get_ext b b s s1 y); [|done|congruence]. rewrite (bu_get_insert bu_new b a r2 s); [|by rewrite ED, D1].
      rewrite bu_get_new. destruct (N.eqb_spec y a) as [E0|]; [|done]. subst y. rewrite Q0. done.
    - assert (E4 : st_ref s4 = st_ref s) by (unfold core_of in C4; congruence).
      assert (G4 : forall y, bu_get b4 y s4 = ref_get s y).
      { intros y. rewrite <- bu_get_new. by apply bu_get_ext. }
      apply (revive_tidy (ref_get s)) in H1 as [E1 S1]; [|done|done|exact A2|done].
      eapply tidy_shape; [|exact S1]. intros y. rewrite (bu_get_ext b b s2 s1 y) by done. rewrite (bu_get_insert b1 b a r2 s2) by done.
      destruct (y =? a)%N; [exact Q0|done]. }
  clear H1. apply cm_bind; [done|same_ref|]. intros b3 s3 EW ES3. apply tidied_commit; [done|].
  destruct (r_banished r0); [apply ret_ok in EW as [-> ->]; exact K|].
  match type of EW with walk _ _ _ _ (fun i x b r => (if ?dd =? 0 then b else _, add_line i ?dc ?dd r)) _ = _ =>
    apply (walk_lines true (seq 1 10) dc dd (fun x b => if dd =? 0 then b else bu_call EvStake x b)) in EW as [_ EW] end.
  - eapply tidy_shape; [|exact K]. exact EW.
  - intros x b0. by destruct (_ =? 0).
Qed.

(** *** Subscriptions *)
Lemma walk_first check (f : nat -> addr -> bu -> rinfo -> bu * rinfo) b a s s' b' :
  (forall i x b r, bu_data (fst (f i x b r)) = bu_data b /\ (i <> 1%nat -> shape (snd (f i x b r)) = shape r)) ->
  walk check (seq 1 10) b a f s = (s', Ok b') ->
  exists b1, forall y, shape (bu_get b' y s') =
    if (y =? a)%N && negb (a =? nobody)%N then shape (snd (f 1%nat a b1 (normalize (bu_get b a s)))) else shape (bu_get b y s).
Proof.
  intros HF H. exists b. change (seq 1 10) with (1%nat :: seq 2 9) in H. cbn [walk] in H.
  destruct (N.eqb_spec a nobody) as [E|E].
  { apply ret_ok in H as [-> ->]. intros y. cbn [negb]. by rewrite andb_false_r. }
  cbn [negb]. apply bind_ok in H as ([b1 u] & s1 & E1 & H).
  apply bu_updatem_ok in E1 as (s2 & b2 & r1 & r2 & E1 & Q & _ & ED & ES & _). cbv beta in E1.
  destruct (f 1%nat a b (normalize (bu_get b a s))) as [b3 r3] eqn:Ef.
  apply ret_ok in E1 as [-> E1]. injection E1 as -> -> ->.
  destruct (HF 1%nat a b (normalize (bu_get b a s))) as [F1 _]. rewrite Ef in F1. cbn in F1. rewrite F1 in ED.
  assert (W : forall y, shape (bu_get b' y s') = shape (bu_get b1 y s1)).
  { match type of H with walk _ _ _ ?z _ _ = _ => set (u := z) in H end. clearbody u. clear - HF H. change (seq 2 9) with [2; 3; 4; 5; 6; 7; 8; 9; 10]%nat in H.
    assert (HL : Forall (fun i => i <> 1%nat) [2; 3; 4; 5; 6; 7; 8; 9; 10]%nat) by (repeat constructor; lia).
    revert u b1 s1 H HL. generalize [2; 3; 4; 5; 6; 7; 8; 9; 10]%nat. intros l. induction l as [|i l IH]; intros a b s H HL; cbn [walk] in H.
    { apply ret_ok in H as [-> ->]. done. }
    destruct (a =? nobody)%N; [apply ret_ok in H as [-> ->]; done|]. apply Forall_cons in HL as [Hi HL].
    apply bind_ok in H as ([b1 u] & s1 & E1 & H).
    apply bu_updatem_ok in E1 as (s2 & b2 & r1 & r2 & E1 & Q & _ & ED & ES & _). cbv beta in E1.
    destruct (f i a b (normalize (bu_get b a s))) as [b3 r3] eqn:Ef.
    apply ret_ok in E1 as [-> E1]. injection E1 as -> -> ->.
    destruct (HF i a b (normalize (bu_get b a s))) as [F1 F2]. rewrite Ef in F1, F2. cbn in F1, F2. rewrite F1 in ED.
    intros y. rewrite (IH _ _ _ H HL). rewrite (bu_get_ext b1 b1 s s1 y) by done. rewrite (bu_get_insert b b1 a r2 s ED).
    destruct (N.eqb_spec y a) as [E0|]; [|done]. subst y. rewrite (shape_eqs _ _ Q), F2 by done. done. }
  intros y. rewrite W. rewrite (bu_get_ext b1 b1 s s1 y) by done. rewrite (bu_get_insert b b1 a r2 s ED).
  rewrite andb_true_r. destruct (N.eqb_spec y a) as [E0|]; [|done]. by rewrite (shape_eqs _ _ Q).
Qed.
Lemma set_active_tidy a v check s : tidied s -> (v = true -> bang (ref_get s) a = false) -> tidied (fst (set_active a v check s)).
Proof.
  intros T Hb. apply tidied_cm; [|done]. unfold set_active. apply cm_get. unfold id. cbv zeta.
  apply cm_bind; [done|same_ref|]. intros [b o] s1 E ES1.
  apply bu_updatem_ok in E as (s2 & b1 & r1 & r2 & E & _ & E2 & ED & ES & _). rewrite (E2 eq_refl) in ED. clear E2. rewrite bu_get_new in E.
  change (r_active (normalize (ref_get s a))) with (actg (ref_get s) a) in E.
  destruct (Bool.eqb_spec (actg (ref_get s) a) v) as [EA|EA].
  { apply ret_ok in E as [-> E]. injection E as -> -> ->. by apply cm_ret. }
  set (dl := if v then 1 else -1) in *.
  apply bind_ok in E as (r' & s5 & E & E').
  apply ret_ok in E' as [-> E']. injection E' as -> -> ->. change (r_referrer (normalize (ref_get s a))) with (refg (ref_get s) a).
  assert (Hv : actg (ref_get s) a = negb v) by (by destruct (actg _ _), v).
  assert (Ba : bang (ref_get s) a = false).
  { destruct v; [by apply Hb|]. destruct (bang _ a) eqn:Bn; [|done]. apply (td_ban T) in Bn. congruence. }
  assert (X0 : r_referrer r' = refg (ref_get s) a /\ r_referrals r' = refsg (ref_get s) a /\ r_banished r' = false /\ r_active r' = v /\
     r_arefs r' = arefsg (ref_get s) a).
  { unfold bang in Ba. unfold refg, refsg, arefsg.
    assert (X1 : exists ba, r' = normalize (ref_get s a) <| r_active := v |> <| r_cnt := add_cnt 0 dl (r_cnt (normalize (ref_get s a))) |>
                <| r_compression_at := if v then None else Some (st_now s + compression_period s) |> <| r_banishment_at := ba |>).
    { destruct (r_banishment_at (normalize (ref_get s a))) as [t|] eqn:Eb; [destruct v|].
      - apply bind_ok in E as (? & ? & _ & E). apply ret_ok in E as [-> ->]. by exists None.
      - apply ret_ok in E as [-> ->]. exists (Some t). rewrite <- Eb. done.
      - apply ret_ok in E as [-> ->]. exists None. rewrite <- Eb. done. }
    destruct X1 as (ba & ->). by split_and!. }
  destruct X0 as (X1 & X2 & X3 & X4 & X5). clear E.
  assert (G0 : forall y, bu_get b y s1 = if (y =? a)%N then r' else ref_get s y).
  { intros y. rewrite (bu_get_ext b b s s1 y) by done. rewrite (bu_get_insert bu_new b a r' s) by done. by rewrite bu_get_new. }
  apply cm_bind; [done|same_ref|]. intros b3 s3 EW ES3.
  apply cm_bind; [done|same_ref|]. intros ? s4 ESch ES4. apply tidied_commit; [done|].
  eapply tidy_ext; [intros y; apply (bu_get_ext b3 b3 s3 s4); [done|congruence]|].
  apply walk_first in EW as [b0 H]; cycle 1.
  { intros i x b2 r. split; [by destruct v|]. intros Hi. cbn [snd]. destruct (Nat.eqb_spec i 1); [done|]. done. }
  cbn [snd Nat.eqb] in H. set (g3 := fun y => bu_get b3 y s3) in *. set (g := ref_get s) in *. set (p := refg g a) in *.
  assert (T0 : tidy g) by exact T.
  assert (HY : forall y, refg g3 y = refg g y /\ bang g3 y = bang g y /\ actg g3 y = (if (y =? a)%N then v else actg g y) /\ refsg g3 y = refsg g y /\
     arefsg g3 y = (if (y =? p)%N && negb (p =? nobody)%N then (if v then fst (Lists.add_sorted N.compare (arefsg g y) a)
                                  else fst (Lists.remove_ordered N.compare (arefsg g y) a)) else arefsg g y)).
  { intros y. specialize (H y). change (bu_get b3 y s3) with (g3 y) in H. rewrite !G0 in H.
    assert (Pa : r_referrer (g a) = p) by done. rewrite ?Pa in H. unfold refsg in X2. unfold arefsg in X5. unfold bang in Ba. unfold refg, bang, actg, refsg, arefsg.
    destruct (N.eqb_spec y p) as [Ep|Hyp]; cbn [andb] in H |- *.
    - subst y. destruct (N.eqb_spec p nobody) as [En|En]; cbn [negb] in H |- *; (destruct (N.eqb_spec p a) as [Ea|Ea];
        apply shape_inj in H as (H1 & H2 & H3 & H4 & H5 & _); cbn in H1, H2, H3, H4, H5;
        [split_and!; first [congruence|rewrite H5, X5, Ea; done]|split_and!; congruence]).
    - destruct (N.eqb_spec y a) as [Ea|Ea]; apply shape_inj in H as (H1 & H2 & H3 & H4 & H5 & _); [subst y|by split_and!].
      split_and!; congruence. }
  clearbody g3. clear H. destruct (HY a) as (A1 & A2 & A3 & _). rewrite N.eqb_refl in A3.
  assert (PP : forall q, q <> nobody -> (if v then a ∉ arefsg g q else a ∈ arefsg g q <-> q = p)).
  { intros q Hq. pose proof (td_arefs T0 q Hq) as EQ. destruct v.
    - rewrite EQ. intros HI. apply elem_of_list_filter in HI as [HI _]. rewrite Hv in HI. done.
    - rewrite EQ, elem_of_list_filter, (td_list T0 q a Hq). fold p. rewrite Hv. naive_solver. }
  apply (tidy_one g g3 a); [done|..].
  - intros y Hy. destruct (HY y) as (-> & -> & -> & _). by rewrite (proj2 (N.eqb_neq y a) Hy).
  - rewrite A2, Ba. done.
  - rewrite A1. intros ->. apply T0.
  - destruct (HY nobody) as (_ & _ & _ & -> & _). apply T0.
  - intros q Hq. destruct (HY q) as (_ & _ & _ & -> & _). unfold listed. rewrite A1, A2, Ba, andb_true_r. fold p.
    destruct (N.eqb_spec p q) as [E0|].
    + assert (HI : a ∈ refsg g q) by (apply (td_list T0); [done|]; done).
      apply elem_of_Permutation in HI as [l HI]. by exists l.
    + by exists (refsg g q).
  - intros q Hq. destruct (HY q) as (_ & _ & _ & _ & ->). unfold alisted. rewrite A1, A2, A3, Ba, Hv. fold p. cbn [negb]. rewrite !andb_true_r.
    rewrite (N.eqb_sym p q). destruct (N.eqb_spec q p) as [E0|Hqp]; cbn [andb].
    + rewrite (proj2 (N.eqb_neq p nobody)) by congruence. cbn [negb]. specialize (PP q Hq). destruct v; cbn [negb].
      * exists (arefsg g q). split; [done|]. cbn. by apply add_sorted_perm.
      * exists (fst (Lists.remove_ordered N.compare (arefsg g q) a)). split; [|done]. cbn. apply remove_ordered_perm. by apply PP.
    + exists (arefsg g q). split; done.
  - intros HR. rewrite A1. apply ranked_stays. by apply T0.
  - rewrite A2, Ba. done.
  - rewrite A1. intros HR. by apply T0.
Qed.

(** *** Banishment *)
Lemma banish_tidy a s : (R -> forall p, refsg (ref_get s) p <> [] -> B p) -> tidied s -> tidied (fst (banish_core a s)).
Proof.
  intros HBp T. apply tidied_cm; [|done]. unfold banish_core. apply cm_get.
  apply cm_bind; [done|same_ref|]. intros [b [[p c] d]] s1 E ES1.
  apply bu_updatem_ok in E as (s2 & b1 & r1 & r2 & E & _ & E2 & ED & ES & _). rewrite (E2 eq_refl) in ED. clear E2. rewrite bu_get_new in E.
  cbv zeta in E. apply bind_ok in E as (? & s3 & X & E). apply ensure_ok in X as [-> X1].
  apply bind_ok in E as (? & s3 & X & E). apply ensure_ok in X as [-> X2].
  apply bind_ok in E as (? & s3 & X & E). apply lift_ok in X as [-> _].
  apply bind_ok in E as (? & s3 & X & E). apply ensure_ok in X as [-> _].
  apply bind_ok in E as (? & s3 & X & E). apply ensure_ok in X as [-> X4].
  apply negb_true_iff in X1, X2, X4. apply N.eqb_neq in X1.
  change (refg (ref_get s) a <> nobody) in X1. change (actg (ref_get s) a = false) in X2. change (bang (ref_get s) a = false) in X4.
  apply ret_ok in E as [-> E]. injection E as -> -> -> -> ->. change (r_referrer (ref_get s a)) with (refg (ref_get s) a).
  set (r1' := normalize (ref_get s a) <| r_banished := true |> <| r_status := 0 |> <| r_compression_at := None |>
              <| r_downgrade_at := None |> <| r_banishment_at := None |>) in ED.
  assert (X0 : r_referrer r1' = refg (ref_get s) a /\ r_referrals r1' = refsg (ref_get s) a /\ r_banished r1' = true /\ r_active r1' = actg (ref_get s) a /\
     r_arefs r1' = arefsg (ref_get s) a) by done.
  clearbody r1'. destruct X0 as (Y1 & Y2 & Y3 & Y4 & Y5).
  set (c := default 0 (pad (r_coins (ref_get s a)) !! 0%nat)). set (d := default 0 (pad (r_deleg (ref_get s a)) !! 0%nat)).
  assert (G0 : forall y, bu_get b y s1 = if (y =? a)%N then r1' else ref_get s y).
  { intros y. rewrite (bu_get_ext b b s s1 y) by done. rewrite (bu_get_insert bu_new b a r1' s) by done. by rewrite bu_get_new. }
  set (g := ref_get s) in *. assert (T0 : tidy g) by exact T. set (p := refg g a) in *.
  apply cm_bind; [done|same_ref|]. intros [b2 up2] s2 EU ES2.
  apply cm_bind; [done|same_ref|]. intros b3 s3 EW ES3. apply tidied_commit; [done|].
  assert (H : forall y, shape (bu_get b3 y s3) = shape (if (y =? p)%N then sub_refs (fun l => fst (Lists.remove_fast N.compare l a)) (bu_get b y s1) else bu_get b y s1)).
  { eapply (chain_shape (fun l => fst (Lists.remove_fast N.compare l a)) r_referrer (fun _ b => b) b p up2 (- c) (- d) s1 s2 b2 up2 b2 s3 b3 (fun _ _ => eq_refl) EU eq_refl).
    destruct (_ || _) in EW; [apply ret_ok in EW as [-> ->]; by left|by right]. }
  clear EW EU. set (g3 := fun y => bu_get b3 y s3) in *.
  assert (HY : forall y, refg g3 y = refg g y /\ bang g3 y = (if (y =? a)%N then true else bang g y) /\ actg g3 y = actg g y /\ arefsg g3 y = arefsg g y /\
    refsg g3 y = if (y =? p)%N then fst (Lists.remove_fast N.compare (refsg g y) a) else refsg g y).
  { intros y. specialize (H y). change (bu_get b3 y s3) with (g3 y) in H. rewrite G0 in H.
    assert (Pa : r_referrer (g a) = p) by done. unfold actg in Y4, X2. unfold refsg in Y2. unfold arefsg in Y5. unfold refg, bang, actg, arefsg, refsg.
    destruct (N.eqb_spec y a) as [Ea|Ha]; [subst y|]; destruct (y =? p)%N eqn:Ep || destruct (a =? p)%N eqn:Ep;
      apply shape_inj in H as (H1 & H2 & H3 & H4 & H5 & _); cbn in H1, H2, H3, H4, H5; rewrite ?Y2 in H2; by split_and!; congruence. }
  clearbody g3. clear H. destruct (HY a) as (A1 & A2 & A3 & A4 & _). rewrite N.eqb_refl in A2.
  apply (tidy_one g g3 a); [done|..].
  - intros y Hy. destruct (HY y) as (-> & -> & -> & _). by rewrite (proj2 (N.eqb_neq y a) Hy).
  - intros _. by rewrite A3.
  - rewrite A1. intros ->. apply T0.
  - destruct (HY nobody) as (_ & _ & _ & _ & ->). rewrite (proj2 (N.eqb_neq nobody p)) by congruence. apply T0.
  - intros q Hq. destruct (HY q) as (_ & _ & _ & _ & ->). unfold listed. rewrite A2, X4, andb_false_r. cbn [negb]. rewrite andb_true_r. fold p.
    rewrite (N.eqb_sym p q). destruct (N.eqb_spec q p) as [E0|]; [|by exists (refsg g q)].
    exists (fst (Lists.remove_fast N.compare (refsg g q) a)). split; [|done]. cbn. destruct (remove_fast_perm (refsg g q) a) as [[HN _]|HP]; [|exact HP].
    exfalso. apply HN. apply (td_list T0); [done|]. done.
  - intros q Hq. exists (arefsg g q). unfold alisted. rewrite A3, X2, !andb_false_r. split; [done|]. by destruct (HY q) as (_ & _ & _ & -> & _).
  - intros HR. rewrite A1. apply ranked_stays. by apply T0.
  - intros HR _. rewrite A1. right. apply (HBp HR). intros E.
    assert (HI : a ∈ refsg g p) by (by apply (td_list T0)). change (refsg g p = []) in E. rewrite E in HI. by apply elem_of_nil in HI.
  - rewrite A1. intros HR. by apply T0.
Qed.

(** *** Transitions *)
Lemma affirm_up_shape (src : rinfo) (lines : list nat) : forall b old new s s' b',
  affirm_up lines src b old new s = (s', Ok b') -> forall y, shape (bu_get b' y s') = shape (bu_get b y s).
Proof.
  induction lines as [|i lines IH]; intros b old new s s' b' H; cbn [affirm_up] in H.
  { apply ret_ok in H as [-> ->]. done. }
  destruct (old =? new)%N. { apply ret_ok in H as [-> ->]. done. }
  assert (ST : forall (sg : Z) z b s b1 z' s1, (if (z =? nobody)%N then ret (b, z) else bu_update b z true (fun r => (move_lines sg i src r, r_referrer r))) s = (s1, Ok (b1, z')) ->
    forall y, shape (bu_get b1 y s1) = shape (bu_get b y s)).
  { clear. intros sg z b s b1 z' s1 H. destruct (z =? nobody)%N; [apply ret_ok in H as [-> H]; by injection H as -> ->|].
    apply bu_update_ok in H as (r2 & _ & Q & _ & ED & ES). cbn [fst] in Q. intros y. rewrite (bu_get_ext b1 b1 s s1 y) by done.
    rewrite (bu_get_insert b b1 z r2 s) by done. destruct (N.eqb_spec y z) as [E0|]; [|done]. subst y. by rewrite (shape_eqs _ _ Q). }
  apply bind_ok in H as ([b1 old'] & s1 & E1 & H). apply bind_ok in H as ([b2 new'] & s2 & E2 & H).
  intros y. rewrite (IH _ _ _ _ _ _ H), (ST _ _ _ _ _ _ _ E2), (ST _ _ _ _ _ _ _ E1). done.
Qed.
Lemma affirm_tidy x s s' : tidied s -> affirm_transition x s = (s', Ok tt) -> tidied s'.
Proof.
  intros T H. unfold affirm_transition in H. apply bind_ok in H as (r & s1 & E & H). apply get_ok in E as [-> ->]. cbv zeta in H.
  set (q := r_transition (ref_get s x)) in H.
  apply bind_ok in H as ([] & s1 & E & H). apply validate_ok in E as (-> & Hq & Hqx & Hqr & _ & _ & HUP). clearbody q.
  apply bind_ok in H as ([] & s1 & E & H). apply modify_ok in E.
  assert (GX : forall y, ref_get s1 y = if (y =? x)%N then ref_get s x <| r_referrer := q |> <| r_transition := nobody |> else ref_get s y).
  { intros y. rewrite E. unfold ref_get. cbn. destruct (N.eqb_spec y x) as [E0|Hy]; [subst y; by rewrite lookup_insert|by rewrite lookup_insert_ne by congruence]. }
  clear E. apply (proj1 (must_ok _ _ _ _)) in H.
  set (g := ref_get s) in *. assert (T0 : tidy g) by exact T. clear T.
  set (r := g x) in *. assert (ER : g x = r) by done. change (r_referrer r) with (refg g x) in H. set (p := refg g x) in *. assert (EP : refg g x = p) by done. clearbody p.
  assert (F1 : forall y, refg (ref_get s1) y = (if (y =? x)%N then q else refg g y) /\ refsg (ref_get s1) y = refsg g y /\ bang (ref_get s1) y = bang g y /\
     actg (ref_get s1) y = actg g y /\ arefsg (ref_get s1) y = arefsg g y).
  { intros y. unfold refg, refsg, bang, actg, arefsg. rewrite GX. destruct (N.eqb_spec y x) as [E0|]; [subst y; done|done]. }
  clear GX.
  (* under the old referrer *)
  apply bind_ok in H as ([b1 oa] & s2 & E & H).
  apply bu_updatem_ok in E as (s3 & b0 & r1 & r2 & E & Q & _ & ED & ES & _). rewrite bu_get_new in E.
  apply bind_ok in E as (? & ? & E1 & E). apply assert_ok in E1 as [-> E1].
  apply bind_ok in E as (? & ? & E2 & E). apply assert_ok in E2 as [-> _].
  apply ret_ok in E as [-> E]. injection E as -> -> ->.
  change (r_referrals (normalize (ref_get s1 p))) with (r_referrals (ref_get s1 p)) in *. change (r_arefs (normalize (ref_get s1 p))) with (r_arefs (ref_get s1 p)) in *.
  change (r_referrals (ref_get s1 p)) with (refsg (ref_get s1) p) in *. change (r_arefs (ref_get s1 p)) with (arefsg (ref_get s1) p) in *.
  destruct (F1 p) as (_ & P2 & _ & _ & P5). rewrite P2 in E1, Q. rewrite P5 in Q.
  apply Nat.ltb_lt in E1.
  assert (Hp : p <> nobody). { intros E0. rewrite E0, (td_none T0) in E1. cbn in E1. lia. }
  pose proof (swap_remove_perm _ _ E1) as El. set (l0 := match last (refsg g p) with Some z => _ | None => _ end) in *. clearbody l0.
  assert (ND : NoDup (x :: l0)) by (rewrite <- El; apply T0). apply NoDup_cons in ND as [Nl ND].
  assert (EF : fst (Lists.remove_fast N.compare l0 x) = l0).
  { destruct (remove_fast_perm l0 x) as [[_ E0]|E0]; [done|]. exfalso. apply Nl. rewrite E0. apply elem_of_cons. by left. }
  rewrite EF in Q. clear EF.
  assert (Bx : bang g x = false).
  { assert (Hin : x ∈ refsg g p) by (rewrite El; apply elem_of_cons; by left). apply (td_list T0) in Hin as [_ Hin]; [done|done]. }
  assert (Hqp : q <> p). { unfold referrer in Hqr. intros E0. apply Hqr. rewrite E0. exact (eq_sym EP). }
  change (r_active r) with (actg g x) in *. set (la := if actg g x then fst (Lists.remove_fast N.compare (arefsg g p) x) else arefsg g p) in *.
  set (g2 := fun y => bu_get b1 y s2).
  assert (F2 : forall y, refg g2 y = (if (y =? x)%N then q else refg g y) /\ refsg g2 y = (if (y =? p)%N then l0 else refsg g y) /\ bang g2 y = bang g y /\
     actg g2 y = actg g y /\ arefsg g2 y = (if (y =? p)%N then la else arefsg g y)).
  { intros y. destruct (F1 y) as (U1 & U2 & U3 & U4 & U5).
    assert (SH : shape (g2 y) = if (y =? p)%N then shape (ref_get s1 p <| r_referrals := l0 |> <| r_arefs := la |>) else shape (ref_get s1 y)).
    { unfold g2. rewrite (bu_get_ext b1 b1 s1 s2 y) by done. rewrite (bu_get_insert bu_new b1 p r2 s1) by done. rewrite bu_get_new.
      destruct (y =? p)%N; [|done]. by rewrite (shape_eqs _ _ Q). }
    unfold refg, refsg, bang, actg, arefsg in U1, U2, U3, U4, U5 |- *.
    destruct (N.eqb_spec y p) as [E0|]; apply shape_inj in SH as (V1 & V2 & V3 & V4 & V5 & _); [rewrite E0 in *|]; cbn in V1, V2, V3, V4, V5; split_and!; congruence. }
  (* under the new one *)
  apply bind_ok in H as ([b2 na] & s3 & E & H). apply bu_update_ok in E as (r3 & -> & Q3 & _ & ED3 & ES3). cbn [fst snd] in Q3, H.
  change (bu_get b1 q s2) with (g2 q) in Q3.
  apply bind_ok in H as (b3 & s4 & E & H).
  assert (G' : forall y, ref_get s' y = bu_get b3 y s4).
  { pose proof (commit_ref b3 s4) as C. rewrite H in C. cbn in C. intros y. by apply union_get. }
  pose proof (affirm_up_shape _ _ _ _ _ _ _ _ E) as SH4. clear E H.
  eapply tidy_ext; [exact G'|]. set (g4 := fun y => bu_get b3 y s4) in *.
  assert (F4 : forall y, refg g4 y = (if (y =? x)%N then q else refg g y) /\ refsg g4 y = (if (y =? q)%N then refsg g q ++ [x] else if (y =? p)%N then l0 else refsg g y) /\ bang g4 y = bang g y /\
     actg g4 y = actg g y /\ arefsg g4 y = (if (y =? q)%N then if actg g x then arefsg g q ++ [x] else arefsg g q else if (y =? p)%N then la else arefsg g y)).
  { intros y. destruct (F2 y) as (U1 & U2 & U3 & U4 & U5). destruct (F2 q) as (_ & W2 & _ & _ & W5).
    rewrite (proj2 (N.eqb_neq q p) Hqp) in W2, W5.
    assert (SH : shape (g4 y) = if (y =? q)%N then shape (g2 q <| r_referrals := refsg g q ++ [x] |> <| r_arefs := if actg g x then arefsg g q ++ [x] else arefsg g q |>) else shape (g2 y)).
    { unfold g4. rewrite SH4. rewrite (bu_get_ext b2 b2 s2 s3 y) by done. rewrite (bu_get_insert b1 b2 q r3 s2) by done.
      destruct (y =? q)%N; [|done]. rewrite (shape_eqs _ _ Q3). rewrite <- W2, <- W5. done. }
    unfold refg, refsg, bang, actg, arefsg in U1, U2, U3, U4, U5, SH |- *.
    destruct (N.eqb_spec y q) as [E0|]; apply shape_inj in SH as (V1 & V2 & V3 & V4 & V5 & _); [rewrite E0 in *|]; cbn in V1, V2, V3, V4, V5; split_and!; congruence. }
  clearbody g4. clear F2 F1 SH4 Q Q3 G'.
  destruct (F4 x) as (A1 & _ & A3 & A4 & _). rewrite N.eqb_refl in A1.
  apply (tidy_one g g4 x); [done|..].
  - intros y Hy. destruct (F4 y) as (-> & _ & -> & -> & _). by rewrite (proj2 (N.eqb_neq y x) Hy).
  - rewrite A3, Bx. done.
  - intros E0. exfalso. apply Hp. rewrite <- EP, E0. apply T0.
  - destruct (F4 nobody) as (_ & -> & _). rewrite (proj2 (N.eqb_neq nobody q)), (proj2 (N.eqb_neq nobody p)) by congruence. apply T0.
  - intros z Hz. destruct (F4 z) as (_ & -> & _). unfold listed. rewrite A1, A3, Bx, EP. cbn [negb]. rewrite !andb_true_r, (N.eqb_sym p z), (N.eqb_sym q z).
    destruct (N.eqb_spec z q) as [E0|]; [|destruct (N.eqb_spec z p) as [E0|]].
    + rewrite E0, (proj2 (N.eqb_neq q p) Hqp). exists (refsg g q). split; [done|]. apply Permutation_app_comm.
    + exists l0. rewrite E0. done.
    + by exists (refsg g z).
  - intros z Hz. destruct (F4 z) as (_ & _ & _ & _ & ->). unfold alisted. rewrite A1, A3, A4, Bx, EP. cbn [negb]. rewrite !andb_true_r, (N.eqb_sym p z), (N.eqb_sym q z).
    destruct (N.eqb_spec z q) as [E0|]; [|destruct (N.eqb_spec z p) as [E0|]]; cbn [andb].
    + rewrite E0, (proj2 (N.eqb_neq q p) Hqp). exists (arefsg g q). split; [done|]. destruct (actg g x); [apply Permutation_app_comm|done].
    + exists la. split; [|done]. unfold la. rewrite E0. destruct (actg g x) eqn:EA; [|done]. cbn.
      destruct (remove_fast_perm (arefsg g p) x) as [[HN _]|HP]; [|exact HP]. exfalso. apply HN. rewrite (td_arefs T0 p Hp), elem_of_list_filter. split; [done|].
      rewrite El. left.
    + by exists (arefsg g z).
  - intros HR. rewrite A1. apply ranked_move; [by apply T0|]. intros n En.
    assert (Hx : x <> nobody) by (intros E0; apply Hp; rewrite <- EP, E0; apply T0).
    destruct (HUP n) as (m & Hm & Em); [by rewrite up_anc|]. rewrite up_anc in Em. fold g in Em.
    apply (anc_below (td_nobody T0) m n q); [lia|by rewrite En|done].
  - rewrite A3, Bx. done.
  - rewrite A1. intros _ E. congruence.
Qed.

(** *** Compression *)
Lemma tidy_compress g g' a p : tidy g -> refg g a = p -> p <> nobody ->
  (forall y, refg g' y = (if bool_decide (y ∈ refsg g a) then p else refg g y) /\ bang g' y = bang g y /\ actg g' y = actg g y /\
    refsg g' y = (if (y =? a)%N then [] else refsg g y) ++ (if (y =? p)%N then refsg g a else []) /\
    arefsg g' y ≡ₚ (if (y =? a)%N then [] else arefsg g y) ++ (if (y =? p)%N then arefsg g a else [])) -> tidy g'.
Proof.
  intros T EP Hp HY.
  assert (Ha : a <> nobody) by (intros E0; apply Hp; rewrite <- EP, E0; apply T).
  destruct (N.eq_dec p a) as [Epa|Hpa].
  { (* under itself *)
    assert (HR : forall y, refg g' y = refg g y).
    { intros y. destruct (HY y) as (-> & _). destruct (bool_decide_reflect (y ∈ refsg g a)) as [Hy|]; [|done].
      apply (td_list T) in Hy as [Hy _]; congruence. }
    assert (HL : forall y, refsg g' y = refsg g y /\ arefsg g' y ≡ₚ arefsg g y).
    { intros y. destruct (HY y) as (_ & _ & _ & -> & ->). rewrite Epa. destruct (N.eqb_spec y a) as [->|]; [done|]. by rewrite !app_nil_r. }
    split.
    - rewrite HR. apply T.
    - destruct (HL nobody) as [-> _]. apply T.
    - intros z x Hz. destruct (HL z) as [-> _]. rewrite HR. destruct (HY x) as (_ & -> & _). by apply T.
    - intros z. destruct (HL z) as [-> _]. apply T.
    - intros z. destruct (HY z) as (_ & -> & -> & _). apply T.
    - intros z Hz. destruct (HL z) as [-> ->]. rewrite (list_filter_iff _ (fun x => actg g x = true)); [by apply T|]. intros x. by destruct (HY x) as (_ & _ & -> & _).
    - intros HR'. eapply ranked_ext; [exact HR|by apply T].
    - intros HR' z. rewrite HR. destruct (HY z) as (_ & -> & _). by apply T.
    - intros HR' z. rewrite HR. by apply T. }
  assert (CH : forall x, x ∈ refsg g a -> refg g x = a /\ bang g x = false).
  { intros x Hx. by apply (td_list T). }
  assert (LI : forall z x, z <> nobody -> (x ∈ refsg g' z <-> refg g' x = z /\ bang g' x = false)).
  { intros z x Hz. destruct (HY z) as (_ & _ & _ & -> & _). destruct (HY x) as (-> & -> & _). rewrite elem_of_app.
    destruct (N.eqb_spec z a) as [Ea|Hza]; destruct (N.eqb_spec z p) as [Ep|Hzp]; [congruence|..].
    - subst z. rewrite !elem_of_nil. split; [tauto|]. intros [H1 H2]. destruct (bool_decide_reflect (x ∈ refsg g a)) as [Hx|Hx]; [done|].
      exfalso. apply Hx. by apply (td_list T).
    - rewrite (td_list T z x Hz). split.
      + intros [[H1 H2]|H]; [|rewrite bool_decide_true by done; apply CH in H; naive_solver]. destruct (bool_decide _); naive_solver.
      + intros [H1 H2]. destruct (bool_decide_reflect (x ∈ refsg g a)) as [Hx|Hx]; [by right|]. by left.
    - rewrite elem_of_nil, (td_list T z x Hz). destruct (bool_decide_reflect (x ∈ refsg g a)) as [Hx|Hx]; [|tauto].
      apply CH in Hx. split; [intros [[H1 _]|[]]; naive_solver|]. intros [H1 _]. congruence. }
  split.
  - destruct (HY nobody) as (-> & _). rewrite bool_decide_false; [apply T|]. intros HI. apply CH in HI as [HI _]. by rewrite (td_nobody T) in HI.
  - destruct (HY nobody) as (_ & _ & _ & -> & _). rewrite (proj2 (N.eqb_neq nobody p)), (td_none T) by congruence. by destruct (nobody =? a)%N.
  - exact LI.
  - intros z. destruct (HY z) as (_ & _ & _ & -> & _). apply NoDup_app. split_and!.
    + destruct (z =? a)%N; [constructor|apply T].
    + intros x Hx Hx'. destruct (N.eqb_spec z p) as [Ez|]; [|by apply elem_of_nil in Hx']. apply CH in Hx' as [Hx' _].
      destruct (N.eqb_spec z a) as [|]; [by apply elem_of_nil in Hx|]. apply (td_list T) in Hx as [Hx _]; congruence.
    + destruct (z =? p)%N; [apply T|constructor].
  - intros z. destruct (HY z) as (_ & -> & -> & _). apply T.
  - intros z Hz. destruct (HY z) as (_ & _ & _ & -> & ->). rewrite (list_filter_iff _ (fun x => actg g x = true)).
    2:{ intros x. by destruct (HY x) as (_ & _ & -> & _). }
    rewrite filter_app. apply Permutation_app; [destruct (z =? a)%N; [done|by apply T]|]. destruct (N.eqb_spec z p) as [Ez|]; [|done].
    by apply T.
  - intros HR. eapply ranked_ext; [|apply (ranked_lift (refg g) a (refsg g a)); [by apply (td_rank T)|]].
    + intros y. destruct (HY y) as (-> & _). by rewrite EP.
    + intros x Hx. by apply CH.
  - intros HR x. destruct (HY x) as (-> & -> & _). intros Bx. destruct (bool_decide_reflect (x ∈ refsg g a)) as [Hx|]; [|by apply T].
    apply CH in Hx as [_ Hx]. congruence.
  - intros HR x. destruct (HY x) as (-> & _). destruct (bool_decide_reflect (x ∈ refsg g a)) as [Hx|]; [|by apply T].
    intros E. exfalso. apply CH in Hx as [Hx _]. destruct (td_rank T HR) as [rk K]. pose proof (K x) as K1. pose proof (K a) as K2.
    rewrite Hx in K1. rewrite EP, E in K2. destruct K1 as [K1|K1]; [congruence|]. destruct K2 as [K2|K2]; [congruence|]. lia.
Qed.
Lemma compress_tidy a s : tidied s -> tidied (fst (compress a s)).
Proof.
  intros T. apply tidied_cm; [|done]. unfold compress. apply cm_get.
  apply cm_bind; [done|same_ref|]. intros [b old] s1 E ES1.
  apply bu_updatem_ok in E as (s2 & b1 & r1 & r2 & E & _ & E2 & ED & ES & _). rewrite (E2 eq_refl) in ED. clear E2. rewrite bu_get_new in E.
  change (r_referrer (normalize (ref_get s a))) with (refg (ref_get s) a) in E.
  destruct (N.eqb_spec (refg (ref_get s) a) nobody) as [|Hr]; [by apply fail_ok in E|]. cbv zeta in E.
  apply bind_ok in E as (u00 & s00 & _ & E). apply bind_ok in E as (own & s3 & X & E). apply lift_ok in X as [-> _].
  apply bind_ok in E as (r' & s5 & X & E). apply ret_ok in E as [-> E]. injection E as -> -> ->.
  set (g := ref_get s) in *. assert (T0 : tidy g) by exact T. clear T.
  assert (X0 : r_referrer r' = refg g a /\ r_referrals r' = [] /\ r_banished r' = bang g a /\ r_active r' = actg g a /\ r_arefs r' = []).
  { destruct (own <=? _).
    - unfold schedule_banishment in X. apply bind_ok in X as (t & s6 & _ & X). apply bind_ok in X as (u & s7 & _ & X).
      by apply ret_ok in X as [-> ->].
    - by apply ret_ok in X as [-> ->]. }
  clear X. destruct X0 as (Y1 & Y2 & Y3 & Y4 & Y5).
  set (p := refg g a) in *. assert (EP : refg g a = p) by done. change (r_referrals (ref_get s a)) with (refsg g a).
  assert (GS : forall y, bu_get b y s1 = if (y =? a)%N then r' else g y).
  { intros y. rewrite (bu_get_ext b b s s1 y) by done. rewrite (bu_get_insert bu_new b a r' s) by done. by rewrite bu_get_new. }
  apply cm_bind; [done|same_ref|]. intros b2 s6 EM ES6.
  set (old := normalize (g a)) in *. change (r_referrer old) with p in EM |- *. change (r_referrals old) with (refsg g a) in EM |- *.
  change (r_arefs old) with (arefsg g a). clearbody old p.
  apply mfold_referrer in EM as [_ EM]. set (g2 := fun y => bu_get b2 y s6) in *.
  assert (F2 : forall y, refg g2 y = (if bool_decide (y ∈ refsg g a) then p else refg g y) /\ bang g2 y = bang g y /\ actg g2 y = actg g y /\
    refsg g2 y = (if (y =? a)%N then [] else refsg g y) /\ arefsg g2 y = (if (y =? a)%N then [] else arefsg g y)).
  { intros y. specialize (EM y). change (bu_get b2 y s6) with (g2 y) in EM. rewrite GS in EM. unfold refg, refsg, bang, actg, arefsg in *.
    destruct (bool_decide (y ∈ _)).
    - apply like_shape, shape_inj in EM as (V1 & V2 & V3 & V4 & V5 & _). cbn in V1, V2, V3, V4, V5. destruct (N.eqb_spec y a) as [E0|]; [subst y|]; split_and!; congruence.
    - rewrite EM. destruct (N.eqb_spec y a) as [E0|]; [subst y|]; split_and!; congruence. }
  apply cm_bind; [done|same_ref|]. intros b3 s7 EW ES7. apply tidied_commit; [done|].
  apply walk_first in EW as [b0 H]; cycle 1.
  { intros i x b4 r. split; [done|]. intros Hi. cbn [snd]. destruct (Nat.eqb_spec i 1); [done|]. done. }
  cbn [snd Nat.eqb] in H. change (bu_get b2 p s6) with (g2 p) in H. set (g3 := fun y => bu_get b3 y s7) in *.
  apply (tidy_compress g g3 a p); [done|done|done|]. intros y. destruct (F2 y) as (U1 & U2 & U3 & U4 & U5). specialize (H y).
  change (bu_get b3 y s7) with (g3 y) in H. change (bu_get b2 y s6) with (g2 y) in H. rewrite (proj2 (N.eqb_neq p nobody) Hr) in H. cbn [negb] in H. rewrite andb_true_r in H.
  unfold refg, bang, actg, refsg, arefsg in U1, U2, U3, U4, U5 |- *.
  destruct (N.eqb_spec y p) as [E0|].
  - rewrite <- E0 in H. apply shape_inj in H as (V1 & V2 & V3 & V4 & V5 & _). cbn in V1, V2, V3, V4, V5. split_and!; [congruence..| |].
    + rewrite V2. unfold refsg. congruence.
    + rewrite V5, U5. fold (arefsg g a). apply merge_sorted_perm. intros x Hx Hx'.
      destruct (N.eqb_spec y a) as [|Hya]; [by apply elem_of_nil in Hx|]. fold (arefsg g y) in Hx.
      assert (Ha : a <> nobody) by (intros E1; apply Hr; rewrite <- EP, E1; apply T0).
      rewrite (td_arefs T0 y), elem_of_list_filter in Hx by congruence. rewrite (td_arefs T0 a), elem_of_list_filter in Hx' by done.
      destruct Hx as [_ Hx]. destruct Hx' as [_ Hx']. apply (td_list T0) in Hx as [Hx _]; [|congruence]. apply (td_list T0) in Hx' as [Hx' _]; congruence.
  - apply shape_inj in H as (V1 & V2 & V3 & V4 & V5 & _). rewrite !app_nil_r. split_and!; [congruence..|]. rewrite V5, U5. done.
Qed.
End lists.
Arguments tidy : clear implicits. Arguments tidied : clear implicits.
Arguments td_nobody {_ _ _ _}. Arguments td_none {_ _ _ _}. Arguments td_list {_ _ _ _}. Arguments td_once {_ _ _ _}. Arguments td_ban {_ _ _ _}.
Arguments td_arefs {_ _ _ _}. Arguments td_rank {_ _ _ _}. Arguments td_named {_ _ _ _}. Arguments td_own {_ _ _ _}.
