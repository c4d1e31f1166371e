(** * The referral network a genesis file gives rise to *)
From Verif Require Export RefDom Spec_Genesis.
Open Scope Z_scope.

Local Notation upd := RefTheory.upd.

(** ** Loops *)
Lemma mfor_inv {A} (I : St -> Prop) (f : A -> M unit) l : (forall x s s', x ∈ l -> I s -> f x s = (s', Ok tt) -> I s') ->
  forall s s', mfor l f s = (s', Ok tt) -> I s -> I s'.
Proof.
  induction l as [|x l IH]; intros HI s s' H HS; cbn [mfor] in H.
  - by apply ret_ok in H as [-> _].
  - apply bind_ok in H as ([] & s1 & E & H). eapply IH; [|exact H|]; [intros; eapply HI; [by right|..]; eassumption|]. eapply HI; [left|exact HS|exact E].
Qed.
Lemma mfor_all {A} (I : St -> Prop) (K : A -> St -> Prop) (f : A -> M unit) l :
  (forall x s s', x ∈ l -> I s -> f x s = (s', Ok tt) -> I s' /\ K x s') ->
  (forall x y s s', y ∈ l -> I s -> K x s -> f y s = (s', Ok tt) -> K x s') ->
  forall s s', mfor l f s = (s', Ok tt) -> I s -> I s' /\ forall x, x ∈ l -> K x s'.
Proof.
  induction l as [|x l IH]; intros HI HK s s' H HS; cbn [mfor] in H.
  - apply ret_ok in H as [-> _]. split; [done|]. intros x Hx. by apply elem_of_nil in Hx.
  - apply bind_ok in H as ([] & s1 & E & H). destruct (HI x s s1 ltac:(left) HS E) as [I1 K1].
    assert (KX : I s' /\ K x s').
    { eapply (mfor_inv (fun s => I s /\ K x s)); [|exact H|done]. intros y s2 s3 Hy [I2 K2] E2.
      split; [eapply HI; [by right|exact I2|exact E2]|eapply HK; [by right|exact I2|exact K2|exact E2]]. }
    destruct (IH (fun y s s' Hy => HI y s s' ltac:(by right)) (fun y z s s' Hz => HK y z s s' ltac:(by right)) s1 s' H I1) as [_ KL].
    split; [apply KX|]. intros y Hy. apply elem_of_cons in Hy as [->|Hy]; [apply KX|by apply KL].
Qed.

(** ** A property of every record *)
Section every.
  Context (F : addr -> rinfo -> Prop) (FL : forall y r r', like r r' -> F y r -> F y r').
  Definition bf (b : bu) (s : St) : Prop := forall y, F y (bu_get b y s).
  Definition every (s : St) : Prop := forall y, F y (ref_get s y).
  Lemma bf_new s : every s -> bf bu_new s.
  Proof. intros H y. rewrite bu_get_new. apply H. Qed.
  Lemma bf_ext b b' s s' : bu_data b' = bu_data b -> st_ref s' = st_ref s -> bf b s -> bf b' s'.
  Proof. intros E1 E2 H y. rewrite (bu_get_ext b b' s s' y) by done. apply H. Qed.
  Lemma bf_insert b b' s s' a r : F a r -> bu_data b' = <[ a := r ]> (bu_data b) -> st_ref s' = st_ref s ->
    (forall y, y <> a -> F y (bu_get b y s)) -> bf b' s'.
  Proof.
    intros R E ES H y. rewrite (bu_get_ext b' b' s s' y) by done. rewrite (bu_get_insert b b' a r s E y).
    destruct (N.eqb_spec y a) as [->|]; [done|by apply H].
  Qed.
  Lemma bf_updatem {A} b a check (f : bu -> rinfo -> M (bu * rinfo * A)) s s' b' x :
    bu_updatem b a check f s = (s', Ok (b', x)) ->
    (forall s1 b1 r1, f b (normalize (bu_get b a s)) s = (s1, Ok (b1, r1, x)) -> bf b1 s1 /\ F a r1) -> bf b' s'.
  Proof.
    intros H HF. apply bu_updatem_ok in H as (s1 & b1 & r1 & r2 & E & Eq & _ & ED & ES & _).
    destruct (HF _ _ _ E) as [H1 H2]. eapply (bf_insert b1 b' s1 s'); [eapply FL; [apply eqs_like, Eq|done]|done|done|intros y _; apply H1].
  Qed.
  Lemma bf_update {A} b a check (f : rinfo -> rinfo * A) s s' b' x : bf b s ->
    (forall r, F a r -> F a (fst (f r))) -> bu_update b a check f s = (s', Ok (b', x)) -> bf b' s'.
  Proof.
    intros B HF H. apply bu_update_ok in H as (r2 & _ & Eq & _ & ED & ES).
    eapply (bf_insert b b' s s'); [eapply FL; [apply eqs_like, Eq|]|done|done|intros y _; apply B]. apply HF. eapply FL; [apply normalize_like|apply B].
  Qed.
  Lemma bf_walk check lines f :
    (forall i x b r, i ∈ lines -> bu_data (fst (f i x b r)) = bu_data b /\ (F x r -> F x (snd (f i x b r)))) ->
    forall b a s s' b', bf b s -> walk check lines b a f s = (s', Ok b') -> bf b' s'.
  Proof.
    induction lines as [|i lines IH]; intros HF b a s s' b' B H; cbn [walk] in H.
    { by apply ret_ok in H as [-> ->]. }
    destruct (N.eqb_spec a nobody) as [_|Ha]; [by apply ret_ok in H as [-> ->]|].
    apply bind_ok in H as ([b1 up] & s1 & E & H). eapply IH; [intros; apply HF; by right| |exact H].
    eapply bf_updatem; [exact E|]. cbv beta. intros s2 b2 r2 E2. destruct (HF i a b (normalize (bu_get b a s)) ltac:(left)) as [F1 F2].
    destruct (f i a b (normalize (bu_get b a s))) as [b3 r3]. apply ret_ok in E2 as [-> E2]. injection E2 as -> -> ->. cbn [fst snd] in *.
    split; [by eapply bf_ext|]. apply F2. eapply FL; [apply normalize_like|apply B].
  Qed.
  Lemma every_ref s s' : st_ref s' = st_ref s -> every s -> every s'.
  Proof. intros E H y. unfold ref_get. rewrite E. apply H. Qed.
  Lemma every_cm m s : every s -> cm s (fun b => bf b s) m s -> every (fst (m s)).
  Proof.
    intros H C. destruct (m s) as [s' r] eqn:E. cbn. destruct (C s' r E) as [E1|(b & P & G)]; [by eapply every_ref|].
    intros y. rewrite G. apply P.
  Qed.
  Lemma cm_bf s b s1 : st_ref s1 = st_ref s -> bf b s1 -> cm s (fun b => bf b s) (bu_commit b) s1.
  Proof. intros E B. apply cm_commit; [done|]. by eapply bf_ext. Qed.

  Lemma every_top a s : every s -> F a (new_rinfo nobody (own_coins s a) (own_deleg s a)) -> every (fst (add_top_level a s)).
  Proof.
    intros H HA. apply every_cm; [done|]. unfold add_top_level. apply cm_recovered, cm_get, cm_ensure; [done|]. intros _. apply cm_get.
    apply cm_bf; [done|]. eapply (bf_insert bu_new _ s s); [exact HA|done|done|intros y _; by apply bf_new].
  Qed.
  Hypothesis FA : forall y r i c d, (1 <= i)%nat -> F y r -> F y (add_line i c d r).
  Hypothesis FR : forall y r l, F y r -> F y (r <| r_referrals := l |>).
  Lemma append_every p c s s' : (forall y, y <> c -> F y (ref_get s y)) -> (ref_exists s c = false -> F c (new_rinfo p (own_coins s c) (own_deleg s c))) ->
    append_child_core p c true false s = (s', Ok tt) -> every s'.
  Proof using All.
    intros H HC. unfold append_child_core. intros R. apply bind_ok in R as (u & s1 & E & R). apply ensure_ok in E as [-> _].
    apply bind_ok in R as (ex & s1 & E & R). apply get_ok in E as [-> ->]. apply bind_ok in R as (u2 & s1 & E & R). apply ensure_ok in E as [-> EX].
    apply negb_true_iff in EX. apply bind_ok in R as (s0 & s1 & E & R). apply get_ok in E as [-> ->]. unfold id in R. cbv zeta in R.
    apply bind_ok in R as ([b [an cl]] & s1 & E & R). apply bind_ok in R as (u3 & s2 & E2 & R). apply ensure_ok in E2 as [-> _].
    apply bind_ok in R as (b3 & s3 & EW & R).
    assert (B : bf b3 s3).
    { eapply bf_walk; [| |exact EW].
      - intros i x b0 r Hi. split; [done|]. apply elem_of_seq in Hi. apply FA. lia.
      - apply (bf_ext b _ s1 s1); [done|done|]. eapply bf_update; [| |exact E].
        + eapply (bf_insert bu_new _ s s); [by apply HC|done|done|]. intros y Hy. rewrite bu_get_new. by apply H.
        + intros r Hr. cbn [fst]. apply FA; [lia|]. by apply FR. }
    intros y. rewrite (commit_get b3 s3 s') by (by rewrite R). apply B.
  Qed.
End every.

(** ** The records written so far are in use *)
Definition full (s : St) : Prop := forall y, is_Some (st_ref s !! y) -> r_empty (ref_get s y) = false.
Definition bn (b : bu) (s : St) : Prop := forall y, is_Some (bu_data b !! y) -> r_empty (bu_get b y s) = false.
Lemma bn_ext b b' s s' : bu_data b' = bu_data b -> st_ref s' = st_ref s -> bn b s -> bn b' s'.
Proof. intros E1 E2 H y. rewrite E1, (bu_get_ext b b' s s' y) by done. apply H. Qed.
Lemma bn_insert b b' s s' a r : r_empty r = false -> bu_data b' = <[ a := r ]> (bu_data b) -> st_ref s' = st_ref s -> bn b s -> bn b' s'.
Proof.
  intros R E ES H y. rewrite (bu_get_ext b' b' s s' y) by done. rewrite E, (bu_get_insert b b' a r s E y).
  destruct (N.eqb_spec y a) as [->|Hy]; [done|]. rewrite lookup_insert_ne by done. apply H.
Qed.
Lemma bn_updatem {A} b a (f : bu -> rinfo -> M (bu * rinfo * A)) s s' b' x :
  bu_updatem b a true f s = (s', Ok (b', x)) ->
  (forall s1 b1 r1, f b (normalize (bu_get b a s)) s = (s1, Ok (b1, r1, x)) -> bn b1 s1) -> bn b' s'.
Proof.
  intros H HF. apply bu_updatem_ok in H as (s1 & b1 & r1 & r2 & E & Eq & _ & ED & ES & Q). destruct (Q eq_refl) as [b2 Q2].
  apply status_check_nonempty in Q2. eapply (bn_insert b1 b' s1 s'); [done|done|done|by eapply HF].
Qed.
Lemma bn_update {A} b a (f : rinfo -> rinfo * A) s s' b' x : bn b s -> bu_update b a true f s = (s', Ok (b', x)) -> bn b' s'.
Proof.
  intros B H. eapply bn_updatem; [exact H|]. cbv beta. intros s1 b1 r1 E. destruct (f _) as [r2 x2]. apply ret_ok in E as [-> E].
  by injection E as -> -> ->.
Qed.
Lemma bn_walk lines f : (forall i x b r, bu_data (fst (f i x b r)) = bu_data b) ->
  forall b a s s' b', bn b s -> walk true lines b a f s = (s', Ok b') -> bn b' s'.
Proof.
  intros HF. induction lines as [|i lines IH]; intros b a s s' b' B H; cbn [walk] in H.
  { by apply ret_ok in H as [-> ->]. }
  destruct (N.eqb_spec a nobody) as [_|Ha]; [by apply ret_ok in H as [-> ->]|].
  apply bind_ok in H as ([b1 up] & s1 & E & H). eapply IH; [|exact H].
  eapply bn_updatem; [exact E|]. cbv beta. intros s2 b2 r2 E2. pose proof (HF i a b (normalize (bu_get b a s))) as F1.
  destruct (f i a b (normalize (bu_get b a s))) as [b3 r3]. apply ret_ok in E2 as [-> E2]. injection E2 as -> -> ->. by eapply bn_ext.
Qed.
Lemma bn_new s : bn bu_new s.
Proof. intros y. cbn. rewrite lookup_empty. by intros [? ?]. Qed.
(** Leaves the records alone, or writes records in use *)
Definition cmn (s0 : St) (m : M unit) (s : St) : Prop :=
  forall s' r, m s = (s', r) -> st_ref s' = st_ref s0 \/ exists b, bn b s0 /\ st_ref s' = bu_data b ∪ st_ref s0.
Lemma full_cmn m s s' r : full s -> cmn s m s -> m s = (s', r) -> full s' /\ forall y, is_Some (st_ref s !! y) -> is_Some (st_ref s' !! y).
Proof.
  intros C H E. destruct (H s' r E) as [E1|(b & B & E1)].
  - split; [|by rewrite E1]. intros y. unfold ref_get. rewrite E1. apply C.
  - split.
    + intros y. rewrite (union_get b s s' y E1). rewrite E1, lookup_union. destruct (bu_data b !! y) eqn:Eb; [intros _; apply B; eauto|].
      intros Hy. unfold bu_get, get. rewrite Eb. apply C. by destruct (st_ref s !! y).
    + intros y Hy. rewrite E1, lookup_union. destruct (bu_data b !! y), (st_ref s !! y); cbn; eauto.
Qed.
Lemma cmn_bind {A} s0 (m : M A) f s : st_ref s = st_ref s0 -> rel (same st_ref) m ->
  (forall a s1, m s = (s1, Ok a) -> st_ref s1 = st_ref s0 -> cmn s0 (f a) s1) -> cmn s0 (bind m f) s.
Proof.
  intros E R H s' r HB. unfold bind in HB. specialize (R s). unfold same in R. destruct (m s) as [s1 [a|e|e]] eqn:Em; cbn in R.
  - eapply (H a s1); [done|congruence|exact HB].
  - injection HB as <- <-. left. congruence.
  - injection HB as <- <-. left. congruence.
Qed.
Lemma cmn_get {A} s0 (h : St -> A) f s : cmn s0 (f (h s)) s -> cmn s0 (bind (get h) f) s.
Proof. intros H s' r HB. unfold bind, get in HB. by eapply H. Qed.
Lemma cmn_ensure s0 c e f s : st_ref s = st_ref s0 -> (c = true -> cmn s0 (f tt) s) -> cmn s0 (bind (ensure c e) f) s.
Proof. intros E H s' r HB. unfold bind, ensure, ret, fail in HB. destruct c; [by eapply H|]. injection HB as <- <-. by left. Qed.
Lemma cmn_commit s0 b s : st_ref s = st_ref s0 -> bn b s -> cmn s0 (bu_commit b) s.
Proof.
  intros E B s' r H. right. exists b. split; [by eapply bn_ext|]. pose proof (commit_ref b s) as C. rewrite H in C. cbn in C. by rewrite E in C.
Qed.
Lemma cmn_top a s : cmn s (add_top_level a) s.
Proof.
  unfold add_top_level. intros s' r H. unfold recovered in H.
  match type of H with context [match ?m s with _ => _ end] => assert (C : cmn s m s) end.
  { apply cmn_get, cmn_ensure; [done|]. intros _. apply cmn_get. apply cmn_commit; [done|]. eapply (bn_insert bu_new _ s s); [|done|done|apply bn_new]. done. }
  match type of H with context [match ?m s with _ => _ end] => destruct (m s) as [s1 x] eqn:E; destruct (C _ _ E) as [X|X]; [left|right] end;
    destruct x; injection H as <- <-; exact X.
Qed.
Lemma cmn_append p c s : cmn s (append_child_core p c true false) s.
Proof.
  unfold append_child_core. apply cmn_ensure; [done|]. intros _. apply cmn_get. apply cmn_ensure; [done|]. intros EX.
  apply cmn_get. unfold id. cbv zeta. apply cmn_bind; [done|same_ref|]. intros [b [an cl]] s1 E ES1.
  apply cmn_ensure; [done|]. intros _. apply cmn_bind; [done|same_ref|]. intros b3 s3 EW ES3. apply cmn_commit; [done|].
  eapply bn_walk; [| |exact EW]; [done|]. apply (bn_ext b _ s1 s1); [done|done|]. eapply bn_update; [|exact E].
  eapply (bn_insert bu_new _ s s); [|done|done|apply bn_new]. done.
Qed.
(** The new account has a record *)
Lemma top_new a s s' : add_top_level a s = (s', Ok tt) -> st_ref s !! a = None /\ is_Some (st_ref s' !! a).
Proof.
  unfold add_top_level. intros H. apply (proj1 (recovered_ok _ _ _ _)) in H. apply bind_ok in H as (ex & s1 & E & H). apply get_ok in E as [-> ->].
  apply bind_ok in H as (u & s1 & E & H). apply ensure_ok in E as [-> EX]. apply bind_ok in H as (r & s1 & E & H). apply get_ok in E as [-> ->].
  split; [unfold ref_exists in EX; by destruct (st_ref s !! a)|].
  pose proof (commit_ref (bu_set a (new_rinfo nobody (own_coins s a) (own_deleg s a)) bu_new) s) as C. rewrite H in C. cbn in C.
  rewrite C, lookup_union, lookup_insert. by destruct (st_ref s !! a).
Qed.
Lemma append_new p c s s' : p <> nobody -> append_child_core p c true false s = (s', Ok tt) ->
  st_ref s !! c = None /\ is_Some (st_ref s' !! c) /\ refg (ref_get s') c = p.
Proof.
  intros Hp H.
  assert (E : refg (ref_get s') c = p).
  { eapply (append_every (fun y r => y = c -> r_referrer r = p)) in H; [by apply H|..].
    - intros y r r' L E Ey. rewrite (lk_ref _ _ L). auto.
    - intros y r i c0 d _ E Ey. cbn. auto.
    - intros y r l E Ey. cbn. auto.
    - done.
    - done. }
  split_and!; [|unfold refg, ref_get in E; destruct (st_ref s' !! c); [eauto|cbn in E; congruence]|done].
  revert H. unfold append_child_core. intros H. apply bind_ok in H as (u & s1 & E1 & H). apply ensure_ok in E1 as [-> _].
  apply bind_ok in H as (ex & s1 & E1 & H). apply get_ok in E1 as [-> ->]. apply bind_ok in H as (u2 & s1 & E1 & H). apply ensure_ok in E1 as [-> EX].
  unfold ref_exists in EX. by destruct (st_ref s !! c).
Qed.

(** ** The listed accounts *)
(** Neither banished nor with a subscription, without coins *)
Definition plain (r : rinfo) : Prop := r_banished r = false /\ r_active r = false /\ r_compression_at r = None /\
  ln (r_coins r) 0 = 0 /\ ln (r_deleg r) 0 = 0.
Lemma plain_like r r' : like r r' -> plain r -> plain r'.
Proof. intros [] (H1 & H2 & H3 & H4 & H5). split_and!; congruence. Qed.
Lemma plain_new p : plain (new_rinfo p 0 0).
Proof. by split_and!. Qed.
Lemma plain_line r i c d : (1 <= i)%nat -> plain r -> plain (add_line i c d r).
Proof. intros Hi (H1 & H2 & H3 & H4 & H5). split_and!; [done|done|done| |]; cbn; by rewrite ln0_add_at. Qed.
Record early (L : list addr) (s : St) : Prop := mkEarly {
  ea_right : right s;
  ea_plain : every (fun _ => plain) s;
  ea_full : full s;
  ea_closed : closed (fun a => a ∈ L) s;
  ea_bal : st_bal s = ∅ }.
Definition placed (a p : addr) (s : St) : Prop := is_Some (st_ref s !! a) /\ refg (ref_get s) a = p.
Lemma own_empty s a : st_bal s = ∅ -> own_coins s a = 0 /\ own_deleg s a = 0.
Proof. intros E. unfold own_coins, own_deleg, balance. by rewrite E, lookup_empty. Qed.
Lemma run_rel {A} (R : St -> St -> Prop) (m : M A) s s' x : rel R m -> m s = (s', x) -> R s s'.
Proof. intros H E. specialize (H s). by rewrite E in H. Qed.
Lemma early_top L a s s' : a ∈ L -> early L s -> add_top_level a s = (s', Ok tt) ->
  early L s' /\ placed a nobody s' /\ forall y p, placed y p s -> placed y p s'.
Proof.
  intros Ha [R P FU C B] H. destruct (top_new _ _ _ H) as [E0 E1]. destruct (own_empty s a B) as [O1 O2].
  assert (Z0 : ref_get s a = r_zero) by (unfold ref_get; by rewrite E0).
  assert (G : forall y, ref_get s' y = if (y =? a)%N then new_rinfo nobody 0 0 else ref_get s y).
  { unfold add_top_level in H. apply (proj1 (recovered_ok _ _ _ _)) in H. apply bind_ok in H as (ex & s1 & E & H). apply get_ok in E as [-> ->].
    apply bind_ok in H as (u & s1 & E & H). apply ensure_ok in E as [-> EX]. apply bind_ok in H as (r & s1 & E & H). apply get_ok in E as [-> ->].
    rewrite O1, O2 in H. intros y. rewrite (commit_get (bu_set a (new_rinfo nobody 0 0) bu_new) s s') by (by rewrite H). by rewrite (bu_get_insert bu_new (bu_set a (new_rinfo nobody 0 0) bu_new) a _ s eq_refl y), bu_get_new. }
  split_and!.
  - split.
    + eapply sane_like; [|exact R]. intros y. rewrite G. destruct (N.eqb_spec y a) as [->|]; [|apply like_refl]. rewrite Z0.
      split; try done; intros k; do 12 (destruct k as [|k]; [done|]); done.
    + intros y. rewrite G. destruct (y =? a)%N; [apply plain_new|apply P].
    + by eapply full_cmn; [exact FU|apply cmn_top|exact H].
    + pose proof (closed_top (fun a => a ∈ L) a Ha s C) as X. by rewrite H in X.
    + assert (X : rel (same st_bal) (add_top_level a)) by frame. apply (run_rel _ _ _ _ _ X) in H. unfold same in H. congruence.
  - split; [done|]. unfold refg. by rewrite G, N.eqb_refl.
  - intros y p [K1 K2]. split; [eapply full_cmn; [exact FU|apply cmn_top|exact H|done]|]. unfold refg. rewrite G. destruct (N.eqb_spec y a) as [->|]; [|done].
    rewrite E0 in K1. by destruct K1.
Qed.
Lemma early_append L p c s s' : nobody ∉ L -> p ∈ L -> c ∈ L -> p <> c -> early L s -> append_child_core p c true false s = (s', Ok tt) ->
  early L s' /\ placed c p s' /\ forall y q, placed y q s -> placed y q s'.
Proof.
  intros HN Hp Hc Hpc [R P FU C B] H. assert (Np : p <> nobody) by congruence. assert (Nc : c <> nobody) by congruence.
  destruct (append_new _ _ _ _ Np H) as (E0 & E1 & E2). destruct (own_empty s c B) as [O1 O2].
  split_and!.
  - split.
    + pose proof (append_core_right p c true false s Hpc Nc (fun _ => proj1 (P p)) R) as X. by rewrite H in X.
    + eapply (append_every (fun _ => plain)); [| | | | |exact H].
      * intros _. apply plain_like.
      * intros _ r i c0 d. apply plain_line.
      * done.
      * intros y _. apply P.
      * intros _. rewrite O1, O2. apply plain_new.
    + by eapply full_cmn; [exact FU|apply cmn_append|exact H].
    + pose proof (closed_append (fun a => a ∈ L) p c true false Hp Hc s C) as X. by rewrite H in X.
    + assert (X : rel (same st_bal) (append_child_core p c true false)) by same_ref. apply (run_rel _ _ _ _ _ X) in H. unfold same in H. congruence.
  - by split.
  - intros y q [K1 K2]. split; [eapply full_cmn; [exact FU|apply cmn_append|exact H|done]|].
    eapply (append_every (fun z r => z = y -> r_referrer r = q)) in H; [by apply H|..].
    + intros z r r' L0 E Ey. rewrite (lk_ref _ _ L0). auto.
    + intros z r i c0 d _ E Ey. cbn. auto.
    + intros z r l E Ey. cbn. auto.
    + by intros z _ ->.
    + intros _ ->. rewrite E0 in K1. by destruct K1.
Qed.
Lemma sane_zero : sane (fun _ => r_zero).
Proof.
  split.
  - split.
    + done.
    + exists (fun _ => O). by intros x [].
    + intros a x Ha. split; [intros H; by apply elem_of_nil in H|]. intros [H _]. cbn in H. congruence.
    + intros a. constructor.
    + done.
  - intros a k _ _. apply cong_refl.
  - intros a k _ _. apply cong_refl.
  - intros a k _ _. apply cong_refl.
  - done.
  - intros a k. cbn. unfold ln. rewrite lookup_nil. cbn. lia.
  - done.
  - done.
  - done.
  - done.
Qed.
Lemma early_start L s : st_ref s = ∅ -> st_bal s = ∅ -> early L s.
Proof.
  intros E B. assert (G : forall y, ref_get s y = r_zero) by (intros y; unfold ref_get; by rewrite E, lookup_empty). split.
  - eapply sane_ext; [|exact sane_zero]. exact G.
  - intros y. rewrite G. by split_and!.
  - intros y. rewrite E, lookup_empty. by intros [? ?].
  - split; [intros y; rewrite E, lookup_empty; by intros [? ?]|]. intros y. rewrite G. apply rg_zero.
  - done.
Qed.
Lemma elem_listed (g : rgen) p l c : (p, l) ∈ rg_other g -> c ∈ l -> c ∈ listed g.
Proof.
  intros H1 H2. apply elem_of_app. right. apply elem_of_list_In, in_flat_map. exists (p, l). split; by apply elem_of_list_In.
Qed.
Definition list_top (g : rgen) : M unit := must (mfor (rg_top g) add_top_level).
Definition list_other (g : rgen) : M unit :=
  must (mfor (rg_other g) (fun e => mfor (snd e) (fun c => append_child_core (fst e) c true false))).
Lemma list_ok g s s1 s2 : nobody ∉ listed g -> (forall p l, (p, l) ∈ rg_other g -> p ∈ listed g /\ p ∉ l) ->
  early (listed g) s -> list_top g s = (s1, Ok tt) -> list_other g s1 = (s2, Ok tt) ->
  early (listed g) s2 /\ (forall a, a ∈ rg_top g -> placed a nobody s2) /\
  (forall p l c, (p, l) ∈ rg_other g -> c ∈ l -> placed c p s2).
Proof.
  intros HN HR E H1 H2. apply (proj1 (must_ok _ _ _ _)) in H1, H2.
  apply (mfor_all (early (listed g)) (fun a => placed a nobody)) in H1 as [E1 K1]; [| | |exact E].
  2:{ intros x t t' Hx Ht H. apply early_top with (L := listed g) in H as (A1 & A2 & _); [done|apply elem_of_app; by left|done]. }
  2:{ intros x y t t' Hy Ht Hk H. apply early_top with (L := listed g) in H as (_ & _ & A); [by apply A|apply elem_of_app; by left|done]. }
  assert (IN : forall p l t t', (p, l) ∈ rg_other g -> early (listed g) t ->
     mfor l (fun c => append_child_core p c true false) t = (t', Ok tt) ->
     early (listed g) t' /\ (forall c, c ∈ l -> placed c p t') /\ forall y q, placed y q t -> placed y q t').
  { intros p l t t' Hl Ht H. destruct (HR p l Hl) as [R1 R2].
    assert (ST : forall c t t', c ∈ l -> early (listed g) t -> append_child_core p c true false t = (t', Ok tt) ->
       early (listed g) t' /\ placed c p t' /\ forall y q, placed y q t -> placed y q t').
    { intros c u u' Hc Hu Hr. eapply early_append; [exact HN|exact R1|by eapply elem_listed| |exact Hu|exact Hr]. by intros ->. }
    assert (A : early (listed g) t' /\ forall c, c ∈ l -> placed c p t').
    { eapply (mfor_all (early (listed g)) (fun c => placed c p)); [| |exact H|exact Ht].
      - intros x u u' Hx Hu Hr. by destruct (ST x u u' Hx Hu Hr) as (A1 & A2 & _).
      - intros x y u u' Hy Hu Hk Hr. by apply (ST y u u' Hy Hu Hr). }
    destruct A as [A1 A2].
    split_and!; [done|done|]. intros y q Hq.
    eapply (mfor_inv (fun u => early (listed g) u /\ placed y q u)); [|exact H|done].
    intros c u u' Hc [U1 U2] Hr. destruct (ST c u u' Hc U1 Hr) as (B1 & _ & B2). auto. }
  pose proof H2 as H3.
  apply (mfor_all (early (listed g)) (fun e t => forall c, c ∈ snd e -> placed c (fst e) t)) in H2 as [E2 K2]; [| | |exact E1].
  2:{ intros [p l] t t' Hx Ht H. cbn [fst snd] in *. destruct (IN p l t t' Hx Ht H) as (A1 & A2 & _). done. }
  2:{ intros [p l] [q m] t t' Hy Ht Hk H c Hc. cbn [fst snd] in *. destruct (IN q m t t' Hy Ht H) as (_ & _ & A3). apply A3. auto. }
  split_and!; [done| |intros p l c Hp Hc; by apply (K2 (p, l) Hp c)].
  intros a Ha. eapply (mfor_inv (fun u => early (listed g) u /\ placed a nobody u)); [|exact H3|auto].
  intros [p l] u u' Hc [U1 U2] Hr. destruct (IN p l u u' Hc U1 Hr) as (B1 & _ & B2). auto.
Qed.

(** ** The banished accounts *)
Definition list_banished (g : rgen) : M unit := mfor (rg_banished g) put_banished.
Lemma banished_ok l : forall s s', st_bal s = ∅ -> mfor l put_banished s = (s', Ok tt) ->
  st_bal s' = ∅ /\ forall y, (y ∉ map fst l /\ st_ref s' !! y = st_ref s !! y) \/
    exists p, (y, p) ∈ l /\ st_ref s' !! y = Some (r_zero <| r_referrer := p |> <| r_coins := [0] |> <| r_deleg := [0] |> <| r_banished := true |>).
Proof.
  induction l as [|[a p] l IH]; intros s s' B H; cbn [mfor] in H.
  - apply ret_ok in H as [-> _]. split; [done|]. intros y. left. split; [apply not_elem_of_nil|done].
  - apply bind_ok in H as ([] & s1 & E & H). apply modify_ok in E. cbn [fst snd] in E.
    destruct (own_empty s a B) as [O1 O2]. unfold banished_record in E. rewrite O1, O2 in E.
    assert (B1 : st_bal s1 = ∅) by (rewrite E; exact B).
    assert (R1 : st_ref s1 = <[ a := r_zero <| r_referrer := p |> <| r_coins := [0] |> <| r_deleg := [0] |> <| r_banished := true |> ]> (st_ref s)) by (rewrite E; reflexivity).
    clear E. destruct (IH s1 s' B1 H) as [B' G]. split; [done|]. intros y. destruct (G y) as [[N1 G1]|(q & N1 & G1)].
    + rewrite R1 in G1. destruct (N.eq_dec a y) as [<-|Hy].
      * right. exists p. split; [left|]. by rewrite G1, lookup_insert.
      * left. rewrite G1, lookup_insert_ne by done. split; [|done]. cbn. apply not_elem_of_cons. split; [congruence|done].
    + right. exists q. split; [by right|done].
Qed.
Lemma anc_in (ref : addr -> addr) n a : anc ref (S n) a = anc ref n (ref a).
Proof. induction n as [|n IH]; [done|]. cbn [anc] in *. by rewrite IH. Qed.
Lemma banished_right g s s' : nobody ∉ listed g -> early (listed g) s ->
  (forall a p, (a, p) ∈ rg_banished g -> a <> nobody /\ a ∉ listed g /\ p ∈ listed g ++ expelled g) ->
  (exists rank : addr -> nat, forall a p, (a, p) ∈ rg_banished g -> p ∈ expelled g -> (rank p < rank a)%nat) ->
  list_banished g s = (s', Ok tt) ->
  right s' /\ st_bal s' = ∅ /\ full s' /\ closed (fun a => a ∈ listed g ++ expelled g) s' /\
  (forall y, y ∉ expelled g -> st_ref s' !! y = st_ref s !! y) /\
  (forall y, y ∈ expelled g -> is_Some (st_ref s' !! y)) /\
  (forall y, r_active (ref_get s' y) = false /\ r_compression_at (ref_get s' y) = None /\ ln (r_coins (ref_get s' y)) 0 = 0 /\ ln (r_deleg (ref_get s' y)) 0 = 0).
Proof.
  intros HN [R P FU C B] HB [rank HE] H. apply banished_ok in H as [B' G]; [|done].
  set (br := fun p => r_zero <| r_referrer := p |> <| r_coins := [0] |> <| r_deleg := [0] |> <| r_banished := true |>) in *.
  set (f := ref_get s) in *. set (f' := ref_get s').
  assert (NR : forall y, ~ y ∈ listed g -> f y = r_zero).
  { intros y Hy. unfold f, ref_get. destruct (st_ref s !! y) eqn:E; [|done]. destruct Hy. apply C. eauto. }
  assert (G' : forall y, (y ∉ expelled g /\ f' y = f y) \/ exists p, (y, p) ∈ rg_banished g /\ y ∈ expelled g /\ f' y = br p).
  { intros y. unfold f', f, ref_get. destruct (G y) as [[N1 ->]|(p & N1 & ->)]; [by left|]. right. exists p. split_and!; [done| |done].
    apply elem_of_list_fmap. by exists (y, p). }
  assert (GL : forall y, y ∈ listed g -> f' y = f y).
  { intros y Hy. destruct (G' y) as [[_ E]|(p & N1 & _)]; [done|]. destruct (HB y p N1) as (_ & X & _). by destruct X. }
  assert (SUB : forall a x, x ∈ r_referrals (f a) -> f' x = f x /\ x ∈ listed g).
  { intros a x Hx. destruct (proj2 C a) as (_ & _ & C3). specialize (C3 x Hx). split; [by apply GL|done]. }
  assert (NB : forall y, y ∉ expelled g -> refg f y ∉ expelled g).
  { intros y Hy HX. apply elem_of_list_fmap in HX as ([a p] & Ea & HX). cbn in Ea. destruct (HB a p HX) as (X1 & X2 & _).
    destruct (proj2 C y) as (C1 & _ & _). change (r_referrer (ref_get s y)) with (refg f y) in C1. destruct C1 as [C1|C1]; [congruence|]. congruence. }
  assert (NOB : nobody ∉ expelled g).
  { intros HX. apply elem_of_list_fmap in HX as ([a p] & Ea & HX). cbn in Ea. destruct (HB a p HX) as (X1 & _). congruence. }
  assert (REF : forall y, y ∉ expelled g -> f' y = f y).
  { intros y Hy. destruct (G' y) as [[_ E]|(p & _ & N1 & _)]; [done|]. by destruct Hy. }
  assert (RG : forall y, y ∉ expelled g -> refg f' y = refg f y) by (intros y Hy; unfold refg; by rewrite (REF y Hy)).
  assert (AN : forall n y, y ∉ expelled g -> anc (refg f') n y = anc (refg f) n y /\ anc (refg f) n y ∉ expelled g).
  { induction n as [|n IH]; intros y Hy; cbn [anc]; [done|]. destruct (IH y Hy) as [I1 I2]. rewrite I1. split; [by apply RG|by apply NB]. }
  pose proof (sn_forest R) as FF. fold f in FF.
  assert (N0 : refg f' nobody = nobody) by (unfold refg; rewrite (REF _ NOB); apply (f_nobody FF)).
  assert (END0 : forall y, y ∉ expelled g -> exists n, anc (refg f') n y = nobody).
  { intros y Hy. destruct (f_rank FF) as [rk Hrk].
    exists (S (rk y)). rewrite (proj1 (AN _ y Hy)). destruct (decide (anc (refg f) (S (rk y)) y = nobody)) as [|Hn]; [done|].
    apply (anc_rank rk Hrk (f_nobody FF)) in Hn. lia. }
  assert (END : forall y, exists n, anc (refg f') n y = nobody).
  { assert (K : forall k y, (rank y < k)%nat -> exists n, anc (refg f') n y = nobody); [|intros y; apply (K (S (rank y))); lia].
    induction k as [|k IH]; intros y Hk; [lia|]. destruct (G' y) as [[Hy _]|(p & Hp & Hy & Ep)]; [by apply END0|].
    assert (EP : refg f' y = p) by (unfold refg; by rewrite Ep).
    assert (X : exists n, anc (refg f') n p = nobody).
    { destruct (decide (p ∈ expelled g)) as [Hx|Hx]; [|by apply END0]. apply IH. specialize (HE y p Hp Hx). lia. }
    destruct X as [n Hn]. exists (S n). by rewrite anc_in, EP. }
  assert (PE : forall y p, (y, p) ∈ rg_banished g -> p <> nobody).
  { intros y p Hp ->. destruct (HB y nobody Hp) as (_ & _ & X). apply elem_of_app in X as [X|X]; [by apply HN|by apply NOB]. }
  assert (LN : forall p k, ln (r_coins (br p)) k = 0 /\ ln (r_deleg (br p)) k = 0 /\ ln (r_cnt (br p)) k = 0).
  { intros p k. unfold ln, br. cbn. destruct k as [|k]; cbn; rewrite ?lookup_nil; by split_and!. }
  assert (LINE : forall M (h : rinfo -> list Z), (forall p k, ln (h (br p)) k = 0) ->
     lined M (refsg f) (fun a k => ln (h (f a)) k) -> lined M (refsg f') (fun a k => ln (h (f' a)) k)).
  { intros M h Hh HL a k Ha Hk. destruct (G' a) as [[Hy Ef]|(p & Hp & Hy & Ep)].
    - unfold refsg. rewrite Ef. eapply cong_trans; [by apply (HL a k)|]. apply cong_eq. apply sumz_ext. intros c Hc. by rewrite (proj1 (SUB a c Hc)).
    - unfold refsg. rewrite Ep, Hh. apply cong_refl. }
  assert (SN : sane f').
  { split.
    - split.
      + done.
      + by apply chain_rank.
      + intros a x Ha. destruct (G' a) as [[Hy Ef]|(p & Hp & Hy & Ep)].
        * unfold refsg. rewrite Ef. destruct (G' x) as [[Hx Ex]|(q & Hq & Hx & Ex)].
          -- unfold refg, bang. rewrite Ex. by apply (f_list FF).
          -- split.
             ++ intros Hi. destruct (SUB a x Hi) as [_ Hl]. destruct (HB x q Hq) as (_ & X & _). by destruct X.
             ++ unfold bang. rewrite Ex. by intros [_ X].
        * unfold refsg. rewrite Ep. split; [intros X; by apply elem_of_nil in X|]. intros [X1 X2]. exfalso.
          destruct (G' x) as [[Hx Ex]|(q & Hq & Hx & Ex)]; [|unfold bang in X2; by rewrite Ex in X2].
          unfold refg in X1. rewrite Ex in X1. apply (NB x Hx). unfold refg. by rewrite X1.
      + intros a. destruct (G' a) as [[Hy Ef]|(p & Hp & Hy & Ep)]; unfold refsg; [rewrite Ef; apply (f_nodup FF)|rewrite Ep; constructor].
      + intros a. unfold bang, refsg, refg. destruct (G' a) as [[Hy Ef]|(p & Hp & Hy & Ep)]; [rewrite Ef; apply (f_leaf FF)|rewrite Ep]. intros _.
        split; [done|]. by eapply PE.
    - apply LINE; [apply LN|apply (sn_coins R)].
    - apply LINE; [apply LN|apply (sn_deleg R)].
    - apply LINE; [apply LN|apply (sn_cnt R)].
    - intros a. unfold cntg, actg. destruct (G' a) as [[Hy Ef]|(p & Hp & Hy & Ep)]; [rewrite Ef; apply (sn_cnt0 R)|rewrite Ep]. apply LN.
    - intros a. destruct (G' a) as [[Hy Ef]|(p & Hp & Hy & Ep)]; [rewrite Ef; apply (sn_range R)|rewrite Ep]. intros k. destruct (LN p k) as (_ & _ & ->). lia.
    - intros a. unfold bang, actg. destruct (G' a) as [[Hy Ef]|(p & Hp & Hy & Ep)]; [rewrite Ef; apply (sn_ban R)|by rewrite Ep].
    - intros a Ha. unfold arefsg, refsg. destruct (G' a) as [[Hy Ef]|(p & Hp & Hy & Ep)]; [rewrite Ef|by rewrite Ep].
      etransitivity; [by apply (sn_arefs R)|]. unfold refsg, f. erewrite list_filter_iff_strong; [reflexivity|].
      intros x Hx. unfold actg. by rewrite (proj1 (SUB a x Hx)).
    - intros a t. unfold bang, actg. destruct (G' a) as [[Hy Ef]|(p & Hp & Hy & Ep)]; [rewrite Ef; apply (sn_comp R)|by rewrite Ep].
    - unfold refsg. rewrite (REF _ NOB). apply (sn_none R). }
  split_and!.
  - exact SN.
  - exact B'.
  - intros y. change (ref_get s' y) with (f' y). destruct (G y) as [[N1 E1]|(p & N1 & E1)]; [rewrite E1|unfold f', ref_get; by rewrite E1].
    destruct (G' y) as [[Hy Ef]|(p & Hp & Hy & Ep)]; [rewrite Ef; apply FU|by rewrite Ep].
  - destruct C as [C1 C2]. split.
    + intros y. destruct (G y) as [[N1 E1]|(p & N1 & E1)].
      * rewrite E1. intros Hy. apply elem_of_app. left. by apply C1.
      * intros _. apply elem_of_app. right. apply elem_of_list_fmap. by exists (y, p).
    + intros y. change (ref_get s' y) with (f' y). destruct (G' y) as [[Hy Ef]|(p & Hp & Hy & Ep)].
      * rewrite Ef. destruct (C2 y) as (X1 & X2 & X3). split_and!.
        -- destruct X1 as [X1|X1]; [by left|right]. apply elem_of_app. by left.
        -- destruct X2 as [X2|X2]; [by left|right]. apply elem_of_app. by left.
        -- intros c Hc. apply elem_of_app. left. by apply X3.
      * rewrite Ep. split_and!; [right; by apply (HB y p Hp)|by left|]. intros c Hc. by apply elem_of_nil in Hc.
  - intros y Hy. destruct (G y) as [[N1 E1]|(p & N1 & E1)]; [done|]. destruct Hy. apply elem_of_list_fmap. by exists (y, p).
  - intros y Hy. destruct (G y) as [[N1 E1]|(p & N1 & E1)]; [by destruct N1|eauto].
  - intros y. change (ref_get s' y) with (f' y). destruct (G' y) as [[Hy Ef]|(p & Hp & Hy & Ep)]; [rewrite Ef|by rewrite Ep].
    destruct (P y) as (X1 & X2 & X3 & X4 & X5). done.
Qed.

(** ** Notes on single accounts *)
Record loose (r r' : rinfo) : Prop := mkLoose {
  lo_ref : r_referrer r' = r_referrer r;
  lo_refs : r_referrals r' = r_referrals r;
  lo_ban : r_banished r' = r_banished r;
  lo_act : r_active r' = r_active r;
  lo_arefs : r_arefs r' = r_arefs r;
  lo_coins : forall k, ln (r_coins r') k = ln (r_coins r) k;
  lo_deleg : forall k, ln (r_deleg r') k = ln (r_deleg r) k;
  lo_cnt : forall k, ln (r_cnt r') k = ln (r_cnt r) k }.
Lemma loose_refl r : loose r r.
Proof. by split. Qed.
Lemma loose_norm r r' : loose r r' -> loose r (normalize r').
Proof. intros []. split; try done; intros k; cbn; by rewrite ln_pad. Qed.
Lemma sane_loose g g' : sane g -> (forall y, loose (g y) (g' y)) ->
  (forall y t, r_compression_at (g' y) = Some t -> actg g y = false /\ bang g y = false) -> sane g'.
Proof.
  intros S L HC. set (g2 := fun y => g' y <| r_compression_at := r_compression_at (g y) |>).
  assert (S2 : sane g2).
  { eapply sane_like; [|exact S]. intros y. destruct (L y). unfold g2. by split. }
  destruct S2 as [A1 A2 A3 A4 A5 A6 A7 A8 A9 A10]. split; [exact A1|exact A2|exact A3|exact A4|exact A5|exact A6|exact A7|exact A8| |exact A10].
  intros y t E. specialize (HC y t E). unfold actg, bang in *. by rewrite (lo_act _ _ (L y)), (lo_ban _ _ (L y)).
Qed.

Lemma sw_note R `{!PreOrder R} {A} (f : A -> addr * (rinfo -> rinfo)) l b : (forall s x, R s (s <| st_index := x |>)) ->
  (forall t d, rel R (schedule_task t HDowngrade d)) -> rel R (note f l b).
Proof.
  intros W T. unfold note. apply rel_mfold; [apply _|]. intros. apply rel_bind; [apply _| |intros [? ?]; apply rel_ret; apply _].
  apply sw_bu_updatem; [apply _|exact W|exact T|]. intros. apply rel_bind; [apply _|by apply rel_modify|intros; apply rel_ret; apply _].
Qed.
#[export] Hint Resolve sw_note : frame.
Section notes.
  Context (L : list addr) (P : addr -> Prop) (s : St).
  Definition noted (y : addr) (r : rinfo) : Prop :=
    loose (ref_get s y) r /\ (r_compression_at r = r_compression_at (ref_get s y) \/ y ∈ L) /\ Q P (r_transition r) /\
    (r_empty (ref_get s y) = false -> r_empty r = false).
  Definition nb (b : bu) : Prop := (forall y, is_Some (bu_data b !! y) -> y ∈ L) /\ forall y, noted y (bu_get b y s).
  Lemma note_ok {A} (f : A -> addr * (rinfo -> rinfo)) l :
    (forall x, x ∈ l -> fst (f x) ∈ L /\ forall r, noted (fst (f x)) r -> noted (fst (f x)) (snd (f x) r)) ->
    forall b s1 s' b', nb b -> st_ref s1 = st_ref s -> note f l b s1 = (s', Ok b') -> nb b' /\ st_ref s' = st_ref s.
  Proof.
    unfold note. induction l as [|x l IH]; intros HF b s1 s' b' B ES H; cbn [mfold] in H.
    { by apply ret_ok in H as [-> ->]. }
    apply bind_ok in H as (b1 & s2 & E & H). apply bind_ok in E as ([b2 u] & s3 & E & E'). apply ret_ok in E' as [-> ->].
    destruct (HF x ltac:(left)) as [X1 X2].
    apply bu_note_ok in E as (r2 & Q0 & ED & ES2).
    eapply IH; [| | |exact H]; [intros; apply HF; by right| |congruence].
    destruct B as [B1 B2]. split.
    - intros y. rewrite ED. destruct (N.eq_dec (fst (f x)) y) as [<-|Hy]; [done|]. rewrite lookup_insert_ne by done. apply B1.
    - intros y. rewrite (bu_get_insert b b2 (fst (f x)) r2 s ED y). destruct (N.eqb_spec y (fst (f x))) as [->|]; [|apply B2].
      rewrite Q0. apply X2. rewrite (bu_get_ext b b s s1) by done. destruct (B2 (fst (f x))) as (Y1 & Y2 & Y3 & Y4).
      split_and!; [by apply loose_norm|done|done|done].
  Qed.
End notes.
Definition list_notes (g : rgen) : M unit :=
  must (
    let! b := note (fun e => (fst e, fun r => r <| r_compression_at := Some (snd e) |>)) (rg_comp g) bu_new in
    let! b := note (fun e => (fst e, fun r => r <| r_banishment_at := Some (snd e) |>)) (rg_ban g) b in
    let! b := note (fun e => (fst (fst e), fun r => r <| r_status := snd (fst e) |>
                                                      <| r_downgrade_at := Some (snd e) |>)) (rg_down g) b in
    let! b := note (fun e => (fst e, fun r => r <| r_transition := snd e |>)) (rg_trans g) b in
    bu_commit b).
Lemma notes_ok (P : addr -> Prop) g s s' :
  (forall a t, (a, t) ∈ rg_comp g -> a ∈ listed g) -> (forall a t, (a, t) ∈ rg_ban g -> a ∈ listed g) ->
  (forall a st t, (a, st, t) ∈ rg_down g -> a ∈ listed g /\ st <> 0) ->
  (forall a p, (a, p) ∈ rg_trans g -> a ∈ listed g /\ p ∈ listed g) ->
  (forall a, a ∈ listed g -> P a /\ is_Some (st_ref s !! a) /\ bang (ref_get s) a = false) ->
  (forall y, r_active (ref_get s y) = false /\ r_compression_at (ref_get s y) = None) ->
  right s -> full s -> closed P s -> list_notes g s = (s', Ok tt) ->
  right s' /\ full s' /\ closed P s' /\ st_bal s' = st_bal s /\
  (forall y, is_Some (st_ref s' !! y) <-> is_Some (st_ref s !! y)) /\ (forall y, loose (ref_get s y) (ref_get s' y)).
Proof.
  intros H1 H2 H3 H4 HL HA R FU C H.
  assert (RB : st_bal s' = st_bal s).
  { assert (X : rel (same st_bal) (list_notes g)) by (unfold list_notes; repeat first [progress rel_struct|frame]).
    by apply (run_rel _ _ _ _ _ X) in H. }
  unfold list_notes in H. apply (proj1 (must_ok _ _ _ _)) in H.
  apply bind_ok in H as (b1 & s1 & E1 & H). apply bind_ok in H as (b2 & s2 & E2 & H). apply bind_ok in H as (b3 & s3 & E3 & H).
  apply bind_ok in H as (b4 & s4 & E4 & H).
  eapply (note_ok (listed g) P s) in E1 as [B1 S1]; [| | |done].
  2:{ intros [a t] Hx. cbn [fst snd]. pose proof (H1 a t Hx) as Ha. split; [done|]. intros r (Y1 & Y2 & Y3 & Y4). split_and!; [by destruct Y1|by right|done|done]. }
  2:{ split; [intros y; cbn; rewrite lookup_empty; by intros [? ?]|]. intros y. rewrite bu_get_new. split_and!; [apply loose_refl|by left|apply C|done]. }
  eapply (note_ok (listed g) P s) in E2 as [B2 S2]; [| |exact B1|exact S1].
  2:{ intros [a t] Hx. cbn [fst snd]. pose proof (H2 a t Hx) as Ha. split; [done|]. intros r (Y1 & Y2 & Y3 & Y4). split_and!; [by destruct Y1|done|done|done]. }
  eapply (note_ok (listed g) P s) in E3 as [B3 S3]; [| |exact B2|exact S2].
  2:{ intros [[a st] t] Hx. cbn [fst snd]. destruct (H3 a st t Hx) as [Ha Hs]. split; [done|]. intros r (Y1 & Y2 & Y3 & Y4). split_and!; [by destruct Y1|done|done|].
      intros _. unfold r_empty. cbn. by rewrite (proj2 (Z.eqb_neq st 0) Hs). }
  eapply (note_ok (listed g) P s) in E4 as [B4 S4]; [| |exact B3|exact S3].
  2:{ intros [a p] Hx. cbn [fst snd]. destruct (H4 a p Hx) as [Ha Hp]. split; [done|]. intros r (Y1 & Y2 & Y3 & Y4). split_and!; [by destruct Y1|done|right; by apply HL|done]. }
  destruct B4 as [B5 B6].
  assert (ER : st_ref s' = bu_data b4 ∪ st_ref s).
  { pose proof (commit_ref b4 s4) as X. rewrite H in X. cbn in X. by rewrite S4 in X. }
  assert (G : forall y, noted (listed g) P s y (ref_get s' y)) by (intros y; rewrite (union_get b4 s s' y ER); apply B6).
  assert (DOM : forall y, is_Some (st_ref s' !! y) <-> is_Some (st_ref s !! y)).
  { intros y. rewrite ER, lookup_union. destruct (bu_data b4 !! y) eqn:Eb.
    - assert (X : is_Some (st_ref s !! y)) by (apply HL, B5; eauto). destruct X as [z Ez]. rewrite Ez. cbn. split; eauto.
    - destruct (st_ref s !! y); cbn; split; done. }
  split_and!.
  - eapply sane_loose; [exact R|intros y; apply G|]. intros y t Et. destruct (G y) as (_ & [Y|Y] & _); [destruct (HA y) as [_ X]; congruence|].
    split; [apply HA|by apply HL].
  - intros y Hy. apply G, FU. by apply DOM.
  - split; [intros y Hy; apply C; by apply DOM|]. intros y. destruct (G y) as ([] & _ & Y & _). destruct (proj2 C y) as (X1 & X2 & X3).
    split_and!; [congruence|done|]. by rewrite lo_refs0.
  - exact RB.
  - exact DOM.
  - intros y. apply G.
Qed.

(** ** The import of the referral network *)
Definition in_file (g : genesis) (a : addr) : Prop := a ∈ listed (g_ref g) ++ expelled (g_ref g).
Record imported (g : genesis) (s : St) : Prop := mkImported {
  im_right : right s;
  im_closed : closed (in_file g) s;
  im_held : forall a, in_file g a -> held a s;
  im_here : forall a, in_file g a -> is_Some (st_ref s !! a);
  im_free : forall a, a ∈ listed (g_ref g) -> bang (ref_get s) a = false;
  im_top : forall a, a ∈ rg_top (g_ref g) -> refg (ref_get s) a = nobody;
  im_other : forall p l a, (p, l) ∈ rg_other (g_ref g) -> a ∈ l -> refg (ref_get s) a = p }.
Lemma ref_import_ok now g s s' : tidy now g -> blank s -> ref_import (g_ref g) s = (s', Ok tt) -> imported g s' /\ st_bal s' = ∅.
Proof.
  intros T [F1 F2] H. unfold ref_import in H.
  apply bind_ok in H as ([] & s1 & E1 & H). apply bind_ok in H as ([] & s2 & E2 & H). apply bind_ok in H as ([] & s3 & E3 & H).
  change (list_notes (g_ref g) s3 = (s', Ok tt)) in H.
  apply (list_ok (g_ref g) s s1 s2) in E2 as (EA & K1 & K2); [|apply T|apply T|by apply early_start|exact E1].
  apply banished_right in E3 as (R3 & B3 & FU3 & C3 & G3 & D3 & A3); [|apply T|done|apply T|apply T].
  assert (LI : forall a, a ∈ listed (g_ref g) -> a ∉ expelled (g_ref g)).
  { intros a Ha He. apply elem_of_list_fmap in He as ([y p] & Ey & He). cbn in Ey. subst y. by destruct (td_banished _ _ T a p He) as (_ & X & _). }
  assert (HERE : forall a, a ∈ listed (g_ref g) -> is_Some (st_ref s3 !! a)).
  { intros a Ha. rewrite (G3 a (LI a Ha)). apply elem_of_app in Ha as [Ha|Ha]; [by apply K1|].
    apply elem_of_list_In, in_flat_map in Ha as ([p l] & Hp & Ha). apply elem_of_list_In in Hp, Ha. by apply (K2 p l a). }
  assert (GET : forall a, a ∈ listed (g_ref g) -> ref_get s3 a = ref_get s2 a) by (intros a Ha; unfold ref_get; by rewrite (G3 a (LI a Ha))).
  apply (notes_ok (in_file g)) in H as (R4 & FU4 & C4 & B4 & D4 & L4); [|apply T|apply T|apply T|apply T| | |exact R3|exact FU3|exact C3].
  2:{ intros a Ha. split_and!; [apply elem_of_app; by left|by apply HERE|]. unfold bang. rewrite (GET a Ha). apply (ea_plain _ _ EA). }
  2:{ intros y. destruct (A3 y) as (X1 & X2 & _). done. }
  assert (IS : forall a, in_file g a -> is_Some (st_ref s' !! a)).
  { intros a Ha. apply D4. apply elem_of_app in Ha as [Ha|Ha]; [by apply HERE|by apply D3]. }
  split; [|congruence]. split.
  - done.
  - done.
  - intros a Ha. destruct (own_empty s' a ltac:(congruence)) as [O1 O2]. destruct (L4 a). destruct (A3 a) as (_ & _ & X3 & X4).
    unfold held, says. rewrite O1, O2. split_and!; [apply FU4; by apply IS|congruence|congruence].
  - done.
  - intros a Ha. unfold bang. rewrite (lo_ban _ _ (L4 a)), (GET a Ha). apply (ea_plain _ _ EA).
  - intros a Ha. unfold refg. rewrite (lo_ref _ _ (L4 a)), GET by (apply elem_of_app; by left). by apply K1.
  - intros p l a Hp Ha. unfold refg. rewrite (lo_ref _ _ (L4 a)), GET by (by eapply elem_listed). by apply (K2 p l a).
Qed.

(** ** Nobody who is not banished is moved or banished *)
Definition fast (s s' : St) : Prop := forall y, bang (ref_get s) y = false ->
  bang (ref_get s') y = false /\ refg (ref_get s') y = refg (ref_get s) y.
#[export] Instance fast_pre : PreOrder fast.
Proof.
  split; [by intros s y|]. intros s1 s2 s3 A B y Hy. destruct (A y Hy) as [A1 A2]. destruct (B y A1) as [B1 B2]. split; congruence.
Qed.
Lemma fast_ref s s' : st_ref s' = st_ref s -> fast s s'.
Proof. intros E y. unfold bang, refg, ref_get. by rewrite E. Qed.
#[export] Hint Extern 1 (fast _ _) => (apply fast_ref; reflexivity) : frame.
Definition moored (s : St) (y : addr) (r : rinfo) : Prop := bang (ref_get s) y = false -> r_banished r = false /\ r_referrer r = refg (ref_get s) y.
Lemma moored_like s y r r' : like r r' -> moored s y r -> moored s y r'.
Proof. intros [] H Hy. destruct (H Hy). split; congruence. Qed.
Lemma moored_fields s y r r' : r_banished r' = r_banished r -> r_referrer r' = r_referrer r -> moored s y r -> moored s y r'.
Proof. intros E1 E2 H Hy. destruct (H Hy). split; congruence. Qed.
Lemma fast_cm m s : cm s (fun b => bf (moored s) b s) m s -> fast s (fst (m s)).
Proof.
  intros C. destruct (m s) as [s' r] eqn:E. cbn. destruct (C s' r E) as [E1|(b & P & G)]; [by apply fast_ref|].
  intros y Hy. destruct (P y Hy) as [P1 P2]. unfold bang, refg. rewrite G. done.
Qed.
Lemma moored_start s : every (moored s) s.
Proof. by intros y. Qed.
Lemma set_active_fast a v ck : rel fast (set_active a v ck).
Proof.
  intros s. apply fast_cm. unfold set_active. apply cm_get. unfold id. cbv zeta. apply cm_bind; [done|same_ref|]. intros [b o] s1 E ES1.
  eapply (bf_updatem (moored s) (moored_like s)) in E; cycle 1.
  { intros s2 b2 r2 E2. rewrite bu_get_new in E2. destruct (Bool.eqb _ _).
    - apply ret_ok in E2 as [-> E2]. injection E2 as -> -> _. split; [apply bf_new, moored_start|]. eapply moored_like; [apply normalize_like|apply moored_start].
    - apply bind_ok in E2 as (r3 & s3 & E2 & E3). apply ret_ok in E3 as [-> E3]. injection E3 as -> -> _.
      assert (ES3 : st_ref s3 = st_ref s).
      { match type of E2 with ?m s = _ => assert (RS : rel (same st_ref) m) by same_ref; specialize (RS s); rewrite E2 in RS; exact RS end. }
      split; [apply (bf_ext _ bu_new _ s s3); [done|done|apply bf_new, moored_start]|].
      assert (X : r_banished r3 = r_banished (ref_get s a) /\ r_referrer r3 = r_referrer (ref_get s a)).
      { destruct (r_banishment_at _) as [t|]; [destruct v|].
        - apply bind_ok in E2 as (u & s4 & _ & E2). apply ret_ok in E2 as [_ ->]. done.
        - apply ret_ok in E2 as [_ ->]. done.
        - apply ret_ok in E2 as [_ ->]. done. }
      destruct X as [X1 X2]. eapply moored_fields; [exact X1|exact X2|apply moored_start]. }
  destruct o as [q|]; [|by apply cm_ret].
  apply cm_bind; [done|same_ref|]. intros b3 s3 EW ES3.
  apply cm_bind; [done|same_ref|]. intros [] s4 _ ES4. apply (cm_bf (moored s)); [done|].
  apply (bf_ext _ b3 _ s3 s4); [done|congruence|].
  eapply (bf_walk (moored s) (moored_like s)); [|exact E|exact EW].
  intros i y b0 r Hi. split; [done|]. cbn [snd]. destruct (i =? 1)%nat; by apply moored_fields.
Qed.
Lemma obc_fast a : rel fast (on_balance_changed a).
Proof.
  intros s. apply fast_cm. unfold on_balance_changed. apply cm_get. unfold id. cbv zeta.
  change (bu_updatem bu_new a true _) with (bu_updatem bu_new a true (obc_body (own_coins s a) (own_deleg s a) (bp_dust (st_bp s)) s a)).
  apply cm_bind; [done| |].
  { apply rel_try. apply sw_bu_updatem; [apply _|frame|frame|]. intros b r0. apply obc_body_rel. }
  intros out s1 E ES1. apply try_ok in E. destruct out as [[b [[[dc dd] node] ban]]|e]; cycle 1.
  { destruct e; first [by apply cm_ret|by apply cm_fail]. }
  eapply (bf_updatem (moored s) (moored_like s)) in E; cycle 1.
  { intros s2 b2 r2 E2. rewrite bu_get_new in E2. apply obc_body_ok in E2 as (_ & r0 & -> & X & H1).
    assert (FR : forall r, moored s a r -> moored s a (set_own (own_coins s a) (own_deleg s a) r)) by (intros r; by apply moored_fields).
    destruct H1 as [(ba & -> & D1 & C1 & _)|(A1 & A2 & _ & _ & ba & b4 & s4 & D4 & C4 & H1)].
    - split; [apply (bf_ext _ bu_new _ s s2); [done|unfold core_of in C1; congruence|apply bf_new, moored_start]|]. apply FR.
      eapply moored_fields; [| |eapply moored_like; [apply normalize_like|apply moored_start]]; done.
    - split.
      + assert (E4 : st_ref s4 = st_ref s) by (unfold core_of in C4; congruence).
        assert (G4 : forall y, bu_get b4 y s4 = ref_get s4 y).
        { intros y. rewrite <- bu_get_new. by apply bu_get_ext. }
        apply revive_ok in H1 as (E1 & Z1 & _ & Z2); [|done|unfold referrer, ref_get; by rewrite E4].
        intros y Hy. assert (E5 : ref_get s4 y = ref_get s y) by (unfold ref_get; by rewrite E4).
        destruct Z2 as [(_ & _ & Z2)|(n' & _ & _ & _ & _ & _ & Z2)]; specialize (Z2 y).
        * apply shape_inj in Z2 as (-> & _ & -> & _). rewrite E5. done.
        * destruct (N.eqb_spec y (up s4 n' a)) as [E0|]; apply shape_inj in Z2 as (-> & _ & -> & _); [|by rewrite E5].
          rewrite <- E0. cbn. rewrite E5. done.
      + intros Hy. exfalso. unfold bang in Hy. cbn in A2. congruence. }
  apply cm_bind; [done|same_ref|]. intros b3 s3 EW ES3. apply (cm_bf (moored s)); [done|].
  destruct ban; [by apply ret_ok in EW as [-> ->]|].
  eapply (bf_walk (moored s) (moored_like s)); [|exact E|exact EW].
  intros i y b0 r Hi. cbn. split; [by destruct (_ =? 0)|]. by apply moored_fields.
Qed.
#[export] Hint Resolve obc_fast set_active_fast : frame.
Lemma bal_fast a c : rel fast (set_balance a c).
Proof. apply sw_set_balance; [apply _|frame|intros; apply fast_ref; reflexivity|apply obc_fast]. Qed.
#[export] Hint Resolve bal_fast : frame.
Lemma must_active_fast a v : rel fast (must_set_active a v).
Proof. apply rel_must, set_active_fast. Qed.
#[export] Hint Resolve must_active_fast : frame.
Lemma set_profile_fast a p : rel fast (set_profile a p).
Proof. frame. Qed.

(** ** The rest of the file *)
Ltac quiet_go := repeat first [progress rel_struct|frame|apply rel_modify; intros; first [reflexivity|apply grows_same; reflexivity]].
Definition stg (g : genesis) (s s' : St) : Prop := grows s s' /\ (aborts s' = aborts s -> imported g s -> imported g s').
#[export] Instance stg_pre g : PreOrder (stg g).
Proof.
  split.
  - intros s. split; [reflexivity|done].
  - intros s1 s2 s3 [G1 A1] [G2 A2]. split; [by transitivity s2|]. intros E H. pose proof (grows_aborts _ _ G1). pose proof (grows_aborts _ _ G2).
    apply A2; [lia|]. apply A1; [lia|done].
Qed.
Lemma stg_of g s s' : (forall a, ho a s s') -> (imported g s -> right s') -> (closed (in_file g) s -> closed (in_file g) s') -> fast s s' -> stg g s s'.
Proof.
  intros H R C F. split; [apply (H nobody)|]. intros EA [I1 I2 I3 I4 I5 I6 I7].
  assert (HH : forall a, in_file g a -> held a s') by (intros a Ha; by apply H, I3).
  assert (LI : forall a, a ∈ listed (g_ref g) -> bang (ref_get s') a = false /\ refg (ref_get s') a = refg (ref_get s) a) by (intros a Ha; by apply F, I5).
  split.
  - apply R. by split.
  - auto.
  - done.
  - intros a Ha. destruct (HH a Ha) as [X _]. unfold ref_get in X. destruct (st_ref s' !! a); [eauto|done].
  - intros a Ha. by apply LI.
  - intros a Ha. rewrite (proj2 (LI a ltac:(apply elem_of_app; by left))). auto.
  - intros p l a Hp Ha. rewrite (proj2 (LI a ltac:(by eapply elem_listed))). eauto.
Qed.
(** The parts of the state the network and the balances consist of *)
Definition tree_part (s : St) := (st_ref s, st_bal s, st_log s, st_now s).
Lemma stg_quiet g s s' : tree_part s' = tree_part s -> stg g s s'.
Proof.
  unfold tree_part. intros E. injection E as E1 E2 E3 E4. apply stg_of.
  - intros a. apply ho_fields; [done|done|by apply grows_same].
  - intros [R _ _ _ _ _ _]. by eapply right_ref.
  - by apply closed_ref.
  - by apply fast_ref.
Qed.
Lemma quiet_stg g {A} (m : M A) : rel (same tree_part) m -> rel (stg g) m.
Proof. intros H s. apply stg_quiet, H. Qed.
Lemma stg_set_balance g a c s s' : set_balance a c s = (s', Ok tt) -> stg g s s'.
Proof.
  intros H. apply stg_of.
  - intros x. eapply ho_set_balance; [exact H|discriminate].
  - intros [R _ _ _ _ _ _]. pose proof (bal_keeps a c s R) as X. by rewrite H in X.
  - intros C. assert (X : rel (keeps (closed (in_file g))) (set_balance a c)).
    { apply sw_set_balance; [apply _| | |apply closed_obc].
      - intros. intros D. eapply closed_ref; [|exact D]. reflexivity.
      - intros. intros D. eapply closed_ref; [reflexivity|exact D]. }
    specialize (X s C). by rewrite H in X.
  - pose proof (bal_fast a c s) as X. by rewrite H in X.
Qed.
Lemma stg_bank g bals sup s s' : bank_init bals sup s = (s', Ok tt) -> stg g s s' /\ st_now s' = st_now s.
Proof.
  intros H. split.
  - unfold bank_init in H. apply bind_ok in H as ([] & s1 & E & H). apply modify_ok in H. subst s'.
    apply (proj1 (must_ok _ _ _ _)) in E. transitivity s1; [|apply stg_quiet; reflexivity].
    revert s E. induction bals as [|[a c] l IH]; intros s E; cbn [mfor] in E; [apply ret_ok in E as [-> _]; reflexivity|].
    apply bind_ok in E as ([] & s2 & E & H). cbn [fst snd] in E. transitivity s2; [by eapply stg_set_balance|by apply IH].
  - assert (X : rel (same st_now) (bank_init bals sup)) by (unfold bank_init; quiet_go). by apply (run_rel _ _ _ _ _ X) in H.
Qed.
(** Writing a profile again changes nothing. *)
Lemma set_same a p s s' : st_prof s !! a = Some p -> set_profile a p s = (s', Ok tt) -> tree_part s' = tree_part s.
Proof.
  intros EP H. unfold set_profile in H. apply bind_ok in H as (o & s1 & E & H). apply get_ok in E as [-> ->]. rewrite EP in H.
  apply bind_ok in H as (nick & s1 & E & H). apply get_ok in E as [-> ->]. apply bind_ok in H as ([] & s1 & E & H).
  assert (X : rel (same tree_part) (validate_nickname a (trim s (p_nick p)))) by frame. apply (run_rel _ _ _ _ _ X) in E. clear X.
  apply bind_ok in H as (q & s2 & E2 & H).
  assert (Q2 : tree_part s2 = tree_part s1 /\ p_until q = p_until p).
  { rewrite decide_True in E2 by done. apply bind_ok in E2 as (u & s3 & E3 & E2). apply ret_ok in E3 as [-> _].
    destruct (p_card p =? 0); [by apply ret_ok in E2 as [-> ->]|]. rewrite Z.eqb_refl in E2.
    apply bind_ok in E2 as (u' & s3 & E3 & E2). apply ret_ok in E3 as [-> _]. by apply ret_ok in E2 as [-> ->]. }
  destruct Q2 as [Q2 Q3]. apply bind_ok in H as (u & s3 & E3 & H). apply modify_ok in E3.
  assert (T3 : tree_part s3 = tree_part s2) by (rewrite E3; reflexivity). clear E3. apply bind_ok in H as (u' & s4 & E4 & H).
  assert (X : rel (same tree_part) (touch_account a)) by frame. apply (run_rel _ _ _ _ _ X) in E4. clear X.
  apply bind_ok in H as (now & s5 & E5 & H). apply get_ok in E5 as [-> ->]. cbv zeta in H.
  unfold p_active in H. rewrite Q3, Bool.eqb_reflx in H. apply ret_ok in H as [-> _].
  unfold same in *. congruence.
Qed.
Lemma stg_set_active g a s s' : a ∈ listed (g_ref g) -> must (set_active a true false) s = (s', Ok tt) -> stg g s s'.
Proof.
  intros Ha H. apply (proj1 (must_ok _ _ _ _)) in H. apply stg_of.
  - intros x. pose proof (kl_set_active x a true false s) as K. rewrite H in K. split.
    + assert (X : rel grows (set_active a true false)) by frame. by apply (run_rel _ _ _ _ _ X) in H.
    + intros _. by apply held_kl.
  - intros I. pose proof (set_active_right a true false s (im_right _ _ I) (fun _ => im_free _ _ I a Ha)) as X. by rewrite H in X.
  - intros C. assert (Pa : in_file g a) by (apply elem_of_app; by left).
    pose proof (closed_set_active (in_file g) a true false Pa s C) as X. by rewrite H in X.
  - pose proof (set_active_fast a true false s) as X. by rewrite H in X.
Qed.
Lemma stg_profile g a p s s' : (p_active (st_now s) p = true -> a ∈ listed (g_ref g)) -> prof_import_one (a, p) s = (s', Ok tt) ->
  stg g s s' /\ st_now s' = st_now s.
Proof.
  intros HA H. split.
  2:{ assert (X : rel (same st_now) (prof_import_one (a, p))) by (unfold prof_import_one; quiet_go). by apply (run_rel _ _ _ _ _ X) in H. }
  unfold prof_import_one in H. cbn [fst snd] in H.
  apply bind_ok in H as (acc & s1 & E & H). apply get_ok in E as [-> ->]. apply bind_ok in H as (n & s1 & E & H). apply lift_ok in E as [-> _].
  apply bind_ok in H as (mg & s1 & E & H). apply get_ok in E as [-> ->]. cbv zeta in H. set (q := p <| p_card := _ |>) in *.
  assert (AQ : forall t, p_active t q = p_active t p) by done. clearbody q.
  apply bind_ok in H as (nick & s1 & E & H). apply get_ok in E as [-> ->]. apply bind_ok in H as ([] & s1 & E1 & H).
  assert (T1 : tree_part s1 = tree_part s).
  { destruct (decide _); [by apply ret_ok in E1 as [-> _]|]. assert (X : rel (same tree_part) (nick_put (trim s (p_nick q)) a)) by frame. by apply (run_rel _ _ _ _ _ X) in E1. }
  apply bind_ok in H as ([] & s2 & E2 & H). assert (X : rel (same tree_part) (card_put (p_card q) a)) by frame. apply (run_rel _ _ _ _ _ X) in E2. clear X.
  apply bind_ok in H as ([] & s3 & E3 & H). apply modify_ok in E3.
  assert (T3 : tree_part s3 = tree_part s /\ st_prof s3 !! a = Some q).
  { rewrite E3. split; [transitivity (tree_part s2); [reflexivity|]; unfold same in E2; congruence|]. cbn. apply lookup_insert. }
  destruct T3 as [T3 P3]. clear E3. apply bind_ok in H as (now & s4 & E & H). apply get_ok in E as [-> ->].
  assert (N3 : st_now s3 = st_now s) by (unfold tree_part in T3; congruence). rewrite N3, AQ in H.
  apply bind_ok in H as ([] & s4 & E4 & H). apply (proj1 (must_ok _ _ _ _)) in H.
  transitivity s3; [by apply stg_quiet|].
  destruct (p_active (st_now s) p).
  - assert (X : rel (same st_prof) (must (set_active a true false))) by (apply rel_must; frame). apply (run_rel _ _ _ _ _ X) in E4 as P4. clear X.
    transitivity s4; [eapply stg_set_active; [by apply HA|exact E4]|]. apply stg_quiet. eapply set_same; [|exact H]. rewrite P4. exact P3.
  - apply ret_ok in E4 as [-> _]. apply stg_quiet. by eapply set_same.
Qed.
Lemma stg_profiles g l s s' : (forall a p, (a, p) ∈ l -> p_active (st_now s) p = true -> a ∈ listed (g_ref g)) ->
  mfor l prof_import_one s = (s', Ok tt) -> stg g s s'.
Proof.
  intros HA H. assert (X : forall s, st_now s = st_now s -> True) by done. clear X.
  revert s HA H. induction l as [|[a p] l IH]; intros s HA H; cbn [mfor] in H; [apply ret_ok in H as [-> _]; reflexivity|].
  apply bind_ok in H as ([] & s1 & E & H). apply (stg_profile g) in E as [E1 E2]; [|apply HA; left].
  transitivity s1; [done|]. apply IH; [|done]. rewrite E2. intros b q Hb. apply HA. by right.
Qed.
Lemma stg_statuses g s s' : check_statuses s = (s', Ok tt) -> stg g s s'.
Proof.
  intros H. assert (GR : grows s s').
  { assert (X : rel grows check_statuses) by (unfold check_statuses; quiet_go). by apply (run_rel _ _ _ _ _ X) in H. }
  assert (EB : st_bal s' = st_bal s).
  { assert (X : rel (same st_bal) check_statuses) by (unfold check_statuses; quiet_go). by apply (run_rel _ _ _ _ _ X) in H. }
  unfold check_statuses in H. apply bind_ok in H as (ks & s1 & E & H). apply get_ok in E as [-> ->]. apply (proj1 (must_ok _ _ _ _)) in H.
  apply bind_ok in H as (b & s1 & E & H).
  assert (K : (forall y, is_Some (bu_data b !! y) -> y ∈ keysN (st_ref s)) /\ (forall y, like (ref_get s y) (bu_get b y s1)) /\ st_ref s1 = st_ref s /\
     (forall y, rg (in_file g) (ref_get s y) -> rg (in_file g) (bu_get b y s1)) /\ forall x, hk (ref_get s x) (bu_get b x s1)).
  { assert (G : forall ks b0 s0, (forall y, y ∈ ks -> y ∈ keysN (st_ref s)) -> (forall y, is_Some (bu_data b0 !! y) -> y ∈ keysN (st_ref s)) -> st_ref s0 = st_ref s ->
       (forall y, like (ref_get s y) (bu_get b0 y s0)) -> (forall y, rg (in_file g) (ref_get s y) -> rg (in_file g) (bu_get b0 y s0)) ->
       (forall x, hk (ref_get s x) (bu_get b0 x s0)) ->
       mfold ks b0 (fun b a => let! (b, _) := bu_update b a true (fun r => (r, tt)) in ret b) s0 = (s1, Ok b) ->
       (forall y, is_Some (bu_data b !! y) -> y ∈ keysN (st_ref s)) /\ (forall y, like (ref_get s y) (bu_get b y s1)) /\ st_ref s1 = st_ref s /\
       (forall y, rg (in_file g) (ref_get s y) -> rg (in_file g) (bu_get b y s1)) /\ forall x, hk (ref_get s x) (bu_get b x s1)).
    { clear E H. induction ks as [|a ks IH]; intros b0 s0 HK HD ES HL HG HH H; cbn [mfold] in H; [apply ret_ok in H as [-> ->]; by split_and!|].
      apply bind_ok in H as (b1 & s2 & E & H). apply bind_ok in E as ([b2 u] & s3 & E & E'). apply ret_ok in E' as [-> ->].
      pose proof E as EU. apply bu_update_ok in EU as (r2 & _ & Q1 & _ & ED & ES2). cbn [fst] in Q1.
      assert (G : forall y, bu_get b2 y s3 = if (y =? a)%N then r2 else bu_get b0 y s0).
      { intros y. rewrite (bu_get_ext b2 b2 s0 s3 y) by done. apply (bu_get_insert b0 b2 a r2 s0 ED). }
      eapply IH; [| | | | | |exact H].
      - intros y Hy. apply HK. by right.
      - intros y. rewrite ED. destruct (N.eq_dec a y) as [<-|Hy]; [intros _; apply HK; left|]. rewrite lookup_insert_ne by done. apply HD.
      - congruence.
      - intros y. rewrite G. destruct (N.eqb_spec y a) as [->|]; [|apply HL].
        eapply like_trans; [apply HL|]. eapply like_trans; [apply normalize_like|apply eqs_like, Q1].
      - intros y. rewrite G. destruct (N.eqb_spec y a) as [->|]; [|apply HG]. intros Hr. eapply rg_eqs; [exact Q1|]. apply rg_normalize, HG, Hr.
      - intros x. apply (update_hk x) in E as [_ E]; [|intros _; cbv zeta; intros HE; split_and!; done].
        eapply hk_trans; [apply HH|]. by rewrite <- (bu_get_ext b2 b2 s0 s3 x) in E by done. }
    eapply G; [done| |done| | | |exact E].
    - intros y. cbn. rewrite lookup_empty. by intros [? ?].
    - intros y. rewrite bu_get_new. apply like_refl.
    - intros y. by rewrite bu_get_new.
    - intros y. rewrite bu_get_new. apply hk_refl. }
  destruct K as (K1 & K2 & K3 & K4 & K5).
  assert (GET : forall y, ref_get s' y = bu_get b y s1) by (intros y; apply commit_get; by rewrite H).
  assert (ER : st_ref s' = bu_data b ∪ st_ref s).
  { pose proof (commit_ref b s1) as X. rewrite H in X. cbn in X. by rewrite K3 in X. }
  apply stg_of.
  - intros x. split; [done|]. intros _. apply held_kl. split; [done|]. rewrite GET. apply K5.
  - intros I. eapply sane_like; [|exact (im_right _ _ I)]. intros y. rewrite GET. apply K2.
  - intros [C1 C2]. split.
    + intros y. rewrite ER, lookup_union. destruct (bu_data b !! y) eqn:Eb.
      * intros _. apply C1. assert (X : y ∈ keysN (st_ref s)) by (apply K1; eauto).
        unfold keysN in X. rewrite merge_sort_Permutation in X. apply elem_of_list_fmap in X as ([z rr] & -> & X). apply elem_of_map_to_list in X. eauto.
      * destruct (st_ref s !! y) eqn:Es; cbn; [intros _; apply C1; eauto|by intros [? ?]].
    + intros y. rewrite GET. apply K4, C2.
  - intros y Hy. unfold bang, refg. rewrite !GET. destruct (K2 y). unfold bang in Hy. split; congruence.
Qed.
(** A successful import has no failed hooks. *)
Lemma balance_log a c s s' : set_balance a c s = (s', Ok tt) -> st_log s' = st_log s.
Proof.
  intros H. unfold set_balance in H. apply bind_ok in H as ([] & s1 & E & H). apply ensure_ok in E as [-> _].
  apply bind_ok in H as ([] & s1 & E & H). apply modify_ok in E. assert (E1 : st_log s1 = st_log s) by (by rewrite E). clear E.
  apply bind_ok in H as (r & s2 & E & H). assert (X : rel (same st_log) (try (on_balance_changed a))) by (apply rel_try; frame).
  apply (run_rel _ _ _ _ _ X) in E. unfold same in E. destruct r.
  - apply ret_ok in H as [-> _]. congruence.
  - apply bind_ok in H as (u & s3 & E3 & H). by apply fail_ok in H.
Qed.
Lemma bank_log bals sup s s' : bank_init bals sup s = (s', Ok tt) -> st_log s' = st_log s.
Proof.
  intros H. unfold bank_init in H. apply bind_ok in H as ([] & s1 & E & H). apply modify_ok in H. subst s'.
  apply (proj1 (must_ok _ _ _ _)) in E. transitivity (st_log s1); [done|].
  revert s E. induction bals as [|[a c] l IH]; intros s E; cbn [mfor] in E; [by apply ret_ok in E as [-> _]|].
  apply bind_ok in E as ([] & s2 & E & H). transitivity (st_log s2); [by apply IH|by eapply balance_log].
Qed.
Lemma profile_log e s s' : prof_import_one e s = (s', Ok tt) -> st_log s' = st_log s.
Proof.
  destruct e as [a p]. intros H. unfold prof_import_one in H. cbn [fst snd] in H.
  apply bind_ok in H as (acc & s1 & E & H). apply get_ok in E as [-> ->]. apply bind_ok in H as (n & s1 & E & H). apply lift_ok in E as [-> _].
  apply bind_ok in H as (mg & s1 & E & H). apply get_ok in E as [-> ->]. cbv zeta in H. set (q := p <| p_card := _ |>) in *. clearbody q.
  apply bind_ok in H as (nick & s1 & E & H). apply get_ok in E as [-> ->]. apply bind_ok in H as ([] & s1 & E1 & H).
  assert (T1 : st_log s1 = st_log s).
  { destruct (decide _); [by apply ret_ok in E1 as [-> _]|]. assert (X : rel (same st_log) (nick_put (trim s (p_nick q)) a)) by frame. by apply (run_rel _ _ _ _ _ X) in E1. }
  apply bind_ok in H as ([] & s2 & E2 & H). assert (X : rel (same st_log) (card_put (p_card q) a)) by frame. apply (run_rel _ _ _ _ _ X) in E2. clear X.
  apply bind_ok in H as ([] & s3 & E3 & H). apply modify_ok in E3.
  assert (T3 : st_log s3 = st_log s2 /\ st_prof s3 !! a = Some q) by (rewrite E3; split; [done|cbn; apply lookup_insert]).
  destruct T3 as [T3 P3]. clear E3. apply bind_ok in H as (now & s4 & E & H). apply get_ok in E as [-> ->].
  apply bind_ok in H as ([] & s4 & E4 & H). apply (proj1 (must_ok _ _ _ _)) in H.
  assert (T4 : st_log s4 = st_log s3 /\ st_prof s4 = st_prof s3).
  { destruct (p_active _ q); [|by apply ret_ok in E4 as [-> _]].
    assert (X1 : rel (same st_prof) (must (set_active a true false))) by (apply rel_must; frame).
    assert (X2 : rel (same st_log) (must (set_active a true false))) by (apply rel_must; frame).
    split; [by apply (run_rel _ _ _ _ _ X2) in E4|by apply (run_rel _ _ _ _ _ X1) in E4]. }
  destruct T4 as [T4 T5]. apply set_same in H; [|by rewrite T5]. unfold tree_part in H. unfold same in *. congruence.
Qed.
Lemma init_log g s s' u : init_genesis g s = (s', Ok u) -> st_log s' = st_log s.
Proof.
  intros H. unfold init_genesis in H.
  apply bind_ok in H as ([] & s1 & E1 & H). apply bind_ok in H as ([] & s2 & E2 & H). apply bind_ok in H as ([] & s3 & E3 & H).
  apply bind_ok in H as ([] & s4 & E4 & H). apply bind_ok in H as ([] & s5 & E5 & H). apply bind_ok in H as ([] & s6 & E6 & H).
  apply bind_ok in H as (up & s7 & E7 & H). apply bind_ok in H as ([] & s8 & E8 & H). apply bind_ok in H as ([] & s9 & E9 & H). apply ret_ok in H as [-> _].
  assert (Q1 : rel (same st_log) (sched_import (g_tasks g))) by (unfold sched_import; quiet_go).
  assert (Q2 : rel (same st_log) (auth_import (g_accs g))) by (unfold auth_import; quiet_go).
  assert (Q3 : rel (same st_log) (ref_import (g_ref g))) by (unfold ref_import, put_banished; quiet_go).
  assert (Q6 : rel (same st_log) (del_import (g_del g))) by (unfold del_import; quiet_go).
  assert (Q7 : rel (same st_log) (noding_import (g_active g) (g_other g))) by (unfold noding_import, val_import_one; quiet_go).
  assert (Q8 : rel (same st_log) (voting_import (g_vote g))) by (unfold voting_import; quiet_go).
  assert (Q9 : rel (same st_log) (earn_import (g_earn g))) by (unfold earn_import; quiet_go).
  assert (QC : rel (same st_log) check_statuses) by (unfold check_statuses; quiet_go).
  apply (run_rel _ _ _ _ _ Q1) in E1. apply (run_rel _ _ _ _ _ Q2) in E2. apply (run_rel _ _ _ _ _ Q3) in E3. apply (run_rel _ _ _ _ _ Q6) in E6.
  apply (run_rel _ _ _ _ _ Q7) in E7. apply (run_rel _ _ _ _ _ Q8) in E8. apply (run_rel _ _ _ _ _ Q9) in E9.
  apply bank_log in E4. unfold prof_import in E5. apply bind_ok in E5 as ([] & s5' & E5 & E5'). apply (run_rel _ _ _ _ _ QC) in E5'.
  assert (T5 : st_log s5' = st_log s4).
  { clear -E5. revert s4 E5. induction (g_profs g) as [|e l IH]; intros s4 E5; cbn [mfor] in E5; [by apply ret_ok in E5 as [-> _]|].
    apply bind_ok in E5 as ([] & s1 & E & H). transitivity (st_log s1); [by apply IH|by eapply profile_log]. }
  unfold same in *. congruence.
Qed.
Theorem init_imported g s s' u : tidy (st_now s) g -> blank s -> init_genesis g s = (s', Ok u) -> imported g s'.
Proof.
  intros T F H. assert (EA : aborts s' = aborts s) by (unfold aborts; by rewrite (init_log _ _ _ _ H)). unfold init_genesis in H.
  apply bind_ok in H as ([] & s1 & E1 & H). apply bind_ok in H as ([] & s2 & E2 & H). apply bind_ok in H as ([] & s3 & E3 & H).
  apply bind_ok in H as ([] & s4 & E4 & H). apply bind_ok in H as ([] & s5 & E5 & H). apply bind_ok in H as ([] & s6 & E6 & H).
  apply bind_ok in H as (up & s7 & E7 & H). apply bind_ok in H as ([] & s8 & E8 & H). apply bind_ok in H as ([] & s9 & E9 & H). apply ret_ok in H as [-> _].
  assert (Q1 : rel (same tree_part) (sched_import (g_tasks g))) by (unfold sched_import; quiet_go).
  assert (Q2 : rel (same tree_part) (auth_import (g_accs g))) by (unfold auth_import; quiet_go).
  assert (Q6 : rel (same tree_part) (del_import (g_del g))) by (unfold del_import; quiet_go).
  assert (Q7 : rel (same tree_part) (noding_import (g_active g) (g_other g))) by (unfold noding_import, val_import_one; quiet_go).
  assert (Q8 : rel (same tree_part) (voting_import (g_vote g))) by (unfold voting_import; quiet_go).
  assert (Q9 : rel (same tree_part) (earn_import (g_earn g))) by (unfold earn_import; quiet_go).
  apply (run_rel _ _ _ _ _ Q1) in E1. apply (run_rel _ _ _ _ _ Q2) in E2. apply (run_rel _ _ _ _ _ Q6) in E6. apply (run_rel _ _ _ _ _ Q7) in E7.
  apply (run_rel _ _ _ _ _ Q8) in E8. apply (run_rel _ _ _ _ _ Q9) in E9. unfold same in *.
  assert (T2 : tree_part s2 = tree_part s) by congruence. unfold tree_part in T2. injection T2 as T21 T22 T23 T24.
  assert (N3 : st_now s3 = st_now s).
  { assert (X : rel (same st_now) (ref_import (g_ref g))) by (unfold ref_import; quiet_go). apply (run_rel _ _ _ _ _ X) in E3. unfold same in E3. congruence. }
  assert (G3 : grows s2 s3).
  { assert (X : rel grows (ref_import (g_ref g))) by (unfold ref_import, put_banished; quiet_go). by apply (run_rel _ _ _ _ _ X) in E3. }
  apply (ref_import_ok (st_now s)) in E3 as [I3 _]; [|done|destruct F as [F1 F2]; split; congruence].
  apply (stg_bank g) in E4 as [S4 N4]. unfold prof_import in E5. apply bind_ok in E5 as ([] & s5' & E5 & E5').
  apply (stg_profiles g) in E5; [|rewrite N4, N3; intros a p Hp; by apply (td_profile _ _ T)]. apply (stg_statuses g) in E5'.
  assert (S9 : stg g s5 s9) by (apply stg_quiet; congruence).
  assert (S : stg g s3 s9) by (transitivity s4; [done|]; transitivity s5'; [done|]; by transitivity s5).
  destruct S as [GS HS]. apply HS; [|done]. apply grows_aborts in G3, GS. unfold aborts in G3, EA |- *. unfold aborts in GS. rewrite T23 in G3. lia.
Qed.
