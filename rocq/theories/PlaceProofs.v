(** * Who moves a member of the referral network *)
From Verif Require Export RefDom Spec_Place.
Open Scope Z_scope.

Definition seat (r : rinfo) : addr * addr * bool := (r_referrer r, r_transition r, r_banished r).
Lemma seat_normalize r : seat (normalize r) = seat r.
Proof. done. Qed.
Lemma seat_eqs r r' : eqs r r' -> seat r' = seat r.
Proof. by intros (st & d & ->). Qed.

Section place.
  Context (z : addr) (k : addr * addr * bool).
  Definition bk (b : bu) (s : St) : Prop := seat (bu_get b z s) = k.
  Definition zk (s : St) : Prop := is_Some (st_ref s !! z) /\ seat (ref_get s z) = k.

  Lemma bk_ext b b' s s' : bu_data b' = bu_data b -> st_ref s' = st_ref s -> bk b s -> bk b' s'.
  Proof. intros E1 E2 H. unfold bk. by rewrite (bu_get_ext b b' s s' z). Qed.
  Lemma bk_new s : zk s -> bk bu_new s.
  Proof. intros [_ H]. unfold bk. by rewrite bu_get_new. Qed.
  Lemma bk_insert b b' s s' a r : (a = z -> seat r = k) -> bu_data b' = <[ a := r ]> (bu_data b) -> st_ref s' = st_ref s -> bk b s -> bk b' s'.
  Proof.
    intros R E ES H. unfold bk. rewrite (bu_get_ext b' b' s s' z) by done. rewrite (bu_get_insert b b' a r s E z).
    destruct (N.eqb_spec z a) as [Ea|_]; [by apply R|done].
  Qed.
  Lemma bk_set b s a r : (a = z -> seat r = k) -> bk b s -> bk (bu_set a r b) s.
  Proof. intros. by eapply bk_insert. Qed.
  Lemma bk_updatem {A} b a check (f : bu -> rinfo -> M (bu * rinfo * A)) s s' b' x :
    bu_updatem b a check f s = (s', Ok (b', x)) ->
    (forall s1 b1 r1, f b (normalize (bu_get b a s)) s = (s1, Ok (b1, r1, x)) -> bk b1 s1 /\ (a = z -> seat r1 = k)) -> bk b' s'.
  Proof.
    intros H HF. apply bu_updatem_ok in H as (s1 & b1 & r1 & r2 & E & Eq & _ & ED & ES & _).
    destruct (HF _ _ _ E) as [H1 H2]. eapply (bk_insert b1 b' s1 s'); [|done|done|done]. intros Ea. rewrite (seat_eqs _ _ Eq). by apply H2.
  Qed.
  Lemma bk_update {A} b a check (f : rinfo -> rinfo * A) s s' b' x : bk b s ->
    (forall r, seat r = k -> a = z -> seat (fst (f r)) = k) -> bu_update b a check f s = (s', Ok (b', x)) -> bk b' s'.
  Proof.
    intros B HF H. apply bu_update_ok in H as (r2 & _ & Eq & _ & ED & ES).
    eapply (bk_insert b b' s s'); [|done|done|done]. intros Ea. rewrite (seat_eqs _ _ Eq). apply HF; [|done]. rewrite seat_normalize. by subst a.
  Qed.
  Lemma bk_walk check lines f :
    (forall i x b r, bu_data (fst (f i x b r)) = bu_data b /\ seat (snd (f i x b r)) = seat r) ->
    forall b a s s' b', bk b s -> walk check lines b a f s = (s', Ok b') -> bk b' s'.
  Proof.
    intros HF. induction lines as [|i lines IH]; intros b a s s' b' B H; cbn [walk] in H.
    { by apply ret_ok in H as [-> ->]. }
    destruct (N.eqb_spec a nobody) as [_|Ha]; [by apply ret_ok in H as [-> ->]|].
    apply bind_ok in H as ([b1 up] & s1 & E & H).
    assert (B1 : bk b1 s1).
    { eapply bk_updatem; [exact E|]. cbv beta. intros s2 b2 r2 E2. destruct (HF i a b (normalize (bu_get b a s))) as [F1 F2].
      destruct (f i a b (normalize (bu_get b a s))) as [b3 r3]. apply ret_ok in E2 as [-> E2]. injection E2 as -> -> ->. cbn [fst snd] in *.
      split; [by eapply bk_ext|]. intros Ea. rewrite F2, seat_normalize. by subst a. }
    by eapply IH.
  Qed.

  (** Leaves the records alone, or writes what an updater has collected *)
  Definition kcmd (s0 : St) (m : M unit) (s : St) : Prop :=
    forall s' r, m s = (s', r) -> st_ref s' = st_ref s0 \/ exists b, bk b s0 /\ st_ref s' = bu_data b ∪ st_ref s0.
  Lemma kcmd_bind {A} s0 (m : M A) f s : st_ref s = st_ref s0 -> rel (same st_ref) m ->
    (forall a s1, m s = (s1, Ok a) -> st_ref s1 = st_ref s0 -> kcmd s0 (f a) s1) -> kcmd s0 (bind m f) s.
  Proof.
    intros E R H s' r HB. unfold bind in HB. specialize (R s). unfold same in R. destruct (m s) as [s1 [a|e|e]] eqn:Em; cbn in R.
    - eapply (H a s1); [done|congruence|exact HB].
    - injection HB as <- <-. left. congruence.
    - injection HB as <- <-. left. congruence.
  Qed.
  Lemma kcmd_get {A} s0 (h : St -> A) f s : kcmd s0 (f (h s)) s -> kcmd s0 (bind (get h) f) s.
  Proof. intros H s' r HB. unfold bind, get in HB. by eapply H. Qed.
  Lemma kcmd_ensure s0 c e f s : st_ref s = st_ref s0 -> (c = true -> kcmd s0 (f tt) s) -> kcmd s0 (bind (ensure c e) f) s.
  Proof. intros E H s' r HB. unfold bind, ensure, ret, fail in HB. destruct c; [by eapply H|]. injection HB as <- <-. by left. Qed.
  Lemma kcmd_commit s0 b s : st_ref s = st_ref s0 -> bk b s -> kcmd s0 (bu_commit b) s.
  Proof.
    intros E B s' r H. right. exists b. split; [by eapply bk_ext|]. pose proof (commit_ref b s) as C. rewrite H in C. cbn in C. by rewrite E in C.
  Qed.
  Lemma kcmd_ret s0 s u : st_ref s = st_ref s0 -> kcmd s0 (ret u) s.
  Proof. intros E s' r H. injection H as <- <-. by left. Qed.
  Lemma kcmd_throw s0 s e : st_ref s = st_ref s0 -> kcmd s0 (throw e) s.
  Proof. intros E s' r H. injection H as <- <-. by left. Qed.
  Lemma kcmd_must s0 m s : kcmd s0 m s -> kcmd s0 (must m) s.
  Proof. intros H s' r HB. unfold must in HB. specialize (H (fst (m s)) (snd (m s))). rewrite <- surjective_pairing in H.
    specialize (H eq_refl). destruct (m s) as [s1 [a|e|e]]; injection HB as <- <-; exact H. Qed.
  Lemma zk_ref s s' : st_ref s' = st_ref s -> zk s -> zk s'.
  Proof. intros E [H1 H2]. unfold zk, ref_get in *. by rewrite E. Qed.
  Lemma zk_cmd' m s : is_Some (st_ref s !! z) -> kcmd s m s -> st_ref (fst (m s)) = st_ref s \/ zk (fst (m s)).
  Proof.
    intros C H. destruct (m s) as [s' r] eqn:E. destruct (H s' r E) as [E1|(b & B & E1)]; cbn [fst]; [by left|]. right. split.
    - rewrite E1, lookup_union. destruct C as [x ->]. destruct (bu_data b !! z); by eexists.
    - rewrite (union_get b s s' z E1). apply B.
  Qed.
  Lemma zk_cmd m s : zk s -> kcmd s m s -> zk (fst (m s)).
  Proof. intros C H. destruct (zk_cmd' m s (proj1 C) H) as [E|E]; [by eapply zk_ref|done]. Qed.
  Lemma zk_write a r s : (a = z -> seat r = k) -> zk s -> zk (s <| st_ref := <[ a := r ]> (st_ref s) |>).
  Proof.
    intros R [H1 H2]. unfold zk, ref_get in *. cbn. destruct (N.eq_dec a z) as [->|Hy].
    - rewrite lookup_insert. split; [by eexists|by apply R].
    - by rewrite lookup_insert_ne by done.
  Qed.

  Lemma pl_append p c sk sc : rel (keeps zk) (append_child_core p c sk sc).
  Proof.
    intros s C. apply zk_cmd; [done|]. unfold append_child_core. apply kcmd_ensure; [done|]. intros Hp. apply kcmd_get, kcmd_ensure; [done|]. intros HX.
    apply kcmd_get. unfold id. cbv zeta. apply kcmd_bind; [done|frame|]. intros [b1 [an cl]] s1 E1 ES1. apply kcmd_ensure; [done|]. intros _.
    apply kcmd_bind; [done|apply sw_walk; [apply _|frame|frame]|]. intros b3 s3 EW ES3. apply kcmd_commit; [done|].
    assert (NC : c <> z). { intros ->. destruct C as [[x E] _]. unfold ref_exists in HX. by rewrite E in HX. }
    eapply bk_walk; [|  |exact EW].
    - intros i x b r. by split.
    - apply (bk_ext b1 _ s1 s1); [done|done|]. eapply bk_update; [| |exact E1].
      + apply bk_set; [done|by apply bk_new].
      + intros r R _. exact R.
  Qed.
  Lemma pl_set_active a v ck : rel (keeps zk) (set_active a v ck).
  Proof.
    intros s C. apply zk_cmd; [done|]. unfold set_active. apply kcmd_get. unfold id. cbv zeta. apply kcmd_bind; [done|same_ref|].
    intros [b o] s1 E1 ES1.
    assert (B : bk b s1).
    { eapply bk_updatem; [exact E1|]. cbv beta. intros s3 b3 r3 E3. rewrite bu_get_new in E3.
      assert (B0 : forall s', st_ref s' = st_ref s -> bk bu_new s') by (intros s' E; eapply bk_ext; [reflexivity|exact E|by apply bk_new]).
      assert (KA : a = z -> seat (ref_get s a) = k) by (intros ->; apply C).
      destruct (Bool.eqb _ _). { apply ret_ok in E3 as [-> E3]. injection E3 as -> -> _. split; [by apply B0|exact KA]. }
      apply bind_ok in E3 as (r4 & s4 & E4 & E3). apply ret_ok in E3 as [-> E3]. injection E3 as -> -> _.
      destruct (r_banishment_at _) as [t|]; [destruct v|].
      + apply bind_ok in E4 as (u & s5 & E5 & E4). apply ret_ok in E4 as [-> ->].
        assert (RS : rel (same st_ref) (delete_task t HBanish a)) by frame. specialize (RS s). rewrite E5 in RS. split; [by apply B0|exact KA].
      + apply ret_ok in E4 as [-> ->]. split; [by apply B0|exact KA].
      + apply ret_ok in E4 as [-> ->]. split; [by apply B0|exact KA]. }
    destruct o as [p|]; [|by apply kcmd_ret].
    apply kcmd_bind; [done|apply sw_walk; [apply _|frame|frame]|]. intros b3 s3 EW ES3. apply kcmd_bind; [done|same_ref|]. intros [] s4 E4 ES4. apply kcmd_commit; [done|].
    eapply (bk_ext b3 b3 s3); [done|congruence|]. eapply bk_walk; [|exact B|exact EW]. intros i x b0 r. split; [done|]. cbn [snd].
    destruct (i =? 1)%nat; reflexivity.
  Qed.
  Lemma bk_revive a b r s s' b' r' : bk b s -> revive a b r s = (s', Ok (b', r')) -> bk b' s'.
  Proof.
    intros B H. unfold revive in H. apply bind_ok in H as (f & s1 & E & H). apply get_ok in E as [-> ->].
    apply bind_ok in H as (p & s1 & E & H). apply nearest_ok in E as [-> _]. cbv zeta in H.
    destruct (N.eqb_spec p nobody) as [_|Hp]; [apply ret_ok in H as [-> H]; injection H as -> ->; done|].
    apply bind_ok in H as ([b1 up] & s1 & E & H).
    assert (B1 : bk b1 s1).
    { eapply bk_update; [exact B| |exact E]. intros r0 R0 _. exact R0. }
    destruct (_ || _); [apply ret_ok in H as [-> H]; injection H as -> ->; done|].
    apply bind_ok in H as (b2 & s2 & E2 & H). apply ret_ok in H as [-> H]. injection H as -> ->.
    eapply bk_walk; [|exact B1|exact E2]. intros i x b0 r0. by split.
  Qed.
  Lemma pl_obc a : k.2 = false -> rel (keeps zk) (on_balance_changed a).
  Proof.
    intros KB s C. apply zk_cmd; [done|]. unfold on_balance_changed. apply kcmd_get. unfold id. cbv zeta.
    change (bu_updatem bu_new a true _) with (bu_updatem bu_new a true (obc_body (own_coins s a) (own_deleg s a) (bp_dust (st_bp s)) s a)).
    apply kcmd_bind; [done| |].
    { apply rel_try. apply sw_bu_updatem; [apply _|frame|frame|]. intros b r0. apply obc_body_rel. }
    intros out s1 E ES1. apply try_ok in E. destruct out as [[b [[[dc dd] node] ban]]|e]; cycle 1.
    { destruct e; first [by apply kcmd_ret|by apply kcmd_throw]. }
    assert (B : bk b s1).
    { assert (B0 : forall e s', st_ref s' = st_ref s -> bk (bu_call e a bu_new) s' /\ bk bu_new s').
      { intros e s' EE. split; (eapply (bk_ext bu_new _ s); [done|exact EE|by apply bk_new]). }
      assert (K : forall s2 b1 r1, obc_body (own_coins s a) (own_deleg s a) (bp_dust (st_bp s)) s a bu_new (normalize (ref_get s a)) s =
          (s2, Ok (b1, r1, (dc, dd, node, ban))) -> bk b1 s2 /\ (a = z -> seat r1 = k)).
      { intros s2 b1 r1 E2. unfold obc_body in E2.
        destruct (r_empty _); [discriminate E2|]. cbv zeta in E2.
        assert (RG : a = z -> seat (normalize (ref_get s a)) = k) by (intros ->; apply C).
        set (r0 := normalize (ref_get s a)) in *. clearbody r0.
        assert (FIN : forall b r w s3, bk b s3 -> (a = z -> seat r = k) -> (s3, Ok (b, r <| r_coins := <[0%nat := own_coins s a]> (r_coins r) |> <| r_deleg := <[0%nat := own_deleg s a]> (r_deleg r) |>,
            (own_coins s a - default 0 (r_coins r0 !! 0%nat), own_deleg s a - default 0 (r_deleg r0 !! 0%nat), r_referrer r, w))) = (s2, Ok (b1, r1, (dc, dd, node, ban))) ->
            bk b1 s2 /\ (a = z -> seat r1 = k)).
        { intros b0 r w s3 B R E3. assert (F1 : s3 = s2) by congruence. assert (F2 : b0 = b1) by congruence.
          assert (F4 : r1 = r <| r_coins := <[0%nat := own_coins s a]> (r_coins r) |> <| r_deleg := <[0%nat := own_deleg s a]> (r_deleg r) |>) by congruence.
          subst s3 b0 r1. split; [done|exact R]. }
        destruct (_ =? 0). { eapply FIN; [| |exact E2]; [apply (B0 EvStake); reflexivity|exact RG]. }
        destruct (r_active r0). { eapply FIN; [| |exact E2]; [apply (B0 EvStake); reflexivity|exact RG]. }
        apply bind_ok in E2 as (ndi & s3 & E3 & E2). apply lift_ok in E3 as [-> E3]. destruct (ndi <=? _).
        - destruct (_ && _ && _ && _); [|eapply FIN; [| |exact E2]; [apply (B0 EvStake); reflexivity|exact RG]].
          apply bind_ok in E2 as (r4 & s4 & E4 & E2). unfold schedule_banishment in E4.
          apply bind_ok in E4 as (t & s6 & E6 & E5). apply get_ok in E6 as [-> ->]. apply bind_ok in E5 as (u & s7 & E7 & E5). apply ret_ok in E5 as [-> ->].
          assert (RS : rel (same st_ref) (schedule_task (st_now s + one_month s) HBanish a)) by frame. specialize (RS s). rewrite E7 in RS.
          eapply FIN; [| |exact E2]; [apply (B0 EvStake), RS|exact RG].
        - apply bind_ok in E2 as (r4 & s4 & E4 & E2).
          assert (Y : st_ref s4 = st_ref s /\ (a = z -> seat r4 = k)).
          { destruct (r_banishment_at r0) as [t|].
            - apply bind_ok in E4 as (u & s5 & E5 & E4). apply ret_ok in E4 as [-> ->].
              assert (RS : rel (same st_ref) (delete_task t HBanish a)) by frame. specialize (RS s). rewrite E5 in RS. split; [exact RS|exact RG].
            - by apply ret_ok in E4 as [-> ->]. }
          destruct Y as [Y1 Y2]. destruct (r_banished r4) eqn:EB.
          + apply bind_ok in E2 as ([b5 r5] & s5 & E5 & E2). apply bk_revive in E5; [|by apply (B0 EvStake)].
            eapply FIN; [exact E5| |exact E2]. intros Ea. exfalso. specialize (Y2 Ea). rewrite <- Y2 in KB. cbn in KB. congruence.
          + eapply FIN; [| |exact E2]; [by apply (B0 EvStake)|exact Y2]. }
      eapply bk_updatem; [exact E|]. intros s2 b1 r1 E2. rewrite bu_get_new in E2. by apply K in E2. }
    apply kcmd_bind; [done|same_ref|]. intros b3 s3 EW ES3. apply kcmd_commit; [done|]. destruct ban.
    - by apply ret_ok in EW as [-> ->].
    - eapply bk_walk; [|exact B|exact EW]. intros i x b0 r. split; [by destruct (dd =? 0)|done].
  Qed.
  Lemma pl_banish a : a <> z -> rel (keeps zk) (banish_core a).
  Proof.
    intros NA s C. apply zk_cmd; [done|]. unfold banish_core. apply kcmd_get. apply kcmd_bind; [done|same_ref|]. intros [b [[p c] d]] s1 E1 ES1.
    assert (B : bk b s1).
    { eapply bk_updatem; [exact E1|]. intros s2 b1 r1 E2. cbv zeta in E2. split; [|done].
      apply bind_ok in E2 as (u & s3 & E3 & E2). apply ensure_ok in E3 as [-> _]. apply bind_ok in E2 as (u1 & s3 & E3 & E2). apply ensure_ok in E3 as [-> _].
      apply bind_ok in E2 as (u2 & s3 & E3 & E2). apply lift_ok in E3 as [-> _]. apply bind_ok in E2 as (u3 & s3 & E3 & E2). apply ensure_ok in E3 as [-> _].
      apply bind_ok in E2 as (u4 & s3 & E3 & E2). apply ensure_ok in E3 as [-> _]. apply ret_ok in E2 as [-> E2]. injection E2 as -> _ _ _ _.
      by apply bk_new. }
    apply kcmd_bind; [done|same_ref|]. intros [b2 up] s2 E2 ES2. apply kcmd_bind; [done|same_ref|]. intros b3 s3 EW ES3. apply kcmd_commit; [done|].
    assert (B2 : bk b2 s2). { eapply bk_update; [exact B| |exact E2]. intros r R _. exact R. }
    destruct (_ || _); [by apply ret_ok in EW as [-> ->]|].
    eapply bk_walk; [|exact B2|exact EW]. intros i x b0 r. by split.
  Qed.
  Lemma pl_come_back a : a <> z -> rel (keeps zk) (come_back a).
  Proof.
    intros NA s C. apply zk_cmd; [done|]. unfold come_back. apply kcmd_bind; [done|same_ref|]. intros [b [[p c] d]] s1 E1 ES1.
    assert (B : bk b s1).
    { eapply bk_updatem; [exact E1|]. intros s2 b1 r1 E2. split; [|done].
      apply bind_ok in E2 as (f & s3 & E3 & E2). apply get_ok in E3 as [-> ->]. apply bind_ok in E2 as (q & s3 & E3 & E2).
      apply nearest_ok in E3 as [-> _]. apply ret_ok in E2 as [-> E2]. injection E2 as -> _ _ _ _. by apply bk_new. }
    apply kcmd_bind; [done|same_ref|]. intros b3 s3 EW ES3. apply kcmd_commit; [done|].
    destruct (N.eqb_spec p nobody) as [_|Hp]; [by apply ret_ok in EW as [-> ->]|].
    apply bind_ok in EW as ([b2 up] & s2 & E2 & EW).
    assert (B2 : bk b2 s2). { eapply bk_update; [exact B| |exact E2]. intros r R _. exact R. }
    destruct (_ || _); [by apply ret_ok in EW as [-> ->]|].
    eapply bk_walk; [|exact B2|exact EW]. intros i x b0 r. by split.
  Qed.
  Lemma pl_cancel a : a <> z -> rel (keeps zk) (cancel_transition a).
  Proof. intros NA s C. by apply zk_write. Qed.
  Lemma pl_set_transition a p : a <> z -> rel (keeps zk) (set_transition a p).
  Proof. intros NA s C. by apply zk_write. Qed.
  Lemma pl_downgrade a : rel (keeps zk) (perform_downgrade a).
  Proof.
    intros s C. apply zk_cmd; [done|]. apply kcmd_must, kcmd_get. apply kcmd_bind; [done|same_ref|]. intros [b x] s1 E ES1. apply kcmd_commit; [done|].
    apply (bk_ext b _ s1 s1); [done|done|]. apply bu_downgrade_ok in E as (r2 & Eq & ED & ES).
    eapply (bk_insert bu_new b s s1); [|done|done|by apply bk_new]. intros Ea. rewrite (seat_eqs _ _ Eq).
    cbv zeta. assert (R : seat (normalize (ref_get s a)) = k) by (rewrite seat_normalize; subst a; apply C). revert R. generalize (normalize (ref_get s a)). intros r R.
    destruct (r_downgrade_at r) as [t|]; [|exact R]. destruct (_ <? _); [exact R|exact R].
  Qed.
  Lemma bk_affirm_up levels src : forall b o n s s' b', bk b s -> affirm_up levels src b o n s = (s', Ok b') -> bk b' s'.
  Proof.
    induction levels as [|l levels IH]; intros b o n s s' b' B H; cbn [affirm_up] in H; [by apply ret_ok in H as [-> ->]|].
    destruct (o =? n)%N; [by apply ret_ok in H as [-> ->]|].
    apply bind_ok in H as ([b1 o1] & s1 & E1 & H). apply bind_ok in H as ([b2 n1] & s2 & E2 & H).
    assert (STEP : forall sg b x s s' b' x', bk b s -> (if (x =? nobody)%N then ret (b, x) else
        bu_update b x true (fun r => (move_lines sg l src r, r_referrer r))) s = (s', Ok (b', x')) -> bk b' s').
    { clear. intros sg b x s s' b' x' B H. destruct (N.eqb_spec x nobody) as [_|Hx]; [apply ret_ok in H as [-> H]; by injection H as -> ->|].
      eapply bk_update; [exact B| |exact H]. intros r R _. exact R. }
    apply STEP in E1; [|done]. apply STEP in E2; [|done]. by eapply (IH b2 o1 n1).
  Qed.
End place.

Lemma affirm_seat a z k s s' : affirm_transition a s = (s', Ok tt) -> zk z k s -> zk z (if (a =? z)%N then (k.1.2, nobody, k.2) else k) s'.
Proof.
  intros H C. unfold affirm_transition in H. apply bind_ok in H as (r & s0 & H1 & H). apply get_ok in H1 as [-> ->]. cbv zeta in H.
  assert (RV : rel (same st_ref) (validate_transition a (r_transition (ref_get s a)) false)) by frame.
  apply bind_ok in H as ([] & s1 & EV & H). specialize (RV s). rewrite EV in RV. cbn in RV. unfold same in RV. clear EV.
  apply bind_ok in H as ([] & s2 & E2 & H). apply modify_ok in E2.
  assert (C2 : zk z (if (a =? z)%N then (k.1.2, nobody, k.2) else k) s2).
  { assert (C1 : zk z k s1) by (by eapply zk_ref). subst s2. destruct (N.eqb_spec a z) as [->|Ha]; [|by apply zk_write].
    split; [cbn; rewrite lookup_insert; by eexists|]. unfold ref_get at 1. cbn. rewrite lookup_insert. cbn.
    destruct C as [_ C]. by rewrite <- C. }
  clear E2 RV C. revert H C2. generalize (ref_get s a). generalize (if (a =? z)%N then (k.1.2, nobody, k.2) else k). clear. intros k r H C.
  match type of H with ?m s2 = _ => enough (K : zk z k (fst (m s2))) by (by rewrite H in K) end. clear H.
  apply zk_cmd; [done|]. apply kcmd_must. apply kcmd_bind; [done|same_ref|]. intros [b oa] s3 E3 ES3.
  assert (B : bk z k b s3).
  { eapply bk_updatem; [exact E3|]. cbv beta zeta. intros s4 b1 r1 E4. rewrite bu_get_new in E4.
    apply bind_ok in E4 as (u & s5 & E5 & E4). apply assert_ok in E5 as [-> E5]. apply bind_ok in E4 as (u' & s5 & E6 & E4). apply assert_ok in E6 as [-> E6].
    apply ret_ok in E4 as [-> E4].
    assert (F2 : b1 = bu_new) by congruence.
    assert (F4 : seat r1 = seat (ref_get s2 (r_referrer r))) by (apply (f_equal (fun x => snd (fst x))) in E4; cbn [fst snd] in E4; rewrite E4; reflexivity).
    subst b1. split; [by apply bk_new|]. intros Ea. rewrite F4, Ea. apply C. }
  clear E3. apply kcmd_bind; [done|same_ref|]. intros [b4 na] s4 E4 ES4.
  assert (B4 : bk z k b4 s4). { eapply bk_update; [exact B| |exact E4]. intros r0 R _. exact R. }
  clear E4. apply kcmd_bind; [done|same_ref|]. intros b5 s5 E5 ES5. apply kcmd_commit; [done|]. eapply bk_affirm_up; [exact B4|exact E5].
Qed.
Lemma affirm_wish a s s' : affirm_transition a s = (s', Ok tt) -> r_transition (ref_get s a) <> nobody.
Proof.
  intros H. unfold affirm_transition in H. apply bind_ok in H as (r & s0 & H1 & H). apply get_ok in H1 as [-> ->]. cbv zeta in H.
  apply bind_ok in H as ([] & s1 & EV & H). unfold validate_transition in EV. apply bind_ok in EV as (u & s2 & E & _). apply ensure_ok in E as [_ E].
  by apply negb_true_iff, N.eqb_neq in E.
Qed.

Lemma compress_seat a z k s : zk z k s -> let s' := fst (compress a s) in
  zk z k s' \/ z ∈ r_referrals (ref_get s a) /\ zk z (r_referrer (ref_get s a), k.1.2, k.2) s'.
Proof.
  intros C. cbv zeta.
  set (K := if decide (z ∈ r_referrals (ref_get s a)) then (r_referrer (ref_get s a), k.1.2, k.2) else k).
  assert (H : kcmd z K s (compress a) s).
  { unfold compress. apply kcmd_get. apply kcmd_bind; [done|same_ref|]. intros [b old] s1 E1 ES1. cbv zeta.
    assert (X : bk z k b s1 /\ r_referrer old = r_referrer (ref_get s a) /\ r_referrals old = r_referrals (ref_get s a)).
    { pose proof E1 as E2. apply bu_updatem_ok in E2 as (s2 & b1 & r1 & r2 & E2 & _). rewrite bu_get_new in E2.
      assert (F : forall s2, st_ref s2 = st_ref s -> bk z k (bu_call EvStatus a (bu_call EvStake a bu_new)) s2).
      { intros s3 ES. eapply (bk_ext z k bu_new _ s); [done|exact ES|]. by apply bk_new. }
      split.
      - eapply bk_updatem; [exact E1|]. cbv beta. intros s3 b3 r3 E3. destruct (_ =? _)%N; [discriminate E3|].
        apply bind_ok in E3 as (u00 & s00 & EI & E3). assert (ES0 : st_ref s00 = st_ref s) by (unfold set_index in EI; apply modify_ok in EI as ->; done). apply bind_ok in E3 as (own & s4 & E4 & E3). apply lift_ok in E4 as [-> E4].
        apply bind_ok in E3 as (r4 & s5 & E5 & E3). apply ret_ok in E3 as [-> E3]. injection E3 as -> -> Eo.
        assert (Y : st_ref s5 = st_ref s /\ seat r4 = seat (ref_get s a)).
        { rewrite bu_get_new in E5. destruct (own <=? _).
          - unfold schedule_banishment in E5.
            apply bind_ok in E5 as (t & s6 & E6 & E5). apply get_ok in E6 as [-> ->]. apply bind_ok in E5 as (u & s7 & E7 & E5). apply ret_ok in E5 as [-> ->].
            assert (RS : rel (same st_ref) (schedule_task (st_now s00 + one_month s00) HBanish a)) by frame. specialize (RS s00). rewrite E7 in RS. unfold same in RS; cbn [fst] in RS. by rewrite RS.
          - apply ret_ok in E5 as [-> ->]. done. }
        destruct Y as (Y1 & Y2). split; [by apply F|]. intros Ea. rewrite Y2, Ea. apply C.
      - destruct (_ =? _)%N; [discriminate E2|]. apply bind_ok in E2 as (u00 & s00 & _ & E2). apply bind_ok in E2 as (own & s4 & E4 & E2). apply bind_ok in E2 as (r4 & s5 & E5 & E2).
        apply ret_ok in E2 as [_ E2]. injection E2 as _ _ ->. done. }
    destruct X as (B & EP & ER). clear E1. apply kcmd_bind; [done|apply rel_mfold; [apply _|]; intros; same_ref|]. intros b1 s2 E2 ES2.
    assert (B1 : bk z K b1 s2).
    { unfold K. rewrite <- EP, <- ER. clear K. revert E2 B. clear ES2. generalize (r_referrer old), (r_referrals old). intros p l.
      assert (HI : forall b s1 k0, (k0 = k \/ k0 = (p, k.1.2, k.2)) -> mfold l b (fun b child =>
          let! (b, _) := bu_update b child false (fun r => (r <| r_referrer := p |>, tt)) in ret b) s1 = (s2, Ok b1) -> bk z k0 b s1 ->
          bk z (if decide (z ∈ l) then (p, k.1.2, k.2) else k0) b1 s2).
      { clear. induction l as [|c l IH]; intros b s1 k0 HK E2 B; cbn [mfold] in E2.
        - apply ret_ok in E2 as [-> ->]. destruct (decide (z ∈ [])) as [X|_]; [by apply elem_of_nil in X|done].
        - apply bind_ok in E2 as (b2 & s3 & E3 & E2). apply bind_ok in E3 as ([b3 []] & s4 & E4 & E3). apply ret_ok in E3 as [-> ->].
          assert (B2 : bk z (if (c =? z)%N then (p, k.1.2, k.2) else k0) b3 s4).
          { apply bu_update_ok in E4 as (r2 & _ & Eq & _ & ED & ES). unfold bk. rewrite (bu_get_ext b3 b3 s1 s4 z) by done.
            rewrite (bu_get_insert b b3 c r2 s1 ED z). rewrite N.eqb_sym. destruct (N.eqb_spec c z) as [->|_]; [|exact B].
            rewrite (seat_eqs _ _ Eq). cbn [fst]. unfold bk in B. destruct k as [[k1 k2] k3]. cbn in HK |- *.
            assert (X1 : r_transition (bu_get b z s1) = k2) by (destruct HK as [->| ->]; unfold seat in B; congruence).
            assert (X2 : r_banished (bu_get b z s1) = k3) by (destruct HK as [->| ->]; unfold seat in B; congruence).
            unfold seat. cbn. by rewrite X1, X2. }
          assert (E5 : bk z (if decide (z ∈ l) then (p, k.1.2, k.2) else if (c =? z)%N then (p, k.1.2, k.2) else k0) b1 s2).
          { eapply IH; [|exact E2|exact B2]. destruct (c =? z)%N; [by right|done]. }
          destruct (N.eqb_spec c z) as [Ec|Nc].
          + destruct (decide (z ∈ c :: l)) as [_|X]; [|exfalso; apply X; rewrite Ec; apply elem_of_list_here]. by destruct (decide (z ∈ l)).
          + destruct (decide (z ∈ l)) as [X|X], (decide (z ∈ c :: l)) as [Y|Y]; try exact E5.
            * exfalso. apply Y. by right.
            * exfalso. apply elem_of_cons in Y as [Y|Y]; [congruence|done]. }
      intros E2 B. apply (HI b s1 k); [by left|done|done]. }
    apply kcmd_bind; [done|apply sw_walk; [apply _|frame|frame]|]. intros b3 s3 EW ES3. apply kcmd_commit; [done|].
    eapply bk_walk; [|exact B1|exact EW]. intros i x b0 r. split; [by destruct (i =? 1)%nat|]. cbn [snd]. by destruct (i =? 1)%nat. }
  apply (zk_cmd' z K) in H as [H|H]; [left; by eapply zk_ref| |apply C]. unfold K in H.
  destruct (decide (z ∈ r_referrals (ref_get s a))) as [X|X]; [by right|by left].
Qed.

(** ** Everything else *)
Section sweep.
  Context (z : addr) (k : addr * addr * bool) (NB : k.2 = false).
  Lemma pl_fields s s' : st_ref s' = st_ref s -> keeps (zk z k) s s'.
  Proof. intros E H. by apply (zk_ref z k s). Qed.
  Hint Extern 1 (keeps (zk z k) _ _) => (apply pl_fields; reflexivity) : frame.
  Lemma pl_obc' a : rel (keeps (zk z k)) (on_balance_changed a).
  Proof. by apply pl_obc. Qed.
  Lemma pl_active a v : rel (keeps (zk z k)) (must_set_active a v).
  Proof. apply rel_must. apply pl_set_active. Qed.
  Lemma pl_append' p c : rel (keeps (zk z k)) (append_child p c).
  Proof. apply pl_append. Qed.
  Hint Resolve pl_obc' pl_active pl_append' | 0 : frame.
  Ltac plr := unfold new_coins, fr; repeat first [progress rel_struct | frame].
  Lemma pl_module a b c : rel (keeps (zk z k)) (send_to_module a b c).
  Proof. unfold send_to_module. plr. Qed.
  Hint Resolve pl_module | 0 : frame.
  Lemma pl_set_profile a p : rel (keeps (zk z k)) (set_profile a p).
  Proof. plr. Qed.
  Lemma pl_back a : forall s, keeps (zk z k) s (fst ((let! banished := get (fun s => r_banished (ref_get s a)) in if banished then come_back a else ret tt) s)).
  Proof.
    intros s. apply at_get; [apply _|]. destruct (r_banished (ref_get s a)) eqn:E; [|intros H; exact H].
    intros H. apply pl_come_back; [|done]. intros ->. destruct H as [_ H]. rewrite <- H in NB. cbn in NB. congruence.
  Qed.
  Lemma pl_pay_tariff a g auto : rel (keeps (zk z k)) (pay_tariff a g auto).
  Proof.
    unfold pay_tariff. apply rel_bind; [apply _|frame|intros p]. apply rel_bind; [apply _|plr|intros pp]. destruct (tariff_storage _ _ _); [|plr].
    apply rel_bind; [apply _|plr|intros base]. apply rel_bind; [apply _|frame|intros fee].
    intros s. pose proof (pl_back a s) as HB. unfold bind at 1, get at 1. unfold bind, get in HB. unfold bind at 1.
    destruct (r_banished (ref_get s a)).
    - destruct (come_back a s) as [s1 [[]|e|e]]; cbn [fst] in HB; [|exact HB|exact HB].
      etransitivity; [exact HB|]. match goal with |- keeps _ s1 (fst (?m s1)) => assert (R : rel (keeps (zk z k)) m) by plr; apply R end.
    - unfold ret at 1. match goal with |- keeps _ s (fst (?m s)) => assert (R : rel (keeps (zk z k)) m) by plr; apply R end.
  Qed.
  Lemma pl_monthly a : rel (keeps (zk z k)) (monthly a).
  Proof. unfold monthly. repeat first [apply pl_pay_tariff | progress rel_struct | frame]. Qed.
  (** Messages other than those about the transition of [z] *)
  Definition unmoving (m : msg) : Prop :=
    match m with MRequestTransition a _ => a <> z | MResolveTransition _ a _ => a <> z | _ => True end.
  Lemma pl_msg m s s' : unmoving m -> run_msg m s = (s', Ok tt) -> keeps (zk z k) s s'.
  Proof.
    intros U H.
    assert (HR : rel (keeps (zk z k)) (run_msg m) -> keeps (zk z k) s s').
    { intros HK. specialize (HK s). by rewrite H in HK. }
    destruct m; cbn [unmoving] in U; cbn [run_msg] in *; try (apply HR; solve [plr]).
    - apply HR. unfold msg_request_transition, request_transition. repeat first [by apply pl_set_transition | progress plr].
    - clear HR. unfold msg_resolve_transition in H. apply bind_ok in H as (r & s1 & H1 & H). apply get_ok in H1 as [-> ->].
      apply bind_ok in H as ([] & s1 & H1 & H). apply ensure_ok in H1 as [-> _]. apply bind_ok in H as ([] & s1 & H1 & H). apply ensure_ok in H1 as [-> _].
      destruct approved.
      + intros C. pose proof (affirm_seat _ z k _ _ H C) as X. apply N.eqb_neq in U. by rewrite U in X.
      + intros C. pose proof (pl_cancel z k subject U s C) as X. by rewrite H in X.
    - apply HR. apply rel_bind; [apply _|apply rel_ensure, _|intros []]. apply pl_pay_tariff.
  Qed.
  (** Scheduled tasks *)
  Definition unmoved_by (t : task) : Prop :=
    (t_hook t = HBanish -> t_data t <> z) /\ (t_hook t = HTransition -> t_data t <> z \/ k.1.2 = nobody) .
  Lemma pl_task t s : unmoved_by t -> (t_hook t = HCompression -> z ∉ r_referrals (ref_get s (t_data t))) -> keeps (zk z k) s (after_task hooks t s).
  Proof.
    intros [H1 H2] H3. apply task_rel; [apply _|intros; apply pl_fields; reflexivity|]. intros f Hf.
    destruct (t_hook t) eqn:EH; cbn in Hf; try discriminate Hf; injection Hf as <-.
    - apply pl_downgrade.
    - unfold perform_compression. do 2 (apply at_get; [apply _|]).
      destruct (r_compression_at _); [|intros R; exact R]. destruct (_ <? _); [intros R; exact R|].
      intros C. unfold must. pose proof (compress_seat (t_data t) z k s C) as X. cbv zeta in X.
      destruct (compress (t_data t) s) as [s1 [x|e|e]]; cbn [fst] in *; (destruct X as [X|[X _]]; [exact X|by destruct (H3 eq_refl)]).
    - intros C. unfold perform_transition_timeout, must. cbn [fst]. destruct (H2 eq_refl) as [X|X].
      + pose proof (pl_cancel z k (t_data t) X s C) as Y. by destruct (cancel_transition (t_data t) s) as [s1 [x|e|e]].
      + unfold cancel_transition, modify. cbn [fst]. apply zk_write; [|done]. intros ->. destruct C as [_ C]. rewrite <- C in X |- *. unfold seat in *. cbn in *. by rewrite X.
    - assert (R : rel (keeps (zk z k)) (perform_refresh (t_data t))) by apply rel_must, pl_monthly. apply R.
    - match goal with |- keeps _ s (fst (?m s)) => assert (R : rel (keeps (zk z k)) m) by plr; apply R end.
    - match goal with |- keeps _ s (fst (?m s)) => assert (R : rel (keeps (zk z k)) m) by plr; apply R end.
    - match goal with |- keeps _ s (fst (?m s)) => assert (R : rel (keeps (zk z k)) m) by plr; apply R end.
    - match goal with |- keeps _ s (fst (?m s)) => assert (R : rel (keeps (zk z k)) m) by plr; apply R end.
    - match goal with |- keeps _ s (fst (?m s)) => assert (R : rel (keeps (zk z k)) m) by plr; apply R end.
    - assert (R : rel (keeps (zk z k)) (perform_banish (t_data t))); [|apply R].
      apply rel_must. unfold banish. apply rel_bind; [apply _|apply pl_banish; auto|intros []]. plr.
  Qed.
  Lemma pl_history bs s s' us : k.1.2 = nobody -> times_from (st_now s) bs -> (forall x s1, (x, s1) ∈ steps bs s -> no_concern z x s1) ->
    run_blocks bs s = Some (s', us) -> keeps (zk z k) s s'.
  Proof.
    intros KN HT HG H. eapply (hs_blocks (keeps (zk z k)) (no_concern z)); [..|exact HT|exact HG|exact H].
    - intros. apply pl_fields. reflexivity.
    - intros. apply okrel_rel. plr.
    - intros t s0 [G1 G2]. apply pl_task; [|exact G2]. split; [exact G1|]. intros _. by right.
    - intros. apply pl_fields. reflexivity.
    - intros. apply okrel_rel. plr.
    - intros m s0 s1 G E. destruct m; try (by eapply pl_msg; [|exact E]). cbn [run_msg] in E.
      destruct (decide (subject = z)) as [->|U]; [|by eapply (pl_msg (MResolveTransition _ subject approved)); [|exact E]].
      intros C. unfold msg_resolve_transition in E. apply bind_ok in E as (r & s2 & H1 & E). apply get_ok in H1 as [-> ->].
      apply bind_ok in E as ([] & s2 & H1 & E). apply ensure_ok in H1 as [-> _]. apply bind_ok in E as ([] & s2 & H1 & E). apply ensure_ok in H1 as [-> _].
      destruct approved.
      + apply affirm_wish in E. destruct C as [_ C]. rewrite <- C in KN. cbn in KN. congruence.
      + unfold cancel_transition in E. apply modify_ok in E as ->. apply zk_write; [|done]. intros _.
        destruct C as [_ C]. rewrite <- C in KN |- *. unfold seat in *. cbn in *. by rewrite KN.
    - apply okrel_rel. plr.
  Qed.
End sweep.
