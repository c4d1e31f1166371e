(** * What the records say about an account itself *)
From Verif Require Export NetProofs BankProofs.
Open Scope Z_scope.

Local Notation upd := RefTheory.upd.

(** A record that is not empty stays so, and says the same about the account. *)
Definition hk (r r' : rinfo) : Prop := r_empty r = false ->
  r_empty r' = false /\ ln (r_coins r') 0 = ln (r_coins r) 0 /\ ln (r_deleg r') 0 = ln (r_deleg r) 0.
Definition hk0 (check : bool) (r r' : rinfo) : Prop := r_empty r = false ->
  (check = false -> r_empty r' = false) /\ ln (r_coins r') 0 = ln (r_coins r) 0 /\ ln (r_deleg r') 0 = ln (r_deleg r) 0.
Lemma hk_refl r : hk r r.
Proof. done. Qed.
Lemma hk_eq r r' : r' = r -> hk r r'.
Proof. by intros ->. Qed.
Lemma hk_trans r1 r2 r3 : hk r1 r2 -> hk r2 r3 -> hk r1 r3.
Proof. intros H1 H2 E. destruct (H1 E) as (E1 & E2 & E3). destruct (H2 E1) as (F1 & F2 & F3). split_and!; congruence. Qed.
Lemma hk_norm r : hk r (normalize r).
Proof. intros E. split_and!; [exact E|apply ln_pad..]. Qed.

Lemma status_req_range g r st : r_banished r = false -> status_req g r st = Some true -> st = 0 \/ 1 <= st.
Proof.
  intros HB H. unfold status_req in H. rewrite HB in H.
  destruct (Z.eqb_spec st 0); [by left|]. right. repeat (match type of H with context [?a =? ?b] => destruct (Z.eqb_spec a b); [lia|] end). discriminate.
Qed.
Lemma climb_ge g r fuel : forall st n, 0 <= st -> st <> 8 -> climb fuel g r st = Some n -> st <= n.
Proof.
  induction fuel as [|fuel IH]; intros st n Hst H8; cbn [climb]; [discriminate|].
  destruct (Z.eqb_spec st 9); [intros [= <-]; lia|]. unfold next_status, prev_status.
  destruct (Z.eqb_spec (st + 1) 8) as [E|E].
  - destruct (status_req g r 9) as [[|]|]; [intros H; apply IH in H; lia|intros [= <-]; cbn; lia|discriminate].
  - destruct (status_req g r (st + 1)) as [[|]|]; [intros H; apply IH in H; lia|intros [= <-]; destruct (Z.eqb_spec (st + 1 - 1) 8); lia|discriminate].
Qed.
Lemma climb_zero g r n : r_banished r = false -> climb (S n) g r 0 = climb n g r 1.
Proof. intros HB. cbn [climb Z.eqb]. assert (E : status_req g r (next_status 0) = Some true) by (unfold status_req; cbn; by rewrite HB). by rewrite E. Qed.
Lemma status_check_nonempty b a r s s' b' r' : status_check b a r s = (s', Ok (b', r')) -> r_empty r' = false.
Proof.
  intros H. unfold status_check in H.
  destruct (if r_status r =? 8 then _ else _) as [b1 r1] eqn:E1. clear E1.
  apply bind_ok in H as (u0 & s0 & _ & H).
  apply bind_ok in H as (s1 & s2 & E & H). apply get_ok in E as [-> ->].
  apply bind_ok in H as (ok & s3 & E & H). apply lift_ok in E as [-> E].
  destruct (r_banished r1) eqn:HB.
  { assert (HB' : r_banished r' = true).
    { destruct ok; cbn [negb] in H.
      - apply bind_ok in H as (nx & s4 & _ & H). destruct (_ <? nx); [apply bind_ok in H as (? & ? & _ & H)|]; apply ret_ok in H as [_ H]; injection H as -> ->; exact HB.
      - destruct (r_downgrade_at _); [apply ret_ok in H as [_ H]; injection H as -> ->; exact HB|].
        apply bind_ok in H as (u & s4 & _ & H). apply ret_ok in H as [_ H]; injection H as -> ->; exact HB. }
    unfold r_empty. rewrite HB'. by rewrite andb_false_r. }
  destruct ok; cbn [negb] in H.
  - apply bind_ok in H as (nx & s4 & EC & H). apply lift_ok in EC as [_ EC]. cbn [r_status] in EC, H.
    pose proof (status_req_range _ _ _ HB E) as HR.
    assert (HN : 1 <= Z.max (r_status r1) nx).
    { destruct HR as [HR|HR]; [|lia]. change (r_status (r1 <| r_downgrade_at := None |>)) with (r_status r1) in EC. rewrite HR in EC.
      revert EC. generalize (fun x => bu_get b1 x (id s0)). intros g EC.
      cut (climb 11 g (r1 <| r_downgrade_at := None |>) 1 = Some nx); [intros EC1; apply climb_ge in EC1; lia|].
      by rewrite <- climb_zero. }
    unfold r_empty. apply andb_false_iff. left. apply Z.eqb_neq.
    destruct (Z.ltb_spec (r_status (r1 <| r_downgrade_at := None |>)) nx) as [L|L]; [apply bind_ok in H as (? & ? & _ & H)|]; apply ret_ok in H as [_ H]; injection H as -> ->; cbn in *; lia.
  - assert (N0 : r_status r1 <> 0).
    { intros E0. rewrite E0 in E. unfold status_req in E. cbn in E. congruence. }
    unfold r_empty. apply andb_false_iff. left. apply Z.eqb_neq.
    destruct (r_downgrade_at r1); [apply ret_ok in H as [_ H]; injection H as -> ->; exact N0|].
    apply bind_ok in H as (u & s4 & _ & H). apply ret_ok in H as [_ H]; injection H as -> ->; exact N0.
Qed.

Section account.
  Context (x : addr).
  Lemma updatem_hk {A} b a check (f : bu -> rinfo -> M (bu * rinfo * A)) s s' b' y :
    bu_updatem b a check f s = (s', Ok (b', y)) ->
    (forall s1 b1 r1, let r := normalize (bu_get b a s) in f b r s = (s1, Ok (b1, r1, y)) ->
       st_ref s1 = st_ref s /\ (x <> a -> hk (bu_get b x s) (bu_get b1 x s)) /\ (x = a -> hk0 check r r1)) ->
    st_ref s' = st_ref s /\ hk (bu_get b x s) (bu_get b' x s).
  Proof.
    intros H HF. apply bu_updatem_ok in H as (s1 & b1 & r1 & r2 & E & Q & Q0 & ED & ES & Q1).
    destruct (HF _ _ _ E) as (E1 & E2 & E3). split; [congruence|].
    rewrite (bu_get_insert b1 b' a r2 s ED x). destruct (N.eqb_spec x a) as [->|N]; [|by apply E2].
    intros HE. specialize (E3 eq_refl HE) as (F1 & F2 & F3). destruct (eqs_lines _ _ 0 Q) as (G1 & G2 & _).
    split_and!; [|cbn in *; rewrite ln_pad in *; congruence..].
    destruct check; [|by rewrite Q0; auto]. destruct (Q1 eq_refl) as [b2 E2']. by apply status_check_nonempty in E2'.
  Qed.
  Lemma update_hk {A} b a check (f : rinfo -> rinfo * A) s s' b' y :
    bu_update b a check f s = (s', Ok (b', y)) ->
    (x = a -> let r := normalize (bu_get b a s) in hk0 check r (fst (f r))) ->
    st_ref s' = st_ref s /\ hk (bu_get b x s) (bu_get b' x s).
  Proof.
    intros H HF. apply (updatem_hk _ _ _ _ _ _ _ _ H). cbv zeta. intros s1 b1 r1 E.
    destruct (f _) as [r' y'] eqn:Ef. apply ret_ok in E as [-> E]. injection E as -> -> ->.
    split; [done|]. split; [intros _; apply hk_refl|]. intros Ex. specialize (HF Ex). cbv zeta in HF. by rewrite Ef in HF.
  Qed.
  Lemma walk_hk check lines f :
    (forall i a b r, i ∈ lines -> (11 <= List.length (r_coins r))%nat -> hk0 check r (snd (f i a b r)) /\ bu_data (fst (f i a b r)) = bu_data b) ->
    forall b a s s' b', walk check lines b a f s = (s', Ok b') -> st_ref s' = st_ref s /\ hk (bu_get b x s) (bu_get b' x s).
  Proof.
    induction lines as [|i lines IH]; intros HF b a s s' b' H; cbn [walk] in H.
    { apply ret_ok in H as [-> ->]. split; [done|apply hk_refl]. }
    destruct (a =? nobody)%N. { apply ret_ok in H as [-> ->]. split; [done|apply hk_refl]. }
    apply bind_ok in H as ([b1 up1] & s1 & E & H).
    apply updatem_hk in E as [E1 E2]; cycle 1.
    { cbv zeta. intros s2 b2 r2 E2. destruct (f i a b _) as [b3 r3] eqn:Ef. apply ret_ok in E2 as [-> E2]. injection E2 as -> -> ->.
      destruct (HF i a b (normalize (bu_get b a s)) ltac:(left)) as [F1 F2]; [apply len_pad|]. rewrite Ef in F1, F2. cbn [fst snd] in F1, F2.
      split; [done|]. split; [intros _; apply hk_eq; by apply bu_get_ext|]. done. }
    apply IH in H as [E3 E4]; [|intros; apply HF; [by right|done]]. split; [congruence|].
    eapply hk_trans; [exact E2|]. rewrite <- (bu_get_ext b1 b1 s s1 x), <- (bu_get_ext b' b' s s1 x) by done. exact E4.
  Qed.

  (** The operations that commit what an updater has collected *)
  Definition kl (s s' : St) : Prop := st_bal s' = st_bal s /\ hk (ref_get s x) (ref_get s' x).
  #[local] Instance kl_pre : PreOrder kl.
  Proof.
    split.
    - intros s. split; [done|apply hk_refl].
    - intros s1 s2 s3 [A1 A2] [B1 B2]. split; [congruence|by eapply hk_trans].
  Qed.
  Lemma kl_fields s s' : st_bal s' = st_bal s -> st_ref s' = st_ref s -> kl s s'.
  Proof. intros E1 E2. split; [done|]. apply hk_eq. unfold ref_get. by rewrite E2. Qed.
  Definition good s (b : bu) : Prop := hk (ref_get s x) (bu_get b x s).
  Lemma kl_cm (m : M unit) s : rel (same st_bal) m -> cm s (good s) m s -> kl s (fst (m s)).
  Proof.
    intros RB C. split; [apply RB|]. destruct (m s) as [s' r] eqn:E. cbn. destruct (C s' r E) as [E1|(b & P & G)].
    - apply hk_eq. unfold ref_get. by rewrite E1.
    - rewrite G. exact P.
  Qed.
  Lemma kl_must (m : M unit) : rel kl m -> rel kl (must m).
  Proof. apply rel_must. Qed.

  Lemma ln0_add_at i d l : (1 <= i)%nat -> ln (add_at i d l) 0 = ln l 0.
  Proof. intros H. unfold ln, add_at. rewrite list_lookup_alter_ne by lia. done. Qed.
  Lemma hk0_add_line check i c d r : (1 <= i)%nat -> hk0 check r (add_line i c d r).
  Proof. intros H E. split_and!; [intros _; exact E|by apply ln0_add_at..]. Qed.
  Definition own4 (r : rinfo) := (r_status r, r_banished r, r_coins r, r_deleg r).
  Lemma hk0_own check r r' r2 : own4 r' = own4 r -> hk0 check r' r2 -> hk0 check r r2.
  Proof. unfold own4. intros E H HE. injection E as E1 E2 E3 E4. unfold hk0, r_empty in *. rewrite E1, E2, E3, E4 in H. by apply H. Qed.
  Lemma ln0_fold (g : nat -> Z) js : forall l, (forall j, j ∈ js -> (1 <= j)%nat) -> ln (fold_left (fun l i => add_at i (g i) l) js l) 0 = ln l 0.
  Proof.
    induction js as [|j js IH]; intros l H; cbn; [done|]. rewrite IH by (intros; apply H; by right). apply ln0_add_at, H. left.
  Qed.
  Lemma ln0_shift k src l : (1 <= k)%nat -> ln (line_shift k src l) 0 = ln l 0.
  Proof.
    intros H. unfold line_shift. cbv zeta.
    assert (A : forall js l, ln (fold_left (fun l i => add_at (k + i) (default 0 (src !! (i + 1)%nat) - default 0 (src !! i)) l) js l) 0 = ln l 0).
    { induction js as [|j js IH]; intros l0; cbn; [done|]. rewrite IH. apply ln0_add_at. lia. }
    rewrite A. by apply ln0_add_at.
  Qed.
  Lemma ln0_zip sg k src l : (1 <= k)%nat -> ln (zip_lines sg k src l) 0 = ln l 0.
  Proof.
    intros H. unfold zip_lines. apply (ln0_fold (fun i => sg * default 0 (src !! (i - k)%nat))). intros j Hj. apply elem_of_seq in Hj. lia.
  Qed.
  Lemma hk0_move check sg k src r : (1 <= k)%nat -> hk0 check r (move_lines sg k src r).
  Proof. intros H E. split_and!; [intros _; exact E|by apply ln0_zip..]. Qed.

  Lemma good_trans s s1 b b1 : good s b -> st_ref s1 = st_ref s -> hk (bu_get b x s1) (bu_get b1 x s1) -> good s b1.
  Proof. intros G E H. unfold good. eapply hk_trans; [exact G|]. by rewrite <- (bu_get_ext b b s s1 x), <- (bu_get_ext b1 b1 s s1 x). Qed.
  Lemma good_new s : good s bu_new.
  Proof. unfold good. rewrite bu_get_new. apply hk_refl. Qed.
  Lemma good_call s e a b : good s b -> good s (bu_call e a b).
  Proof. done. Qed.
  Lemma cm_good s b s1 : st_ref s1 = st_ref s -> good s b -> cm s (good s) (bu_commit b) s1.
  Proof. apply cm_commit. Qed.

  Lemma kl_append p c sk sc s : kl s (fst (append_child_core p c sk sc s)).
  Proof.
    apply kl_cm; [same_ref|]. unfold append_child_core. apply cm_ensure; [done|]. intros _. apply cm_get. apply cm_ensure; [done|]. intros EX.
    apply cm_get. unfold id. cbv zeta. apply cm_bind; [done|same_ref|]. intros [b [an closed]] s1 E ES1.
    apply update_hk in E as [_ E]; [|intros _; by eapply hk0_own; [|apply hk0_add_line; lia]].
    assert (G0 : good s b).
    { eapply (good_trans _ s); [|done|exact E]. unfold good. rewrite (bu_get_insert bu_new (bu_set c _ bu_new) c _ s eq_refl x), bu_get_new.
      destruct (N.eqb_spec x c) as [->|]; [|apply hk_refl]. intros HE. exfalso. unfold ref_exists in EX. unfold ref_get in HE.
      by destruct (st_ref s !! c). }
    apply cm_ensure; [done|]. intros _. apply cm_bind; [done|same_ref|]. intros b3 s3 EW ES3. apply cm_good; [done|].
    apply walk_hk in EW as [_ EW]; [by eapply (good_trans _ s1)|]. intros i a b0 r Hi _. split; [|done].
    apply elem_of_seq in Hi. apply hk0_add_line. lia.
  Qed.
  Lemma kl_set_active a v ck s : kl s (fst (set_active a v ck s)).
  Proof.
    apply kl_cm; [same_ref|]. unfold set_active. apply cm_get. unfold id. cbv zeta. apply cm_bind; [done|same_ref|]. intros [b o] s1 E ES1.
    apply updatem_hk in E as [_ E]; cycle 1.
    { cbv zeta. intros s2 b2 r2 E2. destruct (Bool.eqb _ _).
      - apply ret_ok in E2 as [-> E2]. injection E2 as -> -> ->. split_and!; [done|intros _; apply hk_refl|intros _ HE; done].
      - apply bind_ok in E2 as (r3 & s3 & E2 & E3). apply ret_ok in E3 as [-> E3]. injection E3 as -> -> ->.
        assert (ES3 : st_ref s3 = st_ref s).
        { match type of E2 with ?m s = _ => assert (RS : rel (same st_ref) m) by same_ref; specialize (RS s); rewrite E2 in RS; exact RS end. }
        split_and!; [done|intros _; apply hk_refl|]. intros _ HE.
        assert (Q : r_status r3 = r_status (bu_get bu_new a s) /\ r_banished r3 = r_banished (bu_get bu_new a s) /\
           r_coins r3 = pad (r_coins (bu_get bu_new a s)) /\ r_deleg r3 = pad (r_deleg (bu_get bu_new a s))).
        { clear HE. destruct (r_banishment_at _) as [t|]; [destruct v|].
          - apply bind_ok in E2 as (u & s4 & _ & E2). apply ret_ok in E2 as [_ ->]. done.
          - apply ret_ok in E2 as [_ ->]. done.
          - apply ret_ok in E2 as [_ ->]. done. }
        destruct Q as (Q1 & Q2 & Q3 & Q4). unfold r_empty in *. rewrite Q1, Q2, Q3, Q4. split_and!; [intros _; exact HE|done..]. }
    destruct o as [q|]; [|by apply cm_ret].
    apply cm_bind; [done|same_ref|]. intros b3 s3 EW ES3.
    apply cm_bind; [done|same_ref|]. intros [] s4 _ ES4. apply cm_good; [done|].
    apply walk_hk in EW as [_ EW].
    - eapply (good_trans _ s1); [|done|exact EW]. eapply (good_trans _ s); [apply good_new|done|exact E].
    - intros i y b0 r Hi _. split; [|done]. cbn [snd]. destruct (i =? 1)%nat; intros HE; split_and!; done.
  Qed.

  Lemma kl_write a r s : own4 r = own4 (ref_get s a) -> kl s (s <| st_ref := <[ a := r ]> (st_ref s) |>).
  Proof.
    intros E. split; [done|]. unfold ref_get. cbn. destruct (decide (x = a)) as [->|N].
    - rewrite lookup_insert. cbn. unfold own4 in E. injection E as E1 E2 E3 E4. unfold hk, r_empty. fold (ref_get s a). by rewrite E1, E2, E3, E4.
    - rewrite lookup_insert_ne by done. apply hk_refl.
  Qed.
  Lemma kl_cancel a : rel kl (cancel_transition a).
  Proof. intros s. apply kl_write. done. Qed.
  Lemma kl_set_transition a p : rel kl (set_transition a p).
  Proof. intros s. apply kl_write. done. Qed.
  Lemma kl_timeout a : rel kl (perform_transition_timeout a).
  Proof. apply kl_must, kl_cancel. Qed.
  Lemma kl_downgrade a : rel kl (perform_downgrade a).
  Proof.
    apply kl_must. intros s. apply kl_cm; [same_ref|]. apply cm_get. apply cm_bind; [done|same_ref|]. intros [b u] s1 E ES1.
    apply cm_good; [done|]. apply good_call. apply updatem_hk in E as [_ E].
    - eapply (good_trans _ s); [apply good_new|done|exact E].
    - cbv zeta. intros s2 b2 r2 E2. destruct (r_downgrade_at _); [destruct (_ <? _)|].
      2:{ apply bind_ok in E2 as (? & s3 & EI & E2). apply modify_ok in EI. apply ret_ok in E2 as [-> E2]. injection E2 as -> -> ->. subst s3.
          split; [done|]. split; [intros _; apply hk_refl|]. intros _ HE; split_and!; done. }
      all: apply ret_ok in E2 as [-> E2]; injection E2 as -> -> ->; (split; [done|]); (split; [intros _; apply hk_refl|]); intros _ HE; split_and!; done.
  Qed.
  Lemma kl_compress a : rel kl (compress a).
  Proof.
    intros s. apply kl_cm; [same_ref|]. unfold compress. apply cm_get. apply cm_bind; [done|same_ref|]. intros [b old] s1 E ES1.
    apply updatem_hk in E as [_ E]; cycle 1.
    { cbv zeta. intros s2 b2 r2 E2. destruct (_ =? nobody)%N; [by apply fail_ok in E2|].
      apply bind_ok in E2 as (u00 & s00 & EI & E2). apply modify_ok in EI. apply bind_ok in E2 as (own & s3 & E2 & E3). apply lift_ok in E2 as [-> _].
      apply bind_ok in E3 as (r3 & s3 & E2 & E3). apply ret_ok in E3 as [-> E3]. injection E3 as -> -> ->.
      assert (ES3 : st_ref s3 = st_ref s).
      { match type of E2 with ?m s00 = _ => assert (RS : rel (same st_ref) m) by same_ref; specialize (RS s00); rewrite E2 in RS; subst s00; exact RS end. }
      split_and!; [done|intros _; apply hk_refl|]. intros _ HE.
      assert (Q : r_status r3 = 1 /\ r_coins r3 = keep_first (pad (r_coins (bu_get bu_new a s))) /\ r_deleg r3 = keep_first (pad (r_deleg (bu_get bu_new a s)))).
      { clear HE. destruct (_ <=? _); [|by apply ret_ok in E2 as [_ ->]]. unfold schedule_banishment in E2.
        apply bind_ok in E2 as (t & s4 & _ & E2). apply bind_ok in E2 as (u & s5 & _ & E2). by apply ret_ok in E2 as [_ ->]. }
      destruct Q as (Q1 & Q3 & Q4). unfold r_empty. rewrite Q1, Q3, Q4. split_and!; done. }
    assert (G : good s b) by (eapply (good_trans _ s); [apply good_new|done|exact E]). clear E.
    apply cm_bind; [done|same_ref|]. intros b2 s2 EM ES2.
    assert (G2 : good s b2).
    { revert b G s1 ES1 EM. generalize (r_referrer old) as q. induction (r_referrals old) as [|c l IH]; intros q b G s1 ES1 EM; cbn [mfold] in EM.
      - by apply ret_ok in EM as [-> ->].
      - apply bind_ok in EM as (b3 & s3 & E & EM). apply bind_ok in E as ([b4 u] & s4 & E & E0). apply ret_ok in E0 as [-> ->].
        apply update_hk in E as [E1 E]; [|intros _; cbv zeta; intros HE; split_and!; done].
        eapply IH; [|by rewrite E1|exact EM]. by eapply (good_trans _ s1). }
    apply cm_bind; [done|same_ref|]. intros b3 s3 EW ES3. apply cm_good; [done|].
    apply walk_hk in EW as [_ EW]; [by eapply (good_trans _ s2)|].
    intros i y b0 r Hi _. apply elem_of_seq in Hi. split; [|done]. cbn [snd].
    destruct (i =? 1)%nat; intros HE; (split_and!; [intros _; exact HE|cbn; apply ln0_shift; lia..]).
  Qed.
  Lemma kl_compression a : rel kl (perform_compression a).
  Proof.
    unfold perform_compression. apply rel_bind; [apply _|apply rel_get, _|]. intros r. apply rel_bind; [apply _|apply rel_get, _|]. intros now.
    destruct (r_compression_at r); [|apply rel_ret, _]. destruct (_ <? _); [apply rel_ret, _|]. apply kl_must, kl_compress.
  Qed.
  Lemma walk_lines_hk check i n c d (cb : addr -> bu -> bu) s b b' a s1 s' : (1 <= i)%nat -> (forall y b, bu_data (cb y b) = bu_data b) ->
    good s b -> st_ref s1 = st_ref s -> walk check (seq i n) b a (fun i y b r => (cb y b, add_line i c d r)) s1 = (s', Ok b') -> good s b'.
  Proof.
    intros Hi HC G ES E. apply walk_hk in E as [_ E]; [by eapply (good_trans _ s1)|].
    intros j y b0 r Hj _. apply elem_of_seq in Hj. split; [apply hk0_add_line; lia|apply HC].
  Qed.
  Lemma kl_banish a : rel kl (banish_core a).
  Proof.
    intros s. apply kl_cm; [same_ref|]. unfold banish_core. apply cm_get. apply cm_bind; [done|same_ref|]. intros [b [[q c] d]] s1 E ES1.
    apply updatem_hk in E as [_ E]; cycle 1.
    { cbv zeta. intros s2 b2 r2 E2. minv. match goal with H5 : (b2, r2, _) = _ |- _ => injection H5 as -> -> _ _ _ end.
      split_and!; [done|intros _; apply hk_refl|]. intros _ HE. split_and!; [intros _; unfold r_empty; by rewrite andb_false_r|done..]. }
    assert (G : good s b) by (eapply (good_trans _ s); [apply good_new|done|exact E]). clear E.
    apply cm_bind; [done|same_ref|]. intros [b2 u] s2 EM ES2. apply update_hk in EM as [_ E]; [|intros _; by eapply hk0_own; [|apply hk0_add_line; lia]].
    assert (G2 : good s b2) by by eapply (good_trans _ s1). apply cm_bind; [done|same_ref|]. intros b3 s3 EW ES3. apply cm_good; [done|].
    destruct (_ || _); [by apply ret_ok in EW as [-> ->]|]. eapply (walk_lines_hk true 2 9 _ _ (fun _ b => b)); [lia|done|exact G2|exact ES2|exact EW].
  Qed.
  Lemma kl_come_back a : rel kl (come_back a).
  Proof.
    intros s. apply kl_cm; [same_ref|]. unfold come_back. apply cm_bind; [done|same_ref|]. intros [b [[q c] d]] s1 E ES1.
    apply updatem_hk in E as [_ E]; cycle 1.
    { cbv zeta. intros s2 b2 r2 E2. apply bind_ok in E2 as (f & s3 & E2 & E3). apply get_ok in E2 as [-> ->].
      apply bind_ok in E3 as (p & s3 & E2 & E3). apply nearest_ok in E2 as [-> _]. apply ret_ok in E3 as [-> E3]. injection E3 as -> -> _ _ _.
      split_and!; [done|intros _; apply hk_refl|]. intros _ HE. split_and!; done. }
    assert (G : good s b) by (eapply (good_trans _ s); [apply good_new|done|exact E]). clear E.
    apply cm_bind; [done|same_ref|]. intros b3 s3 EW ES3. apply cm_good; [done|].
    destruct (_ =? nobody)%N; [by apply ret_ok in EW as [-> ->]|]. apply bind_ok in EW as ([b2 u] & s2 & EM & EW).
    apply update_hk in EM as [ES2 E]; [|intros _; by eapply hk0_own; [|apply hk0_add_line; lia]].
    assert (G2 : good s b2) by by eapply (good_trans _ s1).
    destruct (_ || _); [by apply ret_ok in EW as [-> ->]|]. eapply (walk_lines_hk true 2 9 _ _ (fun _ b => b)); [lia|done|exact G2| |exact EW]. congruence.
  Qed.
  Lemma affirm_up_hk s levels src : (forall i, i ∈ levels -> (1 <= i)%nat) -> forall b o n s1 s' b', good s b -> st_ref s1 = st_ref s ->
    affirm_up levels src b o n s1 = (s', Ok b') -> good s b'.
  Proof.
    induction levels as [|i l IH]; intros Hl b o n s1 s' b' G ES H; cbn [affirm_up] in H; [by apply ret_ok in H as [-> ->]|].
    destruct (_ =? n)%N; [by apply ret_ok in H as [-> ->]|].
    assert (Hi : (1 <= i)%nat) by (apply Hl; left).
    apply bind_ok in H as ([b1 o1] & s2 & E & H). apply bind_ok in H as ([b2 n1] & s3 & E2 & H).
    assert (G1 : good s b1 /\ st_ref s2 = st_ref s).
    { destruct (o =? nobody)%N; [apply ret_ok in E as [-> E]; by injection E as -> _|].
      apply update_hk in E as [E1 E]; [|intros _; by apply hk0_move]. split; [by eapply (good_trans _ s1)|congruence]. }
    destruct G1 as [G1 ES1].
    assert (G2 : good s b2 /\ st_ref s3 = st_ref s).
    { destruct (n =? nobody)%N; [apply ret_ok in E2 as [-> E2]; by injection E2 as -> _|].
      apply update_hk in E2 as [E1 E2]; [|intros _; by apply hk0_move]. split; [by eapply (good_trans _ s2)|congruence]. }
    destruct G2 as [G2 ES2]. eapply IH; [|exact G2|exact ES2|exact H]. intros j Hj. apply Hl. by right.
  Qed.
  Lemma kl_affirm a : rel kl (affirm_transition a).
  Proof.
    unfold affirm_transition. intros s. apply at_get; [apply _|]. cbv zeta.
    apply at_bind; [apply _| |].
    { assert (RV : rel (same st_ref) (validate_transition a (r_transition (ref_get s a)) false)) by frame.
      assert (RB : rel (same st_bal) (validate_transition a (r_transition (ref_get s a)) false)) by frame.
      apply kl_fields; [apply RB|apply RV]. }
    intros [] s1 E1.
    assert (ES1 : st_ref s1 = st_ref s).
    { assert (RV : rel (same st_ref) (validate_transition a (r_transition (ref_get s a)) false)) by frame. specialize (RV s). by rewrite E1 in RV. }
    apply at_bind; [apply _| |].
    { apply kl_write. unfold ref_get. by rewrite ES1. }
    intros [] s2 _. generalize (ref_get s a). clear s s1 E1 ES1. intros r. apply kl_must. clear s2. intros s. apply kl_cm; [same_ref|].
    apply cm_bind; [done|same_ref|]. intros [b o] s1 E ES1.
    apply updatem_hk in E as [_ E]; cycle 1.
    { cbv zeta. intros s2 b2 r2 E2. apply bind_ok in E2 as (u & s3 & E2 & E3). apply assert_ok in E2 as [-> _].
      apply bind_ok in E3 as (u2 & s3 & E2 & E3). apply assert_ok in E2 as [-> _]. apply ret_ok in E3 as [-> E3]. injection E3 as -> -> _.
      split_and!; [done|intros _; apply hk_refl|]. intros _. by eapply hk0_own; [|apply hk0_move; lia]. }
    assert (G : good s b) by (eapply (good_trans _ s); [apply good_new|done|exact E]). clear E.
    apply cm_bind; [done|same_ref|]. intros [b2 n] s2 EM ES2. apply update_hk in EM as [_ E]; [|intros _; by eapply hk0_own; [|apply hk0_move; lia]].
    assert (G2 : good s b2) by by eapply (good_trans _ s1). apply cm_bind; [done|same_ref|]. intros b3 s3 EW ES3. apply cm_good; [done|].
    eapply affirm_up_hk; [|exact G2|exact ES2|exact EW]. intros i Hi. apply elem_of_seq in Hi. lia.
  Qed.

  (** The hook of the bank *)
  Lemma revive_hk a b r s s' b' r' : revive a b r s = (s', Ok (b', r')) ->
    st_ref s' = st_ref s /\ hk (bu_get b x s) (bu_get b' x s) /\ r_coins r' = r_coins r /\ r_deleg r' = r_deleg r.
  Proof.
    unfold revive. intros H. apply bind_ok in H as (f & s1 & E & H). apply get_ok in E as [-> ->].
    apply bind_ok in H as (p & s1 & E & H). apply nearest_ok in E as [-> _]. cbv zeta in H.
    destruct (p =? nobody)%N. { apply ret_ok in H as [-> H]. injection H as -> ->. split_and!; [done|apply hk_refl|done..]. }
    apply bind_ok in H as ([b1 u] & s1 & E & H).
    apply update_hk in E as [ES E]; [|intros _; by eapply hk0_own; [|apply hk0_add_line; lia]].
    destruct (_ || _). { apply ret_ok in H as [-> H]. injection H as -> ->. by split_and!. }
    apply bind_ok in H as (b3 & s3 & EW & H). apply ret_ok in H as [-> H]. injection H as -> ->.
    apply walk_hk in EW as [ES3 EW].
    - split_and!; [congruence| |done..]. eapply hk_trans; [exact E|].
      by rewrite <- (bu_get_ext b1 b1 s s1 x), <- (bu_get_ext b3 b3 s s1 x).
    - intros j y b0 r0 Hj _. apply elem_of_seq in Hj. split; [apply hk0_add_line; lia|done].
  Qed.
  Definition says (s : St) (r : rinfo) : Prop :=
    r_empty r = false /\ ln (r_coins r) 0 = own_coins s x /\ ln (r_deleg r) 0 = own_deleg s x.
  Lemma says_hk s r r' : says s r -> hk r r' -> says s r'.
  Proof. intros (H1 & H2 & H3) H. destruct (H H1) as (F1 & F2 & F3). split_and!; congruence. Qed.
  Lemma ln_insert0 v l : (0 < List.length l)%nat -> ln (<[ 0%nat := v ]> l) 0 = v.
  Proof. intros H. unfold ln. by rewrite list_lookup_insert. Qed.
  Lemma obc_says a s s' : on_balance_changed a s = (s', Ok tt) ->
    (x <> a -> hk (ref_get s x) (ref_get s' x)) /\
    (x = a -> r_empty (ref_get s x) = false -> says s (ref_get s' x)).
  Proof.
    unfold on_balance_changed. intros H.
    apply bind_ok in H as (s0 & s1 & E & H). apply get_ok in E as [-> ->]. unfold id in H. cbv zeta in H.
    apply bind_ok in H as (out & s1 & E & H). apply try_ok in E.
    destruct out as [[b [[[dc dd] node] ban]]|e]; cycle 1.
    { assert (ES : st_ref s' = st_ref s).
      { assert (R : rel (same st_ref) (bu_updatem bu_new a true (obc_body (own_coins s a) (own_deleg s a) (bp_dust (st_bp s)) s a))).
        { apply sw_bu_updatem; [apply _|frame|frame|]. intros b r. apply obc_body_rel. }
        change (bu_updatem bu_new a true (obc_body (own_coins s a) (own_deleg s a) (bp_dust (st_bp s)) s a) s = (s1, Err e)) in E.
        specialize (R s). rewrite E in R. destruct e; try (by apply throw_ok in H). by apply ret_ok in H as [-> _]. }
      split; [intros _; apply hk_eq; unfold ref_get; by rewrite ES|]. intros -> EE. exfalso.
      change (bu_updatem bu_new a true (obc_body (own_coins s a) (own_deleg s a) (bp_dust (st_bp s)) s a) s = (s1, Err e)) in E.
      destruct e; try (by apply throw_ok in H). unfold bu_updatem, recovered, bind in E. cbn [get] in E. rewrite bu_get_new in E.
      pose proof (f_obc (own_coins s a) (own_deleg s a) (bp_dust (st_bp s)) s a bu_new (normalize (ref_get s a)) EE s) as [F1 F2].
      destruct (obc_body _ _ _ _ _ _ _ s) as [s2 [[[b2 r2] x2]|e|e]]; cbn in E, F1, F2; [|congruence|congruence].
      pose proof (f_status b2 a r2 s2) as [F3 F4]. destruct (status_check b2 a r2 s2) as [s3 [[b3 r3]|e|e]]; cbn in E, F3, F4; congruence. }
    change (bu_updatem bu_new a true (obc_body (own_coins s a) (own_deleg s a) (bp_dust (st_bp s)) s a) s = (s1, Ok (b, (dc, dd, node, ban)))) in E.
    apply bu_updatem_ok in E as (s2 & b1 & r1 & r2 & E & Q & _ & ED & ES & QC). rewrite bu_get_new in E.
    destruct (QC eq_refl) as [b2 EC]. apply status_check_nonempty in EC. clear QC b2.
    apply obc_body_ok in E as (HE & r0 & -> & X & HB). injection X as -> -> -> ->.
    assert (K : st_ref s2 = st_ref s /\ hk (ref_get s x) (bu_get b1 x s) /\ r_coins r0 = pad (r_coins (ref_get s a)) /\ r_deleg r0 = pad (r_deleg (ref_get s a))).
    { destruct HB as [(ba & -> & D1 & C1 & _)|(_ & _ & _ & _ & ba & b4 & s4 & D4 & C4 & HB)].
      - split_and!; [by injection C1|by rewrite (bu_get_ext bu_new b1 s s x D1 eq_refl), bu_get_new|done..].
      - apply revive_hk in HB as (K1 & K2 & K3 & K4). assert (C5 : st_ref s4 = st_ref s) by (by injection C4).
        split_and!; [congruence| |by rewrite K3|by rewrite K4].
        rewrite (bu_get_ext b1 b1 s s4 x) in K2 by done. by rewrite (bu_get_ext bu_new b4 s s4 x D4 C5), bu_get_new in K2. }
    clear HB. destruct K as (K1 & K2 & K3 & K4).
    assert (G : (x <> a -> hk (ref_get s x) (bu_get b x s)) /\ (x = a -> says s (bu_get b x s))).
    { rewrite (bu_get_insert b1 b a r2 s ED x). destruct (N.eqb_spec x a) as [E0|N]; [|done]. split; [done|]. intros _. subst a.
      destruct (eqs_lines _ _ 0 Q) as (G1 & G2 & _). split_and!; [exact EC| |].
      - rewrite G1. cbn. apply ln_insert0. rewrite K3. pose proof (len_pad (r_coins (ref_get s x))). lia.
      - rewrite G2. cbn. apply ln_insert0. rewrite K4. pose proof (len_pad (r_deleg (ref_get s x))). lia. }
    clear Q EC K2 K3 K4 HE ED.
    apply bind_ok in H as (b3 & s3 & EW & H).
    assert (W : st_ref s3 = st_ref s /\ hk (bu_get b x s) (bu_get b3 x s)).
    { destruct (r_banished r0).
      - apply ret_ok in EW as [-> ->]. split; [congruence|apply hk_refl].
      - apply walk_hk in EW as [W1 W2].
        + split; [congruence|]. by rewrite <- (bu_get_ext b b s s1 x), <- (bu_get_ext b3 b3 s s1 x) by congruence.
        + intros j y b0 r Hj _. apply elem_of_seq in Hj. split; [apply hk0_add_line; lia|]. cbn. by destruct (_ =? 0). }
    destruct W as [W1 W2].
    assert (ER : ref_get s' x = bu_get b3 x s).
    { rewrite (commit_get b3 s3 s') by (by rewrite H). by apply bu_get_ext. }
    rewrite ER. destruct G as [G1 G2]. split.
    - intros N. eapply hk_trans; [by apply G1|exact W2].
    - intros Ex _. eapply says_hk; [by apply G2|exact W2].
  Qed.

  (** ** Histories *)
  Definition held (s : St) : Prop := says s (ref_get s x).
  Definition ho (s s' : St) : Prop := grows s s' /\ (aborts s' = aborts s -> held s -> held s').
  #[local] Instance ho_pre : PreOrder ho.
  Proof.
    split.
    - intros s. split; [reflexivity|done].
    - intros s1 s2 s3 [G1 A1] [G2 A2]. split; [by transitivity s2|]. intros E H. pose proof (grows_aborts _ _ G1). pose proof (grows_aborts _ _ G2).
      apply A2; [lia|]. apply A1; [lia|done].
  Qed.
  Lemma own_bal s s' : st_bal s' = st_bal s -> own_coins s' x = own_coins s x /\ own_deleg s' x = own_deleg s x.
  Proof. unfold own_coins, own_deleg, balance. by intros ->. Qed.
  Lemma says_bal s s' r : st_bal s' = st_bal s -> says s r -> says s' r.
  Proof. intros E (H1 & H2 & H3). destruct (own_bal _ _ E) as [E1 E2]. split_and!; congruence. Qed.
  Lemma held_kl s s' : kl s s' -> held s -> held s'.
  Proof. intros [E H] HH. eapply says_bal; [exact E|]. eapply says_hk; [exact HH|exact H]. Qed.
  Lemma ho_fields s s' : st_bal s' = st_bal s -> st_ref s' = st_ref s -> grows s s' -> ho s s'.
  Proof. intros E1 E2 G. split; [done|]. intros _. apply held_kl. by apply kl_fields. Qed.
  Lemma ho_kl {A} (m : M A) : rel grows m -> rel kl m -> rel ho m.
  Proof. intros G K s. split; [apply G|]. intros _. apply held_kl, K. Qed.
  Lemma ho_same {A} (m : M A) : rel grows m -> rel (same st_ref) m -> rel (same st_bal) m -> rel ho m.
  Proof. intros G K1 K2 s. apply ho_fields; [apply K2|apply K1|apply G]. Qed.
  Lemma ho_set_balance a c : nprel ho (set_balance a c).
  Proof.
    intros s s' r H HP. unfold set_balance in H. unfold bind at 1 in H. destruct (ensure _ _ s) as [s1 [u|e|e]] eqn:E1.
    2:{ injection H as <- <-. unfold ensure in E1. destruct (coins_valid c); [discriminate|]. injection E1 as <- _. reflexivity. }
    2:{ unfold ensure in E1. by destruct (coins_valid c). }
    apply ensure_ok in E1 as [-> _]. unfold bind at 1, modify at 1 in H.
    set (s1 := s <| st_bal := if decide (c = ∅) then base.delete a (st_bal s) else <[a:=c]> (st_bal s) |>) in *.
    assert (L1 : st_log s1 = st_log s) by done. assert (R1 : st_ref s1 = st_ref s) by done.
    assert (B1 : x <> a -> own_coins s1 x = own_coins s x /\ own_deleg s1 x = own_deleg s x).
    { intros N. unfold own_coins, own_deleg, balance, s1. cbn. destruct (decide (c = ∅)).
      - by rewrite lookup_delete_ne.
      - by rewrite lookup_insert_ne. }
    clearbody s1. unfold bind at 1 in H. unfold try in H.
    assert (LO : st_log (fst (on_balance_changed a s1)) = st_log s1) by apply on_balance_changed_log.
    assert (BO : rel (same st_bal) (on_balance_changed a)) by frame. specialize (BO s1). unfold same in BO.
    destruct (on_balance_changed a s1) as [s2 [[]|e|e]] eqn:E2; cbn [fst] in *.
    - injection H as <- <-. split; [exists []; rewrite app_nil_r; congruence|]. intros _ HH.
      apply obc_says in E2 as [O1 O2]. assert (E0 : ref_get s1 x = ref_get s x) by (unfold ref_get; by rewrite R1).
      apply (says_bal s1); [done|]. destruct (decide (x = a)) as [Ea|N].
      + apply O2; [done|]. rewrite E0. apply HH.
      + eapply says_hk; [|by apply O1]. rewrite E0. destruct HH as (H1 & H2 & H3). destruct (B1 N) as [B2 B3]. split_and!; congruence.
    - cbn in H. injection H as <- <-. split; [exists [LHookFailed a]; cbn; congruence|]. rewrite aborts_app. unfold aborts at 1. rewrite LO, L1.
      fold (aborts s). cbn. lia.
    - injection H as <- <-. by destruct (HP e).
  Qed.

  Hint Extern 1 (ho _ _) => (apply ho_fields; [reflexivity|reflexivity|first [apply grows_log|apply grows_same; reflexivity]]) : frame.
  Hint Resolve ho_set_balance : frame.
  Lemma ho_subtract a c : nprel ho (subtract_coins a c).
  Proof. unfold subtract_coins. repeat first [progress mode_struct | apply ho_set_balance]. Qed.
  Lemma ho_add a c : nprel ho (add_coins a c).
  Proof. unfold add_coins. repeat first [progress mode_struct | apply ho_set_balance]. Qed.
  Ltac ho_step := repeat first [progress mode_struct | apply ho_subtract | apply ho_add | apply okrel_nprel, ho_add | frame].
  Lemma ho_send a b c : nprel ho (send_coins a b c).
  Proof. unfold send_coins. repeat first [progress mode_struct | apply ho_subtract | apply ho_add]. Qed.
  Lemma ho_io a c o : nprel ho (input_output_coins [(a, c)] o).
  Proof. unfold input_output_coins. repeat first [progress mode_struct | apply ho_subtract | apply ho_add]. Qed.
  Lemma ho_burn a c : nprel ho (burn_acc_coins a c).
  Proof. unfold burn_acc_coins, deflate. ho_step. Qed.
  Lemma ho_convert a d1 n1 d2 n2 : nprel ho (convert a d1 n1 d2 n2).
  Proof. unfold convert, new_coins, deflate, inflate. ho_step. Qed.
  Lemma ho_accrue a n : nprel ho (accrue a n).
  Proof. unfold accrue, new_coins, inflate, tx_fee. ho_step. Qed.
  Lemma ho_accrue_to_validator a n : nprel ho (accrue_to_validator a n).
  Proof. unfold accrue_to_validator, new_coins, inflate, fr. ho_step. Qed.
  Lemma ho_abort t f s s' e : hooks (t_hook t) = Some f -> f (t_data t) (t_time t) s = (s', e) ->
    ho s (s' <| st_log := st_log s' ++ [LTaskFailed t] |>).
  Proof.
    intros Hf H. assert (G : rel grows (f (t_data t) (t_time t))) by (eapply sw_hooks; [..|exact Hf]; auto 8 with frame).
    specialize (G s). rewrite H in G. cbn in G. split; [transitivity s'; [done|apply grows_log]|].
    rewrite aborts_app. cbn [List.filter is_abort List.length]. apply grows_aborts in G. lia.
  Qed.
  Ltac ho_op L := intros; apply nprel_rel; apply ho_kl; [frame|apply L].
  Lemma ho_must_set_active a v : nprel ho (must_set_active a v).
  Proof. apply nprel_rel, ho_kl; [frame|]. apply kl_must. intros s. apply kl_set_active. Qed.
  Lemma ho_append p c : nprel ho (append_child p c).
  Proof. apply nprel_rel, ho_kl; [frame|]. intros s. apply kl_append. Qed.
  Ltac ho_sweep := try apply _;
    lazymatch goal with
    | |- context [nprel _ (send_coins _ _ _)] => intros; apply ho_send
    | |- context [nprel _ (input_output_coins _ _)] => intros; apply ho_io
    | |- context [nprel _ (burn_acc_coins _ _)] => intros; apply ho_burn
    | |- context [nprel _ (convert _ _ _ _ _)] => intros; apply ho_convert
    | |- context [nprel _ (accrue _ _)] => intros; apply ho_accrue
    | |- context [nprel _ (accrue_to_validator _ _)] => intros; apply ho_accrue_to_validator
    | |- context [nprel _ (append_child _ _)] => intros; apply ho_append
    | |- context [nprel _ (must_set_active _ _)] => intros; apply ho_must_set_active
    | |- context [nprel _ (cancel_transition _)] => ho_op kl_cancel
    | |- context [nprel _ (affirm_transition _)] => ho_op kl_affirm
    | |- context [nprel _ (banish_core _)] => ho_op kl_banish
    | |- context [nprel _ (come_back _)] => ho_op kl_come_back
    | |- context [nprel _ (perform_downgrade _)] => ho_op kl_downgrade
    | |- context [nprel _ (perform_compression _)] => ho_op kl_compression
    | |- context [nprel _ (perform_transition_timeout _)] => ho_op kl_timeout
    | |- context [nprel _ (set_transition _ _)] => ho_op kl_set_transition
    | |- context [hooks] => intros; eauto using ho_abort
    | |- context [nprel] => intros; apply nprel_rel, ho_same; auto 8 with frame
    | |- context [rel] => intros; apply ho_same; auto 8 with frame
    | _ => intros; auto 2 with frame
    end.
  Lemma ho_blocks bs s s' us : run_blocks bs s = Some (s', us) -> ho s s'.
  Proof. apply sp_run_blocks; ho_sweep. Qed.
  Lemma ho_msg m : nprel ho (run_msg m).
  Proof. apply sp_run_msg; ho_sweep. Qed.
  Lemma ho_ante t : nprel ho (ante t).
  Proof. apply sp_ante; ho_sweep. Qed.
  Lemma ho_noding p v e : nprel ho (noding_begin p v e).
  Proof. apply sp_noding_begin; ho_sweep. Qed.
  Lemma ho_end : nprel ho end_block.
  Proof. apply sp_end_block; ho_sweep. Qed.
  Lemma ho_set_profile a p : nprel ho (set_profile a p).
  Proof. apply sp_set_profile; ho_sweep. Qed.
  Lemma ho_task t s : ho s (after_task hooks t s).
  Proof. rewrite <- bl_perform_one. apply sp_perform_one; ho_sweep. Qed.

  Lemma append_held p s s' : append_child p x s = (s', Ok tt) -> held s'.
  Proof.
    intros H. assert (RB : rel (same st_bal) (append_child p x)) by frame. specialize (RB s). rewrite H in RB. cbn in RB.
    unfold append_child, append_child_core in H.
    apply bind_ok in H as (u & s1 & E & H). apply ensure_ok in E as [-> _]. apply bind_ok in H as (ex & s1 & E & H). apply get_ok in E as [-> ->].
    apply bind_ok in H as (u2 & s1 & E & H). apply ensure_ok in E as [-> _]. apply bind_ok in H as (s0 & s1 & E & H). apply get_ok in E as [-> ->].
    unfold id in H. cbv zeta in H. apply bind_ok in H as ([b [an closed]] & s1 & E & H).
    apply update_hk in E as [ES1 E]; [|intros _; by eapply hk0_own; [|apply hk0_add_line; lia]].
    apply bind_ok in H as (u3 & s2 & E2 & H). apply ensure_ok in E2 as [-> _].
    apply bind_ok in H as (b3 & s3 & EW & H). apply walk_hk in EW as [ES3 EW].
    2:{ intros i a b0 r Hi _. split; [|done]. apply elem_of_seq in Hi. apply hk0_add_line. lia. }
    assert (ER : ref_get s' x = bu_get b3 x s).
    { rewrite (commit_get b3 s3 s') by (by rewrite H). apply bu_get_ext; [done|congruence]. }
    unfold held. apply (says_bal s); [exact RB|]. rewrite ER.
    eapply says_hk; [|rewrite <- (bu_get_ext b3 b3 s s1 x) by done; exact EW].
    rewrite (bu_get_ext b (bu_call EvStake p b) s s1 x) by done. eapply says_hk; [|exact E].
    rewrite (bu_get_insert bu_new (bu_set x _ bu_new) x _ s eq_refl x), N.eqb_refl. split_and!; done.
  Qed.
  Lemma create_held c p pr s s' : msg_create_account c x p pr s = (s', Ok tt) -> aborts s' = aborts s -> held s'.
  Proof.
    unfold msg_create_account, create_with_profile. intros H EA.
    apply bind_ok in H as (u & s1 & E & H). apply ensure_ok in E as [-> _]. apply bind_ok in H as (ex & s1 & E & H). apply get_ok in E as [-> ->].
    apply bind_ok in H as (u2 & s1 & E & H). apply ensure_ok in E as [-> _]. apply bind_ok in H as (pp & s1 & E & H). apply get_ok in E as [-> ->].
    apply bind_ok in H as (u3 & s1 & E1 & H). apply bind_ok in H as (n & s2 & E2 & H). apply bind_ok in H as ([] & s3 & E3 & H).
    assert (G1 : grows s s3).
    { transitivity s1; [|transitivity s2].
      - destruct (_ && _); [|apply ret_ok in E1 as [-> _]; reflexivity].
        apply bind_ok in E1 as (c1 & s4 & E1 & E4). unfold new_coins in E1. apply bind_ok in E1 as (u5 & s5 & E1 & E5).
        apply assert_ok in E1 as [-> _]. apply ret_ok in E5 as [-> _].
        assert (N : nprel ho (send_to_module c fee_collector c1)) by (apply sp_send_to_module; ho_sweep).
        eapply (N _ _ _ E4). discriminate.
      - assert (RS : rel grows (create_account x)) by frame. specialize (RS s1). by rewrite E2 in RS.
      - assert (RS : rel grows (append_child p x)) by frame. specialize (RS s2). by rewrite E3 in RS. }
    apply append_held in E3.
    assert (HO : ho s3 s').
    { apply bind_ok in H as (t & s4 & E & H). apply get_ok in E as [-> ->]. apply bind_ok in H as (u4 & s4 & E & H).
      assert (H1 : ho s3 s4).
      { assert (RS : rel ho (schedule_compression (st_now s3 + compression_period s3) x)) by (apply ho_same; frame). specialize (RS s3). by rewrite E in RS. }
      apply bind_ok in H as (mg & s5 & E' & H). apply get_ok in E' as [-> ->]. transitivity s4; [done|].
      eapply ho_set_profile; [exact H|discriminate]. }
    destruct HO as [G2 HO]. apply HO; [|done]. apply grows_aborts in G1, G2. lia.
  Qed.
  (** An account registered in the course of a history *)
  Lemma created_held bs s s' us c p pr s1 : times_from (st_now s) bs -> run_blocks bs s = Some (s', us) ->
    (SMsg (MCreateAccount c x p pr), s1) ∈ steps bs s -> aborts s' = aborts s -> held s'.
  Proof.
    intros HT HR HS EA. eapply (hs_split ho) in HS as (s2 & HD & [G1 _] & [G2 H2]); [..|exact HT|exact HR].
    - cbn in HD. assert (G : grows s1 s2).
      { assert (RS : rel grows (run_msg (MCreateAccount c x p pr))) by frame. specialize (RS s1). cbn [run_msg] in RS. by rewrite HD in RS. }
      apply grows_aborts in G, G1, G2. apply H2; [lia|]. eapply create_held; [exact HD|lia].
    - intros b s0 _. apply ho_fields; [done|done|by apply grows_same].
    - intros. apply okrel_nprel, ho_noding.
    - intros. apply ho_task.
    - intros. apply ho_fields; [done|done|by apply grows_same].
    - intros. apply okrel_nprel, ho_ante.
    - intros. apply okrel_nprel, ho_msg.
    - apply okrel_nprel, ho_end.
  Qed.
End account.
