(** * What the updater of x/referral does to the records *)
From Verif Require Export Blocks RefTheory.

(** Same record but for the status and its deadline *)
Definition eqs (r r' : rinfo) : Prop := exists st d, r' = r <| r_status := st |> <| r_downgrade_at := d |>.
Lemma eqs_refl r : eqs r r.
Proof. exists (r_status r), (r_downgrade_at r). by destruct r. Qed.

Definition ln (l : list Z) (k : nat) : Z := default 0 (l !! k).

(** Same record as far as the structure and the lines go *)
Record like (r r' : rinfo) : Prop := mkLike {
  lk_ref : r_referrer r' = r_referrer r;
  lk_refs : r_referrals r' = r_referrals r;
  lk_ban : r_banished r' = r_banished r;
  lk_act : r_active r' = r_active r;
  lk_arefs : r_arefs r' = r_arefs r;
  lk_comp : r_compression_at r' = r_compression_at r;
  lk_coins : forall k, ln (r_coins r') k = ln (r_coins r) k;
  lk_deleg : forall k, ln (r_deleg r') k = ln (r_deleg r) k;
  lk_cnt : forall k, ln (r_cnt r') k = ln (r_cnt r) k }.
Lemma like_refl r : like r r.
Proof. by split. Qed.
Lemma like_eq r r' : r' = r -> like r r'.
Proof. intros ->. apply like_refl. Qed.
Lemma like_trans r1 r2 r3 : like r1 r2 -> like r2 r3 -> like r1 r3.
Proof. intros [] []. split; intros; congruence. Qed.
Lemma like_sym r1 r2 : like r1 r2 -> like r2 r1.
Proof. intros []. split; intros; congruence. Qed.
Lemma eqs_like r r' : eqs r r' -> like r r'.
Proof. intros (st & d & ->). by split. Qed.

(** ** Lists of eleven entries *)
Lemma ln_pad l k : ln (pad l) k = ln l k.
Proof.
  unfold ln, pad. destruct (decide (k < List.length l)%nat).
  - by rewrite lookup_app_l.
  - rewrite lookup_app_r by lia. rewrite (lookup_ge_None_2 l) by lia. cbn.
    destruct (repeat 0 (11 - List.length l) !! (k - List.length l)%nat) as [z|] eqn:E; [|done].
    apply elem_of_list_lookup_2 in E. apply elem_of_list_In, repeat_spec in E. by subst.
Qed.
Lemma len_pad l : (11 <= List.length (pad l))%nat.
Proof. unfold pad. rewrite app_length, repeat_length. lia. Qed.
Lemma normalize_like r : like r (normalize r).
Proof. split; try done; intros k; apply ln_pad. Qed.
Lemma ln_add_at i d l k : (i < List.length l)%nat -> ln (add_at i d l) k = ln l k + if (k =? i)%nat then d else 0.
Proof.
  intros H. unfold ln, add_at. destruct (Nat.eqb_spec k i) as [->|Hk].
  - rewrite list_lookup_alter. destruct (lookup_lt_is_Some_2 l i H) as [z ->]. cbn. lia.
  - rewrite list_lookup_alter_ne by done. lia.
Qed.
Lemma ln_add_at_out i d l k : (List.length l <= i)%nat -> ln (add_at i d l) k = ln l k.
Proof.
  intros H. unfold ln, add_at. destruct (Nat.eq_dec k i) as [->|Hk].
  - rewrite list_lookup_alter. by rewrite (lookup_ge_None_2 l i).
  - by rewrite list_lookup_alter_ne.
Qed.
Lemma len_add_at i d l : List.length (add_at i d l) = List.length l.
Proof. apply alter_length. Qed.
Lemma ln_add_cnt i d l k : (i < List.length l)%nat ->
  ln (add_cnt i d l) k = if (k =? i)%nat then u64 (ln l k + d) else ln l k.
Proof.
  intros H. unfold ln, add_cnt. destruct (Nat.eqb_spec k i) as [->|Hk].
  - rewrite list_lookup_alter. by destruct (lookup_lt_is_Some_2 l i H) as [z ->].
  - by rewrite list_lookup_alter_ne.
Qed.
Lemma ln_add_cnt_cong i d l k : (i < List.length l)%nat ->
  cong (2 ^ 64) (ln (add_cnt i d l) k) (ln l k + if (k =? i)%nat then d else 0).
Proof.
  intros H. rewrite ln_add_cnt by done. destruct (k =? i)%nat; [apply cong_u64|apply cong_eq; lia].
Qed.
Lemma len_add_cnt i d l : List.length (add_cnt i d l) = List.length l.
Proof. apply alter_length. Qed.
Definition ranged (l : list Z) : Prop := forall k, 0 <= ln l k < 2 ^ 64.
Lemma ranged_add_cnt i d l : ranged l -> ranged (add_cnt i d l).
Proof.
  intros H k. unfold ln, add_cnt. destruct (Nat.eq_dec k i) as [->|Hk].
  - rewrite list_lookup_alter. destruct (l !! i); cbn; [|lia]. unfold u64. apply Z.mod_pos_bound. lia.
  - rewrite list_lookup_alter_ne by done. apply H.
Qed.
Lemma ranged_pad l : ranged l -> ranged (pad l).
Proof. intros H k. rewrite ln_pad. apply H. Qed.

(** ** One update *)
Lemma status_check_ok b a r s s' b' r' : status_check b a r s = (s', Ok (b', r')) ->
  eqs r r' /\ bu_data b' = bu_data b /\ st_ref s' = st_ref s.
Proof.
  intros H. assert (ES : st_ref s' = st_ref s).
  { pose proof (sw_status_check (same st_ref) ltac:(frame) ltac:(frame) b a r s) as HS. by rewrite H in HS. }
  split; [|split; [|done]].
  - unfold status_check in H.
    destruct (if r_status r =? 8 then _ else _) as [b1 r1] eqn:E1.
    assert (Q1 : eqs r r1). { destruct (r_status r =? 8); injection E1 as _ <-; [exists 9, (r_downgrade_at r); by destruct r|apply eqs_refl]. }
    clear E1. destruct Q1 as (st & d & ->).
    apply bind_ok in H as (u0 & s0 & _ & H).
    apply bind_ok in H as (s1 & s2 & _ & H). apply bind_ok in H as (ok & s3 & _ & H).
    destruct ok; cbn [negb] in H.
    + apply bind_ok in H as (nx & s4 & _ & H). destruct (_ <? nx); [apply bind_ok in H as (? & ? & _ & H)|]; apply ret_ok in H as [_ H]; injection H as -> ->; eexists _, _; by destruct r.
    + destruct (r_downgrade_at _).
      * apply ret_ok in H as [_ H]; injection H as -> ->; eexists _, _; by destruct r.
      * apply bind_ok in H as (u & s4 & _ & H). apply ret_ok in H as [_ H]; injection H as -> ->; eexists _, _; by destruct r.
  - unfold status_check in H.
    destruct (if r_status r =? 8 then _ else _) as [b1 r1] eqn:E1.
    assert (Q1 : bu_data b1 = bu_data b). { destruct (r_status r =? 8); injection E1 as <- _; done. }
    clear E1.
    apply bind_ok in H as (u0 & s0 & _ & H).
    apply bind_ok in H as (s1 & s2 & _ & H). apply bind_ok in H as (ok & s3 & _ & H).
    destruct ok; cbn [negb] in H.
    + apply bind_ok in H as (nx & s4 & _ & H). destruct (_ <? nx); [apply bind_ok in H as (? & ? & _ & H)|]; apply ret_ok in H as [_ H]; injection H as -> ->; done.
    + destruct (r_downgrade_at _).
      * apply ret_ok in H as [_ H]; injection H as -> ->; done.
      * apply bind_ok in H as (u & s4 & _ & H). apply ret_ok in H as [_ H]; injection H as -> ->; done.
Qed.

Lemma bu_updatem_ok {A} b a check (f : bu -> rinfo -> M (bu * rinfo * A)) s s' b' x :
  bu_updatem b a check f s = (s', Ok (b', x)) ->
  exists s1 b1 r1 r2, f b (normalize (bu_get b a s)) s = (s1, Ok (b1, r1, x)) /\
    eqs r1 r2 /\ (check = false -> r2 = r1) /\ bu_data b' = <[ a := r2 ]> (bu_data b1) /\ st_ref s' = st_ref s1 /\
    (check = true -> exists b2, status_check b1 a r1 s1 = (s', Ok (b2, r2))).
Proof.
  unfold bu_updatem. intros H. apply (proj1 (recovered_ok _ _ _ _)) in H.
  apply bind_ok in H as (r & s0 & E & H). apply get_ok in E as [-> ->].
  apply bind_ok in H as ([[b1 r1] x1] & s1 & E1 & H).
  apply bind_ok in H as ([b2 r2] & s2 & E2 & H). apply ret_ok in H as [-> H]. injection H as -> ->.
  exists s1, b1, r1, r2. split; [exact E1|]. destruct check.
  - pose proof (status_check_ok _ _ _ _ _ _ _ E2) as (Q1 & Q2 & Q3). split_and!; [done|done| |done|by exists b2].
    cbn. by rewrite Q2.
  - apply ret_ok in E2 as [-> E2]. injection E2 as -> ->. split_and!; [apply eqs_refl|done..].
Qed.
Lemma bu_update_ok {A} b a check (f : rinfo -> rinfo * A) s s' b' x :
  bu_update b a check f s = (s', Ok (b', x)) ->
  exists r2, x = snd (f (normalize (bu_get b a s))) /\ eqs (fst (f (normalize (bu_get b a s)))) r2 /\
    (check = false -> r2 = fst (f (normalize (bu_get b a s)))) /\
    bu_data b' = <[ a := r2 ]> (bu_data b) /\ st_ref s' = st_ref s.
Proof.
  unfold bu_update. intros H. apply bu_updatem_ok in H as (s1 & b1 & r1 & r2 & E1 & E2 & E3 & E4 & E5 & _).
  cbv beta in E1. destruct (f (normalize (bu_get b a s))) as [r x'] eqn:Ef.
  apply ret_ok in E1 as [-> E1]. injection E1 as -> -> ->. exists r2. by split_and!.
Qed.
Lemma bu_downgrade_ok a now s s' b' (x : unit) :
  bu_updatem bu_new a true (fun b r =>
      match r_downgrade_at r with
      | Some t => if now <? t then ret (b, r, tt) else
                  do! set_index a (r_status r) (prev_status (r_status r)) in
                  ret (b, r <| r_status := prev_status (r_status r) |> <| r_downgrade_at := None |>, tt)
      | None => ret (b, r, tt)
      end) s = (s', Ok (b', x)) ->
  exists r2, eqs (let r := normalize (ref_get s a) in match r_downgrade_at r with
      | Some t => if now <? t then r else r <| r_status := prev_status (r_status r) |> <| r_downgrade_at := None |>
      | None => r end) r2 /\
    bu_data b' = <[ a := r2 ]> (bu_data bu_new) /\ st_ref s' = st_ref s.
Proof.
  intros H. apply bu_updatem_ok in H as (s1 & b1 & r1 & r2 & E1 & E2 & E3 & E4 & E5 & _).
  unfold bu_get in E1. cbn [bu_data bu_new] in E1. rewrite lookup_empty in E1. set (r := normalize (ref_get s a)) in *. exists r2. cbv zeta.
  destruct (r_downgrade_at r) as [t|]; [destruct (now <? t)|].
  - apply ret_ok in E1 as [-> E1]. injection E1 as -> ->. done.
  - apply bind_ok in E1 as (? & s3 & EI & E1). apply modify_ok in EI. apply ret_ok in E1 as [-> E1]. injection E1 as -> ->. subst s3. done.
  - apply ret_ok in E1 as [-> E1]. injection E1 as -> ->. done.
Qed.
Lemma bu_note_ok b a (h : rinfo -> rinfo) s s' b' (x : unit) :
  bu_updatem b a false (fun b r => do! set_index a (r_status r) (r_status (h r)) in ret (b, h r, tt)) s = (s', Ok (b', x)) ->
  exists r2, r2 = h (normalize (bu_get b a s)) /\ bu_data b' = <[ a := r2 ]> (bu_data b) /\ st_ref s' = st_ref s.
Proof.
  intros H. apply bu_updatem_ok in H as (s1 & b1 & r1 & r2 & E1 & E2 & E3 & E4 & E5 & _).
  apply bind_ok in E1 as (? & s3 & EI & E1). apply modify_ok in EI. apply ret_ok in E1 as [-> E1]. injection E1 as -> ->. subst s3.
  exists r2. split_and!; [by apply E3|done|done].
Qed.

Lemma bu_get_insert b b' a r s : bu_data b' = <[ a := r ]> (bu_data b) ->
  forall y, bu_get b' y s = if (y =? a)%N then r else bu_get b y s.
Proof.
  intros E y. unfold bu_get. rewrite E. destruct (N.eqb_spec y a) as [->|Hy]; [by rewrite lookup_insert|].
  by rewrite lookup_insert_ne.
Qed.
Lemma bu_get_ext b b' s s' y : bu_data b' = bu_data b -> st_ref s' = st_ref s -> bu_get b' y s' = bu_get b y s.
Proof. unfold bu_get, ref_get. by intros -> ->. Qed.
Lemma bu_get_new s y : bu_get bu_new y s = ref_get s y.
Proof. unfold bu_get, bu_new. cbn. by rewrite lookup_empty. Qed.

(** ** The loop over the ancestors *)
Definition refg (g : addr -> rinfo) : addr -> addr := fun a => r_referrer (g a).
Definition refsg (g : addr -> rinfo) : addr -> list addr := fun a => r_referrals (g a).
Definition bang (g : addr -> rinfo) : addr -> bool := fun a => r_banished (g a).
Definition actg (g : addr -> rinfo) : addr -> bool := fun a => r_active (g a).

Lemma pos_later ref (rk : addr -> nat) lines a y :
  (forall x, ref x <> nobody -> (rk (ref x) < rk x)%nat) ->
  a <> nobody -> (rk a <= rk y)%nat -> pos ref lines (ref a) y = None \/ ref a = nobody.
Proof.
  intros Hrk Ha Hy. destruct (N.eq_dec (ref a) nobody) as [E|E]; [by right|left].
  pose proof (Hrk a E) as L. remember (ref a) as c eqn:Ec. clear Ec Ha E.
  assert (L2 : (rk c < rk y)%nat) by lia. clear L Hy. revert c L2.
  induction lines as [|i lines IH]; intros c L2; cbn; [done|].
  destruct (c =? nobody)%N; [done|]. destruct (N.eqb_spec y c) as [->|]; [lia|].
  destruct (N.eq_dec (ref c) nobody) as [E|E]; [rewrite E; by destruct lines|].
  apply IH. specialize (Hrk c E). lia.
Qed.

Lemma walk_ok check lines f h rk : forall b a s s' b',
  (forall i x b r, snd (f i x b r) = h i x r /\ bu_data (fst (f i x b r)) = bu_data b) ->
  (forall i x r, r_referrer (h i x r) = r_referrer r) ->
  (forall x, refg (fun y => bu_get b y s) x <> nobody -> (rk (refg (fun y => bu_get b y s) x) < rk x)%nat) ->
  walk check lines b a f s = (s', Ok b') ->
  st_ref s' = st_ref s /\
  forall y, match pos (refg (fun y => bu_get b y s)) lines a y with
            | Some i => eqs (h i y (normalize (bu_get b y s))) (bu_get b' y s')
            | None => bu_get b' y s' = bu_get b y s
            end.
Proof.
  induction lines as [|i lines IH]; intros b a s s' b' Hf Hr Hrk H; cbn [walk] in H.
  { apply ret_ok in H as [-> ->]. done. }
  destruct (N.eqb_spec a nobody) as [->|Ha].
  { apply ret_ok in H as [-> ->]. split; [done|]. intros y. cbn. done. }
  apply bind_ok in H as ([b1 up] & s1 & E1 & H).
  apply bu_updatem_ok in E1 as (s2 & b2 & r1 & r2 & E1 & Q & _ & ED & ES & _). cbv beta in E1.
  destruct (f i a b (normalize (bu_get b a s))) as [b3 r3] eqn:Ef.
  apply ret_ok in E1 as [-> E1]. injection E1 as -> -> ->.
  destruct (Hf i a b (normalize (bu_get b a s))) as [F1 F2]. rewrite Ef in F1, F2. cbn in F1, F2. subst r3.
  rewrite F2 in ED.
  assert (G1 : forall y, bu_get b1 y s1 = if (y =? a)%N then r2 else bu_get b y s).
  { intros y. rewrite <- (bu_get_insert b b1 a r2 s ED y). by apply bu_get_ext. }
  assert (R1 : forall y, refg (fun y => bu_get b1 y s1) y = refg (fun y => bu_get b y s) y).
  { intros y. unfold refg. rewrite G1. destruct (N.eqb_spec y a) as [->|]; [|done].
    destruct Q as (st & d & ->). cbn. rewrite Hr. done. }
  apply IH in H as [ES' H]; [|done|done|intros x; rewrite R1; apply Hrk].
  split; [congruence|]. intros y. cbn [pos]. rewrite (proj2 (N.eqb_neq a nobody) Ha).
  specialize (H y).
  rewrite (pos_ext (refg (fun y => bu_get b y s)) (refg (fun y => bu_get b1 y s1))) in H by (intros; apply R1).
  change (r_referrer (normalize (bu_get b a s))) with (refg (fun y => bu_get b y s) a) in H.
  specialize (G1 y). destruct (N.eqb_spec y a) as [E0|Hy]; [|by rewrite G1 in H]. subst y. rewrite G1 in H.
  destruct (pos_later (refg (fun y => bu_get b y s)) rk lines a a Hrk Ha ltac:(lia)) as [E|E].
  - unfold refg at 2 in E. rewrite E in H. by rewrite H.
  - unfold refg in E. rewrite E in H. assert (pos (refg (fun y => bu_get b y s)) lines nobody a = None) as E' by (destruct lines; done).
    rewrite E' in H. by rewrite H.
Qed.

(** ** The commit *)
Lemma commit_ref b s : st_ref (fst (bu_commit b s)) = bu_data b ∪ st_ref s.
Proof.
  unfold bu_commit, bind, modify.
  assert (R : rel (same st_ref) (mfor (cbs_sorted (bu_cbs b)) run_callback)) by (apply rel_mfor; [apply _|intros c; frame]).
  specialize (R (s <| st_ref := bu_data b ∪ st_ref s |>)). unfold same in R.
  destruct (mfor _ _ _) as [s1 [x|e|e]]; exact R.
Qed.
Lemma union_get b s s' y : st_ref s' = bu_data b ∪ st_ref s -> ref_get s' y = bu_get b y s.
Proof.
  intros E. unfold ref_get, bu_get. rewrite E, lookup_union. unfold ref_get.
  destruct (bu_data b !! y), (st_ref s !! y); done.
Qed.

(** An operation leaves the records alone, or commits what an updater has
    collected -- whatever its result. *)
Definition cm (s0 : St) (P : bu -> Prop) (m : M unit) (s : St) : Prop :=
  forall s' r, m s = (s', r) ->
    st_ref s' = st_ref s0 \/ exists b, P b /\ forall y, ref_get s' y = bu_get b y s0.
Lemma cm_bind {A} s0 P (m : M A) f s : st_ref s = st_ref s0 -> rel (same st_ref) m ->
  (forall a s1, m s = (s1, Ok a) -> st_ref s1 = st_ref s0 -> cm s0 P (f a) s1) -> cm s0 P (bind m f) s.
Proof.
  intros E R H s' r HB. unfold bind in HB. specialize (R s). unfold same in R. destruct (m s) as [s1 [a|e|e]] eqn:Em; cbn in R.
  - eapply H; [reflexivity|congruence|exact HB].
  - injection HB as <- <-. left. congruence.
  - injection HB as <- <-. left. congruence.
Qed.
Lemma cm_get {A} s0 P (h : St -> A) f s : cm s0 P (f (h s)) s -> cm s0 P (bind (get h) f) s.
Proof. intros H s' r HB. unfold bind, get in HB. by eapply H. Qed.
Lemma cm_ensure s0 P c e f s : st_ref s = st_ref s0 -> (c = true -> cm s0 P (f tt) s) -> cm s0 P (bind (ensure c e) f) s.
Proof.
  intros E H s' r HB. unfold bind, ensure, ret, fail in HB. destruct c; [by eapply H|]. injection HB as <- <-. by left.
Qed.
Lemma cm_commit s0 (P : bu -> Prop) b s : st_ref s = st_ref s0 -> P b -> cm s0 P (bu_commit b) s.
Proof.
  intros E HP s' r H. right. exists b. split; [done|]. intros y. pose proof (commit_ref b s) as C. rewrite H in C. cbn in C.
  rewrite E in C. by apply union_get.
Qed.
Lemma cm_ret s0 P s u : st_ref s = st_ref s0 -> cm s0 P (ret u) s.
Proof. intros E s' r H. injection H as <- <-. by left. Qed.
Lemma cm_fail s0 P s e : st_ref s = st_ref s0 -> cm s0 P (throw e) s.
Proof. intros E s' r H. injection H as <- <-. by left. Qed.
Lemma cm_must s0 P m s : cm s0 P m s -> cm s0 P (must m) s.
Proof. intros H s' r HB. unfold must in HB. specialize (H (fst (m s)) (snd (m s))). rewrite <- surjective_pairing in H.
  specialize (H eq_refl). destruct (m s) as [s1 [a|e|e]]; injection HB as <- <-; exact H. Qed.
Lemma cm_recovered s0 P m s : cm s0 P m s -> cm s0 P (recovered m) s.
Proof. intros H s' r HB. unfold recovered in HB. specialize (H (fst (m s)) (snd (m s))). rewrite <- surjective_pairing in H.
  specialize (H eq_refl). destruct (m s) as [s1 [a|e|e]]; injection HB as <- <-; exact H. Qed.

(** ** The nearest open ancestor *)
Lemma nearest_ok fuel b a s s' q : nearest_open fuel b a s = (s', Ok q) -> s' = s /\
  ((a = nobody /\ q = nobody) \/
   exists n, q = anc (refg (fun y => bu_get b y s)) n a /\ q <> nobody /\ registration_closed s (bu_get b q s) = false /\
     forall m, (m < n)%nat -> let x := anc (refg (fun y => bu_get b y s)) m a in
       x <> nobody /\ registration_closed s (bu_get b x s) = true).
Proof.
  revert a. induction fuel as [|n IH]; intros a H; cbn [nearest_open] in H.
  - destruct (N.eqb_spec a nobody) as [E0|]; [|discriminate]. apply ret_ok in H as [-> ->]. auto.
  - destruct (N.eqb_spec a nobody) as [E0|Ha]; [apply ret_ok in H as [-> ->]; auto|].
    apply bind_ok in H as (r & s1 & E & H). apply get_ok in E as [-> ->].
    apply bind_ok in H as (c & s1 & E & H). apply get_ok in E as [-> ->].
    destruct (registration_closed s (bu_get b a s)) eqn:EC.
    + apply IH in H as [-> [[H1 H2]|(m & H1 & H2 & H3 & H4)]].
      * unfold registration_closed in EC. rewrite H1 in EC. discriminate.
      * split; [done|]. right. exists (S m). rewrite anc_S. split_and!; [done..|].
        intros [|k] Hk; cbv zeta; [cbn; auto|]. rewrite anc_S. apply H4. lia.
    + apply ret_ok in H as [-> ->]. split; [done|]. right. exists 0%nat. cbn. split_and!; [done..|]. intros m Hm. lia.
Qed.
