(** * Proofs about the upgrade to 2.1.0 *)
From Verif Require Import Upgrade BankProofs ModeProofs RefProofs StatusProofs QualProofs LiveProofs ListHist UpgradeMore Spec_Upgrade210.

(** ** The schedule *)
Definition ahead (s : St) (a : addr) : bool := match r_compression_at (ref_get s a) with Some c => st_now s <? c | None => false end.
Definition found (s : St) (a : addr) : bool := match r_compression_at (ref_get s a) with Some c => compression_found s c a | None => false end.
Definition wrong (s : St) (a : addr) : bool :=
  let r := ref_get s a in
  r_active r || r_banished r || (ahead s a && found s a) ||
  (negb (bool_decide (r_deleg r = [])) && (bp_dust (st_bp s) <? default 0 (r_deleg r !! 0%nat))).
Definition stays (s : St) (x : task) : bool := negb (bool_decide (t_hook x = HBanish)) || negb (wrong s (t_data x)).
Definition core (r : rinfo) : rinfo := r <| r_compression_at := None |> <| r_banishment_at := None |>.
Definition of_ban (a : addr) (x : task) : Prop := t_hook x = HBanish /\ t_data x = a.

Lemma found_spec s c a : compression_found s c a = true <-> waiting s c HCompression a.
Proof.
  unfold compression_found, waiting, tasks_at. rewrite existsb_exists. split.
  - intros (x & Hx & H). apply andb_true_iff in H as [H1 H2]. apply bool_decide_eq_true in H1. apply N.eqb_eq in H2.
    exists x. by rewrite elem_of_list_In.
  - intros (x & Hx & H1 & H2). exists x. rewrite <- elem_of_list_In. split; [done|]. apply andb_true_iff.
    split; [by apply bool_decide_eq_true|by apply N.eqb_eq].
Qed.
Lemma wrong_spec s a : 0 <= bp_dust (st_bp s) -> wrong s a = false <-> condemned s a.
Proof.
  intros HD. unfold wrong, condemned, active, banished, stored_deleg. cbv zeta. rewrite !orb_false_iff.
  assert (D : negb (bool_decide (r_deleg (ref_get s a) = [])) && (bp_dust (st_bp s) <? default 0 (r_deleg (ref_get s a) !! 0%nat)) = false <->
    line (r_deleg (ref_get s a)) 0 <= bp_dust (st_bp s)).
  { unfold line. destruct (r_deleg (ref_get s a)) as [|d l]; [by cbn|]. rewrite bool_decide_false by done. cbn. by rewrite Z.ltb_ge. }
  assert (C : ahead s a && found s a = false <-> forall c, r_compression_at (ref_get s a) = Some c -> st_now s < c -> ~ waiting s c HCompression a).
  { unfold ahead, found. destruct (r_compression_at (ref_get s a)) as [c|]; [|by split].
    rewrite andb_false_iff, Z.ltb_ge. split.
    - intros [H|H] c' [= <-] L W; [lia|]. apply found_spec in W. congruence.
    - intros H. destruct (Z.le_gt_cases c (st_now s)) as [L|L]; [by left|right]. specialize (H c eq_refl L). rewrite <- found_spec in H. by destruct (compression_found s c a). }
  rewrite D, C. tauto.
Qed.

(** What the loop has done to the records after the tasks [T] *)
Definition records_fixed (s : St) (T : list task) (s1 : St) : Prop :=
  st_now s1 = st_now s /\ st_bp s1 = st_bp s /\
  (forall a, is_Some (st_ref s !! a) -> is_Some (st_ref s1 !! a)) /\
  forall a, core (ref_get s1 a) = core (ref_get s a) /\
    ((forall x, x ∈ T -> ~ of_ban a x) -> ref_get s1 a = ref_get s a) /\
    ((exists x, x ∈ T /\ of_ban a x) ->
       r_compression_at (ref_get s1 a) = (if ahead s a && negb (found s a) then None else r_compression_at (ref_get s a)) /\
       if wrong s a then r_banishment_at (ref_get s1 a) = None
       else exists x, x ∈ T /\ of_ban a x /\ r_banishment_at (ref_get s1 a) = Some (t_time x)).
#[local] Instance of_ban_dec a x : Decision (of_ban a x).
Proof. unfold of_ban. apply _. Defined.
Lemma of_ban_list a (T : list task) : (exists x, x ∈ T /\ of_ban a x) \/ (forall x, x ∈ T -> ~ of_ban a x).
Proof. destruct (decide (Exists (of_ban a) T)) as [H|H]; [left; by apply Exists_exists in H|right]. intros x Hx Hb. apply H. apply Exists_exists. eauto. Qed.
Lemma ref_get_insert s m a r y : st_ref s = <[ a := r ]> m -> ref_get s y = if (y =? a)%N then r else default r_zero (m !! y).
Proof. intros E. unfold ref_get. rewrite E. destruct (N.eqb_spec y a) as [->|N]; [by rewrite lookup_insert|by rewrite lookup_insert_ne]. Qed.

(** The record of one account after one task *)
Definition fix_rec (s : St) (x : task) (r1 : rinfo) : rinfo :=
  let a := t_data x in
  let r2 := r1 <| r_compression_at := if ahead s a && negb (found s a) then None else r_compression_at r1 |> in
  r2 <| r_banishment_at := if wrong s a then None else Some (t_time x) |>.

Lemma ban_task_ok s T x s1 s2 k : ban_task x s1 = (s2, Ok k) -> records_fixed s T s1 ->
  (forall c a, compression_found s1 c a = compression_found s c a) ->
  st_sched s2 = st_sched s1 /\ k = stays s x /\ records_fixed s (T ++ [x]) s2.
Proof.
  unfold ban_task. intros H (Hn & Hb & Hd & HR) HC. unfold stays.
  destruct (bool_decide (t_hook x = HBanish)) eqn:EH; cbn [negb orb] in H |- *; cycle 1.
  { apply ret_ok in H as [-> ->]. split; [done|]. split; [done|]. split; [done|]. split; [done|]. split; [done|]. intros a.
    assert (NB : ~ of_ban a x). { intros [E _]. apply bool_decide_eq_false in EH. done. }
    destruct (HR a) as (H1 & H2 & H3). split_and!; [done| |].
    - intros N. apply H2. intros y Hy. apply N. apply elem_of_app. by left.
    - intros (y & Hy & Hq). apply elem_of_app in Hy as [Hy|Hy]; [|apply elem_of_list_singleton in Hy as ->; done].
      destruct H3 as [H3 H4]; [eauto|]. split; [done|]. destruct (wrong s a); [done|]. destruct H4 as (z & Hz & Hz2). exists z. split; [|done]. apply elem_of_app. by left. }
  apply bool_decide_eq_true in EH. set (a := t_data x) in *. cbv zeta in H.
  apply bind_ok in H as (s0 & s3 & E & H). apply get_ok in E as [-> ->]. unfold id in H.
  apply bind_ok in H as (dd & s3 & E & H). apply get_ok in E as [-> ->].
  destruct (HR a) as (R1 & R2 & R3).
  (* what is seen of the record is what it was *)
  set (r1 := ref_get s1 a) in *.
  assert (F : r_active r1 = r_active (ref_get s a) /\ r_banished r1 = r_banished (ref_get s a) /\ r_deleg r1 = r_deleg (ref_get s a)).
  { pose proof (f_equal r_active R1) as X1. pose proof (f_equal r_banished R1) as X2. pose proof (f_equal r_deleg R1) as X3. done. }
  destruct F as (F1 & F2 & F3).
  assert (G : match r_compression_at r1 with Some c => st_now s1 <? c | None => false end && match r_compression_at r1 with Some c => compression_found s1 c a | None => false end
     = ahead s a && found s a /\
     (if match r_compression_at r1 with Some c => st_now s1 <? c | None => false end && negb (match r_compression_at r1 with Some c => compression_found s1 c a | None => false end) then None else r_compression_at r1) =
     (if ahead s a && negb (found s a) then None else r_compression_at (ref_get s a)) /\
     r_compression_at r1 = r_compression_at r1).
  { rewrite Hn. unfold ahead, found. destruct (of_ban_list a T) as [O|O].
    - destruct (R3 O) as [X _]. unfold ahead, found in X. rewrite X. clear X. destruct (r_compression_at (ref_get s a)) as [c|]; [|done].
      destruct (st_now s <? c) eqn:EA, (compression_found s c a) eqn:EF; cbn; rewrite ?EA, ?HC, ?EF; done.
    - rewrite (R2 O). destruct (r_compression_at (ref_get s a)) as [c|]; [|done]. by rewrite HC. }
  destruct G as (G1 & G2 & _). rewrite G1 in H.
  set (ah := match r_compression_at r1 with Some c => st_now s1 <? c | None => false end) in *.
  set (fo := match r_compression_at r1 with Some c => compression_found s1 c a | None => false end) in *.
  apply bind_ok in H as ([] & s3 & E & H).
  set (r2 := if ah && negb fo then r1 <| r_compression_at := None |> else r1) in *.
  assert (E3 : (st_sched s3, st_now s3, st_bp s3) = (st_sched s1, st_now s1, st_bp s1) /\ ((ah && negb fo = true /\ st_ref s3 = <[ a := r2 ]> (st_ref s1)) \/ (ah && negb fo = false /\ st_ref s3 = st_ref s1))).
  { unfold when, ref_put in E. destruct (ah && negb fo); [apply modify_ok in E as ->; split; [done|by left]|]. apply ret_ok in E as [-> _]. split; [done|by right]. }
  clear E. destruct E3 as [E3 E4]. injection E3 as S3 N3 B3.
  apply bind_ok in H as (d & s4 & E & H).
  assert (D : s4 = s3 /\ (r_active (ref_get s a) || r_banished (ref_get s a) || (ahead s a && found s a) = false ->
     d = default 0 (r_deleg (ref_get s a) !! 0%nat))).
  { assert (F4 : r_deleg r2 = r_deleg (ref_get s a) /\ r_active r2 = r_active (ref_get s a) /\ r_banished r2 = r_banished (ref_get s a)) by (unfold r2; by destruct (ah && negb fo)).
    destruct F4 as (F4 & F5 & F6). rewrite ?F4, ?F5, ?F6 in E.
    destruct (r_deleg (ref_get s a)) as [|d0 l]; [apply ret_ok in E as [-> ->]; done|].
    destruct (_ || _ || _) in E |- *; [apply ret_ok in E as [-> ->]; done|]. apply lift_ok in E as [-> E]. split; [done|]. intros _. cbn.
    unfold Frac.to_int64 in E. destruct (Frac.is_int64 _) in E; [by injection E as <-|done]. }
  destruct D as [-> D]. clear E.
  assert (F4 : r_deleg r2 = r_deleg (ref_get s a) /\ r_active r2 = r_active (ref_get s a) /\ r_banished r2 = r_banished (ref_get s a) /\ r_banishment_at r2 = r_banishment_at r1 /\
     r_compression_at r2 = (if ahead s a && negb (found s a) then None else r_compression_at (ref_get s a)) /\ core r2 = core (ref_get s a)).
  { rewrite <- G2, <- R1. unfold r2. by destruct (ah && negb fo). }
  destruct F4 as (F4 & F5 & F6 & F7 & F8 & F9). rewrite ?F4, ?F5, ?F6, ?F7 in H.
  assert (WE : r_active (ref_get s a) || r_banished (ref_get s a) || (ahead s a && found s a) || (negb (bool_decide (r_deleg (ref_get s a) = [])) && (bp_dust (st_bp s1) <? d)) = wrong s a).
  { unfold wrong. cbv zeta. rewrite Hb. destruct (_ || _ || _) in D |- *; [done|]. by rewrite D. }
  rewrite WE in H.
  (* the record in the end *)
  assert (K : st_sched s2 = st_sched s1 /\ st_now s2 = st_now s1 /\ st_bp s2 = st_bp s1 /\ k = negb (wrong s a) /\
     (forall y, is_Some (st_ref s1 !! y) -> is_Some (st_ref s2 !! y)) /\
     (forall y, y <> a -> ref_get s2 y = ref_get s1 y) /\
     core (ref_get s2 a) = core (ref_get s a) /\ r_compression_at (ref_get s2 a) = r_compression_at r2 /\
     r_banishment_at (ref_get s2 a) = if wrong s a then None else Some (t_time x)).
  { assert (G3 : (forall y, is_Some (st_ref s1 !! y) -> is_Some (st_ref s3 !! y)) /\ (forall y, y <> a -> ref_get s3 y = ref_get s1 y) /\ ref_get s3 a = r2).
    { destruct E4 as [[E4 E5]|[E4 E5]].
      - split_and!.
        + intros y [r Hr]. rewrite E5. destruct (decide (y = a)) as [->|Ny]; [rewrite lookup_insert|rewrite lookup_insert_ne by done]; eauto.
        + intros y Ny. rewrite (ref_get_insert _ _ _ _ _ E5), (proj2 (N.eqb_neq _ _) Ny). done.
        + rewrite (ref_get_insert _ _ _ _ _ E5), N.eqb_refl. done.
      - split_and!; [by rewrite E5|intros y _; unfold ref_get; by rewrite E5|]. unfold r2. rewrite E4. unfold ref_get, r1. by rewrite E5. }
    destruct G3 as (G3 & G4 & G5).
    assert (PUT : forall r s5 s6, ref_put a r s5 = (s6, Ok tt) -> (st_sched s6, st_now s6, st_bp s6) = (st_sched s5, st_now s5, st_bp s5) /\
      (forall y, is_Some (st_ref s5 !! y) -> is_Some (st_ref s6 !! y)) /\ (forall y, y <> a -> ref_get s6 y = ref_get s5 y) /\ ref_get s6 a = r).
    { intros r s5 s6 HP. unfold ref_put in HP. apply modify_ok in HP as ->. split; [done|]. split_and!.
      - intros y [q Hq]. cbn. destruct (decide (y = a)) as [->|Ny]; [rewrite lookup_insert|rewrite lookup_insert_ne by done]; eauto.
      - intros y Ny. unfold ref_get. cbn. by rewrite lookup_insert_ne.
      - unfold ref_get. cbn. by rewrite lookup_insert. }
    destruct (wrong s a) eqn:EW.
    - apply bind_ok in H as ([] & s5 & E & H). apply ret_ok in H as [-> ->]. unfold when in E.
      destruct (r_banishment_at r1) eqn:EB.
      + apply PUT in E as (P1 & P2 & P3 & P4). injection P1 as -> -> ->. rewrite P4. split_and!; try done; [by auto|intros y Ny; rewrite P3 by done; by apply G4].
      + apply ret_ok in E as [-> _]. rewrite G5. split_and!; try done.
    - apply bind_ok in H as ([] & s5 & E & H). apply ret_ok in H as [-> ->].
      apply PUT in E as (P1 & P2 & P3 & P4). injection P1 as -> -> ->. rewrite P4. split_and!; try done; [by auto|intros y Ny; rewrite P3 by done; by apply G4]. }
  clear H E4. destruct K as (K1 & K2 & K3 & K4 & K5 & K6 & K7 & K8 & K9).
  split; [done|]. split; [done|]. split; [congruence|]. split; [congruence|]. split; [by auto|]. intros y.
  destruct (decide (y = a)) as [->|Ny].
  - split; [done|]. split.
    + intros N. exfalso. apply (N x); [apply elem_of_app; right; by left|by split].
    + intros _. split; [by rewrite K8|]. rewrite K9. destruct (wrong s a); [done|]. exists x. split; [apply elem_of_app; right; by left|]. by split.
  - assert (NB : ~ of_ban y x) by (intros [_ E]; by apply Ny).
    rewrite (K6 y Ny). destruct (HR y) as (Y1 & Y2 & Y3). split; [done|]. split.
    + intros N. apply Y2. intros z Hz. apply N. apply elem_of_app. by left.
    + intros (z & Hz & Hq). apply elem_of_app in Hz as [Hz|Hz]; [|apply elem_of_list_singleton in Hz as ->; done].
      destruct Y3 as [Y3 Y4]; [eauto|]. split; [done|]. destruct (wrong s y); [done|]. destruct Y4 as (u & Hu & Hu2). exists u. split; [|done]. apply elem_of_app. by left.
Qed.

(** What the loop has done to the schedule after the instants [ks] *)
Definition sched_fixed (s : St) (ks : list time) (s1 : St) : Prop :=
  forall t, (t ∈ ks -> tasks_at s1 t = List.filter (stays s) (tasks_at s t)) /\ (t ∉ ks -> tasks_at s1 t = tasks_at s t).
Lemma sched_found s ks s1 c a : sched_fixed s ks s1 -> compression_found s1 c a = compression_found s c a.
Proof.
  intros H. destruct (H c) as [H1 H2].
  assert (E : waiting s1 c HCompression a <-> waiting s c HCompression a).
  { unfold waiting. destruct (decide (c ∈ ks)) as [K|K]; [rewrite (H1 K)|by rewrite (H2 K)]. split; intros (x & Hx & Hh & Ha); exists x; (split; [|done]).
    - apply elem_of_list_In in Hx. apply List.filter_In in Hx as [Hx _]. by apply elem_of_list_In.
    - apply elem_of_list_In. apply List.filter_In. split; [by apply elem_of_list_In|]. unfold stays. rewrite Hh. done. }
  rewrite <- !found_spec in E. destruct (compression_found s1 c a), (compression_found s c a); try done; [symmetry|]; by apply E.
Qed.
Lemma filter_short {A} (f : A -> bool) l : (List.length (List.filter f l) <= List.length l)%nat.
Proof. induction l as [|x l IH]; [done|]. cbn. destruct (f x); cbn; lia. Qed.
Lemma filter_full {A} (f : A -> bool) l : List.length (List.filter f l) = List.length l -> List.filter f l = l.
Proof.
  induction l as [|x l IH]; [done|]. cbn. pose proof (filter_short f l) as L. destruct (f x); cbn; intros E; [f_equal; apply IH; lia|lia].
Qed.
Definition done_tasks (s : St) (ks : list time) : list task := flat_map (tasks_at s) ks.
Lemma ban_instant_ok s ks t s1 s2 : ban_instant (t, tasks_at s t) s1 = (s2, Ok tt) -> t ∉ ks ->
  records_fixed s (done_tasks s ks) s1 -> sched_fixed s ks s1 ->
  records_fixed s (done_tasks s (ks ++ [t])) s2 /\ sched_fixed s (ks ++ [t]) s2.
Proof.
  unfold ban_instant. cbn [fst snd]. intros H NT HR HS. apply bind_ok in H as (keep & s3 & E & H).
  assert (J : (keep = List.filter (stays s) (tasks_at s t) /\ st_sched s3 = st_sched s1) /\ records_fixed s (done_tasks s ks ++ tasks_at s t) s3).
  { refine (mfold_inv (fun l keep s4 => (keep = List.filter (stays s) l /\ st_sched s4 = st_sched s1) /\ records_fixed s (done_tasks s ks ++ l) s4) _ _ [] s1 s3 keep _ _ E).
    - intros pre x post k0 s4 s5 k1 El [[-> J1] J2] Hf. apply bind_ok in Hf as (b & s6 & Hf & Hr). apply ret_ok in Hr as [-> ->].
      apply (ban_task_ok s (done_tasks s ks ++ pre)) in Hf as (X1 & -> & X3); [|done|].
      + rewrite List.filter_app. cbn. split; [split; [by destruct (stays s x)|congruence]|]. by rewrite app_assoc.
      + intros c a. rewrite <- (sched_found s ks s1 c a HS). unfold compression_found. by rewrite J1.
    - split; [done|]. by rewrite app_nil_r. }
  destruct J as [[-> J1] J2]. clear E.
  assert (K : st_now s2 = st_now s3 /\ st_bp s2 = st_bp s3 /\ st_ref s2 = st_ref s3 /\ forall u, tasks_at s2 u = if u =? t then List.filter (stays s) (tasks_at s t) else tasks_at s1 u).
  { unfold when in H. destruct (_ =? _)%nat eqn:EL in H; cbn [negb] in H.
    - apply ret_ok in H as [-> _]. split_and!; try done. intros u. unfold tasks_at at 1. rewrite J1. destruct (Z.eqb_spec u t) as [->|Nu]; [|done].
      apply Nat.eqb_eq, filter_full in EL. rewrite EL. by apply HS.
    - apply modify_ok in H as ->. split_and!; try done. intros u. unfold tasks_at at 1. cbn. destruct (List.filter (stays s) (tasks_at s t)) as [|x l] eqn:EF.
      + destruct (Z.eqb_spec u t) as [->|Nu]; [by rewrite lookup_delete|]. rewrite lookup_delete_ne by done. by rewrite J1.
      + destruct (Z.eqb_spec u t) as [->|Nu]; [by rewrite lookup_insert|]. rewrite lookup_insert_ne by done. by rewrite J1. }
  destruct K as (K1 & K2 & K3 & K4). split.
  - unfold done_tasks at 1. rewrite flat_map_app. cbn. rewrite app_nil_r. destruct J2 as (X1 & X2 & X3 & X4).
    split; [congruence|]. split; [congruence|]. split; [by rewrite K3|]. intros a.
    assert (EG : ref_get s2 a = ref_get s3 a) by (unfold ref_get; by rewrite K3). rewrite EG. apply X4.
  - intros u. rewrite K4. destruct (Z.eqb_spec u t) as [->|Nu].
    + split; [done|]. intros Hu. exfalso. apply Hu. apply elem_of_app. right. by left.
    + destruct (HS u) as [U1 U2]. split.
      * intros Hu. apply elem_of_app in Hu as [Hu|Hu]; [by apply U1|]. apply elem_of_list_singleton in Hu. done.
      * intros Hu. apply U2. intros X. apply Hu. apply elem_of_app. by left.
Qed.
Lemma ban_loop_ok s s1 : mfor (map (fun t => (t, default [] (st_sched s !! t))) (keysZ (st_sched s))) ban_instant s = (s1, Ok tt) ->
  records_fixed s (done_tasks s (keysZ (st_sched s))) s1 /\ forall t, tasks_at s1 t = List.filter (stays s) (tasks_at s t).
Proof.
  intros H. set (l := map _ _) in H.
  assert (J : records_fixed s (done_tasks s (map fst l)) s1 /\ sched_fixed s (map fst l) s1).
  { refine (mfor_pre (fun pre s2 => records_fixed s (done_tasks s (map fst pre)) s2 /\ sched_fixed s (map fst pre) s2) _ l s s1 _ _ H).
    - intros pre [t ts] post s2 s3 El [J1 J2] Hf. rewrite map_app. cbn [map fst].
      assert (Hin : (t, ts) ∈ l) by (rewrite El; apply elem_of_app; right; by left).
      unfold l in Hin. apply elem_of_list_fmap in Hin as (t' & Hin & _). injection Hin as <- ->.
      apply (ban_instant_ok s _ t s2 s3); try done.
      assert (N : NoDup (map fst l)). { unfold l. rewrite map_map. cbn. rewrite map_id. apply NoDup_keysZ. }
      rewrite El, map_app in N. apply NoDup_app in N as (_ & N & _). intros X. apply (N t X). by left.
    - split.
      + split; [done|]. split; [done|]. split; [done|]. intros a. split; [done|]. split; [done|]. intros (x & Hx & _). by apply elem_of_nil in Hx.
      + intros t. split; [intros X; by apply elem_of_nil in X|done]. }
  assert (El : map fst l = keysZ (st_sched s)) by (unfold l; rewrite map_map; cbn; apply map_id). rewrite El in J. destruct J as [J1 J2]. split; [done|].
  intros t. destruct (decide (t ∈ keysZ (st_sched s))) as [K|K]; [by apply J2|]. rewrite (proj2 (J2 t) K).
  assert (E : tasks_at s t = []). { unfold tasks_at. destruct (st_sched s !! t) eqn:E; [|done]. exfalso. apply K. apply elem_of_keysZ. eauto. }
  by rewrite E.
Qed.
Lemma done_spec s x : x ∈ done_tasks s (keysZ (st_sched s)) <-> exists t, x ∈ tasks_at s t.
Proof.
  unfold done_tasks. rewrite elem_of_list_In, in_flat_map. split.
  - intros (t & _ & H). exists t. by apply elem_of_list_In.
  - intros (t & H). exists t. split; [|by apply elem_of_list_In]. apply elem_of_list_In, elem_of_keysZ. unfold tasks_at in H.
    destruct (st_sched s !! t); [eauto|]. by apply elem_of_nil in H.
Qed.

(** ** Those banished though active come back *)
Definition fields (r : rinfo) := (r_banished r, r_banishment_at r, r_compression_at r).
Definition marks (r : rinfo) := (r_active r, fields r).
Lemma marks_eqs r r' : eqs r r' -> marks r' = marks r.
Proof. intros (st & d & ->). done. Qed.
Definition back (a : addr) (s : St) (b : bu) : Prop :=
  (forall y, y <> a -> marks (bu_get b y s) = marks (ref_get s y)) /\
  r_active (bu_get b a s) = r_active (ref_get s a) /\ fields (bu_get b a s) = (false, None, None).
Ltac same_ref := repeat first [ frame | progress rel_struct | apply sw_bu_updatem; [apply _|frame|frame|intros ? ?] | apply sw_walk; [apply _|frame|frame] ].
Lemma come_back_cm a s : cm s (back a s) (come_back a) s.
Proof.
  unfold come_back. apply cm_bind; [done|same_ref|]. intros [b [[p c] d]] s1 E ES1.
  apply bu_updatem_ok in E as (s2 & b1 & r1 & r2 & E & _ & E2 & ED & ES & _).
  rewrite (E2 eq_refl) in ED. clear E2. rewrite bu_get_new in E.
  apply bind_ok in E as (f & s3 & X & E). apply get_ok in X as [-> ->].
  apply bind_ok in E as (p0 & s3 & X & E). apply nearest_ok in X as [-> _].
  apply ret_ok in E as [-> E]. injection E as -> -> -> -> ->.
  assert (B0 : back a s b).
  { split_and!.
    - intros y Ny. rewrite (bu_get_insert _ _ _ _ s ED), (proj2 (N.eqb_neq _ _) Ny). by rewrite bu_get_new.
    - rewrite (bu_get_insert _ _ _ _ s ED), N.eqb_refl. done.
    - rewrite (bu_get_insert _ _ _ _ s ED), N.eqb_refl. done. }
  assert (BT : forall b2, (forall y, marks (bu_get b2 y s) = marks (bu_get b y s)) -> back a s b2).
  { intros b2 Q. destruct B0 as (Q1 & Q2 & Q3). pose proof (Q a) as Qa. unfold marks in Qa. injection Qa as Qa Qb Qc Qd. split_and!; [intros y Ny; rewrite Q; by apply Q1|congruence|]. unfold fields in *. congruence. }
  apply cm_bind; [done|same_ref|]. intros b3 s3 EW ES3. apply cm_commit; [done|].
  destruct (_ =? nobody)%N; [by apply ret_ok in EW as [-> ->]|]. apply bind_ok in EW as ([b2 u] & s2 & EM & EW).
  apply bu_update_ok in EM as (r3 & _ & Q & _ & ED2 & ES2). cbn [fst snd] in Q.
  assert (B2 : forall y, marks (bu_get b2 y s) = marks (bu_get b y s)).
  { intros y. rewrite (bu_get_insert _ _ _ _ s ED2). destruct (N.eqb_spec y p0) as [->|]; [|done]. rewrite (marks_eqs _ _ Q). rewrite (bu_get_ext b b s s1) by done. done. }
  destruct (_ || _); [apply ret_ok in EW as [-> ->]; by apply BT|].
  apply (walk_proj marks) in EW as [W1 W2]; [|apply marks_eqs|done|done]. apply BT. intros y.
  rewrite <- B2. rewrite <- (bu_get_ext b3 b3 s s3) by done. rewrite W2. apply f_equal, bu_get_ext; [done|]. congruence.
Qed.
Lemma come_back_sched a : rel tasks_kept (come_back a) /\ rel no_new_ban (come_back a).
Proof.
  assert (F1 : forall x, rel (same st_sched) (on_status_update x)) by (intros; frame).
  assert (F2 : forall x, rel (same st_sched) (on_stake_changed x)) by (intros; frame).
  split.
  - apply sw_come_back; try apply _; intros; try (by apply kept_same).
    + by apply schedule_kept.
    + intros s. apply kept_same. apply F1.
    + intros s. apply kept_same. apply F2.
  - apply sw_come_back; try apply _; intros; try (by apply ban_same).
    + by apply ban_schedule.
    + intros s. apply ban_same. apply F1.
    + intros s. apply ban_same. apply F2.
Qed.
Definition returns (s0 s s2 : St) (l : list addr) : Prop :=
  returning s0 s2 /\
  tasks_kept s s2 /\ no_new_ban s s2 /\
  (forall y, is_Some (st_ref s !! y) -> is_Some (st_ref s2 !! y)) /\
  forall y, r_active (ref_get s2 y) = r_active (ref_get s y) /\
    (~ (y ∈ l /\ unfair s y) -> fields (ref_get s2 y) = fields (ref_get s y)) /\
    (y ∈ l -> unfair s y -> fields (ref_get s2 y) = (false, None, None) \/ (fields (ref_get s2 y) = fields (ref_get s y) /\ kept_out s0 y)).
#[local] Instance unfair_dec s a : Decision (unfair s a).
Proof. unfold unfair. apply _. Defined.
Lemma return_loop s0 s s' : returning s0 s -> (forall a, unfair s a <-> unfair s0 a) ->
  mfor (map (fun a => (a, ref_get s a)) (keysN (st_ref s))) (fun '(a, r) => if r_banished r && r_active r then do! try (come_back a) in ret tt else ret tt) s = (s', Ok tt) ->
  returns s0 s s' (keysN (st_ref s)).
Proof.
  intros RT0 UE H. set (l := map _ _) in H.
  assert (El : map fst l = keysN (st_ref s)) by (unfold l; rewrite map_map; cbn; apply map_id). rewrite <- El.
  refine (mfor_pre (fun pre s2 => returns s0 s s2 (map fst pre)) _ l s s' _ _ H); cycle 1.
  { split; [done|]. split; [by intros t x|]. split; [by intros t x|]. split; [done|]. intros y. split; [done|]. split; [done|]. intros X. by apply elem_of_nil in X. }
  intros pre [a r] post s1 s2 E (JR & J1 & J2 & J3 & J4) Hf. rewrite map_app. cbn [map fst].
  assert (Na : a ∉ map fst pre).
  { assert (N : NoDup (map fst l)) by (rewrite El; apply NoDup_keysN). rewrite E, map_app in N. apply NoDup_app in N as (_ & N & _). intros X. apply (N a X). by left. }
  assert (Hin : (a, r) ∈ l) by (rewrite E; apply elem_of_app; right; by left).
  unfold l in Hin. apply elem_of_list_fmap in Hin as (a' & Hin & _). injection Hin as <- ->.
  assert (U : r_banished (ref_get s a) && r_active (ref_get s a) = true <-> unfair s a) by (unfold unfair; by rewrite andb_true_iff).
  destruct (r_banished (ref_get s a) && r_active (ref_get s a)) eqn:EU.
  - assert (UA : unfair s a) by by apply U. apply bind_ok in Hf as (out & s3 & Hf & HR). apply ret_ok in HR as [-> _]. apply try_ok in Hf.
    assert (HF : exists res, come_back a s1 = (s3, res) /\ (res = Ok tt \/ exists e, res = Err e)).
    { destruct out as [[]|e]; eexists; (split; [exact Hf|]); eauto. }
    clear Hf. destruct HF as (res & HF & HRes).
    pose proof (come_back_sched a) as [S1 S2]. specialize (S1 s1). specialize (S2 s1). rewrite HF in S1, S2. cbn [fst] in S1, S2.
    assert (G : rel grow (come_back a)) by apply grow_come_back. specialize (G s1). rewrite HF in G. cbn [fst] in G.
    assert (M : (forall y, y <> a -> marks (ref_get s3 y) = marks (ref_get s1 y)) /\ r_active (ref_get s3 a) = r_active (ref_get s1 a) /\
      (fields (ref_get s3 a) = (false, None, None) \/ (fields (ref_get s3 a) = fields (ref_get s1 a) /\ kept_out s0 a))).
    { destruct (come_back_cm a s1 _ _ HF) as [C|(b & (B1 & B2 & B3) & C)].
      - assert (EG : forall y, ref_get s3 y = ref_get s1 y) by (intros y; unfold ref_get; by rewrite C).
        split; [intros y _; by rewrite EG|]. rewrite !EG. split; [done|]. destruct HRes as [->|[e ->]].
        + exfalso. apply come_back_ok in HF as [HF _]. unfold banished in HF. rewrite EG in HF.
          assert (X : fields (ref_get s1 a) = fields (ref_get s a)) by (apply (J4 a); by intros [X _]).
          destruct UA as [UB _]. unfold banished in UB. unfold fields in X. congruence.
        + right. split; [done|]. by exists s1, s3, e.
      - rewrite C. split; [intros y Ny; rewrite C; by apply B1|]. split; [done|]. by left. }
    destruct M as (M1 & M2 & M3). split.
    { replace s3 with (fst (come_back a s1)) by (by rewrite HF). apply returning_next; [done|by apply UE]. }
    clear HF HRes. split; [by transitivity s1|]. split; [by transitivity s1|]. split; [by auto|].
    intros y. destruct (J4 y) as (Y1 & Y2 & Y3). destruct (decide (y = a)) as [->|Ny].
    + split; [congruence|]. split; [intros X; exfalso; apply X; split; [apply elem_of_app; right; by left|done]|].
      intros _ _. destruct M3 as [M3|[M3 M4]]; [by left|]. right. split; [|done]. rewrite M3. apply Y2. by intros [X _].
    + pose proof (M1 y Ny) as My. unfold marks in My. injection My as My1 My2.
      assert (MF : fields (ref_get s3 y) = fields (ref_get s1 y)) by (unfold fields; congruence).
      split; [congruence|]. rewrite MF. split.
      * intros X. apply Y2. intros [X1 X2]. apply X. split; [apply elem_of_app; by left|done].
      * intros Hy. apply elem_of_app in Hy as [Hy|Hy]; [by apply Y3|]. by apply elem_of_list_singleton in Hy.
  - apply ret_ok in Hf as [-> _]. split; [done|]. split; [done|]. split; [done|]. split; [done|].
    intros y. destruct (J4 y) as (Y1 & Y2 & Y3). split; [done|]. split.
    + intros X. apply Y2. intros [X1 X2]. apply X. split; [apply elem_of_app; by left|done].
    + intros Hy Hu. apply elem_of_app in Hy as [Hy|Hy]; [by apply Y3|]. apply elem_of_list_singleton in Hy as ->. apply U in Hu. done.
Qed.

(** ** The upgrade *)
Definition rest (s : St) : St := s <| st_sched := ∅ |> <| st_ref := ∅ |>.
Lemma rest_task x : rel (same rest) (ban_task x).
Proof.
  unfold ban_task, ref_put, when. rel_auto; try (by apply rel_modify; intros s). all: destruct (r_deleg _); rel_auto.
Qed.
Lemma rest_instant e : rel (same rest) (ban_instant e).
Proof.
  unfold ban_instant, when. apply rel_bind; [apply _| |].
  - apply rel_mfold; [apply _|]. intros b x. apply rel_bind; [apply _|apply rest_task|]. intros; rel_auto.
  - intros k. rel_auto. apply rel_modify. by intros s.
Qed.
Lemma ban_fix_ok s s' : schedule_banishment_fix s = (s', Ok tt) -> 0 <= bp_dust (st_bp s) ->
  (forall t x, x ∈ tasks_at s t -> t_hook x <> HBanish -> x ∈ tasks_at s' t) /\
  (forall t a, waiting s' t HBanish a <-> waiting s t HBanish a /\ condemned s a) /\
  (forall a, (exists t, waiting s t HBanish a) -> condemned s a -> exists t x, x ∈ tasks_at s t /\ x ∈ tasks_at s' t /\ of_ban a x /\ r_banishment_at (ref_get s' a) = Some (t_time x)) /\
  (forall a, (exists t, waiting s t HBanish a) -> ~ condemned s a -> r_banishment_at (ref_get s' a) = None) /\
  (forall a c, (exists t, waiting s t HBanish a) -> r_compression_at (ref_get s' a) = Some c -> st_now s < c -> waiting s' c HCompression a) /\
  (forall a, is_Some (st_ref s !! a) -> is_Some (st_ref s' !! a)) /\
  (forall a, active s' a = active s a) /\
  (forall a, ~ unfair s a -> banished s' a = banished s a) /\
  (forall a, unfair s a -> banished s' a = false \/ (banished s' a = true /\ kept_out s a)) /\
  (forall a, (forall t, ~ waiting s t HBanish a) -> ~ unfair s a -> r_banishment_at (ref_get s' a) = r_banishment_at (ref_get s a) /\ r_compression_at (ref_get s' a) = r_compression_at (ref_get s a)).
Proof.
  unfold schedule_banishment_fix. intros H HD. apply bind_ok in H as (l & s0 & E & H). apply get_ok in E as [-> ->].
  apply bind_ok in H as ([] & s1 & H1 & H). apply bind_ok in H as (rs & s2 & E & H). apply get_ok in E as [-> ->].
  assert (RE : rest s1 = rest s).
  { match type of H1 with mfor ?l _ _ = _ => assert (F : rel (same rest) (mfor l ban_instant)) by (apply rel_mfor; [apply _|]; intros; apply rest_instant) end.
    specialize (F s). by rewrite H1 in F. }
  apply ban_loop_ok in H1 as [(N1 & B1 & D1 & R1) T1].
  assert (W1 : forall t a, waiting s1 t HBanish a <-> waiting s t HBanish a /\ condemned s a).
  { intros t a. rewrite <- wrong_spec by done. unfold waiting. rewrite T1. split.
    - intros (x & Hx & Hh & Ha). apply elem_of_list_In, List.filter_In in Hx as [Hx Hs]. apply elem_of_list_In in Hx.
      unfold stays in Hs. rewrite bool_decide_true in Hs by done. rewrite Ha in Hs. split; [by exists x|]. by destruct (wrong s a).
    - intros [(x & Hx & Hh & Ha) Hw]. exists x. split; [|done]. apply elem_of_list_In, List.filter_In. split; [by apply elem_of_list_In|].
      unfold stays. rewrite Ha, Hw. apply orb_true_r. }
  assert (A1 : forall a, active s1 a = active s a /\ banished s1 a = banished s a).
  { intros a. destruct (R1 a) as [C _]. unfold active, banished. pose proof (f_equal r_active C) as X1. pose proof (f_equal r_banished C) as X2. done. }
  assert (UE : forall a, unfair s1 a <-> unfair s a) by (intros a; unfold unfair; by destruct (A1 a) as [-> ->]).
  apply (return_loop s) in H as (_ & K2 & B2 & D2 & R2); [|apply returning_start; split; [exact RE|intros a; apply R1]|done].
  assert (W2 : forall t a, waiting s1 t HBanish a -> waiting s' t HBanish a) by (intros t a (x & Hx & Hq); exists x; split; [by apply K2|done]).
  assert (DT : forall a, (exists t, waiting s t HBanish a) <-> exists x, x ∈ done_tasks s (keysZ (st_sched s)) /\ of_ban a x).
  { intros a. split; [intros (t & x & Hx & Hq); exists x; split; [apply done_spec; eauto|done]|]. intros (x & Hx & Hq). apply done_spec in Hx as [t Hx]. exists t, x. done. }
  (* fields after the second part *)
  assert (FK : forall a, ~ unfair s a -> fields (ref_get s' a) = fields (ref_get s1 a)).
  { intros a Hu. apply (R2 a). intros [_ X]. by apply Hu, UE. }
  assert (FU : forall a, unfair s a -> fields (ref_get s' a) = (false, None, None) \/ (fields (ref_get s' a) = fields (ref_get s1 a) /\ kept_out s a)).
  { intros a Hu. apply (R2 a); [|by apply UE]. apply elem_of_keysN. apply UE in Hu as [X _]. unfold banished, ref_get in X. destruct (st_ref s1 !! a); [eauto|done]. }
  assert (CU : forall a, condemned s a -> ~ unfair s a) by (intros a (X & _) [_ Y]; congruence).
  split_and!.
  - intros t x Hx Hh. apply K2. rewrite T1. apply elem_of_list_In, List.filter_In. split; [by apply elem_of_list_In|]. unfold stays. by rewrite bool_decide_false.
  - intros t a. rewrite <- W1. split; [apply B2|apply W2].
  - intros a Hw Hc. pose proof (FK a (CU a Hc)) as F. destruct (R1 a) as (_ & _ & X). apply DT in Hw. destruct (X Hw) as [_ Y].
    rewrite (proj2 (wrong_spec s a HD) Hc) in Y. destruct Y as (x & Hx & Hq & Hb). apply done_spec in Hx as [t Hx]. exists t, x. split; [done|].
    split; [|split; [done|]].
    + apply K2. rewrite T1. apply elem_of_list_In, List.filter_In. split; [by apply elem_of_list_In|]. unfold stays. destruct Hq as [_ ->]. rewrite (proj2 (wrong_spec s a HD) Hc). apply orb_true_r.
    + unfold fields in F. congruence.
  - intros a Hw Hc. destruct (R1 a) as (_ & _ & X). apply DT in Hw. destruct (X Hw) as [_ Y].
    assert (EW : wrong s a = true). { destruct (wrong s a) eqn:EW; [done|]. exfalso. apply Hc. by apply wrong_spec. }
    rewrite EW in Y. destruct (decide (unfair s a)) as [Hu|Hu].
    + destruct (FU a Hu) as [F|[F _]]; unfold fields in F; congruence.
    + pose proof (FK a Hu) as F. unfold fields in F. congruence.
  - intros a c Hw Hc Hn. destruct (R1 a) as (_ & _ & X). apply DT in Hw. destruct (X Hw) as [Y _].
    assert (EC : r_compression_at (ref_get s1 a) = Some c).
    { destruct (decide (unfair s a)) as [Hu|Hu].
      - destruct (FU a Hu) as [F|[F _]]; unfold fields in F; congruence.
      - pose proof (FK a Hu) as F. unfold fields in F. congruence. }
    rewrite EC in Y. unfold ahead, found in Y. destruct (r_compression_at (ref_get s a)) as [c'|] eqn:Ec; [|done].
    destruct (compression_found s c' a) eqn:EF; cycle 1.
    { assert (c' = c). { destruct (st_now s <? c') in Y; cbn in Y; [done|]. by injection Y. } subst c'. rewrite (proj2 (Z.ltb_lt _ _) Hn) in Y. done. }
    rewrite andb_false_r in Y. injection Y as <-. apply found_spec in EF as (x & Hx & Hh & Ha). exists x. split; [|done].
    apply K2. rewrite T1. apply elem_of_list_In, List.filter_In. split; [by apply elem_of_list_In|]. unfold stays. by rewrite Hh.
  - intros a Ha. by apply D2, D1.
  - intros a. rewrite <- (proj1 (A1 a)). apply (R2 a).
  - intros a Hu. rewrite <- (proj2 (A1 a)). pose proof (FK a Hu) as F. unfold fields in F. unfold banished. congruence.
  - intros a Hu. destruct (FU a Hu) as [F|[F Q]]; unfold fields in F; [left; unfold banished; congruence|right]. split; [|done].
    destruct (A1 a) as [_ X]. destruct Hu as [Hu _]. unfold banished in *. congruence.
  - intros a Hw Hu. pose proof (FK a Hu) as F. destruct (R1 a) as (_ & X & _).
    assert (EG : ref_get s1 a = ref_get s a). { apply X. intros x Hx Hq. apply done_spec in Hx as [t Hx]. apply (Hw t). by exists x. }
    rewrite EG in F. unfold fields in F. split; congruence.
Qed.
