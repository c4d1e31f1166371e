(** * The chain is able to do what it is asked *)
From Verif Require Import MonadProofs Sweep BankProofs RefProofs.
From Verif Require Export Spec_Live App.

(** ** A run that succeeds *)
Definition wp {A} (m : M A) (Q : A -> St -> Prop) (s : St) : Prop :=
  match m s with (s', Ok x) => Q x s' | _ => False end.
Lemma wp_run {A} (m : M A) Q s : wp m Q s -> exists s' x, m s = (s', Ok x) /\ Q x s'.
Proof. unfold wp. destruct (m s) as [s' [x|e|e]]; [eauto|done|done]. Qed.
Lemma wp_of {A} (m : M A) (Q : A -> St -> Prop) s s' x : m s = (s', Ok x) -> Q x s' -> wp m Q s.
Proof. unfold wp. by intros ->. Qed.
Lemma wp_mono {A} (m : M A) (Q Q' : A -> St -> Prop) s : wp m Q s -> (forall x s', Q x s' -> Q' x s') -> wp m Q' s.
Proof. unfold wp. destruct (m s) as [s' [x|e|e]]; auto. Qed.
Lemma wp_bind {A B} (m : M A) (f : A -> M B) Q s : wp m (fun x s' => wp (f x) Q s') s -> wp (bind m f) Q s.
Proof. unfold wp, bind. by destruct (m s) as [s' [x|e|e]]. Qed.
Lemma wp_ret {A} (x : A) (Q : A -> St -> Prop) s : Q x s -> wp (ret x) Q s.
Proof. done. Qed.
Lemma wp_get {A} (f : St -> A) (Q : A -> St -> Prop) s : Q (f s) s -> wp (get f) Q s.
Proof. done. Qed.
Lemma wp_modify f (Q : unit -> St -> Prop) s : Q tt (f s) -> wp (modify f) Q s.
Proof. done. Qed.
Lemma wp_lift {A} e (o : option A) x (Q : A -> St -> Prop) s : o = Some x -> Q x s -> wp (lift e o) Q s.
Proof. by intros ->. Qed.
Lemma wp_ensure b e (Q : unit -> St -> Prop) s : b = true -> Q tt s -> wp (ensure b e) Q s.
Proof. by intros ->. Qed.
Lemma wp_assert b e (Q : unit -> St -> Prop) s : b = true -> Q tt s -> wp (assert b e) Q s.
Proof. by intros ->. Qed.
Lemma wp_must {A} (m : M A) Q s : wp m Q s -> wp (must m) Q s.
Proof. unfold wp, must. by destruct (m s) as [s' [x|e|e]]. Qed.
Lemma wp_recovered {A} (m : M A) Q s : wp m Q s -> wp (recovered m) Q s.
Proof. unfold wp, recovered. by destruct (m s) as [s' [x|e|e]]. Qed.
Lemma wp_try {A} (m : M A) (Q : A + err -> St -> Prop) s : wp m (fun x => Q (inl x)) s -> wp (try m) Q s.
Proof. unfold wp, try. by destruct (m s) as [s' [x|e|e]]. Qed.
Lemma wp_rel {A} (m : M A) (R : St -> St -> Prop) Q s : rel R m -> wp m Q s -> wp m (fun x s' => Q x s' /\ R s s') s.
Proof. intros HR. specialize (HR s). unfold wp. destruct (m s) as [s' [x|e|e]]; auto. Qed.
Lemma wp_mfor {A} (l : list A) f (I : St -> Prop) s : (forall x s, I s -> wp (f x) (fun _ => I) s) -> I s -> wp (mfor l f) (fun _ => I) s.
Proof.
  intros H. revert s. induction l as [|x l IH]; intros s HI; cbn; [done|].
  apply wp_bind. eapply wp_mono; [by apply H|]. intros [] s' HI'. by apply IH.
Qed.

(** ** Sums of lines *)
Definition upto (r : rinfo) (n : nat) : Z := sum (map (line (r_deleg r)) (seq 0 (S n))).
Lemma sum_upto_line n : forall l, (n < List.length l)%nat -> sum_upto n l = Some (sum (map (line l) (seq 0 (S n)))).
Proof.
  induction n as [|n IH]; intros [|x l] H; cbn [List.length] in H; [lia| |lia|].
  - cbn. f_equal. unfold line, sum. cbn. lia.
  - cbn [sum_upto]. rewrite IH by lia. f_equal. unfold sum. change (seq 0 (S (S n))) with (0%nat :: seq 1 (S n)).
    cbn [map fold_right]. change (line (x :: l) 0) with x. f_equal. rewrite <- seq_shift, map_map. reflexivity.
Qed.
Lemma line_pad l k : line (pad l) k = line l k.
Proof.
  unfold line, pad. destruct (decide (k < List.length l)%nat) as [H|H].
  - by rewrite lookup_app_l.
  - rewrite lookup_app_r, (lookup_ge_None_2 l) by lia.
    destruct (repeat 0 (11 - List.length l) !! (k - List.length l)%nat) as [z|] eqn:E; [|done].
    apply elem_of_list_lookup_2, elem_of_list_In, repeat_spec in E. by subst.
Qed.
Lemma pad_length l : (11 <= List.length (pad l))%nat.
Proof. unfold pad. rewrite app_length, repeat_length. lia. Qed.
Lemma pad_longer l : (List.length l <= List.length (pad l))%nat.
Proof. unfold pad. rewrite app_length. lia. Qed.
Lemma upto_ext r r' n : (forall k, line (r_deleg r') k = line (r_deleg r) k) -> upto r' n = upto r n.
Proof. intros H. unfold upto. f_equal. apply map_ext. intros k. apply H. Qed.

(** ** The requirements of statuses can be evaluated *)
Definition fit (r : rinfo) : Prop := 0 <= r_status r <= 9 /\ forall n, (n <= 10)%nat -> 0 <= upto r n < 2 ^ 63.
Definition counters (g : addr -> rinfo) (r : rinfo) : Prop := forall x, x ∈ r_arefs r -> (2 <= List.length (r_cnt (g x)))%nat.
Definition long (r : rinfo) : Prop := (11 <= List.length (r_deleg r))%nat.
Lemma uint64_some z : 0 <= z < 2 ^ 63 -> Frac.to_uint64 z = Some z.
Proof. intros H. unfold Frac.to_uint64, Frac.is_uint64. by replace ((0 <=? z) && (z <? 2 ^ 64)) with true by lia. Qed.
Lemma int64_some z : 0 <= z < 2 ^ 63 -> Frac.to_int64 z = Some z.
Proof. intros H. unfold Frac.to_int64, Frac.is_int64. by replace ((- 2 ^ 63 <=? z) && (z <? 2 ^ 63)) with true by lia. Qed.
Lemma coins_req_some r n c : fit r -> long r -> (n <= 10)%nat -> is_Some (coins_req r n c).
Proof.
  intros [_ H] HL Hn. unfold long in HL. unfold coins_req. rewrite sum_upto_line by lia. fold (upto r n). specialize (H n Hn).
  rewrite uint64_some by lia. eauto.
Qed.
Lemma count_wide_some g size count l : (forall x, x ∈ l -> (2 <= List.length (r_cnt (g x)))%nat) -> forall found, is_Some (count_wide g size count found l).
Proof.
  induction l as [|x l IH]; intros H found; cbn [count_wide]; [eauto|]. destruct (count <=? found)%nat; [eauto|].
  destruct (r_cnt (g x) !! 1%nat) as [n|] eqn:E; [apply IH; intros; apply H; by right|].
  apply lookup_ge_None in E. specialize (H x ltac:(by left)). lia.
Qed.
Lemma scan_core_some g leg l : (forall x, x ∈ l -> (2 <= List.length (r_cnt (g x)))%nat) -> forall wide legs, is_Some (scan_core g leg wide legs l).
Proof.
  induction l as [|x l IH]; intros H wide legs; cbn [scan_core]; [eauto|].
  destruct ((3 <=? wide)%nat && (3 <=? legs)%nat); [eauto|].
  assert (IH' : forall wide legs, is_Some (scan_core g leg wide legs l)) by (apply IH; intros; apply H; by right).
  destruct (3 <=? wide)%nat; [apply IH'|].
  destruct (r_cnt (g x) !! 1%nat) as [n|] eqn:E; [apply IH'|].
  apply lookup_ge_None in E. specialize (H x ltac:(by left)). lia.
Qed.
Lemma xbyx_some g r lines c count size : fit r -> long r -> counters g r -> (lines <= 10)%nat -> is_Some (req_xbyx g r lines c count size).
Proof.
  intros H1 H2 H3 H4. unfold req_xbyx. destruct (coins_req_some r lines c H1 H2 H4) as [x ->].
  destruct (count_wide_some g size count (r_arefs r) H3 0) as [y ->]. eauto.
Qed.
Lemma core_some g r lines c leg : fit r -> long r -> counters g r -> (lines <= 10)%nat -> is_Some (req_core g r lines c leg).
Proof.
  intros H1 H2 H3 H4. unfold req_core. destruct (coins_req_some r lines c H1 H2 H4) as [x ->].
  destruct (scan_core_some g leg (r_arefs r) H3 0 0) as [[y z] ->]. eauto.
Qed.
Lemma status_req_some g r st : fit r -> long r -> counters g r -> 0 <= st <= 9 -> st <> 8 -> is_Some (status_req g r st).
Proof.
  intros H1 H2 H3 H4 H5. unfold status_req.
  repeat match goal with |- is_Some (if ?b then _ else _) => destruct b eqn:?; [solve [eauto|apply xbyx_some; auto; lia|apply core_some; auto; lia]|] end.
  lia.
Qed.
Lemma climb_some g r : fit r -> long r -> counters g r ->
  forall fuel st, 0 <= st <= 9 -> st <> 8 -> (9 - st < Z.of_nat fuel)%Z -> exists n, climb fuel g r st = Some n /\ 0 <= n <= 9.
Proof.
  intros H1 H2 H3. induction fuel as [|fuel IH]; intros st H4 H5 H6; [lia|]. cbn [climb].
  destruct (st =? 9) eqn:E9; [eauto|].
  assert (HN : 0 <= next_status st <= 9 /\ next_status st <> 8 /\ st < next_status st /\ prev_status (next_status st) = st).
  { unfold prev_status, next_status. destruct (st + 1 =? 8) eqn:E8; [assert (st = 7) as -> by lia; done|].
    destruct (st + 1 - 1 =? 8) eqn:E7; lia. }
  destruct HN as (N1 & N2 & N3 & N4).
  destruct (status_req_some g r (next_status st) H1 H2 H3 N1 N2) as [[] ->]; [|rewrite N4; eauto].
  apply IH; lia.
Qed.

(** ** The updater *)
Definition clock (s : St) : Prop := 0 <= st_now s /\ 0 <= st_day s /\ st_now s + 30 * st_day s < time_limit.
(** Only tasks and the index by status differ. *)
Definition still (s s' : St) : Prop := exists x i, s' = s <| st_sched := x |> <| st_index := i |>.
Lemma still_refl s : still s s.
Proof. exists (st_sched s), (st_index s). by destruct s. Qed.
Lemma still_trans s1 s2 s3 : still s1 s2 -> still s2 s3 -> still s1 s3.
Proof. intros (x & i & ->) (y & j & ->). exists y, j. by destruct s1. Qed.
Lemma still_sched s x : still s (s <| st_sched := x |>).
Proof. exists x, (st_index s). by destruct s. Qed.
Lemma wp_schedule t h d s : 0 <= t < time_limit -> wp (schedule_task t h d) (fun _ => still s) s.
Proof.
  intros H. unfold schedule_task, schedule_task', check_key. apply wp_bind, wp_assert; [unfold key_ok; cbn; lia|].
  apply wp_modify. apply still_sched.
Qed.
Lemma still_index s i : still s (s <| st_index := i |>).
Proof. exists (st_sched s), i. by destruct s. Qed.
Lemma wp_status_check b a r s : clock s -> fit r -> long r -> counters (fun y => bu_get b y s) r ->
  wp (status_check b a r) (fun br s' => still s s' /\ bu_data (fst br) = bu_data b /\ eqs r (snd br) /\ fit (snd br) /\ r_status r <= r_status (snd br)) s.
Proof.
  intros HC HF HL HK.
  enough (W : wp (status_check b a r) (fun br s' => still s s' /\ 0 <= r_status (snd br) <= 9 /\ r_status r <= r_status (snd br)) s).
  { apply wp_run in W as (s' & [b' r'] & E & S & W & M). eapply wp_of; [exact E|]. cbn [fst snd] in *.
    pose proof (status_check_ok _ _ _ _ _ _ _ E) as (Q1 & Q2 & Q3). split; [done|]. split; [done|]. split; [done|]. split; [|exact M].
    split; [done|]. intros n Hn. rewrite (upto_ext r); [by apply HF|]. destruct Q1 as (x & y & ->). done. }
  unfold status_check.
  assert (HX : exists b1 r1, (if r_status r =? 8 then (bu_call EvStatus a b, r <| r_status := 9 |>) else (b, r)) = (b1, r1) /\
    bu_data b1 = bu_data b /\ (0 <= r_status r1 <= 9 /\ r_status r <= r_status r1) /\ r_status r1 <> 8 /\ r_deleg r1 = r_deleg r /\ r_arefs r1 = r_arefs r).
  { destruct HF as [HF _]. destruct (r_status r =? 8) eqn:E; do 2 eexists; (split; [reflexivity|]); cbn; split_and!; try done; lia. }
  destruct HX as (b1 & r1 & -> & X1 & (X2 & X6) & X3 & X4 & X5).
  apply wp_bind, wp_modify. set (s0 := s <| st_index := _ |>). assert (S0 : still s s0) by apply still_index.
  apply wp_bind, wp_get. cbv beta. cbn [id].
  set (g := fun x => bu_get b1 x s0).
  assert (F1 : fit r1). { split; [done|]. intros n Hn. rewrite (upto_ext r); [by apply HF|]. intros k. by rewrite X4. }
  assert (L1 : long r1) by (unfold long; by rewrite X4).
  assert (K1 : counters g r1). { intros x Hx. rewrite X5 in Hx. unfold g. rewrite (bu_get_ext b b1 s s0 x X1 eq_refl). by apply HK. }
  destruct (status_req_some g r1 (r_status r1) F1 L1 K1 X2 X3) as [okb Eb].
  apply wp_bind. apply (wp_lift _ _ okb); [exact Eb|]. destruct okb; cbn [negb].
  - set (r2 := r1 <| r_downgrade_at := None |>).
    destruct (climb_some g r2) with (fuel := 12%nat) (st := r_status r2) as (nx & En & Hn);
      [by destruct F1; split|done|done|done|done|cbn; lia|].
    apply wp_bind. apply (wp_lift _ _ nx); [exact En|].
    assert (E2 : r_status r2 = r_status r1) by done.
    destruct (r_status r2 <? nx) eqn:EX; [apply wp_bind, wp_modify|]; apply wp_ret;
      (split; [first [exact S0|eapply still_trans; [exact S0|apply still_index]]|cbn; lia]).
  - destruct (r_downgrade_at r1); [apply wp_ret; split; [exact S0|cbn; lia]|].
    apply wp_bind. eapply wp_mono; [apply wp_schedule; destruct HC as (C1 & C2 & C3); unfold one_day, s0; cbn; lia|].
    intros [] s' HS. apply wp_ret. split; [exact (still_trans _ _ _ S0 HS)|cbn; lia].
Qed.

(** The updater holds records the checks can work with. *)
Definition larger (r r' : rinfo) : Prop := (List.length (r_cnt r) <= List.length (r_cnt r'))%nat /\
  (List.length (r_deleg r) <= List.length (r_deleg r'))%nat.
Definition goodb (b : bu) (s : St) : Prop := forall y, fit (bu_get b y s) /\ larger (ref_get s y) (bu_get b y s) /\
  counters (fun z => bu_get b z s) (bu_get b y s).
Lemma larger_refl r : larger r r.
Proof. by split_and!. Qed.
Lemma larger_trans r1 r2 r3 : larger r1 r2 -> larger r2 r3 -> larger r1 r3.
Proof. intros (A1 & A2) (B1 & B2). split_and!; lia. Qed.
Lemma larger_normalize r : larger r (normalize r).
Proof. split_and!; cbn; apply pad_longer. Qed.
Lemma fit_normalize r : fit r -> fit (normalize r).
Proof. intros [H1 H2]. split; [done|]. intros n Hn. rewrite (upto_ext r); [by apply H2|]. intros k. cbn. apply line_pad. Qed.
Lemma eqs_larger r r' : eqs r r' -> larger r r'.
Proof. intros (x & y & ->). by split_and!. Qed.
(** A record is replaced by a larger one. *)
Lemma goodb_insert b b' a r s : goodb b s -> bu_data b' = <[ a := r ]> (bu_data b) -> fit r -> larger (bu_get b a s) r ->
  counters (fun z => bu_get b z s) r -> goodb b' s.
Proof.
  intros HG E HF HL HK.
  assert (K : forall x, (2 <= List.length (r_cnt (bu_get b x s)))%nat -> (2 <= List.length (r_cnt (bu_get b' x s)))%nat).
  { intros x Hx. rewrite (bu_get_insert b b' a r) by done. destruct (N.eqb_spec x a) as [->|]; [|done]. destruct HL. lia. }
  intros y. rewrite (bu_get_insert b b' a r s E y). destruct (N.eqb_spec y a) as [->|Hy].
  - split_and!; [done|eapply larger_trans; [apply HG|done]|]. intros x Hx. by apply K, HK.
  - destruct (HG y) as (G1 & G2 & G3). split_and!; [done|done|]. intros x Hx. by apply K, G3.
Qed.
Lemma goodb_ext b b' s s' : bu_data b' = bu_data b -> st_ref s' = st_ref s -> goodb b s -> goodb b' s'.
Proof.
  intros E1 E2 H y. unfold counters. rewrite (bu_get_ext b b' s s' y E1 E2). unfold ref_get. rewrite E2. fold (ref_get s y).
  destruct (H y) as (G1 & G2 & G3). split_and!; [done|done|]. intros x Hx. rewrite (bu_get_ext b b' s s' x E1 E2). by apply G3.
Qed.
Lemma wp_updatem {A} b a check (f : bu -> rinfo -> M (bu * rinfo * A)) s (Q : A -> bu -> rinfo -> Prop) :
  clock s -> goodb b s ->
  wp (f b (normalize (bu_get b a s))) (fun o s' => still s s' /\ let '(b', r', x) := o in
    goodb b' s /\ fit r' /\ larger (bu_get b' a s) r' /\ counters (fun z => bu_get b' z s) r' /\ long r' /\ Q x b' r') s ->
  wp (bu_updatem b a check f) (fun o s' => still s s' /\ goodb (fst o) s' /\ exists b' r' r2, Q (snd o) b' r' /\ (eqs r' r2 /\ r_status r' <= r_status r2) /\ bu_data (fst o) = <[ a := r2 ]> (bu_data b')) s.
Proof.
  intros HC HG H. unfold bu_updatem. apply wp_recovered. apply wp_bind, wp_get.
  apply wp_bind. eapply wp_mono; [exact H|]. intros [[b1 r1] x] s1 (S1 & G1 & F1 & L1 & K1 & D1 & HQ).
  destruct S1 as (sc1 & i1 & ->).
  assert (W : wp (if check then status_check b1 a r1 else ret (b1, r1))
    (fun br s' => still s s' /\ bu_data (fst br) = bu_data b1 /\ eqs r1 (snd br) /\ fit (snd br) /\ r_status r1 <= r_status (snd br)) (s <| st_sched := sc1 |> <| st_index := i1 |>)).
  { destruct check; [|apply wp_ret; split; [by exists sc1, i1|]; split; [done|]; split; [apply eqs_refl|]; split; [done|cbn; lia]].
    eapply wp_mono; [apply wp_status_check; [exact HC|exact F1|exact D1|exact K1]|].
    intros br s' ((sc2 & i2 & ->) & W). split; [exists sc2, i2; by destruct s|done]. }
  apply wp_bind. eapply wp_mono; [exact W|]. intros [b2 r2] s2 ((sc2 & i2 & ->) & E2 & E3 & F2 & M2). cbn [fst snd] in *.
  apply wp_ret. split; [by exists sc2, i2|]. cbn [fst snd]. split.
  - apply (goodb_ext (bu_set a r2 b2) _ s); [done..|]. apply (goodb_insert b1 _ a r2); [done|cbn; by rewrite E2|done| |].
    + eapply larger_trans; [exact L1|by apply eqs_larger].
    + destruct E3 as (x1 & x2 & ->). exact K1.
  - exists b1, r1, r2. split_and!; [done..|]. cbn. by rewrite E2.
Qed.

(** ** Validators *)
Lemma healthy_val s s' : healthy s -> st_ref s' = st_ref s -> st_bal s' = st_bal s -> st_now s' = st_now s -> st_day s' = st_day s ->
  (forall a, is_Some (st_val s' !! a) -> is_Some (st_val s !! a)) -> healthy s'.
Proof.
  intros [H1 H2 H3 H4 H5 H6 H7] E1 E2 E3 E4 E5.
  assert (R : forall a, ref_get s' a = ref_get s a) by (intros a; unfold ref_get; by rewrite E1).
  assert (B : forall a, balance s' a = balance s a) by (intros a; unfold balance; by rewrite E2).
  split.
  - intros a. unfold status. rewrite R. apply H1.
  - intros a x. unfold active_referrals. rewrite !R. apply H2.
  - intros a n Hn. specialize (H3 a n Hn). unfold stored_upto, stored_deleg in *. by rewrite R.
  - intros a. specialize (H4 a). unfold stored_deleg, delegation in *. by rewrite R, B.
  - intros a x Hx. rewrite R. destruct (E5 a) as [y Hy]; [by eexists|]. by eapply H5.
  - unfold bal_ok. by rewrite E2.
  - by rewrite E3, E4.
Qed.
Lemma healthy_fit s a : healthy s -> fit (ref_get s a).
Proof. intros H. split; [apply (hl_status s H)|]. intros n Hn. apply (hl_sums s H a n Hn). Qed.
Lemma healthy_deleg s a : healthy s -> 0 <= delegation s a < 2 ^ 63.
Proof.
  intros H. rewrite <- (hl_own s H). pose proof (hl_sums s H a 0%nat ltac:(lia)) as HS.
  unfold stored_upto, sum in HS. cbn in HS. lia.
Qed.
Lemma wp_qualified a s : healthy s -> is_Some (st_val s !! a) -> wp (is_qualified a) (fun qd s' => s' = s /\ 0 <= snd qd < 2 ^ 63) s.
Proof.
  intros H [x Hx]. unfold is_qualified, delegated_in_network.
  pose proof (hl_validators s H a x Hx) as HL. destruct (healthy_fit s a H) as [_ HF].
  set (n := Nat.min (lines_opened (r_status (ref_get s a))) 10).
  assert (Hn : (n <= 10)%nat) by lia. specialize (HF n Hn).
  apply wp_bind, wp_bind, wp_get. apply (wp_lift _ _ (upto (ref_get s a) n)); [apply sum_upto_line; lia|].
  apply wp_bind, wp_get. apply wp_bind, wp_get. apply wp_bind, wp_get.
  destruct (match st_val s !! a with Some x => n_staff x | None => false end); [by apply wp_ret|].
  destruct (_ <? np_min_status (st_np s)); [by apply wp_ret|].
  pose proof (healthy_deleg s a H) as HD. unfold delegation in HD.
  apply wp_bind, wp_get. apply wp_bind. apply (wp_lift _ _ (amt (balance s a) uartrd)); [by apply uint64_some|].
  destruct (_ <? np_min_self (st_np s)); [by apply wp_ret|].
  apply wp_bind. apply (wp_lift _ _ (upto (ref_get s a) n)); [by apply uint64_some|].
  destruct (_ <? np_min_total (st_np s)); by apply wp_ret.
Qed.
Lemma wp_exclude x s : n_lottery x <> 0 -> wp (lottery_exclude x) (fun _ s' => exists l, s' = s <| st_lottery := l |>) s.
Proof.
  intros H. unfold lottery_exclude. destruct (n_lottery x =? 0) eqn:E; [lia|].
  apply wp_bind, wp_modify, wp_ret. eexists. reflexivity.
Qed.
Lemma wp_if_exclude x s : wp (if_in_lottery lottery_exclude x) (fun _ s' => exists l, s' = s <| st_lottery := l |>) s.
Proof.
  unfold if_in_lottery. destruct (n_lottery x =? 0) eqn:E.
  - apply wp_ret. exists (st_lottery s). by destruct s.
  - apply wp_must, wp_exclude. lia.
Qed.
Lemma some_insert {A} (m : gmap addr A) a x y b : m !! a = Some y -> is_Some (<[ a := x ]> m !! b) -> is_Some (m !! b).
Proof. intros H. destruct (decide (b = a)) as [->|Hb]; [rewrite H; eauto|by rewrite lookup_insert_ne]. Qed.
Lemma wp_callback c s : healthy s -> wp (run_callback c) (fun _ => healthy) s.
Proof.
  intros H. destruct c as [a e]. unfold run_callback. cbn [fst snd]. destruct e.
  - unfold on_stake_changed. apply wp_bind, wp_get. destruct (st_val s !! a) as [x|] eqn:Ex; [|by apply wp_ret].
    apply wp_bind. eapply wp_mono; [apply wp_qualified; [done|by eexists]|]. intros [q d] s1 [-> Hd]. cbn [snd] in Hd.
    apply wp_bind. apply (wp_lift _ _ d); [by apply int64_some|]. apply wp_bind, wp_get.
    destruct (update_score (st_ilog s) d x) as [y changed]. destruct (n_active x && negb q).
    + apply wp_bind. eapply wp_mono; [apply wp_if_exclude|]. intros z s1 [l ->]. apply wp_ret.
      apply (healthy_val s); done.
    + destruct changed; [|by apply wp_ret]. apply wp_modify. apply (healthy_val s); try done.
      intros b. cbn. by apply (some_insert _ _ _ x).
  - unfold on_status_update. apply wp_bind, wp_get. unfold is_validator.
    destruct (st_val s !! a) as [x|] eqn:Ex; [|by apply wp_ret]. destruct (n_active x); cbn [negb]; [|by apply wp_ret].
    apply wp_bind. eapply wp_mono; [apply wp_qualified; [done|by eexists]|]. intros [q d] s1 [-> Hd].
    destruct q; [by apply wp_ret|]. unfold switch_off, val_update. apply wp_bind. apply (wp_of _ _ s s x); [unfold val_get; by rewrite Ex|].
    destruct (n_status x); cbn [negb]; [|by apply wp_bind, wp_ret, wp_ret].
    apply wp_bind, wp_bind. eapply wp_mono; [apply wp_if_exclude|]. intros y s1 [l ->]. apply wp_ret. apply wp_modify.
    apply (healthy_val s); try done. intros b. cbn. by apply (some_insert _ _ _ x).
Qed.

(** ** The end of an update *)
Lemma wp_commit b s : clock s -> bal_ok s ->
  (forall a x, st_val s !! a = Some x -> (11 <= List.length (r_deleg (ref_get s a)))%nat) ->
  goodb b s -> (forall a, line (r_deleg (bu_get b a s)) 0 = delegation s a) ->
  wp (bu_commit b) (fun _ s' => healthy s' /\ forall y, ref_get s' y = bu_get b y s) s.
Proof.
  intros HC HB HV HG HO. unfold bu_commit. apply wp_bind, wp_modify.
  set (s' := s <| st_ref := bu_data b ∪ st_ref s |>).
  assert (R : forall y, ref_get s' y = bu_get b y s) by (intros y; by apply union_get).
  eapply wp_mono; [apply (wp_mfor _ _ (fun s2 => healthy s2 /\ forall y, ref_get s2 y = bu_get b y s))|done].
  { intros c s2 [H2 R2]. eapply wp_mono; [apply (wp_rel _ (same st_ref)); [frame|by apply wp_callback]|].
    intros [] s3 [H3 E3]. split; [done|]. intros y. unfold ref_get. rewrite E3. apply R2. }
  split; [|done]. split.
  - intros a. unfold status. rewrite R. apply HG.
  - intros a x. unfold active_referrals. rewrite !R. apply HG.
  - intros a n Hn. unfold stored_upto. destruct (HG a) as [[_ F] _]. specialize (F n Hn). unfold upto in F.
    unfold stored_deleg. by rewrite R.
  - intros a. unfold stored_deleg. rewrite R. apply HO.
  - intros a x Hx. rewrite R. specialize (HV a x Hx). destruct (HG a) as (_ & (_ & L) & _). lia.
  - done.
  - done.
Qed.
Lemma healthy_goodb s : healthy s -> goodb bu_new s.
Proof.
  intros H y. unfold counters. rewrite bu_get_new. split_and!; [by apply healthy_fit|apply larger_refl|].
  intros x Hx. rewrite bu_get_new. by apply (hl_counters s H y).
Qed.

(** ** A change of main coins *)
Lemma line_add0 i l k : line (add_at i 0 l) k = line l k.
Proof.
  unfold line, add_at. destruct (decide (k = i)) as [->|H]; [rewrite list_lookup_alter|by rewrite list_lookup_alter_ne].
  destruct (l !! i); cbn; lia.
Qed.
(** What stays as it was in a record *)
Definition held (r r' : rinfo) : Prop := (forall k, line (r_deleg r') k = line (r_deleg r) k) /\ r_referrer r' = r_referrer r /\
  r_banished r' = r_banished r /\ r_banishment_at r' = r_banishment_at r /\ r_status r <= r_status r'.
Lemma held_refl r : held r r.
Proof. split_and!; try done. Qed.
Lemma held_trans r1 r2 r3 : held r1 r2 -> held r2 r3 -> held r1 r3.
Proof.
  intros (A1 & A2 & A3 & A4 & A5) (B1 & B2 & B3 & B4 & B5). split; [intros k; by rewrite B1|]. split; [by rewrite B2|]. split; [by rewrite B3|].
  split; [by rewrite B4|lia].
Qed.
Lemma held_eqs r r' : eqs r r' -> r_status r <= r_status r' -> held r r'.
Proof. intros (x & y & ->) H. split_and!; done. Qed.
Definition kept (s s' : St) : Prop := forall y, held (ref_get s y) (ref_get s' y).
Lemma kept_refl s : kept s s.
Proof. intros y. apply held_refl. Qed.
Lemma kept_trans s1 s2 s3 : kept s1 s2 -> kept s2 s3 -> kept s1 s3.
Proof. intros H1 H2 y. by eapply held_trans. Qed.
Lemma kept_same s s' : st_ref s' = st_ref s -> kept s s'.
Proof. intros E y. unfold ref_get. rewrite E. apply held_refl. Qed.
Definition keptb (b : bu) (s : St) : Prop := forall y, held (ref_get s y) (bu_get b y s).
Definition ownb (b : bu) (s : St) : Prop := forall a, line (r_deleg (bu_get b a s)) 0 = delegation s a.
Lemma still_fields s s' : still s s' -> clock s -> clock s'.
Proof. intros (x & i & ->). done. Qed.
Lemma wp_walk0 f lines : (forall i x b r, exists c, fst (f i x b r) = mkBu (bu_data b) c /\
    exists l, snd (f i x b r) = r <| r_coins := l |> <| r_deleg := add_at i 0 (r_deleg r) |>) ->
  forall b x s, clock s -> goodb b s -> keptb b s -> wp (walk true lines b x f) (fun b' s' => still s s' /\ goodb b' s' /\ keptb b' s') s.
Proof.
  intros Hf. induction lines as [|i lines IH]; intros b x s HC HG HO; cbn [walk]; [apply wp_ret; split; [apply still_refl|done]|].
  destruct (x =? nobody)%N; [apply wp_ret; split; [apply still_refl|done]|].
  apply wp_bind. eapply wp_mono; [apply (wp_updatem b x true _ s (fun _ b' r' => bu_data b' = bu_data b /\ held (bu_get b x s) r')); [done..|]|].
  - specialize (Hf i x b (normalize (bu_get b x s))). destruct (f i x b (normalize (bu_get b x s))) as [b1 r1].
    cbn [fst snd] in Hf. destruct Hf as (c & -> & l & ->). apply wp_ret. split; [apply still_refl|].
    destruct (HG x) as (F & L & K). pose proof (larger_normalize (bu_get b x s)) as (L1 & L2). split; [exact HG|]. split.
    { destruct (fit_normalize _ F) as [F1 F2]. split; [done|]. intros n Hn. specialize (F2 n Hn).
      rewrite (upto_ext (normalize (bu_get b x s))); [done|]. intros k. cbn. apply line_add0. }
    split.
    { split; [exact L1|]. cbn. unfold add_at. rewrite alter_length. apply pad_longer. }
    split; [exact K|]. split.
    { unfold long. cbn. unfold add_at. rewrite alter_length. apply pad_length. }
    split; [done|]. split; [|cbn; split_and!; done]. intros k. cbn. by rewrite line_add0, line_pad.
  - intros [b2 up] s2 (S2 & G2 & b' & r' & r2 & [Q1 Q2] & [E M] & D). cbn [fst snd] in *.
    eapply wp_mono; [apply IH; [by eapply still_fields|exact G2|]|].
    + destruct S2 as (sc & ix & ->). intros y. rewrite (bu_get_insert b' b2 x r2) by done.
      change (ref_get (s <| st_sched := sc |> <| st_index := ix |>) y) with (ref_get s y).
      destruct (N.eqb_spec y x) as [->|Hy].
      * eapply held_trans; [apply HO|]. eapply held_trans; [exact Q2|by apply held_eqs].
      * rewrite (bu_get_ext b b' s _ y); [apply HO|done|done].
    + intros b3 s3 (S3 & G3 & O3). split; [by eapply still_trans|done].
Qed.
Lemma line_insert0 l v : (0 < List.length l)%nat -> line (<[ 0%nat := v ]> l) 0 = v.
Proof. intros H. unfold line. by rewrite list_lookup_insert. Qed.
Lemma line_insert_same l k : (0 < List.length l)%nat -> line (<[ 0%nat := line l 0 ]> l) k = line l k.
Proof. intros H. destruct l as [|x l]; [cbn in H; lia|]. unfold line. by destruct k. Qed.
Lemma wp_obc a s : healthy s -> wp (on_balance_changed a) (fun _ s' => healthy s' /\ kept s s') s.
Proof.
  intros H. unfold on_balance_changed. apply wp_bind, wp_get. cbn [id]. apply wp_bind.
  set (r := ref_get s a). set (rn := normalize r).
  assert (HD : own_deleg s a = line (r_deleg rn) 0). { cbn. rewrite line_pad. symmetry. apply (hl_own s H a). }
  assert (HL : (11 <= List.length (r_deleg rn))%nat) by apply pad_length.
  destruct (r_empty rn) eqn:EE.
  { unfold wp, try, bu_updatem, recovered, bind, get. rewrite bu_get_new. fold r. fold rn. rewrite EE. cbn. split; [done|apply kept_refl]. }
  apply wp_try. eapply wp_mono; [apply (wp_updatem bu_new a true _ s (fun x b' r' => bu_data b' = ∅ /\
     held r r' /\ snd (fst (fst x)) = 0))|].
  - apply (hl_clock s H).
  - by apply healthy_goodb.
  - rewrite bu_get_new. fold r. fold rn. rewrite EE. change (default 0 (r_deleg rn !! 0%nat)) with (line (r_deleg rn) 0). rewrite HD, Z.sub_diag.
    cbn [Z.eqb]. apply wp_ret. split; [apply still_refl|]. pose proof (larger_normalize r) as (L1 & L2).
    split; [by apply healthy_goodb|]. split.
    { destruct (fit_normalize _ (healthy_fit s a H)) as [F1 F2]. split; [done|]. intros n Hn. specialize (F2 n Hn).
      rewrite (upto_ext rn); [done|]. intros k. cbn [r_deleg set]. by apply line_insert_same; lia. }
    split.
    { rewrite bu_get_new. split; [exact L1|]. cbn [r_deleg set]. rewrite insert_length. exact L2. }
    split.
    { intros x Hx. rewrite bu_get_new. by apply (hl_counters s H a). }
    split.
    { unfold long. cbn [r_deleg set]. by rewrite insert_length. }
    split; [done|]. split; [|done]. split; [|cbn; split_and!; done].
    intros k. cbn [r_deleg set]. rewrite line_insert_same by lia. cbn. apply line_pad.
  - intros [b [[[dc dd] node] ban]] s1 ((sc & ix & ->) & G1 & b' & r' & r2 & (Q1 & Q2 & Q3) & [E M] & D). cbn [fst snd] in *. subst dd. cbn [Z.eqb].
    set (s1 := s <| st_sched := sc |> <| st_index := ix |>) in *.
    assert (O1 : keptb b s1).
    { intros y. rewrite (bu_get_insert b' b a r2) by done. change (ref_get s1 y) with (ref_get s y). destruct (N.eqb_spec y a) as [->|Hy].
      - eapply held_trans; [exact Q2|by apply held_eqs].
      - unfold bu_get. rewrite Q1, lookup_empty. apply held_refl. }
    assert (W : wp (if ban then ret b else walk true (seq 1 10) b node (fun i x b r => (b, add_line i dc 0 r)))
      (fun b' s' => still s1 s' /\ goodb b' s' /\ keptb b' s') s1).
    { destruct ban; [apply wp_ret; split; [apply still_refl|done]|].
      apply wp_walk0; [|apply (hl_clock s H)|done|done].
      intros i x b0 r0. cbn [fst snd]. exists (bu_cbs b0). split; [by destruct b0|]. eexists. reflexivity. }
    apply wp_bind. eapply wp_mono; [exact W|]. intros b3 s3 ((sc3 & ix3 & ->) & G3 & O3). set (s3 := s1 <| st_sched := sc3 |> <| st_index := ix3 |>) in *.
    eapply wp_mono; [apply wp_commit; [apply (hl_clock s H)|apply (hl_balances s H)|apply (hl_validators s H)|done|]|].
    + intros y. destruct (O3 y) as [L _]. rewrite L. apply (hl_own s H).
    + intros [] s4 [H4 R4]. split; [done|]. intros y. rewrite R4. apply O3.
Qed.

(** ** Payments in main coins *)
Lemma healthy_more s s' : healthy s -> st_ref s' = st_ref s -> st_bal s' = st_bal s -> st_now s' = st_now s -> st_day s' = st_day s ->
  st_val s' = st_val s -> healthy s'.
Proof. intros H E1 E2 E3 E4 E5. apply (healthy_val s); try done. by rewrite E5. Qed.
Lemma wp_set_main' a c s : healthy s -> coins_valid c = true -> amt c uartrd = delegation s a -> wp (set_balance a c) (fun _ s' => healthy s' /\ kept s s') s.
Proof.
  intros H HV HD. unfold set_balance. apply wp_bind, wp_ensure; [done|]. apply wp_bind, wp_modify.
  change (wp (let! r := try (on_balance_changed a) in match r with inl _ => ret tt | inr _ =>
     do! modify (fun s => s <| st_log := st_log s ++ [LHookFailed a] |>) in fail "hook failed" end) (fun _ s' => healthy s' /\ kept s s') (upd_bal s a c)).
  apply wp_bind, wp_try. eapply wp_mono; [apply wp_obc|intros [] s' [HS KS]; apply wp_ret; split; [done|exact KS]].
  destruct H as [H1 H2 H3 H4 H5 H6 H7]. split; try done.
  - intros y. change (stored_deleg s y 0 = amt (balance (upd_bal s a c) y) uartrd). rewrite H4, upd_bal_balance.
    destruct (N.eqb_spec y a) as [->|]; [by rewrite HD|done].
  - by apply bal_ok_put.
Qed.
Lemma wp_set_main a c s : healthy s -> coins_valid c = true -> amt c uartrd = delegation s a -> wp (set_balance a c) (fun _ => healthy) s.
Proof. intros H1 H2 H3. eapply wp_mono; [by apply wp_set_main'|]. by intros [] s' []. Qed.
Lemma coins_sub_valid b c : coins_valid b = true -> coins_ge b c = true -> coins_valid (coins_sub b c) = true.
Proof.
  intros Hb Hg. rewrite coins_valid_spec in *. intros d n. rewrite coins_ge_spec in Hg. specialize (Hg d). unfold coins_sub. rewrite lookup_merge. unfold diag_None.
  unfold amt in Hg. destruct (b !! d) as [x|] eqn:E1, (c !! d) as [y|] eqn:E2; cbn; try done; unfold nz;
    destruct (_ =? 0) eqn:E; try done; intros [= <-]; cbn in Hg; try (specialize (Hg _ eq_refl)); try (apply Hb in E1); lia.
Qed.
Lemma wp_subtract a c s : healthy s -> coins_valid c = true -> coins_ge (balance s a) c = true -> amt c uartrd = 0 -> wp (subtract_coins a c) (fun _ s' => healthy s' /\ kept s s') s.
Proof.
  intros H HV HG HD. unfold subtract_coins. apply wp_bind, wp_ensure; [done|]. apply wp_bind, wp_get. apply wp_bind, wp_ensure; [done|].
  apply wp_set_main'; [done|apply coins_sub_valid; [apply bal_ok_valid, H|done]|]. rewrite amt_sub, HD. unfold delegation. lia.
Qed.
Lemma wp_add' a c s : healthy s -> coins_valid c = true -> amt c uartrd = 0 -> wp (add_coins a c) (fun _ s' => healthy s' /\ kept s s') s.
Proof.
  intros H HV HD. unfold add_coins. apply wp_bind, wp_ensure; [done|]. apply wp_bind, wp_get.
  apply wp_set_main'; [done|apply coins_add_valid; [apply bal_ok_valid, H|done]|]. rewrite amt_add, HD. unfold delegation. lia.
Qed.
Lemma wp_add a c s : healthy s -> coins_valid c = true -> amt c uartrd = 0 -> wp (add_coins a c) (fun _ => healthy) s.
Proof. intros H1 H2 H3. eapply wp_mono; [by apply wp_add'|]. by intros [] s' []. Qed.
Lemma wp_send a b c s : healthy s -> coins_valid c = true -> coins_ge (balance s a) c = true -> amt c uartrd = 0 ->
  wp (send_coins a b c) (fun _ s' => healthy s' /\ kept s s') s.
Proof.
  intros H HV HG HD. unfold send_coins. apply wp_bind. eapply wp_mono; [by apply wp_subtract|].
  intros [] s1 [H1 K1]. eapply wp_mono; [by apply wp_add'|]. intros [] s2 [H2 K2]. split; [done|by eapply kept_trans].
Qed.
Lemma wp_touch a s : healthy s -> wp (touch_account a) (fun _ s' => (healthy s' /\ kept s s') /\ st_bal s' = st_bal s /\ st_bp s' = st_bp s) s.
Proof.
  intros H. unfold touch_account. apply wp_bind, wp_get. destruct (acc_exists s a); [apply wp_ret; split; [split; [done|apply kept_refl]|done]|].
  apply wp_bind. unfold create_account. apply wp_bind, wp_get. apply wp_bind, wp_modify. apply wp_bind, wp_modify. apply wp_ret. apply wp_ret.
  split; [split; [by apply (healthy_more s)|by apply kept_same]|done].
Qed.
Lemma wp_to_module a m c s : healthy s -> coins_valid c = true -> coins_ge (balance s a) c = true -> amt c uartrd = 0 ->
  wp (send_to_module a m c) (fun _ s' => healthy s' /\ kept s s') s.
Proof.
  intros H HV HG HD. unfold send_to_module. apply wp_bind. eapply wp_mono; [by apply wp_touch|].
  intros [] s1 ((H1 & K1) & E & _). eapply wp_mono; [apply wp_send; [done|done| |done]; by rewrite (balance_same _ _ E)|].
  intros [] s2 [H2 K2]. split; [done|by eapply kept_trans].
Qed.
Lemma ge_main b n : 0 <= n -> n <= amt b uartr -> coins_ge b (coins_of uartr n) = true.
Proof.
  intros Hn H. rewrite coins_ge_spec. intros d x. unfold coins_of, nz. destruct (n =? 0); [by rewrite lookup_empty|].
  rewrite lookup_singleton_Some. by intros [<- <-].
Qed.
Lemma wp_to_module_n a m n s : healthy s -> 0 <= n <= bal s a uartr -> wp (send_to_module a m (coins_of uartr n)) (fun _ s' => healthy s' /\ kept s s') s.
Proof.
  intros H [H1 H2]. apply wp_to_module; [done|by apply coins_of_valid|by apply ge_main|by rewrite amt_coins_of].
Qed.
Lemma wp_send_n a b n s : healthy s -> 0 <= n <= bal s a uartr -> wp (send_coins a b (coins_of uartr n)) (fun _ s' => healthy s' /\ kept s s') s.
Proof.
  intros H [H1 H2]. apply wp_send; [done|by apply coins_of_valid|by apply ge_main|by rewrite amt_coins_of].
Qed.
Lemma main_only n : forallb (fun e => (fst e =? uartr)%N) (map_to_list (coins_of uartr n)) = true.
Proof.
  unfold coins_of, nz. destruct (n =? 0); [by rewrite map_to_list_empty|]. by rewrite map_to_list_singleton.
Qed.
Lemma coins_of_empty n : coins_of uartr n = ∅ <-> n = 0.
Proof.
  split; [|intros ->; done]. intros H. assert (E : amt (coins_of uartr n) uartr = amt ∅ uartr) by (by rewrite H).
  rewrite amt_coins_of, N.eqb_refl, amt_empty in E. done.
Qed.
Lemma wp_pay_fee a n f s : healthy s -> 0 < n -> fee_of n s = Some f -> 0 <= f <= bal s a uartr ->
  wp (pay_tx_fee a (coins_of uartr n)) (fun fee s' => (healthy s' /\ kept s s') /\ fee = coins_of uartr f) s.
Proof.
  intros H Hn HF Hf. unfold pay_tx_fee. apply wp_bind, wp_assert; [apply main_only|].
  apply wp_bind. destruct (decide (coins_of uartr n = ∅)) as [E|_]; [apply coins_of_empty in E; lia|].
  unfold tx_fee, new_coins. apply wp_bind, wp_bind, wp_get. apply (wp_lift _ _ f).
  { rewrite amt_coins_of, N.eqb_refl. done. }
  apply wp_bind, wp_assert; [lia|]. apply wp_ret.
  apply wp_bind. destruct (decide (coins_of uartr f = ∅)) as [E|_]; [apply wp_ret, wp_ret; split; [split; [done|apply kept_refl]|done]|].
  eapply wp_mono; [by apply wp_to_module_n|]. intros [] s1 H1. by apply wp_ret.
Qed.

(** ** Sending *)
Lemma wp_msg_send from to n f s : healthy s -> 0 < n -> 0 <= bp_min_send (st_bp s) <= n -> from ∉ bp_blocked (st_bp s) ->
  acc_exists s to = true -> fee_of n s = Some f -> 0 <= f -> n + f <= bal s from uartr ->
  wp (run_msg (MSend from to (coins_of uartr n))) (fun _ => healthy) s.
Proof.
  intros H Hn HM HB HE HF Hf HL. cbn [run_msg]. unfold msg_send.
  apply wp_bind, wp_ensure.
  { rewrite coins_of_valid by lia. rewrite bool_decide_eq_false_2; [done|]. rewrite coins_of_empty. lia. }
  apply wp_bind, wp_get. apply wp_bind, wp_ensure; [done|]. apply wp_bind, wp_ensure; [apply main_only|].
  apply wp_bind, wp_get. apply wp_bind, wp_assert; [lia|].
  apply wp_bind, wp_ensure; [rewrite amt_coins_of, N.eqb_refl; lia|].
  apply wp_bind, wp_ensure; [by rewrite bool_decide_eq_false_2|].
  pose proof (wp_pay_fee from n f s H Hn HF ltac:(lia)) as W.
  apply wp_run in W as (s1 & fee & E & [H1 _] & ->). apply wp_bind. eapply wp_of; [exact E|].
  apply pay_tx_fee_ok in E as (f' & Hf' & Hp & Ec & _ & B & _).
  eapply wp_mono; [apply wp_send_n; [done|]|by intros [] s2 []]. split; [lia|]. rewrite B.
  assert (EA : amt (coins_of uartr f) uartr = amt (coins_of uartr f') uartr) by (by rewrite Ec).
  rewrite !amt_coins_of, N.eqb_refl in EA. subst f'. rewrite ?amt_coins_of, ?N.eqb_refl. unfold at_.
  destruct (from =? from)%N, (from =? splitter)%N; lia.
Qed.
