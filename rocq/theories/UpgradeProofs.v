(** * Proofs about the upgrades: coins *)
From Verif Require Import Upgrade BankProofs ModeProofs RefProofs.
From Verif Require Export Spec_Upgrade.

(** ** Iterating over the records *)
Lemma mfold_inv {A B} (I : list A -> B -> St -> Prop) (f : B -> A -> M B) l : forall b s s' b',
  (forall pre x post b s s' b', l = pre ++ x :: post -> I pre b s -> f b x s = (s', Ok b') -> I (pre ++ [x]) b' s') ->
  I [] b s -> mfold l b f s = (s', Ok b') -> I l b' s'.
Proof.
  assert (G : forall r pre b s s' b',
    (forall pre x post b s s' b', l = pre ++ x :: post -> I pre b s -> f b x s = (s', Ok b') -> I (pre ++ [x]) b' s') ->
    l = pre ++ r -> I pre b s -> mfold r b f s = (s', Ok b') -> I l b' s').
  { induction r as [|x r IH]; intros pre b s s' b' Hs El HI H; cbn in H.
    - apply ret_ok in H as [-> ->]. by rewrite El, app_nil_r.
    - apply bind_ok in H as (b1 & s1 & H1 & H). eapply (IH (pre ++ [x])); [done|by rewrite <- app_assoc| |exact H].
      by eapply Hs. }
  intros b s s' b' Hs HI H. by eapply (G l []).
Qed.
Definition records (s : St) : list (addr * rinfo) := map (fun a => (a, ref_get s a)) (keysN (st_ref s)).
Lemma elem_records s a r : (a, r) ∈ records s <-> st_ref s !! a = Some r.
Proof.
  unfold records. rewrite elem_of_list_fmap. setoid_rewrite elem_of_keysN. split.
  - intros (y & [= -> ->] & [r0 E]). unfold ref_get. by rewrite E.
  - intros E. exists a. unfold ref_get. rewrite E. split; [done|by eexists].
Qed.
Lemma records_fst s : map fst (records s) = keysN (st_ref s).
Proof. unfold records. rewrite map_map. cbn. apply map_id. Qed.
Lemma records_NoDup s : NoDup (map fst (records s)).
Proof. rewrite records_fst. apply NoDup_keysN. Qed.
(** An invariant of the loop, then the commit.  [I] sees the records already
    treated, the updater, what the callback keeps, and the state. *)
Lemma iterate_inv {X} (I : list (addr * rinfo) -> bu -> X -> St -> Prop) (x0 : X) f s s' x' :
  iterate x0 f s = (s', Ok x') ->
  I [] bu_new x0 s ->
  (forall pre a item post b x s1 s2 s3 x2 item' ch ck b',
     records s = pre ++ (a, item) :: post -> I pre b x s1 ->
     f x a item s1 = (s2, Ok (x2, item', ch, ck)) ->
     (if ch || ck then bu_update b a ck (fun r => (if ch then item' else r, tt)) s2 = (s3, Ok (b', tt))
      else s3 = s2 /\ b' = b) ->
     I (pre ++ [(a, item)]) b' x2 s3) ->
  exists b s2, I (records s) b x' s2 /\ bu_commit b s2 = (s', Ok tt).
Proof.
  unfold iterate. intros H H0 HS.
  apply bind_ok in H as (l & s1 & E & H). apply get_ok in E as [-> ->].
  apply bind_ok in H as ([b x] & s2 & E & H).
  apply bind_ok in H as (u & s3 & E3 & H). apply ret_ok in H as [-> ->]. apply (proj1 (must_ok _ _ _ _)) in E3. destruct u.
  exists b, s2. split; [|done].
  refine (mfold_inv (fun l bx st => I l (fst bx) (snd bx) st) _ _ (bu_new, x0) s s2 (b, x) _ H0 E).
  intros pre [a item] post [b1 x1] s4 s5 [b2 x2] El HI Hf. cbn in HI |- *.
  apply bind_ok in Hf as ([[[x3 item'] ch] ck] & s6 & Hc & Hf).
  assert (Q : x2 = x3 /\ (if ch || ck then bu_update b1 a ck (fun r => (if ch then item' else r, tt)) s6 = (s5, Ok (b2, tt))
      else s5 = s6 /\ b2 = b1)).
  { destruct (ch || ck).
    - apply bind_ok in Hf as ([b3 u] & s7 & Hu & Hf). apply ret_ok in Hf as [-> Hf]. injection Hf as -> ->.
      apply (proj1 (must_ok _ _ _ _)) in Hu. by destruct u.
    - apply ret_ok in Hf as [-> Hf]. injection Hf as -> ->. done. }
  destruct Q as [-> Q]. by eapply HS.
Qed.
(** What becomes of the records: [P a old new] is what one call and one update give. *)
Lemma iterate_records {X} (P : addr -> rinfo -> rinfo -> Prop) (x0 : X) f s s' x' :
  iterate x0 f s = (s', Ok x') ->
  (forall x a r, rel (same st_ref) (f x a r)) ->
  (forall x a r s1 s2 x2 r' ch ck r'', st_ref s1 = st_ref s -> st_ref s !! a = Some r ->
     f x a r s1 = (s2, Ok (x2, r', ch, ck)) -> eqs (if ch then r' else if ck then normalize r else r) r'' ->
     (ck = false -> r'' = if ch then r' else r) -> P a r r'') ->
  (forall a r, st_ref s !! a = Some r -> P a r (ref_get s' a)) /\
  (forall a, st_ref s !! a = None -> st_ref s' !! a = None) /\
  (forall a, is_Some (st_ref s !! a) -> is_Some (st_ref s' !! a)).
Proof.
  intros H HR HP.
  set (I := fun (pre : list (addr * rinfo)) (b : bu) (_ : X) (s1 : St) =>
    st_ref s1 = st_ref s /\
    (forall a r, (a, r) ∈ pre -> P a r (bu_get b a s)) /\
    (forall a, a ∉ map fst pre -> bu_data b !! a = None) /\
    (forall a, a ∈ map fst pre -> is_Some (st_ref s !! a))).
  destruct (iterate_inv I x0 f s s' x' H) as (b & s2 & (J1 & J2 & J3 & J4) & HC).
  - split_and!; [done|intros a r Hq; by apply elem_of_nil in Hq|done|intros a Hq; by apply elem_of_nil in Hq].
  - intros pre a item post b x s1 s2 s3 x2 item' ch ck b' El (J1 & J2 & J3 & J4) Hf Hu.
    assert (Ei : st_ref s !! a = Some item). { apply elem_records. rewrite El. apply elem_of_app. right. by left. }
    assert (Na : a ∉ map fst pre).
    { pose proof (records_NoDup s) as N. rewrite El, map_app in N. apply NoDup_app in N as (_ & N & _).
      intros Ha. apply (N a Ha). by left. }
    assert (Es2 : st_ref s2 = st_ref s1) by (pose proof (HR x a item s1) as F; by rewrite Hf in F).
    assert (Gb : bu_get b a s2 = item).
    { unfold bu_get. rewrite (J3 a Na). unfold ref_get. by rewrite Es2, J1, Ei. }
    assert (K : forall y, y ∉ map fst (pre ++ [(a, item)]) -> y ∉ map fst pre /\ y <> a).
    { intros y Hy. rewrite map_app in Hy. apply not_elem_of_app in Hy as [Y1 Y2]. split; [done|].
      intros ->. apply Y2. by left. }
    assert (KK : forall y, y ∈ map fst (pre ++ [(a, item)]) -> is_Some (st_ref s !! y)).
    { intros y Hy. rewrite map_app in Hy. apply elem_of_app in Hy as [Y|Y]; [by apply J4|].
      apply elem_of_list_singleton in Y as ->. cbn. rewrite Ei. by eexists. }
    assert (KP : forall y r, (y, r) ∈ pre -> y <> a).
    { intros y r Hy ->. apply Na. apply elem_of_list_fmap. by exists (a, r). }
    destruct (ch || ck) eqn:Ec.
    + apply bu_update_ok in Hu as (r2 & _ & Q & Qf & ED & ER). rewrite Gb in Q, Qf. cbn [fst] in Q, Qf.
      assert (HPa : P a item r2).
      { eapply (HP x a item s1 s2 x2 item' ch ck r2); [done|done|exact Hf| |].
        - by destruct ch; [|destruct ck].
        - intros ->. rewrite orb_false_r in Ec. subst ch. by apply Qf. }
      unfold I. split_and!; [congruence| | |done].
      * intros y r Hy. unfold bu_get. rewrite ED. apply elem_of_app in Hy as [Hy|Hy].
        -- rewrite lookup_insert_ne by (intros <-; by eapply KP). by apply J2.
        -- apply elem_of_list_singleton in Hy as [= -> ->]. by rewrite lookup_insert.
      * intros y Hy. apply K in Hy as [Y1 Y2]. rewrite ED, lookup_insert_ne by done. by apply J3.
    + destruct Hu as [-> ->]. apply orb_false_iff in Ec as [-> ->].
      unfold I. split_and!; [congruence| | |done].
      * intros y r Hy. apply elem_of_app in Hy as [Hy|Hy]; [by apply J2|].
        apply elem_of_list_singleton in Hy as [= -> ->]. unfold bu_get. rewrite (J3 a Na). unfold ref_get. rewrite Ei. cbn.
        eapply (HP x a item s1 s2 x2 item' false false item); [done|done|exact Hf|apply eqs_refl|done].
      * intros y Hy. apply K in Hy as [Y1 Y2]. by apply J3.
  - pose proof (commit_ref b s2) as CR. rewrite HC in CR. cbn in CR. rewrite J1 in CR.
    assert (Eq : forall y, ref_get s' y = bu_get b y s) by (intros y; by apply union_get).
    split_and!.
    + intros a r Ha. rewrite Eq. apply J2. by apply elem_records.
    + intros a Ha. rewrite CR, lookup_union, Ha. destruct (bu_data b !! a) eqn:Eb; [|done].
      destruct (decide (a ∈ map fst (records s))) as [Hin|Hin]; [|by rewrite J3 in Eb].
      apply J4 in Hin as [r0 Hr]. congruence.
    + intros a [r Ha]. rewrite CR, lookup_union, Ha. destruct (bu_data b !! a); by eexists.
Qed.
Lemma rel_iterate (R : St -> St -> Prop) `{!PreOrder R} {X} (x0 : X) f :
  (forall x a r, rel R (f x a r)) ->
  (forall b a ck (g : rinfo -> rinfo * unit), rel R (bu_update b a ck g)) ->
  (forall b, rel R (bu_commit b)) -> rel R (iterate x0 f).
Proof.
  intros Hf Hu Hc. unfold iterate. apply rel_bind; [done|by apply rel_get|]. intros l.
  apply rel_bind; [done| |].
  - apply rel_mfold; [done|]. intros [b x] [a item]. apply rel_bind; [done|apply Hf|].
    intros [[[x2 item'] ch] ck]. destruct (ch || ck); [|by apply rel_ret].
    apply rel_bind; [done|apply rel_must, Hu|]. intros [b2 u]. by apply rel_ret.
  - intros [b x]. apply rel_bind; [done|apply rel_must, Hc|]. intros u. by apply rel_ret.
Qed.

(** ** Coins *)
Lemma all_delegated_amt c d : amt (all_delegated c) d =
  if (d =? uartr)%N then 0 else if (d =? uartrr)%N then 0
  else if (d =? uartrd)%N then amt c uartr + amt c uartrd + amt c uartrr else amt c d.
Proof.
  unfold all_delegated.
  assert (S : forall c d0 n d, amt (coins_add (coins_sub c (coins_of d0 n)) (coins_of uartrd n)) d
    = amt c d - (if (d =? d0)%N then n else 0) + (if (d =? uartrd)%N then n else 0)).
  { intros. by rewrite amt_add, amt_sub, !amt_coins_of. }
  unfold uartr, uartrr, uartrd in *.
  destruct (Z.eqb_spec (amt c 0%N) 0) as [E0|E0].
  - destruct (Z.eqb_spec (amt c 2%N) 0) as [E2|E2]; rewrite ?S.
    + destruct (N.eqb_spec d 0) as [->|]; [lia|]. destruct (N.eqb_spec d 2) as [->|]; [lia|].
      destruct (N.eqb_spec d 1) as [->|]; lia.
    + destruct (N.eqb_spec d 0) as [->|]; [cbn; lia|]. destruct (N.eqb_spec d 2) as [->|]; [cbn; lia|].
      destruct (N.eqb_spec d 1) as [->|]; lia.
  - rewrite (S c). change (2 =? 0)%N with false. change (2 =? 1)%N with false. cbv iota.
    replace (amt c 2%N - 0 + 0) with (amt c 2%N) by lia.
    destruct (Z.eqb_spec (amt c 2%N) 0) as [E2|E2]; rewrite ?S.
    + destruct (N.eqb_spec d 0) as [->|]; [cbn; lia|]. destruct (N.eqb_spec d 2) as [->|]; [cbn; lia|].
      destruct (N.eqb_spec d 1) as [->|]; lia.
    + destruct (N.eqb_spec d 0) as [->|]; [cbn; lia|]. destruct (N.eqb_spec d 2) as [->|]; [cbn; lia|].
      destruct (N.eqb_spec d 1) as [->|]; lia.
Qed.

(** ** 2.2.1: everything is delegated *)
Definition fixed (s : St) := (st_now s, st_day s, st_bp s, st_ref s, st_supply s, st_bal s, st_del s).
Lemma schedule_fixed t h d : rel (same fixed) (schedule_task t h d).
Proof. unfold schedule_task, schedule_task', check_key. rel_auto. apply rel_modify. by intros s. Qed.
Lemma delete_fixed t h d : rel (same fixed) (delete_task t h d).
Proof. unfold delete_task, delete_where, check_key. rel_auto. apply rel_modify. intros s. by destruct (_ !! _). Qed.

(** What happens to the waiting tasks *)
(** Accruals stay, payments of revocations are not added *)
Definition tasks_step (s s' : St) : Prop :=
  (forall t a, waiting s t HAccrue a -> waiting s' t HAccrue a) /\
  (forall t a, waiting s' t HRevoke a -> waiting s t HRevoke a).
#[export] Instance tasks_step_preorder : PreOrder tasks_step.
Proof. split; [by intros s|]. intros x y z [A1 A2] [B1 B2]. split; auto. Qed.
Lemma tasks_same s s' : st_sched s' = st_sched s -> tasks_step s s'.
Proof. intros E. split; intros t a; unfold waiting, tasks_at; by rewrite E. Qed.
Lemma schedule_ok t h d s s' : schedule_task t h d s = (s', Ok tt) ->
  (forall k, tasks_at s' k = if (k =? t) then tasks_at s k ++ [Task t h d] else tasks_at s k) /\
  fixed s' = fixed s.
Proof.
  intros H. split; [|pose proof (schedule_fixed t h d s) as F; by rewrite H in F].
  unfold schedule_task, schedule_task', check_key in H. minv. intros k. unfold tasks_at. cbn [t_time].
  destruct (Z.eqb_spec k t) as [->|Hk]; cbn; [by rewrite lookup_insert|by rewrite lookup_insert_ne].
Qed.
Lemma schedule_step t h d : h <> HRevoke -> rel tasks_step (schedule_task t h d).
Proof.
  intros Hh s. destruct (schedule_task t h d s) as [s' [[]|e|e]] eqn:E.
  - apply schedule_ok in E as [E _]. split; intros k a (x & Hx & Hq).
    + exists x. split; [|done]. rewrite E. destruct (k =? t); [apply elem_of_app; by left|done].
    + exists x. split; [|done]. cbn [fst] in Hx. rewrite E in Hx. destruct (k =? t); [|done].
      apply elem_of_app in Hx as [Hx|Hx]; [done|]. apply elem_of_list_singleton in Hx as ->. cbn in Hq. by destruct Hq.
  - unfold schedule_task, schedule_task', check_key, assert, bind in E. by destruct (key_ok _).
  - unfold schedule_task, schedule_task', check_key, assert, bind in E. destruct (key_ok _); [discriminate|]. by injection E as <- <-.
Qed.
Lemma delete_ok t h d s s' : delete_task t h d s = (s', Ok tt) ->
  (forall k x, x ∈ tasks_at s' k <-> x ∈ tasks_at s k /\ ~ (k = t /\ t_hook x = h /\ t_data x = d)) /\
  fixed s' = fixed s.
Proof.
  intros H. split; [|pose proof (delete_fixed t h d s) as F; by rewrite H in F].
  unfold delete_task, delete_where, check_key in H. minv. match goal with u : unit |- _ => clear u end. intros k x. unfold tasks_at.
  destruct (st_sched s !! t) as [items|] eqn:E.
  - set (fl := List.filter _ items).
    assert (Hfl : forall x, x ∈ fl <-> x ∈ items /\ ~ (t_hook x = h /\ t_data x = d)).
    { intros y. unfold fl. rewrite !elem_of_list_In, filter_In, negb_true_iff, andb_false_iff, !bool_decide_eq_false. 
      destruct (decide (t_hook y = h)), (decide (t_data y = d)); naive_solver. }
    destruct (decide (k = t)) as [->|Hk].
    + rewrite E. cbn [default]. transitivity (x ∈ fl).
      * destruct fl; cbn; [by rewrite lookup_delete|by rewrite lookup_insert].
      * rewrite Hfl. naive_solver.
    + transitivity (x ∈ default [] (st_sched s !! k)); [|naive_solver].
      destruct fl; cbn; [by rewrite lookup_delete_ne|by rewrite lookup_insert_ne].
  - destruct (decide (k = t)) as [->|Hk]; [|naive_solver]. rewrite E. cbn. rewrite elem_of_nil. naive_solver.
Qed.
Lemma delete_step t h d : h <> HAccrue -> rel tasks_step (delete_task t h d).
Proof.
  intros Hh s. destruct (delete_task t h d s) as [s' [[]|e|e]] eqn:E.
  - apply delete_ok in E as [E _]. split; intros k a (x & Hx & Hq); exists x; (split; [|done]).
    + apply E. split; [done|]. naive_solver.
    + by apply E in Hx as [Hx _].
  - unfold delete_task, delete_where, check_key, assert, bind in E. by destruct (key_ok _).
  - unfold delete_task, delete_where, check_key, assert, bind in E. destruct (key_ok _); [discriminate|]. by injection E as <- <-.
Qed.

Lemma reqs_deleted l a : forall s s', mfor l (fun q => delete_task (q_time q) HRevoke a) s = (s', Ok tt) ->
  fixed s' = fixed s /\ tasks_step s s' /\ forall q, q ∈ l -> ~ waiting s' (q_time q) HRevoke a.
Proof.
  induction l as [|q l IH]; intros s s' H; cbn in H.
  { apply ret_ok in H as [-> _]. split_and!; [done|reflexivity|]. intros q Hq. by apply elem_of_nil in Hq. }
  apply bind_ok in H as ([] & s1 & H1 & H). apply IH in H as (F & T & D).
  pose proof (delete_step (q_time q) HRevoke a ltac:(done) s) as T1. rewrite H1 in T1. cbn in T1.
  apply delete_ok in H1 as [H1 F1]. split_and!; [congruence|by transitivity s1|].
  intros q' [->|Hq]%elem_of_cons; [|by apply D]. intros W. apply (proj2 T) in W as (x & Hx & Hh & Hd).
  apply H1 in Hx as [_ Hx]. by apply Hx.
Qed.

Definition moved_coins (r : rinfo) : bool := negb (r_banished r) && negb (nth 0 (r_coins r) 0 =? nth 0 (r_deleg r) 0).
Lemma fgd_record_ok plan dq x a r b m k s s' x' r' ch d dch :
  fgd_record plan dq x a r b m k s = (s', Ok (x', r', ch, d, dch)) ->
  fixed s' = fixed s /\ tasks_step s s' /\ f_main x' = f_main x /\ f_revoke x' = f_revoke x /\ d_reqs d = [] /\
  (dch = false -> d_reqs (del_get a s) = [] /\ d = del_get a s) /\
  (forall q, q ∈ d_reqs (del_get a s) -> ~ waiting s' (q_time q) HRevoke a) /\
  (d_next (del_get a s) <> None -> d_next d = d_next (del_get a s)) /\
  (d_next (del_get a s) = None -> bp_dust (st_bp s) < amt b uartrd ->
     d_next d = Some (f_t x') /\ f_t x' < f_t x /\ waiting s' (f_t x') HAccrue a) /\
  (d_next (del_get a s) = None -> amt b uartrd <= bp_dust (st_bp s) -> d_next d = None) /\
  f_t x' <= f_t x /\ (exists t, r' = r <| r_banishment_at := t |>) /\ (ch = false -> r' = r).
Proof.
  unfold fgd_record. intros H.
  apply bind_ok in H as (old & s1 & E & H). apply get_ok in E as [-> ->].
  apply bind_ok in H as ([] & s1 & E & H). apply reqs_deleted in E as (F1 & T1 & D1).
  set (old := del_get a s) in *. cbv zeta in H. change (d_next (old <| d_reqs := [] |>)) with (d_next old) in H.
  apply bind_ok in H as (day & s2 & E & H). apply get_ok in E as [-> ->].
  destruct (d_next old) as [next|] eqn:En.
  - apply bind_ok in H as (m' & s2 & E & H). apply lift_ok in E as [-> _].
    apply bind_ok in H as (k' & s2 & E & H). apply lift_ok in E as [-> _].
    apply bind_ok in H as (w & s2 & E & H). apply lift_ok in E as [-> _].
    apply bind_ok in H as (p & s2 & E & H). unfold fr in E. apply lift_ok in E as [-> _].
    apply ret_ok in H as [-> H]. injection H as -> -> -> -> ->. cbn [d_next d_reqs].
    split_and!; try done. exists (r_banishment_at r). by destruct r.
  - apply bind_ok in H as (w & s2 & E & H). apply lift_ok in E as [-> Ew].
    apply bind_ok in H as (dust & s2 & E & H). apply get_ok in E as [-> ->].
    assert (Hw : w = amt b uartrd). { unfold Frac.to_int64 in Ew. destruct (Frac.is_int64 _); [by injection Ew|done]. }
    assert (Eb : st_bp s1 = st_bp s) by (unfold fixed in F1; by injection F1).
    rewrite Eb in H. destruct (Z.ltb_spec (bp_dust (st_bp s)) w) as [L|L].
    + apply bind_ok in H as (q & s2 & E & H). unfold fr in E. apply lift_ok in E as [-> _].
      apply bind_ok in H as ([] & s2 & E & H).
      pose proof (schedule_step (f_t x - 1000000000) HAccrue a ltac:(done) s1) as T2. rewrite E in T2. cbn in T2.
      apply schedule_ok in E as [W2 F2].
      assert (W : waiting s2 (f_t x - 1000000000) HAccrue a).
      { exists (Task (f_t x - 1000000000) HAccrue a). split; [|done]. rewrite W2, Z.eqb_refl. apply elem_of_app. right. by apply elem_of_list_singleton. }
      destruct (r_banishment_at r) as [t|] eqn:Et.
      * apply bind_ok in H as ([] & s3 & E & H).
        pose proof (delete_step t HBanish a ltac:(done) s2) as T3. rewrite E in T3. cbn in T3.
        apply delete_ok in E as [_ F3].
        apply ret_ok in H as [-> H]. injection H as -> -> -> -> ->. cbn [f_main f_revoke f_t d_next d_reqs].
        split_and!; try done; cbn.
        -- congruence.
        -- transitivity s1; [done|]. by transitivity s2.
        -- intros q0 Hq HW. apply (D1 q0 Hq). apply T2, T3. exact HW.
        -- intros _ _. split_and!; [done|lia|]. by apply T3.
        -- lia.
        -- lia.
        -- by exists None.
      * apply ret_ok in H as [-> H]. injection H as -> -> -> -> ->. cbn [f_main f_revoke f_t d_next d_reqs].
        split_and!; try done; cbn.
        -- congruence.
        -- by transitivity s1.
        -- intros q0 Hq HW. apply (D1 q0 Hq). apply T2. exact HW.
        -- intros _ _. split_and!; [done|lia|done].
        -- lia.
        -- lia.
        -- exists None. destruct r; cbn in Et; by subst.
    + apply ret_ok in H as [-> H]. injection H as -> -> -> -> ->.
      split_and!; try done; cbn.
      * intros Ed. apply negb_false_iff, bool_decide_eq_true in Ed. split; [done|]. destruct old; cbn in *; by subst.
      * lia.
      * exists (r_banishment_at r). by destruct r.
Qed.

Lemma delegate_lines_ok r r' ch : delegate_lines r = Some (r', ch) ->
  (exists d, r' = r <| r_deleg := d |>) /\ (ch = false -> r' = r) /\
  forall i, (i <= 10)%nat -> line (r_deleg r') i = line (r_coins r) i.
Proof.
  unfold delegate_lines. destruct (_ && _) eqn:E; [|done]. apply andb_true_iff in E as [E1 E2]. apply Nat.leb_le in E1, E2.
  assert (G : forall i, (i <= 10)%nat -> line (take 11 (r_coins r) ++ drop 11 (r_deleg r)) i = line (r_coins r) i).
  { intros i Hi. unfold line. rewrite lookup_app_l by (rewrite take_length; lia). by rewrite lookup_take by lia. }
  intros H. injection H as <- <-. destruct (decide _) as [Q|Q].
  - split; [exists (r_deleg r); by destruct r|]. split; [done|]. intros i Hi. by rewrite <- Q at 1; apply G.
  - split; [by eexists|]. rewrite bool_decide_false by done. split; [done|]. exact G.
Qed.
Lemma fgd_one_ok plan dq x a r s s' x' r' ch ck :
  fgd_one plan dq x a r s = (s', Ok (x', r', ch, ck)) ->
  ck = false /\ st_now s' = st_now s /\ st_day s' = st_day s /\ st_bp s' = st_bp s /\ st_ref s' = st_ref s /\
  st_supply s' = st_supply s /\ tasks_step s s' /\ f_t x' <= f_t x /\
  (r_banished r = true -> r' = r) /\
  (r_banished r = false -> (exists d t, r' = r <| r_deleg := d |> <| r_banishment_at := t |>) /\
      forall i, (i <= 10)%nat -> line (r_deleg r') i = line (r_coins r) i) /\
  (ch = false -> r' = r) /\
  if moved_coins r then
    st_bal s' = <[ a := all_delegated (balance s a) ]> (st_bal s) /\
    f_main x' = f_main x + bal s a uartr /\ f_revoke x' = f_revoke x + bal s a uartrr /\
    (forall y, y <> a -> st_del s' !! y = st_del s !! y) /\
    requests s' a = [] /\ (forall q, q ∈ requests s a -> ~ waiting s' (q_time q) HRevoke a) /\
    (next_accrual s a <> None -> next_accrual s' a = next_accrual s a) /\
    (next_accrual s a = None -> bp_dust (st_bp s) < amt (all_delegated (balance s a)) uartrd ->
       exists t, next_accrual s' a = Some t /\ t < f_t x /\ waiting s' t HAccrue a) /\
    (next_accrual s a = None -> amt (all_delegated (balance s a)) uartrd <= bp_dust (st_bp s) -> next_accrual s' a = None)
  else s' = s /\ x' = x.
Proof.
  unfold fgd_one, moved_coins. intros H.
  destruct (r_banished r) eqn:Eb; cbn [negb andb].
  { apply ret_ok in H as [-> H]. injection H as -> -> -> ->. by split_and!. }
  apply bind_ok in H as ([r1 c1] & s1 & E & H). apply lift_ok in E as [-> E].
  apply delegate_lines_ok in E as ([dl L1] & L2 & L3).
  destruct (nth 0 (r_coins r) 0 =? nth 0 (r_deleg r) 0); cbn [negb].
  { apply ret_ok in H as [-> H]. injection H as -> -> -> ->. split_and!; try done.
    intros _. split; [|done]. exists dl, (r_banishment_at r). rewrite L1. by destruct r. }
  apply bind_ok in H as (old & s1 & E & H). apply get_ok in E as [-> ->]. cbv zeta in H.
  apply bind_ok in H as ([[[[x1 r2] c2] d] dc] & s1 & E & H).
  apply fgd_record_ok in E as (F & T & M1 & M2 & Dr & Dc & DW & N1 & N2 & N3 & Ft & [bt Rb] & Rc).
  apply bind_ok in H as ([] & s2 & E & H).
  apply bind_ok in H as ([] & s3 & E3 & H). apply modify_ok in E3. apply ret_ok in H as [-> H]. injection H as -> -> -> ->.
  assert (Hdel : requests s2 a = [] /\ next_accrual s2 a = d_next d /\ (forall y, y <> a -> st_del s2 !! y = st_del s !! y) /\
     (st_now s2, st_day s2, st_bp s2, st_ref s2, st_supply s2, st_bal s2, st_sched s2) = (st_now s, st_day s, st_bp s, st_ref s, st_supply s, st_bal s, st_sched s1)).
  { assert (Fd : st_del s1 = st_del s) by (unfold fixed in F; by injection F).
    assert (Fo : (st_now s1, st_day s1, st_bp s1, st_ref s1, st_supply s1, st_bal s1) = (st_now s, st_day s, st_bp s, st_ref s, st_supply s, st_bal s)).
    { unfold fixed in F. by injection F as -> -> -> -> -> -> _. }
    destruct dc; cbn [when] in E.
    - apply modify_ok in E. subst s2. destruct (decide (d_next d = None)) as [En|En].
      + rewrite !bool_decide_true by done. unfold requests, next_accrual. cbn. rewrite lookup_delete, En. 
        split_and!; [done|done| |congruence]. intros y Hy. rewrite lookup_delete_ne by done. by rewrite Fd.
      + rewrite (bool_decide_true (d_reqs d = [])), (bool_decide_false (d_next d = None)) by done. unfold requests, next_accrual. cbn. rewrite lookup_insert.
        split_and!; [done|done| |congruence]. intros y Hy. rewrite lookup_insert_ne by done. by rewrite Fd.
    - apply ret_ok in E as [-> _]. destruct (Dc eq_refl) as [Q1 Q2]. subst d. unfold requests, next_accrual, del_get in *. rewrite Fd.
      destruct (st_del s !! a); cbn in *; (split_and!; [done|done|done|congruence]). }
  destruct Hdel as (HR & HN & HD & HF). injection HF as F1 F2 F3 F4 F5 F6 F7.
  assert (OD : requests s a = d_reqs (del_get a s) /\ next_accrual s a = d_next (del_get a s)).
  { unfold requests, next_accrual, del_get. by destruct (st_del s !! a). }
  destruct OD as [OD1 OD2].
  assert (WE : forall t h y, waiting s3 t h y <-> waiting s1 t h y).
  { intros t h y. subst s3. unfold waiting, tasks_at. cbn. by rewrite F7. }
  assert (RE : requests s3 a = requests s2 a /\ next_accrual s3 a = next_accrual s2 a) by (by subst s3).
  destruct RE as [RE1 RE2].
  split_and!; try done; try (subst s3; done).
  - split; intros t y; rewrite WE; apply T.
  - intros _. rewrite Rb. split; [exists dl, bt; rewrite L1; by destruct r|]. cbn. exact L3.
  - intros Ec. apply orb_false_iff in Ec as [E1 E2]. rewrite Rc by done. by apply L2.
  - subst s3. cbn. by rewrite F6.
  - cbn. unfold bal. congruence.
  - cbn. unfold bal. congruence.
  - intros q Hq. rewrite WE. apply DW. by rewrite <- OD1.
  - intros Hn. rewrite RE2, HN, OD2. apply N1. by rewrite <- OD2.
  - intros Hn HL. rewrite OD2 in Hn. destruct (N2 Hn HL) as (Q1 & Q2 & Q3). exists (f_t x1). rewrite RE2, HN. split_and!; [done|done|by apply WE].
  - intros Hn HL. rewrite OD2 in Hn. rewrite RE2, HN. by apply N3.
Qed.

Definition delta (x : fgd) (d : N) : Z :=
  if (d =? uartr)%N then - f_main x else if (d =? uartrr)%N then - f_revoke x
  else if (d =? uartrd)%N then f_main x + f_revoke x else 0.
Lemma put_sum m a c d : bsum (<[ a := c ]> m) d = bsum m d - amt (default ∅ (m !! a)) d + amt c d.
Proof.
  rewrite (bsum_split m a d), (bsum_split (<[ a := c ]> m) a d), lookup_insert, delete_insert_delete. cbn. lia.
Qed.
Definition moved (pre : list (addr * rinfo)) (y : addr) : Prop := exists r, (y, r) ∈ pre /\ moved_coins r = true.
Definition fgd_inv (plan : time) (s0 : St) (pre : list (addr * rinfo)) (x : fgd) (s : St) : Prop :=
  (st_now s, st_day s, st_bp s, st_ref s, st_supply s) = (st_now s0, st_day s0, st_bp s0, st_ref s0, st_supply s0) /\
  tasks_step s0 s /\ f_t x <= plan + one_day s0 /\
  (forall d, sum_bal s d = sum_bal s0 d + delta x d) /\
  (forall y, moved pre y -> balance s y = all_delegated (balance s0 y) /\ requests s y = [] /\
     (forall q, q ∈ requests s0 y -> ~ waiting s (q_time q) HRevoke y) /\
     (next_accrual s0 y <> None -> next_accrual s y = next_accrual s0 y) /\
     (next_accrual s0 y = None -> bp_dust (st_bp s0) < amt (balance s y) uartrd ->
        exists t, next_accrual s y = Some t /\ t < plan + one_day s0 /\ waiting s t HAccrue y) /\
     (next_accrual s0 y = None -> amt (balance s y) uartrd <= bp_dust (st_bp s0) -> next_accrual s y = None)) /\
  (forall y, ~ moved pre y -> st_bal s !! y = st_bal s0 !! y /\ st_del s !! y = st_del s0 !! y).
Lemma fgd_step plan dq s0 pre a item post x s s' x' r' ch ck :
  records s0 = pre ++ (a, item) :: post -> fgd_inv plan s0 pre x s -> fgd_one plan dq x a item s = (s', Ok (x', r', ch, ck)) ->
  fgd_inv plan s0 (pre ++ [(a, item)]) x' s'.
Proof.
  intros El (F & T & Ft & SB & MV & NM) H.
  assert (Na : forall r, (a, r) ∉ pre).
  { pose proof (records_NoDup s0) as N. rewrite El, map_app in N. apply NoDup_app in N as (_ & N & _).
    intros r Ha. apply (N a); [|by left]. apply elem_of_list_fmap. by exists (a, r). }
  assert (NMa : ~ moved pre a) by (intros (r & Hr & _); by eapply Na).
  apply fgd_one_ok in H as (_ & F1 & F2 & F3 & F4 & F5 & T1 & Ft1 & _ & _ & _ & H).
  assert (F' : (st_now s', st_day s', st_bp s', st_ref s', st_supply s') = (st_now s0, st_day s0, st_bp s0, st_ref s0, st_supply s0)) by congruence.
  assert (Ebp : st_bp s = st_bp s0) by (by injection F).
  destruct (moved_coins item) eqn:Em.
  - destruct H as (B & M1 & M2 & D & R1 & R2 & N1 & N2 & N3).
    destruct (NM a NMa) as [B0 D0].
    assert (Eb : balance s a = balance s0 a) by (unfold balance; by rewrite B0).
    assert (Er : requests s a = requests s0 a) by (unfold requests; by rewrite D0).
    assert (En : next_accrual s a = next_accrual s0 a) by (unfold next_accrual; by rewrite D0).
    assert (MP : forall y, moved (pre ++ [(a, item)]) y <-> y = a \/ moved pre y).
    { intros y. split.
      - intros (r & Hr & Hm). apply elem_of_app in Hr as [Hr|Hr]; [right; by exists r|].
        apply elem_of_list_singleton in Hr as [= -> ->]. by left.
      - intros [->|(r & Hr & Hm)]; [exists item|exists r]; (split; [apply elem_of_app|done]); [right; by apply elem_of_list_singleton|by left]. }
    assert (By : forall y, y <> a -> balance s' y = balance s y /\ requests s' y = requests s y /\ next_accrual s' y = next_accrual s y).
    { intros y Hy. unfold balance, requests, next_accrual. rewrite B, lookup_insert_ne, D by done. done. }
    assert (Ba : balance s' a = all_delegated (balance s0 a)) by (unfold balance at 1; by rewrite B, lookup_insert, <- Eb).
    split_and!; [done|by transitivity s|lia| | |].
    + intros d. unfold sum_bal. rewrite B.
      change (bsum (<[a:=all_delegated (balance s a)]> (st_bal s)) d = sum_bal s0 d + delta x' d).
      rewrite put_sum. change (default ∅ (st_bal s !! a)) with (balance s a). change (bsum (st_bal s) d) with (sum_bal s d).
      rewrite SB, all_delegated_amt. unfold delta. rewrite M1, M2. unfold bal.
      unfold uartr, uartrr, uartrd. destruct (N.eqb_spec d 0) as [->|]; [lia|]. destruct (N.eqb_spec d 2) as [->|]; [lia|].
      destruct (N.eqb_spec d 1) as [->|]; lia.
    + intros y Hy. apply MP in Hy. destruct (decide (y = a)) as [->|Hya].
      * rewrite Eb in *. rewrite Er in R2. rewrite En in *. rewrite Ebp in *. rewrite Ba. split_and!; try done.
        intros Q1 Q2. destruct (N2 Q1 Q2) as (t & Q3 & Q4 & Q5). exists t. split_and!; [done|lia|done].
      * destruct Hy as [->|Hy]; [done|]. destruct (By y Hya) as (E1 & E2 & E3). rewrite E1, E2, E3.
        destruct (MV y Hy) as (G1 & G2 & G3 & G4 & G5 & G6). split_and!; try done.
        -- intros q Hq HW. apply (G3 q Hq). by apply T1.
        -- intros Q1 Q2. destruct (G5 Q1 Q2) as (t & Q3 & Q4 & Q5). exists t. split_and!; [done|lia|by apply T1].
    + intros y Hy. rewrite MP in Hy. assert (y <> a) by naive_solver. rewrite B, lookup_insert_ne, D by done. apply NM. naive_solver.
  - destruct H as [-> ->].
    assert (MP : forall y, moved (pre ++ [(a, item)]) y <-> moved pre y).
    { intros y. split.
      - intros (r & Hr & Hm). apply elem_of_app in Hr as [Hr|Hr]; [by exists r|].
        apply elem_of_list_singleton in Hr as [= -> ->]. congruence.
      - intros (r & Hr & Hm). exists r. split; [apply elem_of_app; by left|done]. }
    split_and!; try done; [intros y Hy; apply MV; by apply MP|intros y Hy; apply NM; by rewrite <- MP].
Qed.

(** What the updates and the callbacks leave alone *)
Definition quiet (s : St) := (st_bal s, st_supply s, st_del s, st_now s, st_day s, st_bp s).
Lemma quiet_update b a ck (g : rinfo -> rinfo * unit) : rel (same quiet) (bu_update b a ck g).
Proof.
  apply sw_bu_update; try apply _; intros; unfold quiet, same; try done.
  - intros s. pose proof (schedule_fixed t HDowngrade d s) as F. unfold same, fixed in F. by injection F as -> -> -> _ -> -> ->.
Qed.
Lemma quiet_commit b : rel (same quiet) (bu_commit b).
Proof.
  unfold bu_commit. apply rel_bind; [apply _|by apply rel_modify|]. intros _. apply rel_mfor; [apply _|]. intros c s. unfold same, quiet.
  assert (F1 : rel (same st_bal) (run_callback c)) by frame. assert (F2 : rel (same st_supply) (run_callback c)) by frame.
  assert (F3 : rel (same st_del) (run_callback c)) by frame. assert (F4 : rel (same st_now) (run_callback c)) by frame.
  assert (F5 : rel (same st_day) (run_callback c)) by frame. assert (F6 : rel (same st_bp) (run_callback c)) by frame.
  specialize (F1 s). specialize (F2 s). specialize (F3 s). specialize (F4 s). specialize (F5 s). specialize (F6 s). unfold same in *. congruence.
Qed.
Lemma tasks_update b a ck (g : rinfo -> rinfo * unit) : rel tasks_step (bu_update b a ck g).
Proof.
  apply sw_bu_update; try apply _; intros; try (by apply tasks_same).
  by apply schedule_step.
Qed.
Lemma tasks_commit b : rel tasks_step (bu_commit b).
Proof.
  unfold bu_commit. apply rel_bind; [apply _|apply rel_modify; intros; by apply tasks_same|].
  intros _. apply rel_mfor; [apply _|]. intros c s.
  assert (F : rel (same st_sched) (run_callback c)) by frame. apply tasks_same. apply F.
Qed.

Lemma nth_line l : nth 0 l 0 = line l 0.
Proof. unfold line. by destruct l. Qed.
Lemma fgd_ref plan dq x a r : rel (same st_ref) (fgd_one plan dq x a r).
Proof.
  unfold fgd_one, fgd_record.
  assert (S1 : forall t h d, rel (same st_ref) (schedule_task t h d)).
  { intros t h d s. pose proof (schedule_fixed t h d s) as F. unfold same, fixed in *. congruence. }
  assert (S2 : forall t h d, rel (same st_ref) (delete_task t h d)).
  { intros t h d s. pose proof (delete_fixed t h d s) as F. unfold same, fixed in *. congruence. }
  repeat first [progress rel_struct | apply S1 | apply S2 | (apply rel_modify; intros ?; unfold same; reflexivity) | progress (unfold fr)].
Qed.
Lemma fgd_ok plan s s' : force_global_delegation plan s = (s', Ok tt) ->
  exists x s1, fgd_inv plan s (records s) x s1 /\ st_bal s' = st_bal s1 /\ st_del s' = st_del s1 /\ tasks_step s1 s' /\
    (forall d, supply s' d - sum_bal s' d = supply s d - sum_bal s d) /\
    (forall a r, st_ref s !! a = Some r -> r_coins (ref_get s' a) = r_coins r /\ r_banished (ref_get s' a) = r_banished r /\
        (r_banished r = false -> forall i, (i <= 10)%nat -> line (r_deleg (ref_get s' a)) i = line (r_coins r) i)) /\
    (forall a, is_Some (st_ref s !! a) <-> is_Some (st_ref s' !! a)).
Proof.
  unfold force_global_delegation. intros H.
  apply bind_ok in H as (day & s1 & E & H). apply get_ok in E as [-> ->].
  apply bind_ok in H as (dq & s1 & E & H). unfold fr in E. apply lift_ok in E as [-> _].
  apply bind_ok in H as (x & s1 & HI & H).
  apply bind_ok in H as (m & s2 & E & H). apply new_coins_ok in E as (-> & _ & ->).
  apply bind_ok in H as (k & s2 & E & H). apply new_coins_ok in E as (-> & _ & ->).
  apply bind_ok in H as ([] & s2 & Ed & H). 
  apply bind_ok in H as (d & s3 & E & H). apply new_coins_ok in E as (-> & _ & ->).
  assert (Fd : st_ref s2 = st_ref s1 /\ st_del s2 = st_del s1 /\ st_sched s2 = st_sched s1 /\ st_bal s2 = st_bal s1).
  { unfold deflate in Ed. minv. by split_and!. }
  assert (Fi : st_ref s' = st_ref s2 /\ st_del s' = st_del s2 /\ st_sched s' = st_sched s2 /\ st_bal s' = st_bal s2).
  { unfold inflate in H. minv. by split_and!. }
  apply deflate_ok in Ed as (Sd & _). apply inflate_ok in H as (Si & _).
  destruct (iterate_inv (fun pre _ x s1 => fgd_inv plan s pre x s1) _ _ s s1 x HI) as (b & s4 & J & HC).
  { split_and!; try done.
    - intros d. unfold delta. cbn. repeat destruct (_ =? _)%N; lia.
    - intros y (r & Hr & _). by apply elem_of_nil in Hr. }
  { intros pre a item post b x1 s4 s5 s6 x2 item' ch ck b' El J Hf Hu.
    pose proof (fgd_step _ _ _ _ _ _ _ _ _ _ _ _ _ _ El J Hf) as J2.
    destruct (ch || ck); [|by destruct Hu as [-> ->]].
    pose proof (quiet_update b a ck (fun r => (if ch then item' else r, tt)) s5) as Q. rewrite Hu in Q. unfold same, quiet in Q. cbn [fst] in Q.
    pose proof (tasks_update b a ck (fun r => (if ch then item' else r, tt)) s5) as QT. rewrite Hu in QT. cbn [fst] in QT.
    apply bu_update_ok in Hu as (_ & _ & _ & _ & _ & QR).
    injection Q as Q1 Q2 Q3 Q4 Q5 Q6.
    destruct J2 as (F & T & Ft & SB & MV & NM).
    assert (EB : balance s6 = balance s5) by (by apply balance_same).
    assert (ER : requests s6 = requests s5) by (unfold requests; by rewrite Q3).
    assert (EN : next_accrual s6 = next_accrual s5) by (unfold next_accrual; by rewrite Q3).
    split_and!; [congruence|by transitivity s5|done| | |].
    - intros d. by rewrite (total_same s5 s6 Q1).
    - intros y Hy. rewrite EB, ER, EN. destruct (MV y Hy) as (G1 & G2 & G3 & G4 & G5 & G6). split_and!; try done.
      + intros q Hq HW. apply (G3 q Hq). by apply QT.
      + intros W1 W2. destruct (G5 W1 W2) as (t & W3 & W4 & W5). exists t. split_and!; [done|done|by apply QT].
    - intros y Hy. rewrite Q1, Q3. by apply NM. }
  pose proof (quiet_commit b s4) as Q. rewrite HC in Q. unfold same, quiet in Q. cbn [fst] in Q. injection Q as Q1 Q2 Q3 Q4 Q5 Q6.
  pose proof (tasks_commit b s4) as QT. rewrite HC in QT. cbn [fst] in QT.
  destruct Fd as (D1 & D2 & D3 & D4). destruct Fi as (I1 & I2 & I3 & I4).
  exists x, s4. split; [done|]. split; [congruence|]. split; [congruence|]. split; [|split; [|]].
  - transitivity s1; [done|]. apply tasks_same. congruence.
  - intros d. rewrite Si, Sd, amt_add, !amt_coins_of. rewrite (total_same s4 s' ltac:(congruence)).
    destruct J as (F & _ & _ & SB & _). rewrite SB. assert (E : supply s1 d = supply s d).
    { unfold supply. rewrite Q2. injection F as _ _ _ _ ->. done. }
    rewrite E. unfold delta, uartr, uartrr, uartrd. destruct (N.eqb_spec d 0) as [->|]; [cbn; lia|].
    destruct (N.eqb_spec d 2) as [->|]; [cbn; lia|]. destruct (N.eqb_spec d 1) as [->|]; lia.
  - destruct (iterate_records (fun a r r' => r_coins r' = r_coins r /\ r_banished r' = r_banished r /\ 
       (r_banished r = false -> forall i, (i <= 10)%nat -> line (r_deleg r') i = line (r_coins r) i)) _ _ s s1 x HI) as (P1 & P2 & P3).
    + intros. apply fgd_ref.
    + intros x1 a r s5 s6 x2 r' ch ck r'' E1 E2 Hf _ Hq. apply fgd_one_ok in Hf as (-> & _ & _ & _ & _ & _ & _ & _ & B1 & B2 & B3 & _).
      specialize (Hq eq_refl). assert (r'' = r') as -> by (destruct ch; [done|rewrite B3; done]).
      destruct (r_banished r) eqn:Eb.
      * rewrite B1 by done. by split_and!.
      * destruct (B2 eq_refl) as [(d & t & ->) L]. split_and!; [done|done|]. intros _. exact L.
    + assert (ER : forall y, ref_get s' y = ref_get s1 y) by (intros y; unfold ref_get; by rewrite I1, D1).
      split.
      * intros a r Hr. rewrite ER. by apply P1.
      * intros a. rewrite I1, D1. split; [apply P3|]. intros [r Hr]. destruct (st_ref s !! a) eqn:E; [by eexists|]. apply P2 in E. congruence.
Qed.
Lemma refresh_ok s s' : refresh_statuses s = (s', Ok tt) ->
  quiet s' = quiet s /\ tasks_step s s' /\
  (forall a r, st_ref s !! a = Some r -> eqs (normalize r) (ref_get s' a)) /\
  (forall a, is_Some (st_ref s !! a) <-> is_Some (st_ref s' !! a)).
Proof.
  intros H. unfold refresh_statuses in H. split; [|split].
  - pose proof (rel_iterate (same quiet) tt (fun (x : unit) (_ : addr) r => ret (x, r, false, true))
      ltac:(intros; apply rel_ret; apply _) ltac:(intros; apply quiet_update) ltac:(intros; apply quiet_commit) s) as F.
    by rewrite H in F.
  - pose proof (rel_iterate tasks_step tt (fun (x : unit) (_ : addr) r => ret (x, r, false, true))
      ltac:(intros; apply rel_ret; apply _) ltac:(intros; apply tasks_update) ltac:(intros; apply tasks_commit) s) as F.
    by rewrite H in F.
  - destruct (iterate_records (fun a r r' => eqs (normalize r) r') _ _ s s' tt H) as (P1 & P2 & P3).
    + intros. apply rel_ret; apply _.
    + intros x a r s1 s2 x2 r' ch ck r'' _ _ Hf Q _. apply ret_ok in Hf as [-> Hf]. injection Hf as -> -> -> ->. done.
    + split; [done|]. intros a. split; [apply P3|]. intros [r Hr]. destruct (st_ref s !! a) eqn:E; [by eexists|]. apply P2 in E. congruence.
Qed.

(** ** The other upgrades do not touch the coins *)
Definition money (s : St) := (st_bal s, st_supply s).
Lemma money_update b a ck (g : rinfo -> rinfo * unit) : rel (same money) (bu_update b a ck g).
Proof. intros s. pose proof (quiet_update b a ck g s) as F. unfold same, quiet, money in *. congruence. Qed.
Lemma money_commit b : rel (same money) (bu_commit b).
Proof. intros s. pose proof (quiet_commit b s) as F. unfold same, quiet, money in *. congruence. Qed.
Lemma money_schedule t h d : rel (same money) (schedule_task t h d).
Proof. intros s. pose proof (schedule_fixed t h d s) as F. unfold same, fixed, money in *. congruence. Qed.
Lemma money_come_back a : rel (same money) (come_back a).
Proof.
  assert (F1 : rel (same st_bal) (come_back a)) by frame. assert (F2 : rel (same st_supply) (come_back a)) by frame.
  intros s. specialize (F1 s). specialize (F2 s). unfold same, money in *. congruence.
Qed.
Lemma money_switch_off a : rel (same money) (switch_off a).
Proof.
  assert (F1 : rel (same st_bal) (switch_off a)) by frame. assert (F2 : rel (same st_supply) (switch_off a)) by frame.
  intros s. specialize (F1 s). specialize (F2 s). unfold same, money in *. congruence.
Qed.
Lemma money_qualified a : rel (same money) (is_qualified a).
Proof.
  assert (F1 : rel (same st_bal) (is_qualified a)) by frame. assert (F2 : rel (same st_supply) (is_qualified a)) by frame.
  intros s. specialize (F1 s). specialize (F2 s). unfold same, money in *. congruence.
Qed.
Lemma money_put a r : rel (same money) (ref_put a r).
Proof. unfold ref_put. apply rel_modify. intros s. reflexivity. Qed.
Lemma money_params p : rel (same money) (set_bparams p).
Proof.
  assert (F1 : rel (same st_bal) (set_bparams p)) by frame. assert (F2 : rel (same st_supply) (set_bparams p)) by frame.
  intros s. specialize (F1 s). specialize (F2 s). unfold same, money in *. congruence.
Qed.
#[local] Hint Resolve money_update money_commit money_schedule money_come_back money_switch_off money_qualified money_put money_params : rel.
Ltac money_step :=
  first [ progress rel_struct
        | solve [auto 3 with rel]
        | (apply rel_modify; intros ?; unfold same, money; reflexivity)
        | progress (unfold fr, check_key) ].
Lemma money_refresh : rel (same money) refresh_statuses.
Proof. unfold refresh_statuses. apply rel_iterate; [apply _|intros..]; repeat money_step. Qed.
Lemma money_others plan company v : v <> V221 -> v <> V252 -> rel (same money) (upgrade plan company v).
Proof.
  pose proof money_refresh as MR. intros N1 N2. destruct v; cbn [upgrade]; try (exfalso; by apply N1); try (exfalso; by apply N2).
  - unfold recalculate_active. apply rel_iterate; [apply _|intros..]; try solve [repeat money_step]. unfold recalc_one. repeat money_step.
  - unfold schedule_banishment_fix, ban_instant, ban_task. repeat money_step.
  - unfold init_poll_period, force_status_callback. repeat money_step.
  - exact MR.
  - unfold transfer_from_banished, unbanish_delegated. repeat money_step; apply rel_modify; intros s; destruct (ofold _ _ _); reflexivity.
  - unfold init_tx_fee. repeat money_step.
  - unfold update_downgrade_tasks. repeat money_step.
  - unfold init_max_fee, fix_downgrade_tasks. repeat money_step.
  - unfold schedule_missing. repeat money_step. apply rel_iterate; [apply _|intros..]; try solve [repeat money_step]. unfold missing_one. repeat money_step.
  - unfold init_split. repeat money_step.
  - unfold init_blocked. repeat money_step.
  - unfold clean_earning. repeat money_step.
  - unfold deactivate_top, add_missing_refresh. repeat money_step.
  - repeat money_step.
Qed.

(** ** 2.5.2: the collectors of x/earning are emptied *)
Lemma collectors_ok s s' : empty_collectors s = (s', Ok tt) ->
  let company := rp_company (st_rp s) in
  company <> earning_acc -> company <> vpn_acc -> company <> storage_acc ->
  st_supply s' = st_supply s /\ (forall d, sum_bal s' d = sum_bal s d) /\
  (forall a d, bal s' a d = if (a =? company)%N then bal s company d + bal s earning_acc d + bal s vpn_acc d + bal s storage_acc d
                            else if (a =? earning_acc)%N || (a =? vpn_acc)%N || (a =? storage_acc)%N then 0 else bal s a d).
Proof.
  cbv zeta. intros H N1 N2 N3. unfold empty_collectors in H.
  apply bind_ok in H as (company & s1 & E & H). apply get_ok in E as [-> ->].
  set (company := rp_company (st_rp s)) in *.
  apply bind_ok in H as (c & s1 & E & H). apply get_ok in E as [-> ->].
  apply bind_ok in H as ([] & s1 & E1 & H). apply bind_ok in H as ([] & s2 & E2 & H). apply bind_ok in H as ([] & s3 & E3 & H).
  apply (proj1 (must_ok _ _ _ _)) in E1, E2, E3, H.
  apply set_balance_ok in E1 as (_ & B1 & S1 & _). apply set_balance_ok in E2 as (_ & B2 & S2 & _).
  apply set_balance_ok in E3 as (_ & B3 & S3 & _). apply set_balance_ok in H as (_ & B4 & S4 & _).
  assert (G : forall s s' a c, st_bal s' = put_bal (st_bal s) a c -> (forall x, balance s' x = if (x =? a)%N then c else balance s x)
     /\ forall d, sum_bal s' d = sum_bal s d - bal s a d + amt c d).
  { intros z z' a c E. split; [intros x; unfold balance at 1; by rewrite E, put_bal_lookup|].
    intros d. unfold sum_bal. rewrite E. apply put_bal_sum. }
  apply G in B1 as [B1 T1]. apply G in B2 as [B2 T2]. apply G in B3 as [B3 T3]. apply G in B4 as [B4 T4].
  assert (BB : forall a d, bal s' a d = if (a =? company)%N then bal s company d + bal s earning_acc d + bal s vpn_acc d + bal s storage_acc d
                            else if (a =? earning_acc)%N || (a =? vpn_acc)%N || (a =? storage_acc)%N then 0 else bal s a d).
  { intros a d. unfold bal at 1. rewrite B4, B3, B2, B1.
    destruct (N.eqb_spec a company) as [->|Hc].
    - rewrite (proj2 (N.eqb_neq _ _) N1), (proj2 (N.eqb_neq _ _) N2), (proj2 (N.eqb_neq _ _) N3). rewrite !amt_add. done.
    - destruct (a =? storage_acc)%N, (a =? vpn_acc)%N, (a =? earning_acc)%N; cbn; rewrite ?amt_empty; done. }
  split; [congruence|]. split; [|done].
  intros d. rewrite T4, T3, T2, T1, !amt_empty, !amt_add. unfold bal. rewrite B3, B2, B1.
  rewrite ?B2, ?B1.
  change (storage_acc =? vpn_acc)%N with false. change (storage_acc =? earning_acc)%N with false. change (vpn_acc =? earning_acc)%N with false.
  rewrite !(proj2 (N.eqb_neq _ _) (not_eq_sym N1)), !(proj2 (N.eqb_neq _ _) (not_eq_sym N2)), !(proj2 (N.eqb_neq _ _) (not_eq_sym N3)). cbv iota. lia.
Qed.
