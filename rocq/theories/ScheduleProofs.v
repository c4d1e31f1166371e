(** * Proofs about the schedule *)
From Verif Require Export Sweep Spec_Schedule.

(** ** Keys *)
Fixpoint be_value (l : list Z) (acc : Z) : Z :=
  match l with [] => acc | b :: r => be_value r (256 * acc + b) end.
Lemma be_value_lt l : Forall (fun b => 0 <= b < 256) l ->
  forall a c, be_value l a < be_value l c <-> a < c.
Proof.
  induction 1 as [|b l Hb Hl IH]; intros a c; cbn; [reflexivity|].
  rewrite IH. lia.
Qed.
Lemma be_value_range l : Forall (fun b => 0 <= b < 256) l -> forall a c,
  a < c -> be_value l a < be_value (repeat 0 (List.length l)) c.
Proof.
  induction 1 as [|b l Hb Hl IH]; intros a c H; cbn; [lia|]. apply IH. lia.
Qed.
Lemma be_value_low l : Forall (fun b => 0 <= b < 256) l -> forall a,
  be_value (repeat 0 (List.length l)) a <= be_value l a.
Proof.
  induction 1 as [|b l Hb Hl IH]; intros a; cbn; [lia|].
  specialize (IH (256 * a + b)).
  assert (forall n x y, x <= y -> be_value (repeat 0 n) x <= be_value (repeat 0 n) y) as Hm.
  { induction n; cbn; intros; [lia|apply IHn; lia]. }
  specialize (Hm (List.length l) (256 * a + 0) (256 * a + b)). lia.
Qed.
Lemma bytes_order x : forall y acc acc',
  List.length x = List.length y ->
  Forall (fun b => 0 <= b < 256) x -> Forall (fun b => 0 <= b < 256) y -> acc = acc' ->
  (bytes_before x y <-> be_value x acc < be_value y acc').
Proof.
  induction x as [|a x IH]; intros [|b y] acc acc' Hl Hx Hy <-; cbn in *; try lia.
  inversion Hx as [|? ? Ha Hx']; inversion Hy as [|? ? Hb Hy']; subst. injection Hl as Hl.
  split.
  - intros [H|[-> H]].
    + pose proof (be_value_range x Hx' (256 * acc + a) (256 * acc + b) ltac:(lia)).
      rewrite Hl in H0. pose proof (be_value_low y Hy' (256 * acc + b)). lia.
    + apply (IH y); auto.
  - intros H. destruct (Z.lt_trichotomy a b) as [Hlt|[->|Hgt]].
    + by left.
    + right. split; [reflexivity|]. by apply (IH y (256 * acc + b) (256 * acc + b)).
    + exfalso.
      pose proof (be_value_range y Hy' (256 * acc + b) (256 * acc + a) ltac:(lia)).
      rewrite <- Hl in H0. pose proof (be_value_low x Hx' (256 * acc + a)). lia.
Qed.
Lemma key_value t bs : key t = Some bs ->
  be_value bs 0 = t /\ List.length bs = 8%nat /\ Forall (fun b => 0 <= b < 256) bs.
Proof.
  unfold key. destruct (key_ok t) eqn:Hk; [|discriminate]. intros [= <-].
  unfold key_ok in Hk. apply andb_prop in Hk as [H1 H2].
  assert (0 <= t < 9246182400000000000) by (unfold time_limit in *; lia). clear H1 H2.
  cbn [map List.length]. split; [|split; [reflexivity|]].
  - cbn [be_value]. rewrite !Z.shiftr_div_pow2 by lia.
    change (8 * 7) with 56. change (8 * 6) with 48. change (8 * 5) with 40. change (8 * 4) with 32.
    change (8 * 3) with 24. change (8 * 2) with 16. change (8 * 1) with 8. change (8 * 0) with 0.
    change (2 ^ 0) with 1. rewrite Z.div_1_r.
    assert (E : forall k, 0 <= k -> t / 2 ^ k = 256 * (t / 2 ^ (k + 8)) + (t / 2 ^ k) mod 256).
    { intros k Hk. rewrite Z.pow_add_r by lia. change (2 ^ 8) with 256.
      rewrite <- Z.div_div by (try apply Z.pow_pos_nonneg; lia). apply Z.div_mod. lia. }
    assert (Z0 : t / 2 ^ 64 = 0) by (apply Z.div_small; lia).
    pose proof (E 56 ltac:(lia)) as E7. change (56 + 8) with 64 in E7. rewrite Z0 in E7.
    pose proof (E 48 ltac:(lia)) as E6. change (48 + 8) with 56 in E6.
    pose proof (E 40 ltac:(lia)) as E5. change (40 + 8) with 48 in E5.
    pose proof (E 32 ltac:(lia)) as E4. change (32 + 8) with 40 in E4.
    pose proof (E 24 ltac:(lia)) as E3. change (24 + 8) with 32 in E3.
    pose proof (E 16 ltac:(lia)) as E2. change (16 + 8) with 24 in E2.
    pose proof (E 8 ltac:(lia)) as E1. change (8 + 8) with 16 in E1.
    pose proof (Z.div_mod t 256 ltac:(lia)) as E0. change 256 with (2 ^ 8) in E0 at 1 2.
    change (2 ^ 8) with 256 in *. lia.
  - repeat constructor; apply Z.mod_pos_bound; lia.
Qed.

Lemma c15 : forall t1 t2 b1 b2, key t1 = Some b1 -> key t2 = Some b2 ->
  (bytes_before b1 b2 <-> t1 < t2) /\ (b1 = b2 <-> t1 = t2).
Proof.
  intros t1 t2 b1 b2 H1 H2.
  destruct (key_value _ _ H1) as (V1 & L1 & F1). destruct (key_value _ _ H2) as (V2 & L2 & F2).
  split.
  - rewrite (bytes_order b1 b2 0 0) by (congruence || assumption). by rewrite V1, V2.
  - split; [intros ->; congruence|intros ->; congruence].
Qed.
Lemma c15_accepted t : (exists b, key t = Some b) <-> 0 <= t < time_limit.
Proof.
  unfold key, key_ok. destruct ((0 <=? t) && (t <? time_limit)) eqn:E.
  - split; [intros _; lia|eauto].
  - split; [intros [? ?]; discriminate|lia].
Qed.

(** ** Running the schedule *)
Lemma perform_one_after hooks t s : perform_one hooks t s = (after_task hooks t s, Ok tt).
Proof.
  unfold perform_one, after_task. destruct (hooks (t_hook t)) as [h|]; [|reflexivity].
  destruct (h (t_data t) (t_time t) s) as [s1 [x|e|e]]; reflexivity.
Qed.
Lemma perform_list hooks ts s : mfor ts (perform_one hooks) s = (after_tasks hooks ts s, Ok tt).
Proof.
  revert s. induction ts as [|t ts IH]; intros s; cbn; [reflexivity|].
  unfold bind. rewrite perform_one_after. apply IH.
Qed.
Lemma after_tasks_app hooks l1 l2 s :
  after_tasks hooks (l1 ++ l2) s = after_tasks hooks l2 (after_tasks hooks l1 s).
Proof. revert s. induction l1 as [|t l1 IH]; intros s; cbn; auto. Qed.
Lemma perform_batch hooks b s :
  mfor b (fun ts => mfor ts (perform_one hooks)) s = (after_tasks hooks (List.concat b) s, Ok tt).
Proof.
  revert s. induction b as [|ts b IH]; intros s; cbn; [reflexivity|].
  unfold bind. rewrite perform_list, IH, after_tasks_app. reflexivity.
Qed.
Lemma flat_map_concat {A B} (f : A -> list B) l : flat_map f l = List.concat (map f l).
Proof. induction l as [|x l IH]; cbn; congruence. Qed.

Lemma elem_of_due s k : k ∈ due_keys s <-> k <= st_now s /\ is_Some (st_sched s !! k).
Proof.
  unfold due_keys. rewrite <- elem_of_keysZ. rewrite !elem_of_list_In, filter_In.
  rewrite <- elem_of_list_In, elem_of_keysZ. split.
  - intros [H1 H2]. split; [lia|done].
  - intros [H1 H2]. split; [done|lia].
Qed.
Lemma sorted_filter {A} (S : A -> A -> Prop) f (l : list A) :
  StronglySorted S l -> StronglySorted S (List.filter f l).
Proof.
  induction 1 as [|x l Hl IH HF]; cbn; [constructor|].
  destruct (f x); [|done]. constructor; [done|].
  rewrite Forall_forall in *. intros y Hy. apply HF.
  apply elem_of_list_In in Hy. apply filter_In in Hy as [Hy _]. by apply elem_of_list_In.
Qed.
Lemma sorted_due s : StronglySorted Z.lt (due_keys s).
Proof. apply sorted_filter, sorted_keysZ. Qed.
Lemma foldr_delete_lookup {A} (m : gmap Z A) ks k :
  foldr base.delete m ks !! k = if bool_decide (k ∈ ks) then None else m !! k.
Proof.
  induction ks as [|x ks IH]; cbn.
  - rewrite bool_decide_false; [done|apply not_elem_of_nil].
  - destruct (decide (k = x)) as [->|Hne].
    + rewrite lookup_delete, bool_decide_true; [done|left].
    + rewrite lookup_delete_ne by done. rewrite IH. apply bool_decide_ext in Hne || idtac.
      case_bool_decide as H1; case_bool_decide as H2; try done.
      * exfalso. apply H2. by right.
      * exfalso. apply elem_of_cons in H2 as [?|?]; done.
Qed.

Lemma perform_schedule_eq hooks s : 0 <= st_now s + 1 < time_limit ->
  perform_schedule hooks s =
    (let s1 := after_tasks hooks (flat_map (tasks_at s) (due_keys s)) s in
     s1 <| st_sched := foldr base.delete (st_sched s1) (due_keys s) |>, Ok tt).
Proof.
  intros H. unfold perform_schedule, check_key, bind, get, assert, key_ok.
  replace ((0 <=? st_now s + 1) && (st_now s + 1 <? time_limit)) with true by lia.
  cbn [ret]. change (map (fun k => default [] (st_sched s !! k)) (due_keys s))
    with (map (tasks_at s) (due_keys s)).
  rewrite perform_batch, flat_map_concat. reflexivity.
Qed.
Lemma due_keys_spec s : sched_ok s ->
  forall k, k ∈ due_keys s <-> k <= st_now s /\ tasks_at s k <> [].
Proof.
  intros Hok k. rewrite elem_of_due. unfold tasks_at. split.
  - intros [H1 [ts H2]]. split; [done|]. rewrite H2. cbn. by destruct (Hok _ _ H2).
  - intros [H1 H2]. split; [done|]. destruct (st_sched s !! k) as [ts|]; [eauto|done].
Qed.
Lemma c16 : forall hooks s, sched_ok s -> 0 <= st_now s -> st_now s + 1 < time_limit ->
  exists ts s', perform_schedule hooks s = (s', Ok tt) /\
    due_in_order (st_now s) s ts /\
    let s1 := after_tasks hooks ts s in
    s' = s1 <| st_sched := st_sched s' |> /\
    (forall k, k <= st_now s -> tasks_at s k <> [] -> tasks_at s' k = []) /\
    (forall k, k <= st_now s -> tasks_at s k = [] -> tasks_at s' k = tasks_at s1 k) /\
    (forall k, st_now s < k -> tasks_at s' k = tasks_at s1 k).
Proof.
  intros hooks s Hok H0 H1. rewrite perform_schedule_eq by lia.
  exists (flat_map (tasks_at s) (due_keys s)). eexists. split; [reflexivity|]. split.
  { exists (due_keys s). split; [apply sorted_due|]. split; [by apply due_keys_spec|reflexivity]. }
  cbn zeta. set (s1 := after_tasks _ _ _).
  assert (L : forall k, tasks_at (s1 <| st_sched := foldr base.delete (st_sched s1) (due_keys s) |>) k =
             if bool_decide (k ∈ due_keys s) then [] else tasks_at s1 k).
  { intros k. unfold tasks_at. cbn [st_sched set]. change (st_sched (set st_sched _ s1)) with
      (foldr base.delete (st_sched s1) (due_keys s)). rewrite foldr_delete_lookup. by case_bool_decide. }
  split; [reflexivity|]. split; [|split]; intros k Hk; [intros Hn|intros Hn|].
  - rewrite L, bool_decide_true; [done|]. by apply due_keys_spec.
  - rewrite L, bool_decide_false; [done|]. intros H. apply due_keys_spec in H as [_ H]; done.
  - rewrite L, bool_decide_false; [done|]. intros H. apply due_keys_spec in H as [H _]; [lia|done].
Qed.
(** A new task goes behind the others of its instant. *)
Lemma c16_schedule t h d s : 0 <= t < time_limit ->
  exists s', schedule_task t h d s = (s', Ok tt) /\ s' = s <| st_sched := st_sched s' |> /\
    tasks_at s' t = tasks_at s t ++ [Task t h d] /\
    forall k, k <> t -> tasks_at s' k = tasks_at s k.
Proof.
  intros H. unfold schedule_task, schedule_task', check_key, bind, assert, key_ok. cbn [t_time].
  replace ((0 <=? t) && (t <? time_limit)) with true by lia. cbn [ret]. unfold modify.
  eexists. split; [reflexivity|]. split; [reflexivity|]. unfold tasks_at. split.
  - change (st_sched (set st_sched _ _)) with (<[t:=default [] (st_sched s !! t) ++ [Task t h d]]> (st_sched s)).
    by rewrite lookup_insert.
  - intros k Hk.
    change (st_sched (set st_sched _ _)) with (<[t:=default [] (st_sched s !! t) ++ [Task t h d]]> (st_sched s)).
    by rewrite lookup_insert_ne.
Qed.

(** ** Deleting *)
Lemma delete_where_at t p s s' : delete_where t p s = (s', Ok tt) ->
  s' = s <| st_sched := st_sched s' |> /\
  tasks_at s' t = List.filter (fun x => negb (p x)) (tasks_at s t) /\
  forall k, k <> t -> tasks_at s' k = tasks_at s k.
Proof.
  unfold delete_where, check_key. intros H. minv. unfold tasks_at.
  destruct (st_sched s !! t) as [items|] eqn:E.
  2:{ split; [by destruct s|]. split; [by rewrite E|done]. }
  split; [reflexivity|].
  change (st_sched (set st_sched (fun _ => ?v) s)) with v. cbn [default].
  set (m := match List.filter (fun x => negb (p x)) items with
            | [] => base.delete t (st_sched s)
            | _ => <[t := List.filter (fun x => negb (p x)) items]> (st_sched s) end).
  assert (Hm : m !! t = match List.filter (fun x => negb (p x)) items with [] => None | l => Some l end).
  { unfold m. destruct (List.filter _ items); [apply lookup_delete|apply lookup_insert]. }
  assert (Hk : forall k, k <> t -> m !! k = st_sched s !! k).
  { intros k Hk. unfold m. destruct (List.filter _ items);
      [apply lookup_delete_ne; congruence|apply lookup_insert_ne; congruence]. }
  split.
  - transitivity (default [] (m !! t)); [reflexivity|]. rewrite Hm. unfold id. by destruct (List.filter _ items).
  - intros k Hne. transitivity (default [] (m !! k)); [reflexivity|]. by rewrite Hk.
Qed.
Lemma delete_where_total t p s : 0 <= t < time_limit -> exists s', delete_where t p s = (s', Ok tt).
Proof.
  intros H. unfold delete_where, check_key, bind, assert, key_ok, modify.
  replace ((0 <=? t) && (t <? time_limit)) with true by lia. cbn. eauto.
Qed.

(** ** Well-formedness is kept *)
Lemma sched_ok_task t : rel (keeps sched_ok) (schedule_task' t).
Proof.
  unfold schedule_task', check_key. intros s. unfold bind, assert.
  destruct (key_ok (t_time t)) eqn:Hk; [|cbn; intros H; exact H].
  cbn. intros Hs k ts.
  change (st_sched (set st_sched (fun _ => ?v) s)) with v.
  destruct (decide (k = t_time t)) as [->|Hne].
  - rewrite lookup_insert. intros [= <-]. split; [by destruct (default [] (st_sched s !! t_time t))|].
    unfold key_ok in Hk. split; [|lia].
    apply Forall_app. split; [|by repeat constructor].
    destruct (st_sched s !! t_time t) as [l|] eqn:E; cbn; [|constructor]. by destruct (Hs _ _ E) as (_ & ? & _).
  - rewrite lookup_insert_ne by done. apply Hs.
Qed.
Lemma Forall_filter' {A} (P : A -> Prop) f (l : list A) : Forall P l -> Forall P (List.filter f l).
Proof. induction 1; cbn; [constructor|]. destruct (f x); [by constructor|done]. Qed.
Lemma sched_ok_delete t p : rel (keeps sched_ok) (delete_where t p).
Proof.
  unfold delete_where, check_key. intros s. unfold bind, assert.
  destruct (key_ok t) eqn:Hk; [|cbn; intros H; exact H].
  cbn. intros Hs k ts. destruct (st_sched s !! t) as [items|] eqn:E; [|apply Hs].
  change (st_sched (set st_sched (fun _ => ?v) s)) with v.
  destruct (List.filter (fun x => negb (p x)) items) as [|y l] eqn:F.
  - destruct (decide (k = t)) as [->|Hne]; [by rewrite lookup_delete|].
    rewrite lookup_delete_ne by done. apply Hs.
  - destruct (decide (k = t)) as [->|Hne].
    + rewrite lookup_insert. intros [= <-]. split; [done|].
      destruct (Hs _ _ E) as (_ & HF & HR). split; [|done]. rewrite <- F. by apply Forall_filter'.
    + rewrite lookup_insert_ne by done. apply Hs.
Qed.
Lemma sched_ok_due ks s : keeps sched_ok s (s <| st_sched := foldr base.delete (st_sched s) ks |>).
Proof.
  intros Hs k ts. change (st_sched (set st_sched (fun _ => ?v) s)) with v.
  rewrite foldr_delete_lookup. case_bool_decide; [done|]. apply Hs.
Qed.
Lemma sched_ok_fields s s' : st_sched s' = st_sched s -> keeps sched_ok s s'.
Proof. intros E H k ts. rewrite E. apply H. Qed.
#[export] Hint Extern 1 (keeps sched_ok _ _) => (apply sched_ok_fields; reflexivity) : frame.
#[export] Hint Resolve sched_ok_task sched_ok_delete : frame.
Lemma sched_ok_blocks bs s s' us : run_blocks bs s = Some (s', us) -> sched_ok s -> sched_ok s'.
Proof.
  intros H. pose proof sched_ok_due.
  apply (sw_run_blocks (keeps sched_ok)) in H; [exact H|..]; auto 6 with frame.
Qed.

(** ** Genesis *)
Lemma import_step l : forall s, Forall (fun t => 0 <= t_time t < time_limit) l ->
  exists s', sched_import l s = (s', Ok tt) /\ s' = s <| st_sched := st_sched s' |> /\
    (forall k, st_sched s' !! k =
       match List.filter (fun t => t_time t =? k) l with
       | [] => st_sched s !! k
       | ts => Some (default [] (st_sched s !! k) ++ ts)
       end).
Proof.
  induction l as [|t l IH]; intros s HF.
  - exists s. split; [reflexivity|]. split; [by destruct s|done].
  - inversion HF as [|? ? Ht Hl]; subst.
    set (s1 := s <| st_sched := <[ t_time t := default [] (st_sched s !! t_time t) ++ [t] ]> (st_sched s) |>).
    assert (E1 : schedule_task' t s = (s1, Ok tt)).
    { unfold schedule_task', check_key, bind, assert, key_ok, modify.
      replace ((0 <=? t_time t) && (t_time t <? time_limit)) with true by lia. reflexivity. }
    destruct (IH s1 Hl) as (s' & E & F & K). exists s'. split; [|split].
    + unfold sched_import in *. cbn. unfold bind. rewrite E1. exact E.
    + rewrite F. by destruct s'.
    + intros k. rewrite K. cbn [List.filter].
      change (st_sched s1) with (<[ t_time t := default [] (st_sched s !! t_time t) ++ [t] ]> (st_sched s)).
      destruct (t_time t =? k) eqn:Ek.
      * assert (t_time t = k) as <- by lia. rewrite lookup_insert. cbn [default].
        destruct (List.filter _ l); [reflexivity|]. f_equal. cbn. by rewrite <- app_assoc.
      * rewrite lookup_insert_ne by lia. reflexivity.
Qed.
Lemma filter_export s k : sched_ok s ->
  List.filter (fun t => t_time t =? k) (sched_export s) = tasks_at s k.
Proof.
  intros Hok. unfold sched_export.
  assert (A : forall ks, NoDup ks ->
    List.filter (fun t => t_time t =? k) (flat_map (fun x => default [] (st_sched s !! x)) ks) =
    if bool_decide (k ∈ ks) then tasks_at s k else []).
  { induction 1 as [|x ks Hx Hn IH]; cbn.
    - rewrite bool_decide_false; [done|apply not_elem_of_nil].
    - rewrite List.filter_app, IH.
      assert (B : List.filter (fun t => t_time t =? k) (default [] (st_sched s !! x)) =
                  if x =? k then tasks_at s k else []).
      { unfold tasks_at. destruct (x =? k) eqn:E.
        - assert (x = k) as -> by lia.
          destruct (st_sched s !! k) as [l|] eqn:F; [|done]. cbn.
          destruct (Hok _ _ F) as (_ & HF & _). clear F.
          induction HF as [|t l Ht HF IHF]; cbn; [done|].
          replace (t_time t =? k) with true by lia. by f_equal.
        - destruct (st_sched s !! x) as [l|] eqn:F; [|done]. cbn.
          destruct (Hok _ _ F) as (_ & HF & _). clear F.
          induction HF as [|t l Ht HF IHF]; cbn; [done|].
          replace (t_time t =? k) with false by lia. done. }
      rewrite B. destruct (x =? k) eqn:E.
      + assert (x = k) as -> by lia.
        rewrite bool_decide_false by done. rewrite bool_decide_true by left. apply app_nil_r.
      + cbn. case_bool_decide as H1; case_bool_decide as H2; try done.
        * exfalso. apply H2. by right.
        * exfalso. apply elem_of_cons in H2 as [->|?]; [lia|done]. }
  rewrite A by apply NoDup_keysZ. case_bool_decide as H; [done|].
  unfold tasks_at. destruct (st_sched s !! k) eqn:E; [|done]. exfalso. apply H, elem_of_keysZ. eauto.
Qed.
Lemma c19 : forall s s0, sched_ok s -> st_sched s0 = ∅ ->
  exists s', sched_import (sched_export s) s0 = (s', Ok tt) /\
             s' = s0 <| st_sched := st_sched s |>.
Proof.
  intros s s0 Hok H0.
  assert (HF : Forall (fun t => 0 <= t_time t < time_limit) (sched_export s)).
  { rewrite Forall_forall. intros t Ht. unfold sched_export in Ht.
    apply elem_of_list_In, in_flat_map in Ht as (k & _ & Ht).
    destruct (st_sched s !! k) as [l|] eqn:E; [|destruct Ht]. cbn in Ht.
    destruct (Hok _ _ E) as (_ & HF & HR). rewrite Forall_forall in HF.
    rewrite (HF t); [done|]. by apply elem_of_list_In. }
  destruct (import_step _ s0 HF) as (s' & E & F & K). exists s'. split; [exact E|].
  rewrite F. f_equal. enough (Q : st_sched s' = st_sched s) by (by rewrite Q).
  apply map_eq. intros k. rewrite K, filter_export by done. rewrite H0, lookup_empty. unfold tasks_at.
  destruct (st_sched s !! k) as [l|] eqn:El; cbn; [|done].
  destruct l; [by destruct (Hok _ _ El)|done].
Qed.

(** ** Examining a concrete schedule *)
Definition all_tasks (f : task -> bool) (s : St) : bool :=
  forallb (fun e => forallb f (snd e)) (map_to_list (st_sched s)).
Lemma all_tasks_spec f s : all_tasks f s = true -> forall k t, t ∈ tasks_at s k -> f t = true.
Proof.
  unfold all_tasks, tasks_at. intros A k t Hk.
  destruct (st_sched s !! k) as [l|] eqn:E; cbn in Hk; [|by apply not_elem_of_nil in Hk].
  rewrite forallb_forall in A. specialize (A (k, l)).
  assert (In (k, l) (map_to_list (st_sched s))) as HI by (by apply elem_of_list_In, elem_of_map_to_list).
  specialize (A HI). cbn [snd] in A. rewrite forallb_forall in A. apply A. by apply elem_of_list_In.
Qed.
