(** * The upgrade to 2.1.0: C107 *)
From Verif Require Props_Noding.
From Verif Require Import Schedule Blocks Spec_Upgrade210 Spec_Noding Spec_Profile Props_Network Props_Upgrade UpgradeBan Witness Upgrade.
Open Scope Z_scope.

(** ** C107: the upgrade to 2.1.0 makes the scheduled banishments right *)
Theorem C107_banishments : forall plan company s s', upgrade plan company V210 s = (s', Ok tt) -> 0 <= bp_dust (st_bp s) ->
  (* a banishment stays scheduled if and only if the account is to be banished; none is added *)
  (forall t a, waiting s' t HBanish a <-> waiting s t HBanish a /\ condemned s a) /\
  (* the record of an account that stays scheduled says when; the others' say nothing *)
  (in_place s -> forall t a, waiting s t HBanish a -> condemned s a -> exists t', r_banishment_at (ref_get s' a) = Some t' /\ waiting s' t' HBanish a) /\
  (forall t a, waiting s t HBanish a -> ~ condemned s a -> r_banishment_at (ref_get s' a) = None) /\
  (* a compression that such a record says is ahead, is *)
  (forall t a c, waiting s t HBanish a -> r_compression_at (ref_get s' a) = Some c -> st_now s < c -> waiting s' c HCompression a) /\
  (* those banished though they pay are back, unless that fails; nobody else returns or is banished *)
  (forall a, unfair s a -> banished s' a = false \/ kept_out s a) /\
  (forall a, ~ unfair s a -> banished s' a = banished s a) /\
  (* the other tasks wait on, nobody's payment is touched and no record is lost *)
  (forall t x, x ∈ tasks_at s t -> t_hook x <> HBanish -> x ∈ tasks_at s' t) /\
  (forall a, active s' a = active s a) /\
  (forall a, registered s a -> registered s' a) /\
  (forall a, (forall t, ~ waiting s t HBanish a) -> ~ unfair s a ->
     r_banishment_at (ref_get s' a) = r_banishment_at (ref_get s a) /\ r_compression_at (ref_get s' a) = r_compression_at (ref_get s a)).
Proof.
  intros plan company s s' H HD. cbn [upgrade] in H. apply ban_fix_ok in H as (H1 & H2 & H3 & H4 & H5 & H6 & H7 & H8 & H9 & H10); [|done].
  split_and!; try done.
  - intros HP t a Hw Hc. destruct (H3 a) as (t' & x & Hx & Hx' & Hq & Hb); [eauto|done|].
    rewrite (HP _ _ Hx) in Hb. exists t'. split; [done|]. exists x. by destruct Hq.
  - intros t a Hw. apply H4. eauto.
  - intros t a c Hw. apply H5. eauto.
  - intros a Hu. destruct (H9 a Hu) as [X|[_ X]]; [by left|by right].
Qed.
Print Assumptions C107_banishments.

(** An earlier version forgot to cancel and to note banishments: 15 is to be
    banished and its record does not say so; 13 pays and is about to be banished;
    14 is said to be compressed later and is not; 12 pays and has been banished. *)
Definition edit (a : addr) (f : rinfo -> rinfo) (s : St) : St := s <| st_ref := <[ a := f (ref_get s a) ]> (st_ref s) |>.
Definition before_210 : St :=
  exec (do! schedule_task (T0 + 3 * day_ns) HBanish 15 in do! schedule_task (T0 + 3 * day_ns) HBanish 13 in
        do! schedule_task (T0 + 4 * day_ns) HBanish 14 in schedule_task (T0 + 4 * day_ns) HRefresh 14)
  (edit 15 (fun r => r <| r_active := false |> <| r_compression_at := None |> <| r_banishment_at := None |>)
  (edit 13 (fun r => r <| r_active := true |> <| r_banishment_at := Some (T0 + 3 * day_ns) |>)
  (edit 14 (fun r => r <| r_active := false |> <| r_compression_at := Some (T0 + 2 * day_ns) |> <| r_banishment_at := Some (T0 + 2 * day_ns) |>)
  (edit 12 (fun r => r <| r_active := true |> <| r_banished := true |>) w0)))).
Definition after_210 : St := exec (upgrade plan0 10 V210) before_210.
Lemma in_place_checked s : Forall (fun t => Forall (fun x => t_time x = t) (tasks_at s t)) (keysZ (st_sched s)) -> in_place s.
Proof.
  rewrite Forall_forall. intros H t x Hx. assert (K : t ∈ keysZ (st_sched s)).
  { apply elem_of_keysZ. unfold tasks_at in Hx. destruct (st_sched s !! t); [eauto|]. by apply elem_of_nil in Hx. }
  specialize (H t K). rewrite Forall_forall in H. by apply H.
Qed.
Lemma none_waiting s t h a : Forall (fun x => ~ (t_hook x = h /\ t_data x = a)) (tasks_at s t) -> ~ waiting s t h a.
Proof. rewrite Forall_forall. intros H (x & Hx & Hq). by apply (H x). Qed.
Example C107_witness : upgrade plan0 10 V210 before_210 = (after_210, Ok tt) /\ bp_dust (st_bp before_210) = 1000000 /\ in_place before_210 /\
  (* 15 and 14 stay scheduled, and the records say when *)
  (waiting before_210 (T0 + 3 * day_ns) HBanish 15 /\ condemned before_210 15 /\ r_banishment_at (ref_get before_210 15) = None /\
   r_banishment_at (ref_get after_210 15) = Some (T0 + 3 * day_ns)) /\
  (waiting before_210 (T0 + 4 * day_ns) HBanish 14 /\ condemned before_210 14 /\
   r_banishment_at (ref_get before_210 14) = Some (T0 + 2 * day_ns) /\ r_banishment_at (ref_get after_210 14) = Some (T0 + 4 * day_ns) /\
   r_compression_at (ref_get before_210 14) = Some (T0 + 2 * day_ns) /\ r_compression_at (ref_get after_210 14) = None) /\
  (* 13 is left alone *)
  (waiting before_210 (T0 + 3 * day_ns) HBanish 13 /\ ~ condemned before_210 13 /\
   r_banishment_at (ref_get before_210 13) <> None /\ r_banishment_at (ref_get after_210 13) = None) /\
  (* 12 is back *)
  unfair before_210 12 /\ banished after_210 12 = false.
Proof.
  split; [apply exec_ok; by vm_compute|]. split; [by vm_compute|].
  split; [apply in_place_checked, (bool_decide_unpack _); vm_compute; exact I|].
  split; [split_and!|split; [split_and!|split; [split_and!|split]]].
  - exists (Task (T0 + 3 * day_ns) HBanish 15). split; [apply (bool_decide_unpack _); vm_compute; exact I|done].
  - split; [by vm_compute|]. split; [by vm_compute|]. split; [by vm_compute|].
    assert (X : r_compression_at (ref_get before_210 15) = None) by (by vm_compute). intros c Hc. rewrite X in Hc. discriminate Hc.
  - by vm_compute.
  - by vm_compute.
  - exists (Task (T0 + 4 * day_ns) HBanish 14). split; [apply (bool_decide_unpack _); vm_compute; exact I|done].
  - split; [by vm_compute|]. split; [by vm_compute|]. split; [by vm_compute|].
    assert (X : r_compression_at (ref_get before_210 14) = Some (T0 + 2 * day_ns)) by (by vm_compute). intros c Hc _. rewrite X in Hc. injection Hc as <-.
    apply none_waiting, (bool_decide_unpack _). vm_compute. exact I.
  - by vm_compute.
  - by vm_compute.
  - by vm_compute.
  - by vm_compute.
  - exists (Task (T0 + 3 * day_ns) HBanish 13). split; [apply (bool_decide_unpack _); vm_compute; exact I|done].
  - intros [X _]. assert (Y : active before_210 13 = true) by (by vm_compute). rewrite Y in X. discriminate X.
  - assert (Y : r_banishment_at (ref_get before_210 13) = Some (T0 + 3 * day_ns)) by (by vm_compute). rewrite Y. discriminate.
  - by vm_compute.
  - split; by vm_compute.
  - by vm_compute.
Qed.
