(** * C33-C39 and C66-C69: validators *)
From Coq Require Import QArith.
From Verif Require Import Spec_Pure OperProofs Witness QualProofs.
Open Scope Z_scope.

(** A chain on which status 1 suffices to run a validator; 11 to 15 delegate and
    switch their nodes on. *)
Definition np1 : nparams := np0 <| np_min_status := 1 |>.
Definition wn : St := exec (set_nparams np1) w0.
Definition sec : Z := 1000000000.
Definition on_blocks : list block :=
  [ blk (T0 + sec) (map (fun a => tx1 (MDelegate a (1000000000 * Z.of_N a))) [11; 12; 13; 14; 15]%N);
    blk (T0 + 2 * sec) (map (fun a => tx1 (MOn a (a + 90))) [11; 12; 13; 14; 15]%N);
    blk (T0 + 3 * sec) [] ].
Definition wn1 : St := after on_blocks wn.
Definition blkv (t : Z) (vs : list (N * bool)) (txs : list tx) : block := mkBlock t 100%N vs [] txs.
(** Key [k] belongs to account [k - 90]. *)
Definition own (k : N) : addr := (k - 90)%N.

(** ** C33 *)

(** In a block in which all votes are by known validators and [z], who is not
    jailed, has one vote: [z] is jailed by the end of it iff that vote is a miss
    and completes the configured number of misses in a row.  It can be released
    after the configured number of blocks. *)
Theorem C33_block : forall b s s' u z x v, run_block b s = Some (s', u) -> proper_nparams (st_np s) ->
  known_voters s (b_votes b) -> votes_of z s (b_votes b) = [v] -> st_val s !! z = Some x -> n_jailed x = false ->
  exists y, st_val s' !! z = Some y /\
    (n_jailed y = true <-> v = false /\ np_jail_after (st_np s) <= n_missed x + 1) /\
    (n_jailed y = false -> n_missed y = if v then 0 else n_missed x + 1) /\
    (n_jailed y = true -> n_unjail_at y = st_height s' + np_unjail_after (st_np s)).
Proof.
  intros b s s' u z x v HB HG HK HV Ex EJ. destruct (vote_block b s s' u z x v HB HG HK HV Ex EJ) as (y & Ey & HY). exists y. split; [done|].
  cbv zeta in HY. destruct HG as (_ & HG & _). destruct v.
  - destruct (_ <=? 0) eqn:B; [lia|]. destruct HY as [Y1 Y2]. rewrite Y1. split_and!; [|done..]. split; [done|]. by intros [? _].
  - destruct (_ <=? _) eqn:B; destruct HY as [Y1 Y2]; rewrite Y1; (split_and!; [|done..]); split; try done; intros; lia.
Qed.
Print Assumptions C33_block.

(** Over a history of blocks in each of which [z] votes once: [z] is jailed at the
    end iff its misses in a row have reached the configured number [J] (for the
    first time). *)
Theorem C33_history : forall z J bs vs s s' x, voted z J bs vs s s' -> times_from (st_now s) bs ->
  proper_nparams (st_np s) -> st_val s !! z = Some x -> n_jailed x = false -> n_missed x < J ->
  (forall n, (n < List.length vs)%nat -> in_a_row (n_missed x) (take n vs) < J) ->
  (jailed s' z = true <-> in_a_row (n_missed x) vs = J).
Proof.
  intros z J bs vs s s' x HV HT HG Ex EJ HM HP. destruct (voted_history z J bs vs s s' x HV HT HG Ex EJ HM HP) as (y & Ey & HY & _).
  unfold jailed. by rewrite Ey.
Qed.
Print Assumptions C33_history.

(** Whatever happens, a jailed validator stays jailed below its release height. *)
Theorem C33_stays : forall bs s s' us z x, run_blocks bs s = Some (s', us) -> times_from (st_now s) bs ->
  st_val s !! z = Some x -> n_jailed x = true -> st_height s' < n_unjail_at x -> jailed s' z = true.
Proof.
  intros bs s s' us z x HB HT Ex EJ HU. pose proof (any_blocks bs s s' us HT HB) as HF.
  destruct (jailed_stays _ s s' HF z x Ex EJ HU) as (y & Ey & HY & _). unfold jailed. by rewrite Ey.
Qed.
Print Assumptions C33_stays.

Theorem C33_unjail : forall a s s', run_msg (MUnjail a) s = (s', Ok tt) ->
  exists x, st_val s !! a = Some x /\ n_jailed x = true /\ n_unjail_at x <= st_height s /\ jailed s' a = false.
Proof.
  intros a s s' H. cbn [run_msg] in H. unfold unjail, val_get in H. unfold bind at 1 in H. destruct (st_val s !! a) as [x|] eqn:E; [|done].
  exists x. split; [done|]. apply bind_ok in H as ([] & s1 & H1 & H). apply ensure_ok in H1 as [-> HJ]. split; [done|].
  apply bind_ok in H as (h & s1 & H1 & H). apply get_ok in H1 as [-> ->].
  apply bind_ok in H as ([] & s1 & H1 & H). apply ensure_ok in H1 as [-> HU]. split; [lia|]. cbv zeta in H.
  apply bind_ok in H as ([q d] & s1 & H1 & H). apply qualified_read in H1 as ->. destruct q.
  - apply bind_ok in H as (d' & s1 & H1 & H). apply lift_ok in H1 as [-> _]. apply bind_ok in H as (f & s1 & H1 & H). apply get_ok in H1 as [-> ->].
    apply modify_ok in H as ->. unfold jailed. cbn. rewrite lookup_insert. unfold update_score. destruct (_ =? _); done.
  - apply modify_ok in H as ->. unfold jailed. cbn. by rewrite lookup_insert.
Qed.
Print Assumptions C33_unjail.

Definition miss_blocks : list block :=
  [ blkv (T0 + 4 * sec) [(100%N, true); (101%N, false)] []; blkv (T0 + 5 * sec) [(100%N, true); (101%N, true)] [];
    blkv (T0 + 6 * sec) [(101%N, false); (100%N, true)] []; blkv (T0 + 7 * sec) [(101%N, false); (100%N, true)] [] ].
(** A checker for the hypothesis *)
Definition knownb (s : St) (e : N * bool) : bool :=
  match st_oper s !! fst e with Some a => bool_decide (is_Some (st_val s !! a)) | None => false end.
Fixpoint votedb (z : addr) (J : Z) (bs : list block) (vs : list bool) (s : St) : option St :=
  match bs, vs with
  | [], [] => Some s
  | b :: bs, v :: vs =>
      if (np_jail_after (st_np s) =? J) && forallb (knownb s) (b_votes b) && bool_decide (votes_of z s (b_votes b) = [v])
      then match run_block b s with Some (s1, _) => votedb z J bs vs s1 | None => None end else None
  | _, _ => None
  end.
Lemma votedb_ok z J bs : forall vs s s', votedb z J bs vs s = Some s' -> voted z J bs vs s s'.
Proof.
  induction bs as [|b bs IH]; intros [|v vs] s s' H; try done; cbn [votedb] in H. { by injection H. }
  destruct (_ && _) eqn:B; [|done]. apply andb_true_iff in B as [B B3]. apply andb_true_iff in B as [B1 B2]. cbn [voted].
  split; [lia|]. split; [|split; [by apply bool_decide_eq_true in B3|]].
  - intros c w Hc. rewrite forallb_forall in B2. apply elem_of_list_In in Hc. specialize (B2 (c, w) Hc). unfold knownb in B2. cbn in B2.
    destruct (st_oper s !! c) as [a|]; [|done]. apply bool_decide_eq_true in B2 as [x Hx]. eauto.
  - destruct (run_block b s) as [[s1 u]|]; [|done]. exists s1, u. split; [done|]. by apply IH.
Qed.
Definition misses : list bool := [false; true; false; false].
Definition wm : St := default wn1 (votedb 11 2 miss_blocks misses wn1).
Lemma voted_wm : voted 11 2 miss_blocks misses wn1 wm.
Proof.
  apply votedb_ok. unfold wm. assert (H : is_Some (votedb 11 2 miss_blocks misses wn1)).
  { assert (B : (if votedb 11 2 miss_blocks misses wn1 then true else false) = true) by (by vm_compute).
    revert B. generalize (votedb 11 2 miss_blocks misses wn1). intros [s|] B; [eauto|done]. }
  revert H. generalize (votedb 11 2 miss_blocks misses wn1). by intros o [s ->].
Qed.
Example C33_witness : voted 11 2 miss_blocks misses wn1 wm /\
  times_from (st_now wn1) miss_blocks /\ jailed wm 11 = true /\
  jailed (after (replicate 4 (blk (T0 + 8 * sec) [tx1 (MUnjail 11)])) wm) 11 = true /\
  jailed (after (replicate 5 (blk (T0 + 8 * sec) [tx1 (MUnjail 11)])) wm) 11 = false.
Proof.
  split; [exact voted_wm|]. split; [vm_compute; repeat split; congruence|]. split_and!; by vm_compute.
Qed.

(** ** C34 *)

(** A block with evidence by known keys adds exactly that evidence to the records;
    who has any in this block and two or more in all is banned, nobody else is. *)
Theorem C34_evidence : forall b s s' u z, run_block b s = Some (s', u) ->
  (forall c e, (c, e) ∈ b_evs b -> exists a x, st_oper s !! c = Some a /\ st_val s !! a = Some x) -> is_Some (st_val s !! z) ->
  infractions s' z = infractions s z ++ evidence_of z s (b_evs b) /\
  (banned s' z = true <-> banned s z = true \/ (evidence_of z s (b_evs b) <> [] /\ (2 <= List.length (infractions s' z))%nat)).
Proof.
  intros b s s' u z HB HK Hz. destruct (evidence_block b s s' u z HB HK Hz) as [H1 H2]. split; [done|].
  rewrite H2, orb_true_iff, andb_true_iff, negb_true_iff, bool_decide_eq_false, Nat.leb_le. done.
Qed.
Print Assumptions C34_evidence.

(** Infractions are never forgotten, and two of them always mean a ban. *)
Theorem C34_two : forall bs s s' us, run_blocks bs s = Some (s', us) -> times_from (st_now s) bs ->
  (forall z, (2 <= List.length (infractions s z))%nat -> banned s z = true) ->
  forall z, (exists more, infractions s' z = infractions s z ++ more) /\
            ((2 <= List.length (infractions s' z))%nat -> banned s' z = true).
Proof.
  intros bs s s' us HB HT H z. pose proof (any_blocks bs s s' us HT HB) as HF. destruct (infr_grow _ _ _ _ s s' z HF) as [H1 H2].
  split; [done|]. specialize (H z). unfold infractions, banned in *. unfold infr_ok in H1. destruct (st_val s !! z) as [x|], (st_val s' !! z) as [y|]; cbn in *; auto; lia.
Qed.
Print Assumptions C34_two.

(** Whatever anyone does, who is banned stays so and is never active ... *)
Theorem C34_forever : forall bs s s' us z, run_blocks bs s = Some (s', us) -> times_from (st_now s) bs ->
  banned s z = true -> banned s' z = true /\ is_validator s' z = false /\ is_active_validator s' z = false.
Proof.
  intros bs s s' us z HB HT H. pose proof (any_blocks bs s s' us HT HB) as HF.
  unfold banned in H. destruct (st_val s !! z) as [x|] eqn:Ex; [|done].
  destruct (banned_stays _ _ _ _ s s' HF z x Ex H) as (y & Ey & HY). unfold banned, is_validator, is_active_validator, n_active. rewrite Ey, HY.
  by rewrite andb_false_r.
Qed.
Print Assumptions C34_forever.

Definition anykey (z : addr) (k : N) : Prop := k <> 0%N.
Lemma usable_any s : proper_nparams (st_np s) -> sound_records s -> usable anykey s.
Proof.
  intros H1 H2. split; [done|]. intros z x Hx. destruct (H2 z x Hx) as (S1 & S2 & S3). split_and!; done.
Qed.
Lemma any_usable s : usable anykey s -> proper_nparams (st_np s) /\ sound_records s.
Proof.
  intros [H1 H2]. split; [done|]. intros z x Hx. destruct (H2 z x Hx) as (S1 & S2 & S3 & S4). split_and!; done.
Qed.
Lemma keyed_any ts : Forall (keyed_tx anykey) ts.
Proof. apply Forall_forall. intros t _ a k _ Hk. done. Qed.
(** ... nor has it any power after the next block. *)
Theorem C34_no_power : forall bs b s s' s'' us u z, run_blocks bs s = Some (s', us) -> times_from (st_now s) (bs ++ [b]) ->
  run_block b s' = Some (s'', u) -> proper_nparams (st_np s) -> sound_records s ->
  banned s z = true -> power_of s'' z = 0.
Proof.
  intros bs b s s' s'' us u z HB HT Hb HP HS H.
  assert (HT1 : times_from (st_now s) bs /\ st_now s' <= b_time b).
  { clear -HB HT. revert s s' us HB HT. induction bs as [|b0 bs IH]; intros s s' us HB HT.
    - cbn in *. injection HB as <- <-. by split; [|apply HT].
    - cbn in HB. destruct (run_block b0 s) as [[s1 u1]|] eqn:E1; [|done]. destruct (run_blocks bs s1) as [[s2 us2]|] eqn:E2; [|done]. injection HB as <- <-.
      destruct HT as [H1 H2]. pose proof (block_now b0 s s1 u1 H1 E1) as N1. rewrite <- N1 in H2. destruct (IH s1 s2 us2 E2 H2) as [H3 H4].
      split; [|done]. split; [done|]. by rewrite <- N1. }
  destruct HT1 as [HT1 HN].
  destruct (usable_blocks anykey ltac:(done) False ltac:(done) ∅ bs s s' us HT1) as [HU _]; [|done|by apply usable_any|done|].
  { apply Forall_forall. intros b' _. apply keyed_any. }
  destruct (C34_forever bs s s' us z HB HT1 H) as [HB1 _].
  unfold run_block in Hb. destruct (begin_block b s') as [s1 [[]|e|e]] eqn:E1; try discriminate.
  pose proof (full_before anykey b s' s1 (keyed_any _) HN E1) as HF.
  destruct (end_ok anykey ltac:(done) False ltac:(done) ∅ b s' s1 (keyed_any _) HN E1 HU ltac:(done)) as (s2 & us2 & T & L & HE & _ & _ & M1 & _ & _ & _ & _ & M5 & _).
  rewrite HE in Hb. injection Hb as <- <-.
  unfold banned in HB1. destruct (st_val s' !! z) as [x|] eqn:Ex; [|done].
  destruct (banned_stays _ _ _ _ _ _ HF z x Ex HB1) as (y & Ey & HY).
  unfold power_of. destruct (st_val s2 !! z) as [w|] eqn:Ew; [|done]. destruct (decide (n_power w = 0)) as [->|Hn]; [done|]. exfalso.
  assert (Hz : z ∈ T ++ L) by (apply M1; eauto). specialize (M5 z Hz). unfold is_validator, n_active in M5. rewrite Ey, HY in M5.
  by rewrite andb_false_r in M5.
Qed.
Print Assumptions C34_no_power.

Definition ev_blocks : list block :=
  [ mkBlock (T0 + 4 * sec) 100%N [] [(101%N, 7%N)] []; mkBlock (T0 + 5 * sec) 100%N [] [(101%N, 8%N)] [];
    blk (T0 + 6 * sec) [tx1 (MOn 11 101)] ].
Example C34_witness :
  infractions (after (take 1 ev_blocks) wn1) 11 = [7%N] /\ banned (after (take 1 ev_blocks) wn1) 11 = false /\
  infractions (after (take 2 ev_blocks) wn1) 11 = [7%N; 8%N] /\ banned (after (take 2 ev_blocks) wn1) 11 = true /\
  power_of (after (take 1 ev_blocks) wn1) 11 = 20 /\ power_of (after ev_blocks wn1) 11 = 0 /\ is_validator (after ev_blocks wn1) 11 = false /\
  runs ev_blocks wn1 = true.
Proof. split_and!; by vm_compute. Qed.

(** ** C35 *)

Definition ownkey (owner : N -> addr) (z : addr) (k : N) : Prop := k <> 0%N /\ owner k = z.
Lemma ownkey_0 owner z k : ownkey owner z k -> k <> 0%N.
Proof. by intros [? _]. Qed.
Lemma ownkey_1 owner : True -> forall z z' k, ownkey owner z k -> ownkey owner z' k -> z = z'.
Proof. intros _ z z' k [_ <-] [_ <-]. done. Qed.
Lemma owned_usable owner s : proper_nparams (st_np s) -> sound_records s -> keys_owned owner s -> usable (ownkey owner) s.
Proof.
  intros H1 H2 H3. split; [done|]. intros z x Hx. destruct (H2 z x Hx) as (S1 & S2 & S3), (H3 z x Hx) as (O1 & O2). unfold ownkey. split_and!; auto.
Qed.
Lemma owned_keyed owner ts : Forall (owned_tx owner) ts -> Forall (keyed_tx (ownkey owner)) ts.
Proof. intros H. eapply Forall_impl; [exact H|]. intros t Ht a k Hm Hk. split; [done|]. by apply (Ht a k). Qed.

(** If every operator uses its own keys only, the consensus engine's set, which
    applies the updates of each block, is always the one on record. *)
Theorem C35_follows : forall owner C bs s s' us, run_blocks bs s = Some (s', us) -> times_from (st_now s) bs ->
  Forall (fun b => Forall (owned_tx owner) (b_txs b)) bs ->
  proper_nparams (st_np s) -> sound_records s -> keys_owned owner s -> in_step C s ->
  in_step (apply_updates C (List.concat us)) s'.
Proof.
  intros owner C bs s s' us HB HT HF H1 H2 H3 HC.
  destruct (usable_blocks (ownkey owner) (ownkey_0 owner) True (ownkey_1 owner) C bs s s' us HT) as [_ HI]; [|done|by apply owned_usable|done|by apply HI].
  eapply Forall_impl; [exact HF|]. intros b Hb. by apply owned_keyed.
Qed.
Print Assumptions C35_follows.

(** The state in which the block's transactions are done and the updates are gathered *)
Definition before_updates (b : block) (s : St) : St := deliver_txs (b_txs b) (exec (begin_block b) s).

(** In every block of such a history the engine accepts the updates.  The members
    of the set are active validators; up to the configured number of them, none of
    which is worse than any active validator left out, and the lucky ones, as many
    as configured if the queue agrees with the records. *)
Theorem C35_block : forall owner C bs b s s' s'' us u, run_blocks bs s = Some (s', us) -> run_block b s' = Some (s'', u) ->
  times_from (st_now s) bs -> st_now s' <= b_time b ->
  Forall (fun b => Forall (owned_tx owner) (b_txs b)) (bs ++ [b]) ->
  proper_nparams (st_np s) -> sound_records s -> keys_owned owner s -> in_step C s ->
  let sg := before_updates b s' in
  acceptable (apply_updates C (List.concat us)) u /\
  exists top lucky, NoDup (top ++ lucky) /\
    (forall z, power_of s'' z <> 0 <-> z ∈ top ++ lucky) /\
    (forall z, z ∈ top ++ lucky -> is_validator sg z = true) /\
    Z.of_nat (List.length top) <= np_max (st_np s'') /\
    (queue_ok sg -> Z.of_nat (List.length lucky) <= Z.max 0 (np_lucky (st_np s''))) /\
    (forall z x, st_val sg !! z = Some x -> is_validator sg z = true -> z ∉ top ->
       Z.of_nat (List.length top) = np_max (st_np s'') /\
       forall t y, t ∈ top -> st_val sg !! t = Some y ->
         n_score x < n_score y \/ (n_score y = n_score x /\ n_ok x <= n_ok y)).
Proof.
  intros owner C bs b s s' s'' us u HB Hb HT HN HF H1 H2 H3 HC sg. apply Forall_app in HF as [HF1 HF2]. apply Forall_cons_1 in HF2 as [HF2 _].
  destruct (usable_blocks (ownkey owner) (ownkey_0 owner) True (ownkey_1 owner) C bs s s' us HT) as [HU HI]; [|done|by apply owned_usable|done|].
  { eapply Forall_impl; [exact HF1|]. intros b' Hb'. by apply owned_keyed. }
  unfold run_block in Hb. unfold sg, before_updates, exec. destruct (begin_block b s') as [s1 [[]|e|e]] eqn:E1; try discriminate. cbn [fst].
  destruct (end_ok (ownkey owner) (ownkey_0 owner) True (ownkey_1 owner) _ b s' s1 (owned_keyed _ _ HF2) HN E1 HU HI) as
    (s2 & us2 & T & L & HE & _ & HA & M1 & _ & _ & _ & M4 & M5 & M6 & M7 & M8 & _).
  rewrite HE in Hb. injection Hb as <- <-. split; [by apply HA|]. exists T, L. split_and!; try done.
  - intros z. rewrite M1. unfold power_of. destruct (st_val s2 !! z) as [x|]; [split; [eauto|]|].
    + by intros (y & [= <-] & Hy).
    + split; [done|]. by intros (y & ? & _).
  - intros z x Ex Hv Hz. unfold is_validator in Hv. rewrite Ex in Hv. destruct (M8 z x Ex Hv Hz) as [G1 G2]. split; [done|].
    intros t y Ht Ey. exact (G2 t y Ht Ey).
Qed.
Print Assumptions C35_block.

(** ** C69 *)

(** Missing: that the queue agrees with the records, which fails when a validator
    loses qualification. *)
Theorem C69_partial : forall owner C bs b s s' s'' us u, run_blocks bs s = Some (s', us) -> run_block b s' = Some (s'', u) ->
  times_from (st_now s) bs -> st_now s' <= b_time b ->
  Forall (fun b => Forall (owned_tx owner) (b_txs b)) (bs ++ [b]) ->
  proper_nparams (st_np s) -> sound_records s -> keys_owned owner s -> in_step C s ->
  queue_ok (before_updates b s') ->
  forall l, NoDup l -> Forall (fun z => power_of s'' z <> 0) l ->
  Z.of_nat (List.length l) <= np_max (st_np s'') + Z.max 0 (np_lucky (st_np s'')).
Proof.
  intros owner C bs b s s' s'' us u HB Hb HT HN HF H1 H2 H3 HC HQ l Hl HL.
  destruct (C35_block owner C bs b s s' s'' us u HB Hb HT HN HF H1 H2 H3 HC) as (_ & top & lucky & _ & M1 & _ & M2 & M3 & _).
  specialize (M3 HQ). assert (HS : (List.length l <= List.length (top ++ lucky))%nat).
  { apply submseteq_length, NoDup_submseteq; [done|]. intros z Hz. rewrite Forall_forall in HL. by apply M1, HL. }
  rewrite app_length in HS. lia.
Qed.
Print Assumptions C69_partial.
(** The number of members may exceed the configured ones, though: a validator that
    loses qualification leaves the queue but keeps its number (see C36). *)
Lemma wn_vals z y : st_val wn !! z = Some y ->
  z = 10%N /\ n_pub y = 100%N /\ n_last_pub y = 0%N /\ n_power y = 0 /\ n_lottery y = 0.
Proof.
  assert (H : map_Forall (fun z y => z = 10%N /\ n_pub y = 100%N /\ n_last_pub y = 0%N /\ n_power y = 0 /\ n_lottery y = 0) (st_val wn)).
  { apply (bool_decide_unpack _). by vm_compute. }
  apply H.
Qed.
Definition owned_txb (owner : N -> addr) (t : tx) : bool :=
  forallb (fun m => match m with MOn a k => (owner k =? a)%N | _ => true end) (tx_msgs t).
Lemma owned_check owner bs : forallb (fun b => forallb (owned_txb owner) (b_txs b)) bs = true ->
  Forall (fun b => Forall (owned_tx owner) (b_txs b)) bs.
Proof.
  rewrite forallb_forall. intros H. apply Forall_forall. intros b Hb. apply elem_of_list_In in Hb. specialize (H b Hb).
  rewrite forallb_forall in H. apply Forall_forall. intros t Ht a k Hm. apply elem_of_list_In in Ht. specialize (H t Ht).
  unfold owned_txb in H. rewrite forallb_forall in H. apply elem_of_list_In in Hm. specialize (H _ Hm). cbn in H. lia.
Qed.
Definition revoke_all : list block := on_blocks ++ [blk (T0 + 4 * sec) [tx1 (MRevoke 13 12990000001 false)]].
Theorem C69_refuted : exists bs s' us, run_blocks bs wn = Some (s', us) /\ times_from (st_now wn) bs /\
  Forall (fun b => Forall (owned_tx own) (b_txs b)) bs /\
  proper_nparams (st_np wn) /\ sound_records wn /\ keys_owned own wn /\ in_step ∅ wn /\
  exists l, NoDup l /\ Forall (fun z => power_of s' z <> 0) l /\
    np_max (st_np s') + np_lucky (st_np s') < Z.of_nat (List.length l).
Proof.
  destruct (after_runs revoke_all wn) as [us HR]; [by vm_compute|]. exists revoke_all, (after revoke_all wn), us.
  pose proof wn_vals as H1.
  split; [exact HR|]. split; [vm_compute; repeat split; congruence|]. split_and!.
  - apply owned_check. by vm_compute.
  - apply nparams_spec. by vm_compute.
  - intros z y Hy. destruct (H1 z y Hy) as (-> & P1 & P2 & P3 & _); clear Hy HR. unfold sound_record. rewrite P1, P2, P3. done.
  - intros z y Hy. destruct (H1 z y Hy) as (-> & P1 & P2 & P3 & _); clear Hy HR. rewrite P1, P2. done.
  - intros k p. rewrite lookup_empty. split; [done|]. intros (z & y & Hy & _ & Hp & Hn). destruct (H1 z y Hy) as (-> & P1 & P2 & P3 & _); clear Hy HR. congruence.
  - exists [10; 11; 13; 14]%N. split_and!.
    + apply (bool_decide_unpack _). by vm_compute.
    + apply (bool_decide_unpack _). by vm_compute.
    + by vm_compute.
Qed.
Print Assumptions C69_refuted.
Example C35_witness : Forall (fun b => Forall (owned_tx own) (b_txs b)) on_blocks /\ times_from (st_now wn) on_blocks /\
  (exists us, run_blocks on_blocks wn = Some (wn1, us) /\
    us = [[(100%N, 20)]; [(101%N, 20)]; [(103%N, 10)]]) /\
  proper_nparams (st_np wn) /\ sound_records wn /\ keys_owned own wn /\ in_step ∅ wn.
Proof.
  split; [apply owned_check; by vm_compute|]. split; [vm_compute; repeat split; congruence|]. split.
  { exists [[(100%N, 20)]; [(101%N, 20)]; [(103%N, 10)]]. split; [|done].
    unfold wn1, after. assert (H : option_map snd (run_blocks on_blocks wn) = Some [[(100%N, 20)]; [(101%N, 20)]; [(103%N, 10)]]) by (by vm_compute).
    revert H. generalize (run_blocks on_blocks wn). intros [[s us]|]; [|discriminate]. cbn. by intros [= ->]. }
  pose proof wn_vals as H1. split_and!.
  - apply nparams_spec. by vm_compute.
  - intros z y Hy. destruct (H1 z y Hy) as (-> & P1 & P2 & P3 & _); clear Hy. unfold sound_record. rewrite P1, P2, P3. done.
  - intros z y Hy. destruct (H1 z y Hy) as (-> & P1 & P2 & P3 & _); clear Hy. rewrite P1, P2. done.
  - intros k p. rewrite lookup_empty. split; [done|]. intros (z & y & Hy & _ & Hp & Hn). destruct (H1 z y Hy) as (-> & P1 & P2 & P3 & _); clear Hy. congruence.
Qed.

(** ** C36 *)

(** As stated the property fails: a validator that has revoked its delegation goes on. *)
Theorem C36_refuted : exists bs s s' us a, run_blocks bs s = Some (s', us) /\ times_from (st_now s) bs /\
  is_validator s a = true /\ qualified s a /\ is_validator s' a = true /\ power_of s' a = 10 /\ ~ qualified s' a.
Proof.
  set (bs := [blk (T0 + 4 * sec) [tx1 (MRevoke 13 12990000001 false)]]).
  destruct (after_runs bs wn1) as [us HR]; [by vm_compute|]. exists bs, wn1, (after bs wn1), us, 13%N.
  split; [exact HR|]. clear HR. split; [vm_compute; repeat split; congruence|]. split; [by vm_compute|]. split.
  - right. split_and!; by vm_compute.
  - split_and!; [by vm_compute|by vm_compute|]. intros [H|(_ & H & _)]; revert H; by vm_compute.
Qed.
Print Assumptions C36_refuted.

(** What remains of it: when the status of a validator changes, when it switches
    on, leaves jail or loses its place among the staff, it is active afterwards only
    if it is qualified.  (Missing: changes of the stake.) *)
Theorem C36_status_partial : forall a s s', on_status_update a s = (s', Ok tt) -> is_validator s' a = true -> qualified s' a.
Proof.
  intros a s s' H HV. unfold on_status_update in H. apply bind_ok in H as (v & s1 & H0 & H). apply get_ok in H0 as [-> ->].
  destruct (is_validator s a) eqn:EV; cbn [negb] in H.
  2:{ apply ret_ok in H as [-> _]. congruence. }
  apply bind_ok in H as ([q d] & s1 & H0 & H). apply is_qualified_spec in H0 as (-> & _ & HQ). destruct q.
  { apply ret_ok in H as [-> _]. by apply HQ. }
  exfalso. unfold switch_off, val_update in H. apply bind_ok in H as (x & s1 & H0 & H). unfold val_get in H0.
  unfold is_validator in EV. destruct (st_val s !! a) as [x0|] eqn:Ex; [|done]. injection H0 as <- <-.
  unfold n_active in EV. rewrite !andb_true_iff in EV. destruct EV as [[EV _] _]. rewrite EV in H. cbn [negb] in H.
  apply bind_ok in H as (y & s1 & H0 & H). apply bind_ok in H0 as (y0 & s2 & H0 & H1). apply ret_ok in H1 as [-> ->].
  apply in_lottery_exclude in H0 as HY. apply modify_ok in H as ->. unfold is_validator in HV. cbn in HV. rewrite lookup_insert in HV.
  rewrite HY in HV. done.
Qed.
Print Assumptions C36_status_partial.
Theorem C36_on_partial : forall a k s s', run_msg (MOn a k) s = (s', Ok tt) -> qualified s a.
Proof.
  intros a k s s' H. cbn [run_msg] in H. apply bind_ok in H as ([] & s1 & H0 & H). apply ensure_ok in H0 as [-> _].
  unfold switch_on in H. apply bind_ok in H as (r & s1 & H0 & H). apply get_ok in H0 as [-> ->].
  do 2 (apply bind_ok in H as ([] & s1 & H0 & H); apply ensure_ok in H0 as [-> _]).
  apply bind_ok in H as ([[b found] active] & s1 & H1 & H).
  assert (s1 = s) as ->. { pose proof (sw_validator_by_cons eq k s) as E. by rewrite H1 in E. }
  apply bind_ok in H as ([] & s1 & H0 & H); apply ensure_ok in H0 as [-> _].
  apply bind_ok in H as ([q d] & s1 & H2 & H). apply is_qualified_spec in H2 as (-> & _ & HQ).
  apply bind_ok in H as ([] & s1 & H0 & H); apply ensure_ok in H0 as [-> H0]. by apply HQ.
Qed.
Print Assumptions C36_on_partial.
Theorem C36_unjail_partial : forall a s s', run_msg (MUnjail a) s = (s', Ok tt) -> is_validator s' a = true -> qualified s a.
Proof.
  intros a s s' H HV. cbn [run_msg] in H. unfold unjail, val_get in H. unfold bind at 1 in H. destruct (st_val s !! a) as [x|] eqn:E; [|done].
  apply bind_ok in H as ([] & s1 & H1 & H). apply ensure_ok in H1 as [-> HJ].
  apply bind_ok in H as (h & s1 & H1 & H). apply get_ok in H1 as [-> ->].
  apply bind_ok in H as ([] & s1 & H1 & H). apply ensure_ok in H1 as [-> HU]. cbv zeta in H.
  apply bind_ok in H as ([q d] & s1 & H1 & H). apply is_qualified_spec in H1 as (-> & _ & HQ). destruct q; [by apply HQ|].
  exfalso. apply modify_ok in H as ->. unfold is_validator in HV. cbn in HV. by rewrite lookup_insert in HV.
Qed.
Print Assumptions C36_unjail_partial.
(** Losing the place among the staff *)
Theorem C36_staff_partial : forall a s s', remove_from_staff a s = (s', Ok tt) -> on_staff s a = true -> is_validator s' a = true -> qualified s' a.
Proof.
  intros a s s' H HS HV. unfold remove_from_staff in H. apply bind_ok in H as (r & s1 & H0 & H). apply get_ok in H0 as [-> ->].
  unfold on_staff in HS. destruct (st_val s !! a) as [x|] eqn:Ex; [|done]. rewrite HS in H. cbn [negb] in H.
  apply bind_ok in H as ([] & s1 & H0 & H). apply modify_ok in H0 as ->. set (s1 := s <| st_val := _ |>) in *.
  destruct (n_active x) eqn:EA.
  2:{ apply ret_ok in H as [-> _]. exfalso. revert HV. unfold is_validator, s1. cbn. rewrite lookup_insert. unfold n_active in *. cbn. by rewrite EA. }
  apply bind_ok in H as ([] & s2 & H0 & H).
  assert (HV2 : is_validator s2 a = true -> qualified s2 a) by (intros; by eapply C36_status_partial).
  (* the second step writes the score at most *)
  assert (Q : st_np s' = st_np s2 /\ st_ref s' = st_ref s2 /\ st_bal s' = st_bal s2 /\ (is_validator s' a = true -> is_validator s2 a = true) /\ on_staff s' a = on_staff s2 a).
  { split; [by kept st_np H|]. split; [by kept st_ref H|]. split; [by kept st_bal H|].
    unfold on_stake_changed in H. apply bind_ok in H as (r & s3 & H1 & H). apply get_ok in H1 as [-> ->]. unfold is_validator, on_staff.
    destruct (st_val s2 !! a) as [y|] eqn:Ey; [|apply ret_ok in H as [-> _]; rewrite Ey; done].
    apply bind_ok in H as ([q d] & s3 & H1 & H). apply qualified_read in H1 as ->.
    apply bind_ok in H as (d' & s3 & H1 & H). apply lift_ok in H1 as [-> _]. apply bind_ok in H as (f & s3 & H1 & H). apply get_ok in H1 as [-> ->].
    destruct (update_score _ _ _) as [y' c] eqn:EU.
    assert (HY : n_active y' = n_active y /\ n_staff y' = n_staff y).
    { unfold update_score in EU. destruct (_ =? _) in EU; injection EU as <- _; done. }
    destruct (n_active y && negb q).
    - apply bind_ok in H as (w & s3 & H1 & H). apply ret_ok in H as [-> _].
      destruct (exclude_total (y' <| n_status := false |>) s2) as (s4 & E4 & L4). rewrite E4 in H1. injection H1 as <- _.
      apply lot_same in L4 as (-> & _). by rewrite Ey.
    - destruct c; [apply modify_ok in H as ->; cbn; rewrite lookup_insert; destruct HY as [-> ->]; done|apply ret_ok in H as [-> _]; by rewrite Ey]. }
  destruct Q as (Q1 & Q2 & Q3 & Q4 & Q5). specialize (HV2 (Q4 HV)). unfold qualified, delegated_below, ref_get, balance in *. by rewrite Q1, Q2, Q3, Q5.
Qed.
Print Assumptions C36_staff_partial.
Example C36_witness : exists s', remove_from_staff 10 wn1 = (s', Ok tt) /\ on_staff wn1 10 = true /\ is_validator wn1 10 = true /\ is_validator s' 10 = false /\
  (exists s', run_msg (MOn 11 109) (after [blk (T0 + 4 * sec) [tx1 (MOff 11)]] wn1) = (s', Ok tt)) /\
  (exists s', on_status_update 13 (wn1 <| st_bal := ∅ |>) = (s', Ok tt) /\ is_validator wn1 13 = true /\ is_validator s' 13 = false).
Proof.
  exists (exec (remove_from_staff 10) wn1). split; [apply exec_ok; by vm_compute|]. split_and!; [by vm_compute..| |].
  - exists (exec (run_msg (MOn 11 109)) (after [blk (T0 + 4 * sec) [tx1 (MOff 11)]] wn1)). apply exec_ok. by vm_compute.
  - exists (exec (on_status_update 13) (wn1 <| st_bal := ∅ |>)). split; [apply exec_ok; by vm_compute|]. split; by vm_compute.
Qed.

(** ** C37 *)

(** Both parts fail as stated: while 11 is in jail, 12 may take its key; released
    in the same block, both are active with it and the updates name it twice. *)
Definition share_blocks : list block :=
  [ blk (T0 + sec) [tx1 (MDelegate 11 11000000000); tx1 (MDelegate 12 12000000000)];
    blk (T0 + 2 * sec) [tx1 (MOn 11 101)];
    blkv (T0 + 4 * sec) [(101%N, false)] []; blkv (T0 + 5 * sec) [(101%N, false)] [] ] ++
  replicate 4 (blk (T0 + 6 * sec) []) ++
  [ blk (T0 + 7 * sec) [tx1 (MOff 10); tx1 (MOn 12 101); tx1 (MUnjail 11)] ].
Definition pub_of (s : St) (z : addr) : N := match st_val s !! z with Some x => n_pub x | None => 0%N end.
Theorem C37_refuted : exists bs s' us, run_blocks bs wn = Some (s', us) /\ times_from (st_now wn) bs /\
  (exists z z', z <> z' /\ is_validator s' z = true /\ is_validator s' z' = true /\ pub_of s' z = pub_of s' z') /\
  (exists u, u ∈ us /\ ~ NoDup (map fst u)).
Proof.
  destruct (after_runs share_blocks wn) as [us HR]; [by vm_compute|]. exists share_blocks, (after share_blocks wn), us.
  split; [exact HR|]. split; [vm_compute; repeat split; congruence|]. split.
  - exists 11%N, 12%N. split_and!; by vm_compute.
  - exists [(100%N, 0); (101%N, 20); (101%N, 15)]. split.
    + assert (H : option_map (fun r => last (snd r)) (run_blocks share_blocks wn) = Some (Some [(100%N, 0); (101%N, 20); (101%N, 15)])) by (by vm_compute).
      rewrite HR in H. cbn [option_map snd] in H. injection H as H. by apply last_Some_elem_of in H.
    + intros H. cbn in H. apply NoDup_cons in H as [_ H]. apply NoDup_cons in H as [H _]. apply H. left.
Qed.
Print Assumptions C37_refuted.

(** Both hold if operators use only keys of their own.  (Missing: keys used by several.) *)
Theorem C37_partial : forall owner bs b s s' s'' us u C, run_blocks bs s = Some (s', us) -> run_block b s' = Some (s'', u) ->
  times_from (st_now s) bs -> st_now s' <= b_time b ->
  Forall (fun b => Forall (owned_tx owner) (b_txs b)) (bs ++ [b]) ->
  proper_nparams (st_np s) -> sound_records s -> keys_owned owner s -> in_step C s ->
  NoDup (map fst u) /\
  (forall z z', is_validator s'' z = true -> is_validator s'' z' = true -> pub_of s'' z = pub_of s'' z' -> z = z').
Proof.
  intros owner bs b s s' s'' us u C HB Hb HT HN HF H1 H2 H3 HC. split.
  - destruct (C35_block owner C bs b s s' s'' us u HB Hb HT HN HF H1 H2 H3 HC) as [[HA _] _]. done.
  - apply Forall_app in HF as [HF1 HF2]. apply Forall_cons_1 in HF2 as [HF2 _].
    destruct (usable_blocks (ownkey owner) (ownkey_0 owner) True (ownkey_1 owner) C bs s s' us HT) as [HU HI]; [|done|by apply owned_usable|done|].
    { eapply Forall_impl; [exact HF1|]. intros b' Hb'. by apply owned_keyed. }
    destruct (usable_block (ownkey owner) (ownkey_0 owner) True (ownkey_1 owner) _ b s' s'' u (owned_keyed _ _ HF2) HN Hb HU HI) as [[_ HR] _].
    intros z z' V1 V2 HP. unfold is_validator, pub_of, n_active in *.
    destruct (st_val s'' !! z) as [x|] eqn:E1; [|done]. destruct (st_val s'' !! z') as [y|] eqn:E2; [|done].
    rewrite !andb_true_iff in V1, V2. destruct V1 as [[V1 _] _], V2 as [[V2 _] _].
    destruct (HR z x E1) as (O1 & _), (HR z' y E2) as (O2 & _). destruct (O1 V1) as [_ <-], (O2 V2) as [_ <-]. by rewrite HP.
Qed.
Print Assumptions C37_partial.

(** ** C38 *)

(** A new participant gets a number beyond all those in the queue. *)
Lemma next_no_max (m : gmap Z addr) n a : m !! n = Some a -> n < next_no m.
Proof.
  intros H. unfold next_no. assert (HI : n ∈ keysZ m) by (apply elem_of_keysZ; eauto).
  destruct (last (keysZ m)) as [k|] eqn:E; [|apply last_None in E; rewrite E in HI; by apply elem_of_nil in HI].
  assert (n <= k); [|lia]. pose proof (sorted_keysZ m) as HS.
  apply last_Some in E as [l E]. rewrite E in HI, HS. apply elem_of_app in HI as [HI|HI%elem_of_list_singleton]; [|lia].
  clear E. induction l as [|y l IH]; [by apply elem_of_nil in HI|]. cbn in HS. inversion HS as [|? ? HS1 HS2]; subst.
  apply elem_of_cons in HI as [->|HI]; [|by apply IH]. rewrite Forall_forall in HS2. apply Z.lt_le_incl, HS2, elem_of_app. right. left.
Qed.
Theorem C38_new : forall a x s s' y, lottery_add_new a x s = (s', Ok y) ->
  (forall n b, st_lottery s !! n = Some b -> n < n_lottery y) /\ y = x <| n_lottery := n_lottery y |> /\
  (forall n, st_lottery s' !! n = if decide (n = n_lottery y) then Some a else st_lottery s !! n).
Proof.
  intros a x s s' y (-> & -> & H)%add_new_ok. split; [|split; [done|]].
  - intros n b. apply next_no_max.
  - intros n. cbn. destruct (decide (n = _)) as [->|Hn]; [by rewrite lookup_insert|by rewrite lookup_insert_ne].
Qed.
Print Assumptions C38_new.
Theorem C38_requeue : forall a x s s' y, lottery_downshift a x s = (s', Ok y) ->
  (forall n b, st_lottery s !! n = Some b -> n <> n_lottery x -> n < n_lottery y) /\ y = x <| n_lottery := n_lottery y |> /\
  (forall n, st_lottery s' !! n = if decide (n = n_lottery y) then Some a else if decide (n = n_lottery x) then None else st_lottery s !! n).
Proof.
  intros a x s s' y (-> & -> & H)%downshift_ok. split; [|split; [done|]].
  - intros n b Hb Hn. apply (next_no_max _ _ b). by rewrite lookup_delete_ne.
  - intros n. cbn. destruct (decide (n = next_no _)) as [->|Hn]; [by rewrite lookup_insert|rewrite lookup_insert_ne by done].
    destruct (decide (n = n_lottery x)) as [->|Hx]; [by rewrite lookup_delete|by rewrite lookup_delete_ne].
Qed.
Print Assumptions C38_requeue.
Theorem C38_exclude : forall x s s' y, lottery_exclude x s = (s', Ok y) ->
  y = x <| n_lottery := 0 |> /\
  (forall n, st_lottery s' !! n = if decide (n = n_lottery x) then None else st_lottery s !! n).
Proof.
  intros x s s' y (-> & -> & H)%exclude_ok. split; [done|]. intros n. cbn.
  destruct (decide (n = _)) as [->|Hn]; [by rewrite lookup_delete|by rewrite lookup_delete_ne].
Qed.
Print Assumptions C38_exclude.
Lemma sorted_app (l1 l2 : list Z) : StronglySorted Z.lt (l1 ++ l2) ->
  (forall x y, x ∈ l1 -> y ∈ l2 -> x < y) /\ StronglySorted Z.lt l1 /\ StronglySorted Z.lt l2.
Proof.
  induction l1 as [|z l1 IH]; cbn; intros H.
  - split_and!; [|constructor|done]. intros x y Hx. by apply elem_of_nil in Hx.
  - apply StronglySorted_inv in H as [H1 H2]. apply Forall_app in H2 as [H2 H3]. destruct (IH H1) as (I1 & I2 & I3). split_and!; [|by constructor|done].
    intros x y [->|Hx]%elem_of_cons Hy; [|by apply I1]. rewrite Forall_forall in H3. by apply H3.
Qed.
(** The numbers drawn are the smallest ones. *)
Theorem C38_draw : forall s count n b, (forall m c, st_lottery s !! m = Some c -> 0 < m) -> st_lottery s !! n = Some b ->
  (n <= lottery_last_no count s <->
   exists before, (List.length before < count)%nat /\ forall m, m ∈ before <-> m < n /\ is_Some (st_lottery s !! m)).
Proof.
  intros s count n b HP Hb. unfold lottery_last_no. set (ks := keysZ (st_lottery s)). pose proof (sorted_keysZ (st_lottery s)) as HS. fold ks in HS.
  assert (HI : forall m, m ∈ ks <-> is_Some (st_lottery s !! m)) by (intros; apply elem_of_keysZ).
  assert (HN : n ∈ ks) by (apply HI; eauto). apply elem_of_list_split in HN as (l1 & l2 & EK).
  assert (HL1 : forall m, m ∈ l1 <-> m < n /\ is_Some (st_lottery s !! m)).
  { rewrite EK in HS. apply sorted_app in HS as (H1 & H2 & H3). intros m. rewrite <- HI, EK, elem_of_app, elem_of_cons. split.
    - intros Hm. split; [|by left]. apply H1; [done|left].
    - intros [Hlt [Hm|[->|Hm]]]; [done|lia|]. apply StronglySorted_inv in H3 as [_ H3]. rewrite Forall_forall in H3. specialize (H3 m Hm). lia. }
  split.
  - intros H. exists l1. split; [|exact HL1].
    assert (HT : n ∈ take count ks) by (apply up_to_last; [by exists b|by eapply HP|done]).
    destruct (decide (List.length l1 < count)%nat) as [|Hc]; [done|]. exfalso. rewrite EK in HT. rewrite take_app_le in HT by lia.
    apply elem_of_take in HT as (i & HT & _); apply elem_of_list_lookup_2 in HT. apply HL1 in HT. lia.
  - intros (before & HB & HM).
    assert (HB2 : (List.length l1 < count)%nat).
    { eapply Nat.le_lt_trans; [|exact HB]. apply submseteq_length, NoDup_submseteq.
      - rewrite EK in HS. apply sorted_app in HS as (_ & HS & _). clear -HS. induction HS as [|y l _ IH HF]; constructor; [|done].
        intros Hy. rewrite Forall_forall in HF. specialize (HF y Hy). lia.
      - intros m. by rewrite HM, HL1. }
    assert (HT : n ∈ take count ks).
    { rewrite EK, take_app_ge by lia. apply elem_of_app. right. destruct (count - List.length l1)%nat eqn:E; [lia|]. cbn. left. }
    assert (HS2 : StronglySorted Z.lt (take count ks)). { rewrite <- (take_drop count ks) in HS. by apply sorted_app in HS as (_ & HS & _). }
    destruct (last (take count ks)) as [k|] eqn:E; [|apply last_None in E; rewrite E in HT; by apply elem_of_nil in HT]. cbn.
    apply last_Some in E as [l E]. rewrite E in HT, HS2. apply elem_of_app in HT as [HT|HT%elem_of_list_singleton]; [|lia].
    apply sorted_app in HS2 as (H1 & _). apply Z.lt_le_incl, H1; [done|left].
Qed.
Print Assumptions C38_draw.
Example C38_witness : map (fun n => st_lottery wn1 !! n) [1; 2; 3; 4; 5] = [Some 13; Some 14; Some 15; Some 12; None]%N /\
  (forall m c, st_lottery wn1 !! m = Some c -> 0 < m) /\ lottery_last_no 1 wn1 = 1 /\
  let x := default n_zero (st_val wn1 !! 14%N) in
  exists s' y, lottery_downshift 14 x wn1 = (s', Ok y) /\ n_lottery y = 5 /\
    map (fun n => st_lottery s' !! n) [1; 2; 3; 4; 5] = [Some 13; None; Some 15; Some 12; Some 14]%N.
Proof.
  split; [by vm_compute|]. split.
  { assert (H : map_Forall (fun m (_ : addr) => 0 < m) (st_lottery wn1)) by (apply (bool_decide_unpack _); by vm_compute). exact H. }
  split; [by vm_compute|]. intros x. exists (exec (lottery_downshift 14 x) wn1), (match eval (lottery_downshift 14 x) wn1 with Ok y => y | _ => x end).
  split; [|split; by vm_compute].
  assert (H : ok (eval (lottery_downshift 14 x) wn1) = true) by (by vm_compute). unfold eval, exec in *.
  revert H. generalize (lottery_downshift 14 x wn1). intros [s' [y|e|e]]; [done|discriminate|discriminate].
Qed.

(** ** C39 *)

(** A distribution is accepted iff it is proper. *)
Theorem C39_valid : forall lucky sl, distribution_valid lucky sl = Some true <-> proper_distribution lucky sl.
Proof. exact distribution_spec. Qed.
Print Assumptions C39_valid.
(** With accepted parameters the generator never fails; the first [np_max]
    validators get the power of their slice, the others the lucky power. *)
Theorem C39_powers : forall p scores, nparams_valid p = Some true ->
  exists l, powers p scores vpg_new = Some l /\ List.length l = List.length scores /\
    Forall2 (fun j pw => slice_power (np_slices p) j = Some pw)
      (all_slices (np_max p) (np_slices p) (take (Z.to_nat (np_max p)) scores)) (take (Z.to_nat (np_max p)) l) /\
    drop (Z.to_nat (np_max p)) l = map (fun _ => np_lucky_power p) (drop (Z.to_nat (np_max p)) scores).
Proof.
  intros p scores H%nparams_spec. destruct (powers_all p H scores) as (l & H1 & H2 & H3). exists l. split_and!; try done.
  clear -H1. revert H1. generalize vpg_new as g. revert l. induction scores as [|sc r IH]; intros l g H1; cbn in H1; [by injection H1 as <-|].
  destruct (vpg_next p sc g) as [[pw g']|]; [|done]. destruct (powers p r g') as [l'|] eqn:E; [|done]. injection H1 as <-. cbn. by rewrite (IH l' g').
Qed.
Print Assumptions C39_powers.
Example C39_witness : let p := np0 <| np_max := 4 |> in nparams_valid p = Some true /\
  powers p [30; 30; 20; 20; 20; 10] vpg_new = Some [20; 20; 15; 15; 10; 10] /\
  powers p [30; 30; 30; 20] vpg_new = Some [20; 20; 20; 15].
Proof. split_and!; by vm_compute. Qed.

(** ** C66 *)

(** Gathering the updates never stops the node, in any history. *)
Theorem C66_end : forall bs b s s' s1 us, run_blocks bs s = Some (s', us) -> times_from (st_now s) bs -> st_now s' <= b_time b ->
  proper_nparams (st_np s) -> sound_records s -> begin_block b s' = (s1, Ok tt) ->
  exists s'' u, run_block b s' = Some (s'', u) /\ proper_nparams (st_np s'') /\ sound_records s''.
Proof.
  intros bs b s s' s1 us HB HT HN H1 H2 HE.
  destruct (usable_blocks anykey ltac:(done) False ltac:(done) ∅ bs s s' us HT) as [HU _]; [|done|by apply usable_any|done|].
  { apply Forall_forall. intros b' _. apply keyed_any. }
  destruct (end_ok anykey ltac:(done) False ltac:(done) ∅ b s' s1 (keyed_any _) HN HE HU ltac:(done)) as (s2 & us2 & T & L & HG & HU2 & _).
  exists s2, us2. unfold run_block. rewrite HE, HG. split; [done|]. by apply any_usable.
Qed.
Print Assumptions C66_end.
Example C66_witness : proper_nparams (st_np wn) /\ sound_records wn /\ runs share_blocks wn = true.
Proof.
  split; [apply nparams_spec; by vm_compute|]. split; [|by vm_compute].
  intros z y Hy. destruct (wn_vals z y Hy) as (-> & P1 & P2 & P3 & _); clear Hy. unfold sound_record. rewrite P1, P2, P3. done.
Qed.

(** ** C67 *)

(** If operators use only keys of their own, every key the consensus engine has
    ever had in its set can be attributed: no vote and no evidence is lost. *)
Theorem C67_attributed : forall owner C bs bs' s s1 s' us us', run_blocks bs s = Some (s1, us) -> run_blocks bs' s1 = Some (s', us') ->
  times_from (st_now s) bs -> times_from (st_now s1) bs' ->
  Forall (fun b => Forall (owned_tx owner) (b_txs b)) (bs ++ bs') ->
  proper_nparams (st_np s) -> sound_records s -> keys_owned owner s -> in_step C s -> indexed owner s ->
  forall k, is_Some (apply_updates C (List.concat us) !! k) ->
  st_oper s' !! k = Some (owner k) /\ is_Some (st_val s' !! owner k).
Proof.
  intros owner C bs bs' s s1 s' us us' HB1 HB2 HT1 HT2 HF H1 H2 H3 HC [I1 I2] k Hk.
  apply Forall_app in HF as [HF1 HF2].
  assert (F1 : Forall (fun b => Forall (keyed_tx (ownkey owner)) (b_txs b)) bs) by (eapply Forall_impl; [exact HF1|]; intros b' Hb'; by apply owned_keyed).
  assert (F2 : Forall (fun b => Forall (keyed_tx (ownkey owner)) (b_txs b)) bs') by (eapply Forall_impl; [exact HF2|]; intros b' Hb'; by apply owned_keyed).
  assert (HU : usable (ownkey owner) s) by (by apply owned_usable).
  destruct (usable_blocks (ownkey owner) (ownkey_0 owner) True (ownkey_1 owner) C bs s s1 us HT1 F1 HB1 HU ltac:(done)) as [HU1 HI]. specialize (HI I).
  assert (HA : attributed (ownkey owner) s).
  { split; [|done]. intros j a Hj. destruct (I1 j a Hj) as (J1 & J2 & J3). done. }
  destruct (attributed_blocks (ownkey owner) (ownkey_0 owner) bs s s1 us HT1 F1 HB1 HU HA) as [HA1 _].
  destruct (attributed_blocks (ownkey owner) (ownkey_0 owner) bs' s1 s' us' HT2 F2 HB2 HU1 HA1) as [HA2 HO].
  destruct Hk as [p Hp]. apply HI in Hp as (z & x & Ex & Hl & Hpw & Hne).
  destruct HU1 as [_ HR]. destruct (HR z x Ex) as (_ & _ & _ & R4).
  assert (Hl0 : n_last_pub x <> 0%N) by (rewrite <- R4; congruence).
  destruct HA1 as [_ HA1]. specialize (HA1 z x Ex Hl0). rewrite Hl in HA1. apply HO in HA1 as [a Ha].
  destruct HA2 as [HA2 _]. destruct (HA2 k a Ha) as [[_ <-] HV]. done.
Qed.
Print Assumptions C67_attributed.
Example C67_witness : indexed own wn /\ map (fun k => st_oper (after share_blocks wn) !! k) [100; 101; 102]%N = [Some 10; Some 12; None]%N.
Proof.
  split; [|by vm_compute]. split.
  - assert (H : map_Forall (fun k a => k <> 0%N /\ own k = a /\ is_Some (st_val wn !! a)) (st_oper wn)) by (apply (bool_decide_unpack _); by vm_compute). exact H.
  - intros z y Hy Hn. exfalso. destruct (wn_vals z y Hy) as (-> & P1 & P2 & P3 & _); clear Hy. done.
Qed.

(** ** C68 *)

(** Whatever governance decides, the parameters of validators stay proper. *)
Theorem C68_parameters : forall bs s s' us, run_blocks bs s = Some (s', us) -> times_from (st_now s) bs ->
  proper_nparams (st_np s) -> proper_nparams (st_np s').
Proof.
  induction bs as [|b bs IH]; intros s s' us HB HT HP; cbn in HB; [by injection HB as <- <-|].
  destruct (run_block b s) as [[s1 u]|] eqn:E1; [|done]. destruct (run_blocks bs s1) as [[s2 us']|] eqn:E2; [|done]. injection HB as <- <-.
  destruct HT as [HT1 HT2]. eapply (IH s1); [exact E2| |by eapply good_block]. by rewrite (block_now b s s1 u HT1 E1).
Qed.
Print Assumptions C68_parameters.
Example C68_witness : proper_nparams (st_np wn) /\ ~ proper_nparams (np0 <| np_max := 0 |>) /\
  ok (eval (set_nparams (np0 <| np_max := 0 |>)) wn) = false.
Proof.
  split; [apply nparams_spec; by vm_compute|]. split; [|by vm_compute]. intros [H _]. revert H. by vm_compute.
Qed.
