(** * When delegated coins can be moved *)
From Verif Require Import MonadProofs Sweep BankProofs RefProofs Spec_Pure FracProofs PureLemmas FeeProofs DelegProofs.
From Verif Require Export LiveProofs Delegating Spec_Delegating.
Open Scope Z_scope.

(** ** Lines *)
Lemma line_add i d l k : (i < List.length l)%nat -> line (add_at i d l) k = line l k + (if (k =? i)%nat then d else 0).
Proof.
  intros H. unfold line, add_at. destruct (Nat.eqb_spec k i) as [->|Hk]; [|rewrite list_lookup_alter_ne by done; lia].
  rewrite list_lookup_alter. destruct (lookup_lt_is_Some_2 l i H) as [x ->]. cbn. lia.
Qed.
Lemma sum_seq_add (f g : nat -> Z) i d n : forall m, (forall k, g k = f k + (if (k =? i)%nat then d else 0)) ->
  sum (map g (seq m n)) = sum (map f (seq m n)) + (if (m <=? i)%nat && (i <? m + n)%nat then d else 0).
Proof.
  induction n as [|n IH]; intros m H.
  - cbn [seq map sum fold_right]. replace ((m <=? i)%nat && (i <? m + 0)%nat) with false; [cbn; lia|].
    symmetry. apply andb_false_iff. destruct (Nat.leb_spec m i); [right; apply Nat.ltb_ge; lia|by left].
  - cbn [seq map]. change (sum (g m :: map g (seq (Datatypes.S m) n))) with (g m + sum (map g (seq (Datatypes.S m) n))).
    change (sum (f m :: map f (seq (Datatypes.S m) n))) with (f m + sum (map f (seq (Datatypes.S m) n))). rewrite (IH (Datatypes.S m) H), H.
    destruct (Nat.eqb_spec m i) as [->|Hm].
    + replace ((Datatypes.S i <=? i)%nat) with false by (symmetry; apply Nat.leb_gt; lia).
      replace ((i <=? i)%nat) with true by (symmetry; apply Nat.leb_le; lia).
      replace ((i <? i + Datatypes.S n)%nat) with true by (symmetry; apply Nat.ltb_lt; lia). cbn [andb]. lia.
    + replace ((m <=? i)%nat && (i <? m + Datatypes.S n)%nat) with ((Datatypes.S m <=? i)%nat && (i <? Datatypes.S m + n)%nat); [lia|].
      replace (m + Datatypes.S n)%nat with (Datatypes.S m + n)%nat by lia. f_equal.
      destruct (Nat.leb_spec m i), (Nat.leb_spec (Datatypes.S m) i); lia || done.
Qed.
Lemma upto_add r r' i d n : (forall k, line (r_deleg r') k = line (r_deleg r) k + (if (k =? i)%nat then d else 0)) ->
  upto r' n = upto r n + (if (i <=? n)%nat then d else 0).
Proof.
  intros H. unfold upto. rewrite (sum_seq_add (line (r_deleg r)) _ i d _ 0 H). done.
Qed.

(** ** Going up *)
Lemma up_nobody s n m a : referrer s nobody = nobody -> up s n a = nobody -> up s (m + n) a = nobody.
Proof. intros H E. induction m as [|m IH]; cbn; [done|]. by rewrite IH. Qed.
Lemma up_again s i d a : up s (d + i) a = up s i a -> forall m, up s (m * d + i) a = up s i a.
Proof.
  intros E m. induction m as [|m IH]; [done|]. cbn [Nat.mul].
  assert (P : forall p q x, up s (p + q) x = up s p (up s q x)) by (intros p q x; induction p as [|p IHp]; cbn; [done|by rewrite IHp]).
  replace (d + m * d + i)%nat with (d + (m * d + i))%nat by lia. rewrite P, IH, <- P. done.
Qed.
Lemma up_twice s a i j : referrer s nobody = nobody -> (exists n, up s n a = nobody) -> (i < j)%nat -> up s i a = up s j a -> up s i a = nobody.
Proof.
  intros H [n Hn] L E. pose proof (up_again s i (j - i) a) as A. replace (j - i + i)%nat with j in A by lia.
  specialize (A (eq_sym E) n). rewrite <- A. replace (n * (j - i) + i)%nat with ((n * (j - i) + i - n) + n)%nat by nia. by apply up_nobody.
Qed.

(** What has to fit for a change of the delegation of [a] by [d] to be recorded *)
Definition room (s : St) (a : addr) (d : Z) : Prop :=
  forall i n, (i <= n <= 10)%nat -> up s i a <> nobody -> 0 <= stored_upto s (up s i a) n + d < 2 ^ 63.

Lemma wp_walk_dd s a dc dd lines : referrer s nobody = nobody -> (exists n, up s n a = nobody) -> room s a dd ->
  forall i b x s1, lines = seq i (11 - i) -> (1 <= i)%nat -> x = up s i a -> still s s1 -> clock s1 -> goodb b s1 -> ownb b s1 ->
  (forall y, r_referrer (bu_get b y s1) = referrer s y) ->
  (forall j, (i <= j)%nat -> up s j a <> nobody -> forall k, line (r_deleg (bu_get b (up s j a) s1)) k = stored_deleg s (up s j a) k) ->
  wp (walk true lines b x (fun i x b r => (if dd =? 0 then b else bu_call EvStake x b, add_line i dc dd r)))
    (fun b' s' => still s s' /\ goodb b' s' /\ ownb b' s') s1.
Proof.
  intros HN HE HR. induction lines as [|i0 lines IH]; intros i b x s1 EL Hi Ex S1 HC HG HO HF HS; cbn [walk]; [apply wp_ret; by split_and!|].
  destruct (N.eqb_spec x nobody) as [|Hx]; [apply wp_ret; by split_and!|].
  assert (Hi' : (i <= 10)%nat) by (destruct (11 - i)%nat eqn:E; [done|lia]).
  replace (11 - i)%nat with (Datatypes.S (11 - Datatypes.S i)) in EL by lia. injection EL as -> EL.
  apply wp_bind. eapply wp_mono; [apply (wp_updatem b x true _ s1 (fun u b' r' => bu_data b' = bu_data b /\ u = referrer s x /\ r_referrer r' = referrer s x /\
     line (r_deleg r') 0 = line (r_deleg (bu_get b x s1)) 0)); [done..|]|].
  - set (b1 := if dd =? 0 then b else bu_call EvStake x b). assert (EB : bu_data b1 = bu_data b) by (unfold b1; by destruct (dd =? 0)).
    assert (GB : forall y, bu_get b1 y s1 = bu_get b y s1) by (intros y; by apply bu_get_ext). clearbody b1. apply wp_ret. split; [apply still_refl|].
    assert (LL : forall k, line (r_deleg (add_line i dc dd (normalize (bu_get b x s1)))) k = line (r_deleg (bu_get b x s1)) k + (if (k =? i)%nat then dd else 0)).
    { intros k. cbn. rewrite line_add, line_pad; [done|]. pose proof (pad_length (r_deleg (bu_get b x s1))). lia. }
    destruct (HG x) as (F & L & K). pose proof (larger_normalize (bu_get b x s1)) as (L1 & L2). split_and!.
    + by eapply goodb_ext.
    + split; [apply F|]. intros n Hn. rewrite (upto_add (bu_get b x s1) _ i dd n LL). destruct (Nat.leb_spec i n) as [Hin|].
      * specialize (HR i n ltac:(lia)). rewrite <- Ex in HR. specialize (HR Hx).
        assert (E : upto (bu_get b x s1) n = stored_upto s x n).
        { unfold upto, stored_upto. f_equal. apply map_ext. intros k. rewrite Ex. apply HS; [lia|by rewrite <- Ex]. }
        rewrite E. done.
      * rewrite Z.add_0_r. by apply F.
    + rewrite GB. split; [exact L1|]. cbn. unfold add_at. rewrite alter_length. apply pad_longer.
    + intros z Hz. rewrite GB. by apply K.
    + unfold long. cbn. unfold add_at. rewrite alter_length. apply pad_length.
    + done.
    + apply HF.
    + apply HF.
    + rewrite LL. destruct (Nat.eqb_spec 0 i); lia.
  - intros [b2 u] s2 (S2 & G2 & b' & r' & r2 & (Q1 & Q2 & Q3 & Q4) & [E M] & D). cbn [fst snd] in *. subst u.
    assert (C2 : clock s2) by (by eapply still_fields).
    assert (R2 : st_ref s2 = st_ref s1) by (by destruct S2 as (sc & ix & ->)).
    assert (BG : forall y, bu_get b2 y s2 = if (y =? x)%N then r2 else bu_get b y s1).
    { intros y. rewrite (bu_get_insert b' b2 x r2) by done. destruct (y =? x)%N; [done|]. by apply bu_get_ext. }
    apply (IH (Datatypes.S i)); try done.
    + lia.
    + cbn [up]. by rewrite <- Ex.
    + by eapply still_trans.
    + intros y. rewrite BG. assert (DE : delegation s2 y = delegation s1 y) by (by destruct S2 as (sc & ix & ->)). rewrite DE.
      destruct (N.eqb_spec y x) as [->|Hy]; [|apply HO]. destruct E as (st & d & ->). rewrite <- HO. exact Q4.
    + intros y. rewrite BG. destruct (N.eqb_spec y x) as [->|Hy]; [|apply HF]. destruct E as (st & d & ->). exact Q3.
    + intros j Hj Hn k. rewrite BG. destruct (N.eqb_spec (up s j a) x) as [Ey|Hy]; [|apply HS; [lia|done]].
      exfalso. apply Hx. rewrite Ex. apply (up_twice s a i j); [done|done|lia|by rewrite <- Ex].
Qed.

(** ** The books follow a change of a delegation *)
Lemma wp_delete t h d s : 0 <= t < time_limit -> wp (delete_task t h d) (fun _ => still s) s.
Proof.
  intros H. unfold delete_task, delete_where, check_key. apply wp_bind, wp_assert; [unfold key_ok; cbn; lia|].
  apply wp_modify. destruct (st_sched s !! t); [|apply still_refl]. destruct (List.filter _ _); apply still_sched.
Qed.
Definition due_ok (s : St) (a : addr) : Prop := forall t, r_banishment_at (ref_get s a) = Some t -> 0 <= t < time_limit.

Lemma wp_obc_dd a s : clock s -> bal_ok s ->
  (forall a x, st_val s !! a = Some x -> (11 <= List.length (r_deleg (ref_get s a)))%nat) ->
  goodb bu_new s -> (forall y, y <> a -> stored_deleg s y 0 = delegation s y) -> 0 <= delegation s a < 2 ^ 63 ->
  r_banished (ref_get s a) = false -> r_empty (ref_get s a) = false -> due_ok s a -> a <> nobody ->
  referrer s nobody = nobody -> (exists n, up s n a = nobody) -> room s a (delegation s a - stored_deleg s a 0) ->
  wp (on_balance_changed a) (fun _ => healthy) s.
Proof.
  intros HC HB HV HG HO HD HN HE HK Ha HF HU HR. unfold on_balance_changed. apply wp_bind, wp_get. cbn [id]. apply wp_bind.
  set (r := ref_get s a). set (rn := normalize r). set (dd := delegation s a - stored_deleg s a 0) in *.
  assert (HL : (11 <= List.length (r_deleg rn))%nat) by apply pad_length.
  assert (L0 : line (r_deleg rn) 0 = stored_deleg s a 0) by (cbn; apply line_pad).
  change (own_deleg s a) with (delegation s a).
  set (Q := fun (x : Z * Z * addr * bool) (b' : bu) (r' : rinfo) => bu_data b' = ∅ /\ line (r_deleg r') 0 = delegation s a /\
     r_referrer r' = referrer s a /\ x = (fst (fst (fst x)), dd, referrer s a, false)).
  assert (FIN : forall b' r' s', still s s' -> bu_data b' = ∅ -> fit r' -> larger r r' -> long r' -> counters (ref_get s) r' ->
    (forall k, line (r_deleg r') k = line (r_deleg r) k) -> r_referrer r' = r_referrer r -> r_banished r' = r_banished r ->
    let dc := own_coins s a - default 0 (r_coins rn !! 0%nat) in
    wp (ret (b', r' <| r_coins := <[ 0%nat := own_coins s a ]> (r_coins r') |> <| r_deleg := <[ 0%nat := delegation s a ]> (r_deleg r') |>,
       (dc, dd, r_referrer r', r_banished r'))) (fun o s' => still s s' /\ let '(b', r', x) := o in
    goodb b' s /\ fit r' /\ larger (bu_get b' a s) r' /\ counters (fun z => bu_get b' z s) r' /\ long r' /\ Q x b' r') s').
  { intros b' r' s' SS EB FF LL LG KK EL ER EN dc. apply wp_ret. split; [done|].
    assert (GN : forall y, bu_get b' y s = ref_get s y) by (intros y; rewrite <- (bu_get_new s y); by apply bu_get_ext).
    assert (LI : forall k, line (r_deleg (r' <| r_coins := <[ 0%nat := own_coins s a ]> (r_coins r') |> <| r_deleg := <[ 0%nat := delegation s a ]> (r_deleg r') |>)) k
      = line (r_deleg r') k + (if (k =? 0)%nat then dd else 0)).
    { intros k. cbn. destruct (Nat.eqb_spec k 0) as [->|Hk].
      - rewrite line_insert0 by (unfold long in LG; lia). rewrite EL. change (line (r_deleg r) 0) with (stored_deleg s a 0). unfold dd. lia.
      - unfold line. rewrite list_lookup_insert_ne by done. lia. }
    split_and!.
    - by apply (goodb_ext bu_new b' s).
    - split; [apply FF|]. intros n Hn. rewrite (upto_add r' _ 0 dd n LI). cbn [Nat.leb].
      specialize (HR 0%nat n ltac:(lia) Ha). cbn [up] in HR. unfold stored_upto in HR. rewrite (upto_ext r); [exact HR|exact EL].
    - rewrite GN. destruct LL as [L1 L2]. split; [exact L1|]. cbn [r_deleg set]. rewrite insert_length. exact L2.
    - intros z Hz. rewrite GN. by apply KK.
    - unfold long. cbn [r_deleg set]. rewrite insert_length. exact LG.
    - split_and!; [done| |done|].
      + cbn [r_deleg set]. apply line_insert0. unfold long in LG. lia.
      + cbn [fst]. rewrite ER, EN. unfold r. by rewrite HN. }
  destruct (HG a) as (F0 & _ & K0). rewrite bu_get_new in F0, K0. fold r in F0, K0.
  assert (K0' : counters (ref_get s) r) by (intros z Hz; specialize (K0 z Hz); cbn beta in K0; by rewrite bu_get_new in K0).
  pose proof (larger_normalize r) as LN. pose proof (fit_normalize r F0) as FN. fold rn in LN, FN.
  assert (LK : forall k, line (r_deleg rn) k = line (r_deleg r) k) by (intros k; apply line_pad).
  assert (ERn : r_empty rn = false) by exact HE.
  apply wp_try. eapply wp_mono; [apply (wp_updatem bu_new a true _ s Q); [done|done|]|].
  - rewrite bu_get_new. fold r. fold rn. rewrite ERn. change (default 0 (r_deleg rn !! 0%nat)) with (line (r_deleg rn) 0). rewrite L0.
    fold dd. cbv zeta.
    assert (RR : r_referrer rn = r_referrer r) by done. assert (RB : r_banished rn = r_banished r) by done.
    assert (RA : r_banishment_at rn = r_banishment_at r) by done. assert (KN : counters (ref_get s) rn) by exact K0'.
    assert (LG : long rn) by exact HL. clearbody rn. clear HG HV HO K0.
    destruct (dd =? 0); [apply FIN; try done; apply still_refl|].
    destruct (r_active rn); [apply FIN; try done; apply still_refl|].
    apply wp_bind. apply (wp_lift _ _ (delegation s a)); [by apply int64_some|].
    destruct (delegation s a <=? bp_dust (st_bp s)).
    + destruct (_ && _ && _ && _); [|apply FIN; try done; apply still_refl].
      apply wp_bind. unfold schedule_banishment. apply wp_bind, wp_get. apply wp_bind.
      eapply wp_mono; [apply wp_schedule; destruct HC as (C1 & C2 & C3); unfold one_month, one_day; lia|].
      intros [] s1 S1. apply wp_ret. apply FIN; try done; cbn; try apply FN; try apply LN.
    + assert (W : wp (match r_banishment_at rn with
                | Some t => do! delete_task t HBanish a in ret (rn <| r_banishment_at := None |>)
                | None => ret rn end) (fun r' s' => still s s' /\ (r' = rn \/ r' = rn <| r_banishment_at := None |>)) s).
      { rewrite RA. destruct (r_banishment_at r) as [t|] eqn:ET; [|apply wp_ret; split; [apply still_refl|by left]].
        apply wp_bind. eapply wp_mono; [apply wp_delete, HK, ET|]. intros [] s1 S1. apply wp_ret. split; [done|by right]. }
      apply wp_bind. eapply wp_mono; [exact W|]. intros r' s1 (S1 & HR').
      assert (BF : r_banished r' = false). { destruct HR' as [->| ->]; [by rewrite RB|]. cbn. by rewrite RB. }
      rewrite BF. rewrite <- BF.
      destruct HR' as [->| ->]; apply FIN; try done; cbn; try apply FN; try apply LN.
  - intros [b x] s1 (S1 & G1 & b' & r' & r2 & (Q1 & Q2 & Q3 & Q4) & [E M] & D). cbn [fst snd] in *. rewrite Q4. clear Q4.
    assert (R1 : st_ref s1 = st_ref s) by (by destruct S1 as (sc & ix & ->)).
    assert (BG : forall y, bu_get b y s1 = if (y =? a)%N then r2 else ref_get s y).
    { intros y. rewrite (bu_get_insert b' b a r2) by done. destruct (y =? a)%N; [done|]. rewrite <- (bu_get_new s y). by apply bu_get_ext. }
    assert (E2 : r_deleg r2 = r_deleg r' /\ r_referrer r2 = r_referrer r') by (by destruct E as (st & d & ->)). destruct E2 as [E2 E3].
    apply wp_bind. eapply wp_mono; [apply (wp_walk_dd s a (fst (fst (fst x))) dd (seq 1 10) HF HU HR 1 b (referrer s a) s1)|]; try done.
    + by eapply still_fields.
    + intros y. rewrite BG. assert (DE : delegation s1 y = delegation s y) by (by destruct S1 as (sc & ix & ->)). rewrite DE.
      destruct (N.eqb_spec y a) as [->|Hy]; [by rewrite E2|by apply HO].
    + intros y. rewrite BG. destruct (N.eqb_spec y a) as [->|Hy]; [by rewrite E3|done].
    + intros j Hj Hn k. rewrite BG. destruct (N.eqb_spec (up s j a) a) as [Ey|Hy]; [|done].
      exfalso. apply Ha. pose proof (up_twice s a 0 j HF HU ltac:(lia)) as T. cbn [up] in T. by apply T.
    + intros b3 s3 ((sc & ix & ->) & G3 & O3). eapply wp_mono; [apply wp_commit; [done|done|exact HV|done|done]|by intros [] s4 []].
Qed.

(** ** Interest *)
(** What payments of main coins leave as it was *)
Definition calm (s s' : St) : Prop := kept s s' /\ amt (st_supply s') uartrd = amt (st_supply s) uartrd /\
  amt (st_supply s) uartr <= amt (st_supply s') uartr.
Lemma calm_refl s : calm s s.
Proof. split; [apply kept_refl|]. split; [done|lia]. Qed.
Lemma calm_trans s1 s2 s3 : calm s1 s2 -> calm s2 s3 -> calm s1 s3.
Proof. intros (A1 & A2 & A3) (B1 & B2 & B3). split; [by eapply kept_trans|]. split; [by rewrite B2|lia]. Qed.
Lemma calm_same s s' : st_ref s' = st_ref s -> st_supply s' = st_supply s -> calm s s'.
Proof. intros E1 E2. split; [by apply kept_same|]. rewrite E2. split; [done|lia]. Qed.
Definition well (s0 s : St) : Prop := healthy s /\ calm s0 s /\ st_bp s = st_bp s0 /\ st_prof s = st_prof s0.
Lemma wp_frame {A} (m : M A) Q s : rel (same st_supply) m -> rel (same st_bp) m -> rel (same st_prof) m -> wp m Q s ->
  wp m (fun x s' => Q x s' /\ st_supply s' = st_supply s /\ st_bp s' = st_bp s /\ st_prof s' = st_prof s) s.
Proof.
  intros R1 R2 R3 H. apply wp_run in H as (s' & x & E & H). eapply wp_of; [exact E|]. split; [done|].
  specialize (R1 s). specialize (R2 s). specialize (R3 s). rewrite E in R1, R2, R3. done.
Qed.
Lemma wp_add_well a n s0 s : well s0 s -> 0 <= n -> wp (add_coins a (coins_of uartr n)) (fun _ => well s0) s.
Proof.
  intros (H & C & P & Q) Hn. eapply wp_mono; [apply wp_frame; [frame..|apply wp_add'; [done|by apply coins_of_valid|by rewrite amt_coins_of]]|].
  intros [] s' ((H' & K) & E1 & E2 & E3). split_and!; [done| |by rewrite E2|by rewrite E3].
  eapply calm_trans; [exact C|]. split; [exact K|]. rewrite E1. split; [done|lia].
Qed.
Lemma wp_inflate_well n s0 s : well s0 s -> 0 <= n -> wp (inflate (coins_of uartr n)) (fun _ => well s0) s.
Proof.
  intros (H & C & P & Q) Hn. apply wp_modify. split_and!; [by apply (healthy_more s)| |done|done].
  eapply calm_trans; [exact C|]. split; [by apply kept_same|]. cbn [st_supply set]. rewrite !amt_add, !amt_coins_of. cbn. lia.
Qed.
Lemma wp_new_coins d n (Q : coins -> St -> Prop) s : 0 <= n -> Q (coins_of d n) s -> wp (new_coins d n) Q s.
Proof. intros Hn H. unfold new_coins. apply wp_bind, wp_assert; [lia|]. by apply wp_ret. Qed.

Lemma fair_same s s' : st_bp s' = st_bp s -> fair_fee s -> fair_fee s'.
Proof. intros E H n Hn. rewrite (fee_of_same n s s' E). by apply H. Qed.

Lemma wp_accrue a n s0 s : well s0 s -> fair_fee s0 -> 0 <= n < 2 ^ 63 -> wp (accrue a n) (fun _ => well s0) s.
Proof.
  intros W F Hn. unfold accrue. destruct (n =? 0) eqn:E0; [by apply wp_ret|]. apply wp_bind, wp_get.
  destruct (st_prof s !! a); [|by apply wp_ret]. apply wp_bind, wp_new_coins; [lia|].
  apply wp_bind. eapply wp_mono; [apply wp_inflate_well; [done|lia]|]. intros [] s1 W1.
  assert (F1 : fair_fee s1) by (eapply fair_same; [apply W1|done]). destruct (F1 n Hn) as (f & Ef & Hf).
  apply wp_bind. unfold tx_fee. apply wp_bind, wp_get. apply (wp_lift _ _ f); [exact Ef|].
  assert (TAIL : forall s2, well s0 s2 -> wp (do! must (add_coins a (coins_of uartr (n - f))) in
      do! lift "Uint64() out of bounds" (Frac.to_uint64 (n - f)) in do! lift "Uint64() out of bounds" (Frac.to_uint64 f) in ret tt) (fun _ => well s0) s2).
  { intros s2 W2. apply wp_bind, wp_must. eapply wp_mono; [apply wp_add_well; [done|lia]|]. intros [] s3 W3.
    apply wp_bind, (wp_lift _ _ (n - f)); [apply uint64_some; lia|]. apply wp_bind, (wp_lift _ _ f); [apply uint64_some; lia|]. by apply wp_ret. }
  apply wp_bind. destruct (f =? 0) eqn:Ef0.
  - apply wp_ret. assert (f = 0) as -> by lia. rewrite Z.sub_0_r in TAIL |- *. by apply TAIL.
  - apply wp_bind, wp_new_coins; [lia|]. apply wp_bind, wp_assert; [apply ge_main; [lia|rewrite amt_coins_of, N.eqb_refl; lia]|].
    apply wp_bind, wp_must. eapply wp_mono; [apply wp_add_well; [done|lia]|]. intros [] s2 W2. apply wp_ret.
    replace (coins_sub (coins_of uartr n) (coins_of uartr f)) with (coins_of uartr (n - f)); [by apply TAIL|].
    apply map_eq. intros d. unfold coins_sub, coins_of, nz. rewrite lookup_merge. unfold diag_None.
    destruct (N.eqb_spec d uartr) as [->|Hd].
    + rewrite E0, Ef0, !lookup_singleton. cbn. destruct (n - f =? 0); [by rewrite lookup_empty|]. apply lookup_insert.
    + rewrite E0, Ef0, !lookup_singleton_ne by done. cbn. destruct (n - f =? 0); [by rewrite lookup_empty|]. rewrite lookup_insert_ne; [done|]. intros <-. done.
Qed.

Lemma vfees_some n : forall i h s a, base_of h <= 6 -> is_Some (vfees_up n i h s a).
Proof.
  induction n as [|n IH]; intros i h s a Hh; cbn [vfees_up]; [eauto|]. destruct (a =? nobody)%N; [eauto|].
  destruct (is_active_validator s a); [|by apply IH].
  destruct (vfee_rank (r_status (ref_get s a)) i 6) as [j|] eqn:ER; [|by apply IH].
  apply vfee_rank_spec in ER as (Hj & _).
  destruct h as [h|].
  - destruct (h <? j)%nat eqn:EL; [|by apply IH]. apply Nat.ltb_lt in EL. rewrite vfee_sub_spec by lia.
    destruct (IH (Datatypes.S i) (Some j) s (r_referrer (ref_get s a))) as [l ->]; [cbn; lia|eauto].
  - destruct (IH (Datatypes.S i) (Some j) s (r_referrer (ref_get s a))) as [l ->]; [cbn; lia|eauto].
Qed.
Definition outs_sum (l : list (addr * Z * coins)) : Z := fold_right (fun e t => snd (fst e) + t) 0 l.
Lemma outs_fold l z : fold_left (fun t (e : addr * Z * coins) => t + snd (fst e)) l z = z + outs_sum l.
Proof. revert z. induction l as [|e l IH]; intros z; cbn [fold_left]; [cbn; lia|]. rewrite IH. change (outs_sum (e :: l)) with (snd (fst e) + outs_sum l). lia. Qed.
Lemma outs_app l1 l2 : outs_sum (l1 ++ l2) = outs_sum l1 + outs_sum l2.
Proof. induction l1 as [|e l IH]; [done|]. change (outs_sum ((e :: l) ++ l2)) with (snd (fst e) + outs_sum (l ++ l2)). change (outs_sum (e :: l)) with (snd (fst e) + outs_sum l). rewrite IH. lia. Qed.
Lemma wp_outs n s : 0 <= n < 2 ^ 63 -> forall fees acc, (forall e, e ∈ fees -> 0 < Frac.fnum (snd e) <= 6 /\ Frac.fden (snd e) = 1000) ->
  (forall e, e ∈ acc -> 0 < snd (fst e) /\ snd e = coins_of uartr (snd (fst e))) ->
  wp (mfold fees acc (fun acc e =>
        let! x := fr (vfee_amount (snd e) n) in
        if x =? 0 then ret acc else
        let! c := new_coins uartr x in
        ret (acc ++ [(fst e, x, c)])))
    (fun outs s' => s' = s /\ (forall e, e ∈ outs -> 0 < snd (fst e) /\ snd e = coins_of uartr (snd (fst e))) /\
       30000 * outs_sum outs <= 30000 * outs_sum acc + n * fsum fees) s.
Proof.
  intros Hn. induction fees as [|[y f] fees IH]; intros acc HF HA; cbn [mfold].
  { apply wp_ret. split; [done|]. split; [done|]. cbn. lia. }
  assert (Hf : 0 < Frac.fnum f <= 6 /\ Frac.fden f = 1000) by (apply (HF (y, f)); left). destruct f as [k den]. cbn in Hf. destruct Hf as [Hk ->].
  assert (HF' : forall e, e ∈ fees -> 0 < Frac.fnum (snd e) <= 6 /\ Frac.fden (snd e) = 1000) by (intros e He; apply HF; by right).
  apply wp_bind, wp_bind. unfold fr. apply (wp_lift _ _ (k * n / 30000)); [cbn [snd]; by apply vfee_amount_spec|].
  pose proof (Z.mul_div_le (k * n) 30000 ltac:(lia)) as L. assert (P : 0 <= k * n / 30000) by (apply Z.div_pos; nia).
  cbn [fsum fold_right snd Frac.fnum]. fold (fsum fees).
  destruct (k * n / 30000 =? 0) eqn:EX.
  - apply wp_ret. eapply wp_mono; [by apply IH|]. intros outs s' (-> & A & B). split; [done|]. split; [done|]. nia.
  - apply wp_bind, wp_new_coins; [done|]. apply wp_ret. eapply wp_mono; [apply IH; [done|]|].
    + intros e [He|He]%elem_of_app; [by apply HA|]. apply elem_of_list_singleton in He as ->. cbn. split; [lia|done].
    + intros outs s' (-> & A & B). split; [done|]. split; [done|]. rewrite outs_app in B. cbn [outs_sum fold_right fst snd] in B. nia.
Qed.
Lemma wp_accrue_val a n s0 s : well s0 s -> 0 <= n < 2 ^ 63 -> wp (accrue_to_validator a n) (fun _ => well s0) s.
Proof.
  intros W Hn. unfold accrue_to_validator. destruct (n =? 0); [by apply wp_ret|]. apply wp_bind, wp_get.
  destruct (st_prof s !! a); [|by apply wp_ret]. apply wp_bind, wp_get.
  destruct (vfees_some 20 0 None s (r_referrer (ref_get s a))) as [fees EF]; [cbn; lia|]. apply wp_bind. unfold fr. apply (wp_lift _ _ fees); [exact EF|].
  pose proof (vfees_up_spec 20 0 None s _ fees ltac:(cbn; lia) EF) as (V1 & V2 & V3). cbn [base_of] in V3.
  apply wp_bind. eapply wp_mono; [apply (wp_outs n s Hn fees [] V1); intros e He; by apply elem_of_nil in He|].
  intros outs s1 (-> & A & B). cbn [outs_sum fold_right] in B. rewrite outs_fold.
  assert (P : 0 <= outs_sum outs).
  { clear B. induction outs as [|e l IH]; cbn; [lia|]. fold (outs_sum l). assert (0 < snd (fst e)) by (apply A; left).
    assert (0 <= outs_sum l) by (apply IH; intros; apply A; by right). lia. }
  rewrite Z.add_0_l, wrap64_id by nia. cbv zeta. destruct (outs_sum outs =? 0); [by apply wp_ret|].
  apply wp_bind. eapply wp_mono.
  - assert (X : forall l s, (forall e, e ∈ l -> 0 < snd (fst e) /\ snd e = coins_of uartr (snd (fst e))) -> well s0 s ->
      wp (mfor l (fun e : addr * Z * coins => must (add_coins (fst (fst e)) (snd e)))) (fun _ => well s0) s).
    { induction l as [|e l IH]; intros s1 HL H1; cbn [mfor]; [by apply wp_ret|]. apply wp_bind, wp_must.
      destruct (HL e) as [E1 E2]; [left|]. rewrite E2. eapply wp_mono; [apply wp_add_well; [done|lia]|]. intros [] s2 H2. apply IH; [|done].
      intros x Hx. apply HL. by right. }
    by apply X.
  - intros [] s1 W1. apply wp_bind, wp_new_coins; [done|]. by apply wp_inflate_well.
Qed.

(** Numbers that are divided by something are numbers. *)
Lemma int64_any f : Frac.fden f <> 0 -> exists z, Frac.int64 f = Some z /\ - 2 ^ 63 <= z < 2 ^ 63.
Proof.
  intros H. unfold Frac.int64, Frac.big_int, Frac.quo. destruct (Frac.fden f =? 0) eqn:E; [lia|]. cbn. eexists. split; [reflexivity|]. apply wrap64_range.
Qed.
Lemma wp_earner a s : wp (is_active_earner a) (fun _ s' => exists e, s' = s <| st_earn := e |>) s.
Proof.
  unfold is_active_earner. apply wp_bind, wp_get. destruct (st_earn s !! a) as [[v st]|]; [|apply wp_ret; exists (st_earn s); by destruct s].
  apply wp_bind, wp_get, wp_bind, wp_get, wp_bind, wp_modify, wp_ret. eexists. reflexivity.
Qed.
Lemma part_bounds s t : 0 < st_day s -> 0 <= t - st_now s <= st_day s -> (0 <= part_of s t <= 1)%Q.
Proof.
  intros HD HT. unfold part_of. assert (P : (0 < inject_Z (st_day s))%Q) by (change 0%Q with (inject_Z 0); rewrite <- Zlt_Qlt; lia).
  assert (A : (inject_Z (t - st_now s) / inject_Z (st_day s) <= 1)%Q).
  { apply Qle_shift_div_r; [done|]. rewrite Qmult_1_l. rewrite <- Zle_Qle. lia. }
  assert (B : (0 <= inject_Z (t - st_now s) / inject_Z (st_day s))%Q).
  { apply Qle_shift_div_l; [done|]. rewrite Qmult_0_l. change 0%Q with (inject_Z 0). rewrite <- Zle_Qle. lia. }
  lra.
Qed.

Definition timely (s : St) (a : addr) : Prop := forall t, d_next (del_get a s) = Some t -> 0 <= t - st_now s <= st_day s.
Lemma wp_accrue_part a next s : healthy s -> fair_fee s -> proper_table (dp_table (st_dp s)) -> 0 < st_day s ->
  is_Some (st_prof s !! a) -> timely s a -> d_missed (del_get a s) = None ->
  wp (accrue_part a (del_get a s) next) (fun _ => well s) s.
Proof.
  intros H HF HT HD [p Hp] Hn Hm. unfold accrue_part. unfold timely in Hn.
  assert (W0 : well s s) by (split_and!; [done|apply calm_refl|done|done]).
  destruct (d_next (del_get a s)) as [t|] eqn:Et; [|apply wp_bind, wp_ret, wp_ret; done].
  specialize (Hn t eq_refl). rewrite Hm.
  assert (C : clock s) by apply (hl_clock s H). destruct C as (C1 & C2 & C3).
  assert (DR : 0 <= delegation s a < 2 ^ 63) by (by apply healthy_deleg).
  assert (TL : st_day s < 2 ^ 63). { unfold time_limit in C3. lia. }
  destruct (day_part_spec s t HD ltac:(lia)) as (part & Ep & Dp & Vp).
  apply wp_bind, wp_bind, wp_get, wp_bind. unfold fr. apply (wp_lift _ _ part); [exact Ep|].
  apply wp_bind, wp_ret, wp_bind, wp_get, wp_bind. change (own_deleg s a) with (delegation s a).
  unfold bonus_flags. apply wp_bind, wp_get, wp_bind, (wp_lift _ _ p); [exact Hp|]. apply wp_bind, wp_get, wp_bind, wp_get, wp_bind.
  eapply wp_mono; [apply wp_earner|]. intros [vpn st] s1 [e ->]. apply wp_ret.
  set (s1 := s <| st_earn := e |>).
  assert (W1 : well s s1). { split_and!; [by apply (healthy_more s)|by apply calm_same|done|done]. }
  apply wp_bind, wp_get, wp_bind.
  destruct (percent_spec s1 (delegation s a) (p_active (st_now s) p) (is_active_validator s a) vpn st HT ltac:(lia)) as (pc & Epc & Dpc & _).
  apply (wp_lift _ _ pc); [exact Epc|]. apply wp_bind, (wp_lift _ _ (delegation s a)); [by apply int64_some|]. apply wp_bind.
  destruct (mul_qval pc part) as (x1 & E1 & D1 & _); [done..|]. destruct (reduce_qval x1) as (x2 & E2 & D2 & _); [lia|].
  destruct (mul_int_qval x2 (delegation s a)) as (x3 & E3 & D3 & _); [lia|]. destruct (int64_any x3) as (interest & E4 & I4); [lia|].
  apply (wp_lift _ _ interest). { unfold oget, Frac.obind. rewrite E1, E2, E3. exact E4. }
  destruct (reduce_qval part) as (y1 & F1 & G1 & _ & V1); [lia|]. destruct (mul_int_qval y1 (delegation s a)) as (y2 & F2 & G2 & V2); [lia|].
  assert (TV : exists z, Frac.int64 y2 = Some z /\ 0 <= z < 2 ^ 63).
  { pose proof (part_bounds s t HD Hn) as [B1 B2]. unfold part_of in B1, B2. rewrite <- Vp in B1, B2.
    assert (Y0 : (0 <= qval y2)%Q).
    { rewrite V2, V1. apply Qmult_le_0_compat; [done|]. change 0%Q with (inject_Z 0). rewrite <- Zle_Qle. lia. }
    assert (Y1 : (qval y2 < inject_Z (2 ^ 63))%Q).
    { apply Qle_lt_trans with (inject_Z (delegation s a)); [|rewrite <- Zlt_Qlt; lia].
      rewrite V2, V1. rewrite <- (Qmult_1_l (inject_Z (delegation s a))) at 2. apply Qmult_le_compat_r; [done|].
      change 0%Q with (inject_Z 0). rewrite <- Zle_Qle. lia. }
    rewrite (int64_floor y2) by (done || lia). eexists. split; [reflexivity|]. split.
    - change 0 with (Qfloor (inject_Z 0)). by apply Qfloor_resp_le.
    - rewrite Zlt_Qlt. eapply Qle_lt_trans; [apply Qfloor_le|done]. }
  destruct TV as (toval & E5 & I5).
  apply wp_bind, (wp_lift _ _ toval). { unfold oget, Frac.obind. rewrite F1, F2. exact E5. }
  assert (W : wp (if 0 <? interest then do! accrue a interest in accrue_to_validator a toval else ret tt) (fun _ => well s) s1).
  { destruct (0 <? interest) eqn:EI; [|by apply wp_ret]. apply wp_bind. eapply wp_mono; [apply wp_accrue; [done|done|lia]|].
    intros [] s2 W2. by apply wp_accrue_val. }
  apply wp_bind. eapply wp_mono; [exact W|]. intros [] s2 W2. apply wp_bind.
  eapply wp_mono; [apply wp_delete; lia|]. intros [] s3 (sc & ix & ->). apply wp_ret. apply wp_ret.
  destruct W2 as (H2 & K2 & P2 & P3). split_and!; [by apply (healthy_more s2)|exact K2|done|done].
Qed.

(** ** Revoking *)
Lemma ge_one d b n : n <= amt b d -> coins_ge b (coins_of d n) = true.
Proof.
  intros H. rewrite coins_ge_spec. intros d' x. unfold coins_of, nz. destruct (n =? 0); [by rewrite lookup_empty|].
  rewrite lookup_singleton_Some. by intros [<- <-].
Qed.
Lemma up_same s s' i a : (forall y, referrer s' y = referrer s y) -> up s' i a = up s i a.
Proof. intros H. induction i as [|i IH]; cbn; [done|]. by rewrite IH, H. Qed.
Lemma room_kept s s' a d : kept s s' -> room s a d -> room s' a d.
Proof.
  intros K R i n Hi. rewrite (up_same s s') by (intros y; apply K). intros Hn. specialize (R i n Hi Hn).
  unfold stored_upto in *. replace (map (stored_deleg s' (up s i a)) (seq 0 (Datatypes.S n))) with (map (stored_deleg s (up s i a)) (seq 0 (Datatypes.S n))); [done|].
  apply map_ext. intros k. symmetry. apply K.
Qed.
Lemma wp_set_dd a c d s : healthy s -> coins_valid c = true -> amt c uartrd = delegation s a + d -> 0 <= amt c uartrd < 2 ^ 63 ->
  r_banished (ref_get s a) = false -> r_empty (ref_get s a) = false ->
  due_ok s a -> a <> nobody -> referrer s nobody = nobody -> (exists k, up s k a = nobody) -> room s a d ->
  wp (set_balance a c) (fun _ => healthy) s.
Proof.
  intros H HV HD DR HB HE HK Ha HF HU HR.
  unfold set_balance. apply wp_bind, wp_ensure; [done|]. apply wp_bind, wp_modify.
  change (wp (let! r := try (on_balance_changed a) in match r with inl _ => ret tt | inr _ =>
     do! modify (fun s => s <| st_log := st_log s ++ [LHookFailed a] |>) in fail "hook failed" end) (fun _ => healthy) (upd_bal s a c)).
  assert (DA : delegation (upd_bal s a c) a = amt c uartrd).
  { unfold delegation. by rewrite upd_bal_balance, N.eqb_refl. }
  apply wp_bind, wp_try. eapply wp_mono; [apply wp_obc_dd|by intros [] s' HS; apply wp_ret]; try done.
  - apply (hl_clock s H).
  - apply bal_ok_put; [done|apply (hl_balances s H)].
  - apply (hl_validators s H).
  - apply (goodb_ext bu_new bu_new s); [done|done|by apply healthy_goodb].
  - intros y Hy. change (stored_deleg s y 0 = amt (balance (upd_bal s a c) y) uartrd). rewrite upd_bal_balance. destruct (N.eqb_spec y a); [done|]. apply (hl_own s H).
  - by rewrite DA.
  - destruct HU as [k Hk]. exists k. by rewrite (up_same s (upd_bal s a c)).
  - rewrite DA, HD. change (stored_deleg (upd_bal s a c) a 0) with (stored_deleg s a 0). rewrite (hl_own s H a).
    replace (delegation s a + d - delegation s a) with d by lia. apply (room_kept s); [by apply kept_same|done].
Qed.
Lemma wp_subtract_dd a n s : healthy s -> 0 <= n <= delegation s a -> r_banished (ref_get s a) = false -> r_empty (ref_get s a) = false ->
  due_ok s a -> a <> nobody -> referrer s nobody = nobody -> (exists k, up s k a = nobody) -> room s a (- n) ->
  wp (subtract_coins a (coins_of uartrd n)) (fun _ => healthy) s.
Proof.
  intros H Hn HB HE HK Ha HF HU HR. unfold subtract_coins. apply wp_bind, wp_ensure; [apply coins_of_valid; lia|].
  apply wp_bind, wp_get. assert (GE : coins_ge (balance s a) (coins_of uartrd n) = true) by (apply ge_one; apply Hn).
  apply wp_bind, wp_ensure; [done|]. pose proof (healthy_deleg s a H) as DR.
  assert (HD : amt (coins_sub (balance s a) (coins_of uartrd n)) uartrd = delegation s a + - n) by (rewrite amt_sub, amt_coins_of, N.eqb_refl; done).
  apply (wp_set_dd a _ (- n)); try done; [|lia]. apply coins_sub_valid; [apply bal_ok_valid, H|done].
Qed.
Lemma wp_add_dd a n s : healthy s -> 0 <= n -> delegation s a + n < 2 ^ 63 -> r_banished (ref_get s a) = false -> r_empty (ref_get s a) = false ->
  due_ok s a -> a <> nobody -> referrer s nobody = nobody -> (exists k, up s k a = nobody) -> room s a n ->
  wp (add_coins a (coins_of uartrd n)) (fun _ => healthy) s.
Proof.
  intros H Hn HL HB HE HK Ha HF HU HR. unfold add_coins. apply wp_bind, wp_ensure; [apply coins_of_valid; lia|].
  apply wp_bind, wp_get. pose proof (healthy_deleg s a H) as DR.
  assert (HD : amt (coins_add (balance s a) (coins_of uartrd n)) uartrd = delegation s a + n) by (rewrite amt_add, amt_coins_of, N.eqb_refl; done).
  apply (wp_set_dd a _ n); try done; [|lia]. apply coins_add_valid; [apply bal_ok_valid, H|by apply coins_of_valid].
Qed.
Lemma kept_empty s s' a : kept s s' -> healthy s -> r_empty (ref_get s a) = false -> r_empty (ref_get s' a) = false.
Proof.
  intros K H E. destruct (K a) as (_ & _ & B & _ & L). unfold r_empty in *. rewrite B. pose proof (hl_status s H a) as S. unfold status in S.
  destruct (r_banished (ref_get s a)); cbn [negb] in *; [by rewrite andb_false_r|]. rewrite andb_true_r in *. lia.
Qed.
Lemma wp_freeze a n m s : healthy s -> 0 < n <= delegation s a -> 0 <= m <= n -> r_banished (ref_get s a) = false -> r_empty (ref_get s a) = false ->
  due_ok s a -> a <> nobody -> referrer s nobody = nobody -> (exists k, up s k a = nobody) -> room s a (- n) -> n <= amt (st_supply s) uartrd ->
  wp (freeze a n m) (fun _ => healthy) s.
Proof.
  intros H Hn Hm HB HE HK Ha HF HU HR HS. unfold freeze, convert. pose proof (healthy_deleg s a H) as DR.
  assert (EN : (n =? 0) = false) by lia. rewrite EN. apply wp_bind, wp_bind, wp_new_coins; [lia|].
  apply wp_bind. eapply wp_mono; [apply (wp_rel _ (same st_supply)); [frame|apply wp_subtract_dd; [done|lia|done..]]|].
  intros [] s1 [H1 E1]. apply wp_bind, wp_new_coins; [lia|]. apply wp_bind.
  eapply wp_mono; [apply (wp_rel _ (same st_supply)); [frame|apply wp_add; [done|apply coins_of_valid; lia|by rewrite amt_coins_of]]|].
  intros [] s2 [H2 E2]. apply wp_bind. unfold deflate. apply wp_bind, wp_get, wp_bind, wp_assert.
  { apply ge_one. unfold same in E1, E2. rewrite E2, E1. exact HS. }
  apply wp_modify, wp_modify. apply wp_bind, (wp_lift _ _ m); [apply uint64_some; lia|]. apply wp_ret. by apply (healthy_more s2).
Qed.

Lemma burnt_some p n : fair_terms p -> 0 <= n < 2 ^ 63 -> exists b, oget (Frac.mul_int (rv_burn p) n) Frac.int64 = Some b /\ 0 <= b <= n.
Proof.
  intros [H1 [H2 H3]] Hn. destruct (mul_int_qval (rv_burn p) n) as (x & E & D & V); [done|]. unfold oget, Frac.obind. rewrite E.
  assert (N0 : (0 <= inject_Z n)%Q) by (change 0%Q with (inject_Z 0); rewrite <- Zle_Qle; lia).
  assert (Y0 : (0 <= qval x)%Q) by (rewrite V; by apply Qmult_le_0_compat).
  assert (Y1 : (qval x <= inject_Z n)%Q).
  { rewrite V. rewrite <- (Qmult_1_l (inject_Z n)) at 2. by apply Qmult_le_compat_r. }
  assert (Y2 : (qval x < inject_Z (2 ^ 63))%Q) by (eapply Qle_lt_trans; [exact Y1|rewrite <- Zlt_Qlt; lia]).
  rewrite (int64_floor x) by (done || lia). eexists. split; [reflexivity|]. split.
  - change 0 with (Qfloor (inject_Z 0)). by apply Qfloor_resp_le.
  - rewrite <- (Qfloor_Z n). by apply Qfloor_resp_le.
Qed.
Lemma ready_timely s a : ready s a -> timely s a.
Proof. intros R t. unfold del_get. intros E. apply (rd_next s a R). unfold next_accrual. by destruct (st_del s !! a). Qed.
Lemma ready_whole s a : ready s a -> d_missed (del_get a s) = None.
Proof. intros R. pose proof (rd_whole s a R) as W. unfold unskipped in W. unfold del_get. by destruct (st_del s !! a). Qed.
Lemma ready_empty s a : ready s a -> r_empty (ref_get s a) = false.
Proof. intros R. pose proof (rd_member s a R) as W. unfold status in W. unfold r_empty. by replace (r_status (ref_get s a) =? 0) with false by lia. Qed.
Lemma sum_nonneg s d : bal_ok s -> 0 <= sum_bal s d.
Proof.
  unfold bal_ok, sum_bal. apply (map_fold_ind (fun r m => (forall a c, m !! a = Some c -> c <> ∅ /\ forall d n, c !! d = Some n -> 0 < n) -> 0 <= r)).
  - done.
  - intros a c m r Hm IH H. assert (0 <= r). { apply IH. intros b x Hb. apply (H b). rewrite lookup_insert_ne; [done|]. intros ->. by rewrite Hm in Hb. }
    destruct (H a c) as [_ Hc]; [apply lookup_insert|]. unfold amt. destruct (c !! d) as [x|] eqn:E; cbn; [apply Hc in E|]; lia.
Qed.
Lemma bal_sum s a d : bal_ok s -> bal s a d <= sum_bal s d.
Proof.
  intros H. pose proof (upd_bal_total s a ∅ d) as T. rewrite amt_empty in T.
  pose proof (sum_nonneg (upd_bal s a ∅) d ltac:(apply bal_ok_put; [done|done])). lia.
Qed.
Lemma wp_finish a item s t1 t2 r0 cond : healthy s -> 0 <= t1 < time_limit -> 0 <= t2 < time_limit ->
  wp (let! item := (if cond : bool then ret (item <| d_next := None |>) else
    do! schedule_task t1 HAccrue a in
    ret (item <| d_next := Some t1 |>)) in
    do! del_set a (item <| d_reqs := d_reqs item ++ [r0] |>) in schedule_task t2 HRevoke a) (fun _ => healthy) s.
Proof.
  intros H H1 H2. apply wp_bind. assert (W : wp (if cond : bool then ret (item <| d_next := None |>) else
    do! schedule_task t1 HAccrue a in ret (item <| d_next := Some t1 |>)) (fun _ => healthy) s).
  { destruct cond; [by apply wp_ret|]. apply wp_bind. eapply wp_mono; [by apply wp_schedule|]. intros [] s3 (sc & ix & ->). apply wp_ret. by apply (healthy_more s). }
  eapply wp_mono; [exact W|]. intros item' s3 H3. apply wp_bind. unfold del_set. apply wp_modify.
  eapply wp_mono; [by apply wp_schedule|]. intros [] s4 (sc & ix & ->). by apply (healthy_more s3).
Qed.
Lemma wp_revoke a n express s : healthy s -> ready s a -> fair_terms (terms s express) ->
  0 <= st_now s + rv_period (terms s express) * st_day s < time_limit -> 0 < n <= delegation s a ->
  referrer s nobody = nobody -> (exists k, up s k a = nobody) -> room s a (- n) -> wp (run_msg (MRevoke a n express)) (fun _ => healthy) s.
Proof.
  intros H R HB HP Hn HW HU HR. cbn [run_msg]. unfold msg_revoke. apply wp_bind, wp_ensure; [lia|].
  pose proof (healthy_deleg s a H) as DR. assert (EN : (n =? 0) = false) by lia. assert (HC : clock s) by apply (hl_clock s H). destruct HC as (C1 & C2 & C3).
  unfold revoke. rewrite EN. apply wp_bind, wp_get. cbn [id]. change (own_deleg s a) with (delegation s a).
  apply wp_bind, wp_ensure; [lia|]. apply wp_bind.
  eapply wp_mono; [apply (wp_rel _ (same st_dp)); [frame|apply (wp_accrue_part a (st_now s + one_day s) s); [done|apply R|apply R|apply R|apply R|by apply ready_timely|by apply ready_whole]]|].
  intros item s1 [(H1 & (K1 & S1 & _) & P1 & _) E1]. unfold same in E1.
  apply wp_bind, wp_get. rewrite E1. fold (terms s express). set (p := terms s express) in *.
  apply wp_bind, (wp_lift _ _ n); [apply int64_some; lia|]. destruct (burnt_some p n HB ltac:(lia)) as (b & Eb & Hb).
  apply wp_bind. unfold fr. apply (wp_lift _ _ b); [exact Eb|]. apply wp_bind.
  assert (DD : delegation s1 a = delegation s a).
  { rewrite <- (hl_own s1 H1 a), <- (hl_own s H a). apply K1. }
  assert (RF : forall y, referrer s1 y = referrer s y) by (intros y; apply K1).
  eapply wp_mono; [apply wp_freeze; [done|rewrite DD; lia|lia| | | |apply R| | |by eapply room_kept|]|].
  - destruct (K1 a) as (_ & _ & B & _). rewrite B. apply R.
  - eapply kept_empty; [done|done|by apply ready_empty].
  - intros t Et. apply (rd_due s a R). destruct (K1 a) as (_ & _ & _ & B & _). by rewrite <- B.
  - by rewrite RF.
  - destruct HU as [k Hk]. exists k. by rewrite (up_same s s1).
  - rewrite S1. pose proof (bal_sum s a uartrd (hl_balances s H)). pose proof (rd_supply s a R uartrd). unfold supply in *. unfold delegation in Hn. unfold bal in *. lia.
  - intros [] s2 H2. apply wp_bind, wp_get. apply wp_bind, (wp_lift _ _ (delegation s a - n)); [apply int64_some; lia|].
    apply wp_finish; [done|unfold one_day; lia|unfold one_day; lia].
Qed.

(** ** Delegating *)
Lemma wp_delegate a n s : healthy s -> ready s a -> dp_min (st_dp s) <= n -> 0 < n <= bal s a uartr ->
  referrer s nobody = nobody -> (exists k, up s k a = nobody) -> (forall m, 0 <= m <= n -> room s a m) -> wp (run_msg (MDelegate a n)) (fun _ => healthy) s.
Proof.
  intros H R HM Hn HW HU HR. cbn [run_msg]. unfold msg_delegate. apply wp_bind, wp_ensure; [lia|]. unfold delegate.
  pose proof (healthy_deleg s a H) as DR. assert (HC : clock s) by apply (hl_clock s H). destruct HC as (C1 & C2 & C3).
  apply wp_bind, wp_get, wp_bind, wp_ensure; [lia|]. apply wp_bind, wp_new_coins; [lia|].
  assert (HR0 : delegation s a + n < 2 ^ 63).
  { specialize (HR n ltac:(lia) 0%nat 0%nat ltac:(lia) ltac:(apply R)). cbn [up] in HR. unfold stored_upto in HR. cbn in HR. rewrite <- (hl_own s H a). unfold stored_deleg in *. lia. }
  destruct (rd_fee s a R n ltac:(lia)) as (f & Ef & Hf).
  pose proof (wp_pay_fee a n f s H ltac:(lia) Ef ltac:(lia)) as W. apply wp_run in W as (s1 & fee & E & [H1 K1] & ->).
  apply wp_bind. eapply wp_of; [exact E|]. rewrite amt_coins_of, N.eqb_refl.
  assert (ER : st_dp s1 = st_dp s /\ st_now s1 = st_now s /\ st_day s1 = st_day s /\ st_del s1 = st_del s /\ st_prof s1 = st_prof s /\ st_bp s1 = st_bp s).
  { assert (X : forall A (g : St -> A), rel (same g) (pay_tx_fee a (coins_of uartr n)) -> g s1 = g s).
    { intros A g RG. specialize (RG s). rewrite E in RG. exact RG. }
    split_and!; apply X; frame. }
  destruct ER as (E1 & E2 & E3 & E4 & E5 & E6).
  apply pay_tx_fee_ok in E as (f' & _ & _ & Ec & _ & B & BS & ES & _).
  assert (EA : amt (coins_of uartr f) uartr = amt (coins_of uartr f') uartr) by (by rewrite Ec).
  rewrite !amt_coins_of, N.eqb_refl in EA. subst f'.
  assert (BA : n - f <= bal s1 a uartr). { rewrite B. rewrite amt_coins_of, N.eqb_refl. unfold at_. destruct (a =? a)%N, (a =? splitter)%N; lia. }
  assert (R1 : ready s1 a).
  { destruct R as [R1 R2 R3 R4 R5 R6 R7 R8 R9 R10 R11]. destruct (K1 a) as (L1 & L2 & L3 & L4 & L5). split; try done.
    - by apply (fair_same s).
    - by rewrite E1.
    - by rewrite E3.
    - unfold next_accrual. by rewrite E2, E3, E4.
    - unfold unskipped. by rewrite E4.
    - by rewrite E5.
    - pose proof (hl_status s H a). unfold status in *. lia.
    - unfold banished. by rewrite L3.
    - intros t Ht. apply R10. by rewrite <- L4.
    - intros d. rewrite BS. unfold supply. rewrite ES. apply R11. }
  assert (RF : forall y, referrer s1 y = referrer s y) by (intros y; apply K1).
  apply wp_bind, wp_get. cbn [id]. unfold one_day. rewrite E2, E3. apply wp_bind.
  pose proof (wp_accrue_part a (st_now s + st_day s) s1 H1 (rd_fee s1 a R1) (rd_table s1 a R1) (rd_day s1 a R1) (rd_profile s1 a R1) (ready_timely s1 a R1) (ready_whole s1 a R1)) as W2.
  apply wp_run in W2 as (s2 & item & EP & H2 & (K2 & S2 & S3) & P2 & _). eapply wp_of; [exact EP|].
  apply accrue_part_grows in EP as (G1 & _).
  assert (D2 : delegation s2 a = delegation s a).
  { rewrite <- (hl_own s2 H2 a), <- (hl_own s H a). destruct (K2 a) as [L2 _], (K1 a) as [L1 _]. unfold stored_deleg. by rewrite L2, L1. }
  assert (F2 : forall y, referrer s2 y = referrer s y) by (intros y; rewrite <- RF; apply K2).
  assert (B2 : n - f <= bal s2 a uartr) by (specialize (G1 a); lia).
  assert (SU : n - f <= amt (st_supply s2) uartr).
  { pose proof (bal_sum s a uartr (hl_balances s H)). pose proof (rd_supply s a R uartr). unfold supply in *. rewrite ES in S3. lia. }
  assert (SK : kept s s2) by (by eapply kept_trans).
  assert (W : wp (delegate_coins a (n - f)) (fun _ s' => healthy s' /\ (0 <= delegation s' a < 2 ^ 63)) s2).
  { unfold delegate_coins, convert. destruct (n - f =? 0) eqn:E0; [apply wp_ret; split; [done|by apply healthy_deleg]|].
    apply wp_bind, wp_new_coins; [lia|]. apply wp_bind.
    eapply wp_mono; [apply (wp_rel _ (same st_supply)); [frame|apply wp_subtract; [done|apply coins_of_valid; lia|apply ge_one; exact B2|by rewrite amt_coins_of]]|].
    intros [] s3 [[H3 K3] X3]. unfold same in X3. assert (SK3 : kept s s3) by (by eapply kept_trans).
    destruct (SK3 a) as (L1 & L2 & L3 & L4 & L5).
    assert (D3 : delegation s3 a = delegation s a). { rewrite <- (hl_own s3 H3 a), <- (hl_own s H a). apply L1. }
    apply wp_bind, wp_new_coins; [lia|]. apply wp_bind.
    eapply wp_mono; [apply (wp_rel _ (same st_supply)); [frame|apply wp_add_dd; [done|lia|rewrite D3; lia| | | |apply R| | |]]|].
    - rewrite L3. apply R.
    - eapply kept_empty; [exact SK3|done|by apply ready_empty].
    - intros t Et. apply (rd_due s a R). by rewrite <- L4.
    - destruct (SK3 nobody) as (_ & X & _). unfold referrer in *. by rewrite X.
    - destruct HU as [k Hk]. exists k. rewrite (up_same s s3); [done|]. intros y. apply SK3.
    - eapply room_kept; [exact SK3|]. apply HR. lia.
    - intros [] s4 [H4 X4]. unfold same in X4. apply wp_bind. unfold deflate. apply wp_bind, wp_get, wp_bind, wp_assert.
      { apply ge_one. rewrite X4, X3. exact SU. }
      apply wp_modify, wp_modify. assert (H5 := healthy_deleg s4 a H4). split; [by apply (healthy_more s4)|exact H5]. }
  apply wp_bind. eapply wp_mono; [exact W|]. intros [] s3 [H3 D3]. apply wp_bind, wp_get.
  apply wp_bind, (wp_lift _ _ (delegation s3 a)); [by apply int64_some|]. apply wp_bind, wp_get.
  assert (W3 : wp (if delegation s3 a <=? bp_dust (st_bp s3) then ret (item <| d_next := None |>) else
    do! schedule_task (st_now s + st_day s) HAccrue a in ret (item <| d_next := Some (st_now s + st_day s) |>)) (fun _ => healthy) s3).
  { destruct (delegation s3 a <=? bp_dust (st_bp s3)); [by apply wp_ret|]. apply wp_bind. eapply wp_mono; [apply wp_schedule; lia|]. intros [] s4 (sc & ix & ->). apply wp_ret. by apply (healthy_more s3). }
  apply wp_bind. eapply wp_mono; [exact W3|]. intros item' s4 H4. apply wp_bind, (wp_lift _ _ (n - f)); [apply uint64_some; lia|].
  unfold del_set. apply wp_modify. by apply (healthy_more s4).
Qed.

(** ** What the records of the lines are made of *)
Lemma sum_ge (l : list Z) x : (forall y, y ∈ l -> 0 <= y) -> x ∈ l -> x <= sum l.
Proof.
  induction l as [|y l IH]; intros H Hx; [by apply elem_of_nil in Hx|]. change (sum (y :: l)) with (y + sum l).
  assert (0 <= sum l). { clear IH Hx. assert (H' : forall z, z ∈ l -> 0 <= z) by (intros; apply H; by right). clear H. induction l as [|z l IH]; [cbn; lia|].
    change (sum (z :: l)) with (z + sum l). assert (0 <= z) by (apply H'; left). assert (0 <= sum l) by (apply IH; intros; apply H'; by right). lia. }
  assert (0 <= y) by (apply H; left). apply elem_of_cons in Hx as [->|Hx]; [lia|]. assert (x <= sum l) by (apply IH; [intros; apply H; by right|done]). lia.
Qed.
Lemma sum_pos (l : list Z) : (forall y, y ∈ l -> 0 <= y) -> 0 <= sum l.
Proof.
  induction l as [|y l IH]; intros H; [cbn; lia|]. change (sum (y :: l)) with (y + sum l). assert (0 <= y) by (apply H; left).
  assert (0 <= sum l) by (apply IH; intros; apply H; by right). lia.
Qed.
Lemma backed_nine s a i k : healthy s -> network s -> ready s a -> (i <= k <= 9)%nat -> up s i a <> nobody ->
  delegation s a <= stored_upto s (up s i a) k.
Proof.
  intros H N R Hi Hn. set (A := up s i a) in *.
  assert (D0 : forall x, 0 <= stored_deleg s x 0) by (intros x; rewrite (hl_own s H x); apply healthy_deleg, H).
  assert (P : forall j, (j <= 9)%nat -> 0 <= stored_deleg s A j).
  { intros j Hj. destruct j as [|j]; [apply D0|]. rewrite (nw_deleg s N A (Datatypes.S j) Hn ltac:(lia)). apply sum_pos.
    intros y [x [-> _]]%elem_of_list_fmap. apply D0. }
  assert (Q : delegation s a <= stored_deleg s A i).
  { rewrite <- (hl_own s H a). destruct i as [|i]; [unfold A; cbn; lia|]. rewrite (nw_deleg s N A (Datatypes.S i) Hn ltac:(lia)).
    apply (sum_ge (map (fun x => stored_deleg s x 0) (at_line s (Datatypes.S i) A))).
    - intros y [x [-> _]]%elem_of_list_fmap. apply D0.
    - apply elem_of_list_fmap. exists a. split; [done|]. apply elem_of_list_filter. split; [split; [done|apply R]|].
      pose proof (rd_member s a R) as M. unfold status, ref_get in M. destruct (st_ref s !! a) as [r|] eqn:E; [|by cbn in M].
      apply elem_of_list_fmap. exists (a, r). split; [done|]. by apply elem_of_map_to_list. }
  unfold stored_upto. etrans; [exact Q|]. apply sum_ge.
  - intros y [j [-> Hj]]%elem_of_list_fmap. apply elem_of_seq in Hj. apply P. lia.
  - apply elem_of_list_fmap. exists i. split; [done|]. apply elem_of_seq. lia.
Qed.
Lemma room_minus s a n : healthy s -> network s -> ready s a -> 0 < n <= delegation s a ->
  (forall i, (i <= 10)%nat -> up s i a <> nobody -> n <= stored_upto s (up s i a) 10) -> room s a (- n).
Proof.
  intros H N R Hn HB i k Hi Hu. pose proof (hl_sums s H (up s i a) k ltac:(lia)) as S.
  destruct (decide (k = 10)%nat) as [->|]; [specialize (HB i ltac:(lia) Hu); lia|].
  pose proof (backed_nine s a i k H N R ltac:(lia) Hu). lia.
Qed.

(** ** Scheduled pay-outs *)
Lemma wp_interest a t s : healthy s -> ready s a -> next_accrual s a = Some t -> 0 <= t + st_day s < time_limit ->
  0 <= trunc (account_rate s a * inject_Z (delegation s a)) < 2 ^ 63 -> wp (perform_accrue a t) (fun _ => healthy) s.
Proof.
  intros H R Ht HL HI. unfold perform_accrue. apply wp_bind, wp_get. apply wp_bind, (wp_lift _ _ t). { by rewrite del_get_next. }
  apply wp_bind, wp_assert; [lia|]. apply wp_bind, wp_get. change (own_deleg s a) with (delegation s a). apply wp_bind.
  pose proof (healthy_deleg s a H) as DR. destruct (rd_profile s a R) as [p Hp].
  assert (WB : wp (bonus_flags a) (fun _ s' => exists e, s' = s <| st_earn := e |>) s).
  { unfold bonus_flags. apply wp_bind, wp_get, wp_bind, (wp_lift _ _ p); [exact Hp|]. apply wp_bind, wp_get, wp_bind, wp_get, wp_bind.
    eapply wp_mono; [apply wp_earner|]. intros [vpn st] s1 E. by apply wp_ret. }
  apply wp_run in WB as (s1 & [[[pr v] vpn] st] & EB & [e ->]). eapply wp_of; [exact EB|].
  apply bonus_flags_ok in EB as (_ & Hpr & Hv & Hvpn & Hst & _).
  set (s1 := s <| st_earn := e |>).
  assert (W1 : well s s1). { split_and!; [by apply (healthy_more s)|by apply calm_same|done|done]. }
  apply wp_bind, wp_get, wp_bind.
  destruct (percent_spec s (delegation s a) pr v vpn st (rd_table s a R) ltac:(lia)) as (pc & Epc & Dpc & _).
  unfold fr. apply (wp_lift _ _ pc); [exact Epc|].
  destruct (rate_ok s a pr v vpn st (own_deleg s a) Hpr Hv Hvpn Hst eq_refl pc (rd_table s a R) Epc) as (_ & _ & Vf).
  apply wp_bind. destruct (Frac.is_zero pc).
  { apply wp_ret. unfold del_set. apply wp_modify. by apply (healthy_more s). }
  apply wp_bind, (wp_lift _ _ (delegation s a)); [by apply int64_some|].
  destruct (mul_int_qval pc (delegation s a) Dpc) as (r & Er & Hr & Vr).
  destruct (c03_int64 r) as (x & Ex & _ & _ & Hx); [lia|].
  assert (ET : trunc (qval r) = trunc (account_rate s a * inject_Z (delegation s a))) by (apply trunc_eq; rewrite Vr, Vf; reflexivity).
  rewrite ET in Hx. specialize (Hx ltac:(lia)). subst x.
  apply wp_bind, (wp_lift _ _ (trunc (account_rate s a * inject_Z (delegation s a)))). { unfold oget, Frac.obind. rewrite Er. exact Ex. }
  rewrite (ready_whole s a R). apply wp_bind, wp_ret. apply wp_bind. eapply wp_mono; [apply (wp_rel _ (same st_day)); [frame|apply (wp_accrue a _ s); [done|apply R|done]]|].
  intros [] s2 [W2 D2]. apply wp_bind. eapply wp_mono; [apply (wp_rel _ (same st_day)); [frame|apply (wp_accrue_val a _ s); [done|lia]]|].
  intros [] s3 [W3 D3]. unfold same in D2, D3. apply wp_bind, wp_get. unfold one_day. rewrite D3, D2. change (st_day s1) with (st_day s).
  apply wp_bind. eapply wp_mono; [by apply wp_schedule|]. intros [] s4 (sc & ix & ->). apply wp_ret. unfold del_set. apply wp_modify. apply (healthy_more s3); try done. apply W3.
Qed.

Lemma wp_undelegate a n s : healthy s -> 0 <= n <= bal s a uartrr -> n < 2 ^ 63 -> n <= supply s uartrr ->
  wp (undelegate a n) (fun _ s' => healthy s' /\ bal s' a uartrr = bal s a uartrr - n /\ supply s' uartrr = supply s uartrr - n) s.
Proof.
  intros H Hn HL HS. unfold undelegate.
  assert (W : wp (convert a uartrr n uartr n) (fun _ => healthy) s).
  { unfold convert. destruct (n =? 0); [by apply wp_ret|]. apply wp_bind, wp_new_coins; [lia|]. apply wp_bind.
    eapply wp_mono; [apply (wp_rel _ (same st_supply)); [frame|apply wp_subtract; [done|apply coins_of_valid; lia|apply ge_one; apply Hn|by rewrite amt_coins_of]]|].
    intros [] s3 [[H3 K3] X3]. unfold same in X3. apply wp_bind, wp_new_coins; [lia|]. apply wp_bind.
    eapply wp_mono; [apply (wp_rel _ (same st_supply)); [frame|apply wp_add; [done|apply coins_of_valid; lia|by rewrite amt_coins_of]]|].
    intros [] s4 [H4 X4]. unfold same in X4. apply wp_bind. unfold deflate. apply wp_bind, wp_get, wp_bind, wp_assert.
    { apply ge_one. rewrite X4, X3. exact HS. }
    apply wp_modify, wp_modify. by apply (healthy_more s4). }
  apply wp_run in W as (s1 & [] & E & H1). apply wp_bind. eapply wp_of; [exact E|].
  assert (B : bal s1 a uartrr = bal s a uartrr - n /\ supply s1 uartrr = supply s uartrr - n).
  { apply convert_ok in E as [[-> ->]|(_ & _ & _ & _ & B & _ & S & _)]; [lia|]. rewrite B, S, !amt_coins_of. unfold at_. rewrite N.eqb_refl. cbn. lia. }
  destruct (n =? 0); [by apply wp_ret|]. apply wp_bind, (wp_lift _ _ n); [apply uint64_some; lia|]. by apply wp_ret.
Qed.
Lemma wp_undelegates a l : forall s, healthy s -> (forall q, q ∈ l -> 0 <= q_amount q < 2 ^ 63) -> requested l <= bal s a uartrr -> requested l <= supply s uartrr ->
  wp (mfor l (fun q => undelegate a (q_amount q))) (fun _ => healthy) s.
Proof.
  induction l as [|q l IH]; intros s H HA HB HS; cbn [mfor]; [by apply wp_ret|].
  assert (Hq : 0 <= q_amount q < 2 ^ 63) by (apply HA; left). assert (HA' : forall q, q ∈ l -> 0 <= q_amount q < 2 ^ 63) by (intros; apply HA; by right).
  assert (P : 0 <= requested l). { clear -HA'. induction l as [|x l IH]; cbn; [lia|]. fold (requested l). assert (0 <= q_amount x < 2 ^ 63) by (apply HA'; left).
    assert (0 <= requested l) by (apply IH; intros; apply HA'; by right). lia. }
  change (requested (q :: l)) with (q_amount q + requested l) in HB, HS.
  apply wp_bind. eapply wp_mono; [apply wp_undelegate; [done|lia|lia|lia]|]. intros [] s1 (H1 & B1 & S1). apply IH; [done|done|lia|lia].
Qed.
Lemma requested_perm l l' : l ≡ₚ l' -> requested l = requested l'.
Proof. induction 1; cbn; lia. Qed.
Lemma requested_due now l : (forall q, q ∈ l -> 0 <= q_amount q) -> requested (due_reqs now l) <= requested l.
Proof.
  induction l as [|q l IH]; intros H; [done|]. cbn. assert (0 <= q_amount q) by (apply H; left).
  assert (requested (due_reqs now l) <= requested l) by (apply IH; intros; apply H; by right). fold (due_reqs now l). destruct (q_time q <=? now); cbn; lia.
Qed.
Lemma wp_payout a s : healthy s -> (forall q, q ∈ requests s a -> 0 <= q_amount q < 2 ^ 63) -> requested (requests s a) <= bal s a uartrr ->
  sum_bal s uartrr <= supply s uartrr -> wp (perform_revoking a) (fun _ => healthy) s.
Proof.
  intros H HA HB HS. unfold perform_revoking. apply wp_bind, wp_get. unfold requests in *. destruct (st_del s !! a) as [item|] eqn:E; cbn in *; [|by apply (wp_ret (A:=unit))].
  apply wp_bind, wp_get. rewrite take_due_spec by (apply StronglySorted_merge_sort; apply _).
  set (L := merge_sort req_le (d_reqs item)).
  assert (P : L ≡ₚ d_reqs item) by apply merge_sort_Permutation.
  assert (HA' : forall q, q ∈ L -> 0 <= q_amount q < 2 ^ 63) by (intros q Hq; apply HA; by rewrite <- P).
  assert (HD : requested (due_reqs (st_now s) L) <= bal s a uartrr).
  { etrans; [apply requested_due; intros; apply HA'; done|]. by rewrite (requested_perm _ _ P). }
  apply wp_bind, wp_must. eapply wp_mono; [apply wp_undelegates; [done| |exact HD|]|].
  - intros q Hq. apply HA'. apply elem_of_list_In in Hq. apply filter_In in Hq as [Hq _]. by apply elem_of_list_In.
  - pose proof (bal_sum s a uartrr (hl_balances s H)). lia.
  - intros [] s1 H1. destruct (due_reqs (st_now s) L); [by apply wp_ret|]. unfold del_set. apply wp_modify. by apply (healthy_more s1).
Qed.
