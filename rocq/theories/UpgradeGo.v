(** * The steps of the upgrade to 2.3.2 do not give up *)
From Verif Require Import Upgrade BankProofs ModeProofs RefProofs StatusProofs QualProofs NetProofs LiveProofs UpgradeMore Spec_Upgrade232.

(** What the loops keep of a record *)
Definition keepf (r : rinfo) := (r_referrer r, r_banished r, r_active r, r_compression_at r, List.length (r_coins r), List.length (r_deleg r), r_deleg r !! 0%nat).
Definition alike (m m' : gmap addr rinfo) : Prop := forall q, keepf <$> m' !! q = keepf <$> m !! q.
Lemma alike_trans m1 m2 m3 : alike m1 m2 -> alike m2 m3 -> alike m1 m3.
Proof. intros A B q. by rewrite B. Qed.
Lemma alike_insert m q r r' : m !! q = Some r -> keepf r' = keepf r -> alike m (<[ q := r' ]> m).
Proof. intros E H x. destruct (decide (x = q)) as [->|N]; [rewrite lookup_insert, E; cbn; by rewrite H|by rewrite lookup_insert_ne]. Qed.
Lemma alike_some m m' q r' : alike m m' -> m' !! q = Some r' -> exists r, m !! q = Some r /\ keepf r' = keepf r.
Proof. intros A E. specialize (A q). rewrite E in A. destruct (m !! q) as [r|]; [|done]. exists r. split; [done|]. cbn in A. congruence. Qed.
(** The map can be climbed. *)
Definition climbable (m : gmap addr rinfo) : Prop := forall q r, m !! q = Some r ->
  (11 <= List.length (r_coins r))%nat /\ (11 <= List.length (r_deleg r))%nat /\ (r_referrer r = nobody \/ is_Some (m !! r_referrer r)).
Lemma climbable_alike m m' : alike m m' -> climbable m -> climbable m'.
Proof.
  intros A C q r' E. destruct (alike_some _ _ _ _ A E) as (r & Er & K). unfold keepf in K. injection K as K1 _ _ _ K2 K3 _.
  destruct (C q r Er) as (C1 & C2 & C3). rewrite K1, K2, K3. split_and!; try done. destruct C3 as [C3|[p Hp]]; [by left|right].
  specialize (A (r_referrer r)). rewrite Hp in A. destruct (m' !! r_referrer r); [by eexists|done].
Qed.
Lemma shifted_length sign i src dst : List.length (shifted sign i src dst) = List.length dst.
Proof. unfold shifted. apply imap_length. Qed.
Lemma shift_some sign i r info : (1 <= i)%nat -> (11 <= List.length (r_coins r))%nat -> (11 <= List.length (r_deleg r))%nat ->
  (11 <= List.length (r_coins info))%nat -> (11 <= List.length (r_deleg info))%nat ->
  exists info', shift_lines sign i r info = Some info' /\ keepf info' = keepf info.
Proof.
  intros Hi H1 H2 H3 H4. unfold shift_lines. rewrite !(proj2 (Nat.leb_le _ _)) by lia. cbn [andb]. eexists. split; [done|].
  unfold keepf. cbn. rewrite !shifted_length. f_equal. unfold shifted. rewrite list_lookup_imap. destruct (r_deleg info !! 0%nat); [|done]. cbn.
  destruct i; [lia|]. done.
Qed.
Lemma climb_some sign f r : (11 <= List.length (r_coins r))%nat -> (11 <= List.length (r_deleg r))%nat ->
  forall n i a m, (1 <= i)%nat -> climbable m -> a = nobody \/ is_Some (m !! a) ->
  exists m', climb_lines sign f r n i a m = Some m' /\ alike m m'.
Proof.
  intros L1 L2. induction n as [|n IH]; intros i a m Hi C Ha; cbn [climb_lines]; [by exists m|].
  destruct (N.eqb_spec a nobody) as [E|E]; [by exists m|]. destruct Ha as [Ha|[info Hinfo]]; [done|]. rewrite Hinfo.
  destruct (C a info Hinfo) as (C1 & C2 & C3). set (info1 := if (i =? 1)%nat then _ else _).
  assert (K1 : keepf info1 = keepf info) by (unfold info1; by destruct (i =? 1)%nat).
  assert (K1' := K1). unfold keepf in K1'. injection K1' as K2 _ _ _ K3 K4 _. clearbody info1. cbv zeta.
  destruct (shift_some sign i r info1) as (info2 & S1 & S2); [done|done|done|lia|lia|]. rewrite S1.
  assert (A : alike m (<[a := info2]> m)) by (eapply alike_insert; [exact Hinfo|congruence]).
  assert (R2 : r_referrer info2 = r_referrer info). { rewrite K1 in S2. unfold keepf in S2. by injection S2. }
  destruct (IH (Datatypes.S i) (r_referrer info2) (<[a := info2]> m)) as (m' & M1 & M2); [lia|by eapply climbable_alike| |].
  - rewrite R2. destruct C3 as [C3|[p Hp]]; [by left|right]. specialize (A (r_referrer info)). rewrite Hp in A. destruct (<[a:=info2]> m !! r_referrer info) as [y|]; [by exists y|done].

  - exists m'. split; [done|]. by eapply alike_trans.
Qed.
Lemma zero_upto_some n : forall c d, (n <= List.length c)%nat -> (n <= List.length d)%nat -> exists b, zero_upto n c d = Some b.
Proof.
  induction n as [|n IH]; intros c d Hc Hd; cbn [zero_upto]; [eauto|]. destruct c as [|x c]; [cbn in Hc; lia|].
  destruct (negb _); [eauto|]. destruct d as [|y d]; [cbn in Hd; lia|]. destruct (negb _); [eauto|]. apply IH; cbn in *; lia.
Qed.
Lemma lines_some r : (11 <= List.length (r_coins r))%nat -> (11 <= List.length (r_deleg r))%nat -> exists b, lines_zero r = Some b.
Proof. intros. by apply zero_upto_some. Qed.

(** ** Moving members away from banished accounts *)
Definition mark3 (r : rinfo) := (r_banished r, r_active r, r_compression_at r).
Definition misled (s : St) (a : addr) (r : rinfo) : Prop :=
  r_banished r = false /\ r_referrer r <> nobody /\ banished s (r_referrer r) = true.
Record tg (s : St) (pre : list (addr * rinfo)) (m : gmap addr rinfo) : Prop := mkTg {
  tg_marks : forall q, mark3 <$> m !! q = mark3 <$> st_ref s !! q;
  tg_lines : forall q r, m !! q = Some r -> (11 <= List.length (r_coins r))%nat /\ (11 <= List.length (r_deleg r))%nat;
  tg_up : forall q r, m !! q = Some r -> (exists n, r_referrer r = up s (Datatypes.S n) q) /\ (r_referrer r = nobody <-> referrer s q = nobody);
  tg_moved : forall q r, (q, r) ∈ pre -> misled s q r -> exists r', m !! q = Some r' /\ open s (r_referrer r');
  tg_rest : forall q r, st_ref s !! q = Some r -> (q, r) ∉ pre \/ ~ misled s q r -> r_referrer <$> m !! q = Some (r_referrer r) }.
Section moving.
  Context (s : St) (LG : legible s) (TOP : forall a, banished s a = true -> referrer s a <> nobody).
  Lemma up_shift n a : up s (Datatypes.S n) a = up s n (referrer s a).
  Proof. induction n as [|n IH]; [done|]. cbn [up] in *. by rewrite <- IH. Qed.
  Lemma up_plus n k a : up s (n + k) a = up s n (up s k a).
  Proof. induction n as [|n IH]; [done|]. cbn [up Nat.add]. by rewrite IH. Qed.
  Lemma no_record : referrer s nobody = nobody.
  Proof. unfold referrer, ref_get. destruct (st_ref s !! nobody) eqn:E; [|done]. exfalso. apply (lg_nobody s LG). unfold registered. eauto. Qed.
  Lemma up_registered n : forall a, registered s a -> up s n a = nobody \/ registered s (up s n a).
  Proof.
    induction n as [|n IH]; intros a Ha; [by right|]. cbn [up]. destruct (IH a Ha) as [E|R].
    - left. rewrite E. apply no_record.
    - by apply (lg_referrer s LG).
  Qed.
  Lemma tg_climbable pre m : tg s pre m -> climbable m.
  Proof.
    intros T q r E. destruct (tg_lines _ _ _ T q r E) as [T1 T2]. split_and!; try done.
    destruct (tg_up _ _ _ T q r E) as [[n U] _].
    assert (R : registered s q). { pose proof (tg_marks _ _ _ T q) as M. rewrite E in M. unfold registered. destruct (st_ref s !! q); [by eexists|done]. }
    rewrite U. destruct (up_registered (Datatypes.S n) q R) as [X|[p X]]; [by left|right].
    pose proof (tg_marks _ _ _ T (up s (Datatypes.S n) q)) as M. rewrite X in M. destruct (m !! up s (Datatypes.S n) q); [by eexists|done].
  Qed.
  Lemma closed_same pre m q r p : tg s pre m -> m !! q = Some r -> st_ref s !! q = Some p -> registration_closed s r = registration_closed s p.
  Proof.
    intros T E1 E2. destruct (tg_up _ _ _ T q r E1) as [_ U]. pose proof (tg_marks _ _ _ T q) as M. rewrite E1, E2 in M. cbn in M. unfold mark3 in M. injection M as M1 M2 M3.
    unfold referrer, ref_get in U. rewrite E2 in U. cbn in U. unfold registration_closed. rewrite M1, M2, M3.
    destruct (N.eqb_spec (r_referrer r) nobody), (N.eqb_spec (r_referrer p) nobody); tauto.
  Qed.
  (** The search upwards ends at an open account. *)
  Lemma parent_some pre m (T : tg s pre m) : forall n q r, m !! q = Some r -> r_referrer r <> nobody ->
    (forall k, up (s <| st_ref := m |>) k q <> nobody -> (k <= n)%nat) ->
    exists p k, transfer_parent s m n r = Some p /\ p <> nobody /\ p = up s (Datatypes.S k) q /\ open s p.
  Proof.
    set (sm := s <| st_ref := m |>).
    assert (RS : forall x y, m !! x = Some y -> referrer sm x = r_referrer y) by (intros x y E; unfold referrer, ref_get; cbn; by rewrite E).
    assert (US : forall n a, up sm (Datatypes.S n) a = up sm n (referrer sm a)). { induction n as [|n IH]; intros a; [done|]. cbn [up] in *. by rewrite <- IH. }
    induction n as [|n IH]; intros q r E HN HK.
    { exfalso. assert (X : (1 <= 0)%nat); [|lia]. apply HK. cbn [up]. by rewrite (RS q r E). }
    cbn [transfer_parent]. destruct (N.eqb_spec (r_referrer r) nobody) as [X|_]; [done|].
    destruct (tg_climbable _ _ T q r E) as (_ & _ & [X|[pi Hpi]]); [done|]. rewrite Hpi.
    destruct (tg_up _ _ _ T q r E) as [[j J] _].
    assert (Rp : exists p0, st_ref s !! r_referrer r = Some p0).
    { pose proof (tg_marks _ _ _ T (r_referrer r)) as M. rewrite Hpi in M. destruct (st_ref s !! r_referrer r); [by eexists|done]. }
    destruct Rp as [p0 Hp0]. destruct (registration_closed s pi) eqn:RC.
    - assert (HP : r_referrer pi <> nobody). { intros X. unfold registration_closed in RC. rewrite X in RC. done. }
      destruct (IH (r_referrer r) pi Hpi HP) as (p & k & P1 & P2 & P3 & P4).
      { intros k Hk. assert (Y : (Datatypes.S k <= Datatypes.S n)%nat); [|lia]. apply HK. rewrite US, (RS q r E). done. }
      exists p, (k + Datatypes.S j)%nat. split_and!; try done. rewrite P3, J. rewrite <- up_plus. done.
    - exists (r_referrer r), j. split_and!; try done. rewrite (closed_same _ _ _ _ _ T Hpi Hp0) in RC.
      unfold registration_closed in RC. split; [unfold registered; eauto|]. unfold referrer, banished, active, ref_get. rewrite Hp0. cbn.
      destruct (N.eqb_spec (r_referrer p0) nobody) as [X|X]; [by left|right]. cbn in RC. apply orb_false_iff in RC as [R1 R2]. split; [done|].
      destruct (r_active p0); [by left|right]. cbn in R2. destruct (r_compression_at p0) as [t|]; [|done]. exists t. split; [done|]. by apply Z.ltb_ge.
  Qed.
  Lemma tg_alike pre m m' : tg s pre m -> alike m m' -> tg s pre m'.
  Proof.
    intros T A. split.
    - intros q. rewrite <- (tg_marks _ _ _ T q). specialize (A q). destruct (m' !! q), (m !! q); cbn in *; unfold keepf, mark3 in *; congruence.
    - intros q r' E. destruct (alike_some _ _ _ _ A E) as (r & Er & K). unfold keepf in K. injection K as _ _ _ _ K1 K2 _. rewrite K1, K2. by eapply tg_lines.
    - intros q r' E. destruct (alike_some _ _ _ _ A E) as (r & Er & K). unfold keepf in K. injection K as K1 _ _ _ _ _ _. rewrite K1. by eapply tg_up.
    - intros q r H1 H2. destruct (tg_moved _ _ _ T q r H1 H2) as (r1 & E1 & O). specialize (A q). rewrite E1 in A. destruct (m' !! q) as [r2|]; [|done].
      exists r2. split; [done|]. cbn in A. unfold keepf in A. injection A as A _ _ _ _ _ _. by rewrite A.
    - intros q r H1 H2. rewrite <- (tg_rest _ _ _ T q r H1 H2). specialize (A q). destruct (m' !! q), (m !! q); cbn in *; unfold keepf in *; congruence.
  Qed.
  Lemma tg_size pre m : tg s pre m -> forall k q, up (s <| st_ref := m |>) k q <> nobody -> (k <= size m)%nat.
  Proof.
    intros T k q. destruct (chain_rank (referrer s) no_record) as [rk HR].
    { intros a. destruct (lg_ends s LG a) as [n Hn]. exists n. rewrite <- Hn. symmetry. apply up_anc. }
    assert (RU : forall n x, up s (Datatypes.S n) x <> nobody -> (rk (up s (Datatypes.S n) x) < rk x)%nat).
    { induction n as [|n IH]; intros x Hx; [by apply HR|]. assert (N : up s (Datatypes.S n) x <> nobody).
      { intros X. apply Hx. change (referrer s (up s (Datatypes.S n) x) = nobody). rewrite X. apply no_record. }
      specialize (IH x N). assert (X : (rk (referrer s (up s (Datatypes.S n) x)) < rk (up s (Datatypes.S n) x))%nat) by (by apply HR). cbn [up] in *. lia. }
    change (size m) with (size (st_ref (s <| st_ref := m |>))). apply (chain_length (s <| st_ref := m |>) rk).
    - intros x. unfold referrer at 1 2, ref_get. cbn. destruct (m !! x) as [r|] eqn:E; [|done]. cbn.
      destruct (tg_up _ _ _ T x r E) as [[n U] _]. rewrite U. apply RU.
    - unfold referrer, ref_get. cbn. destruct (m !! nobody) as [r|] eqn:E; [|done]. exfalso. apply (lg_nobody s LG).
      pose proof (tg_marks _ _ _ T nobody) as M. rewrite E in M. unfold registered. destruct (st_ref s !! nobody); [by eexists|done].
  Qed.
  Lemma transfer_go pre a r post m : records s = pre ++ (a, r) :: post -> tg s pre m ->
    exists m', transfer_one s m (a, r) = Some m' /\ tg s (pre ++ [(a, r)]) m'.
  Proof.
    intros El T.
    assert (Ea : st_ref s !! a = Some r). { apply elem_records. rewrite El. apply elem_of_app. right. by left. }
    assert (Na : (a, r) ∉ pre).
    { intros X. pose proof (records_NoDup s) as N. rewrite El, map_app in N. apply NoDup_app in N as (_ & N & _).
      apply (N a); [|by left]. apply elem_of_list_fmap. by exists (a, r). }
    assert (Ra : registered s a) by (unfold registered; eauto).
    assert (Ga : ref_get s a = r) by (unfold ref_get; by rewrite Ea).
    assert (EX : ~ misled s a r -> tg s (pre ++ [(a, r)]) m).
    { intros NM. destruct T as [T1 T2 T3 T4 T5]. split; try done.
      - intros q r0 X Y. apply elem_of_app in X as [X|X]; [by eapply T4|]. apply elem_of_list_singleton in X as [= -> ->]. done.
      - intros q r0 X Y. apply T5; [done|]. destruct Y as [Y|Y]; [left|by right]. intros Z. apply Y, elem_of_app. by left. }
    unfold transfer_one. destruct (r_banished r) eqn:Eb; cbn [orb]. { exists m. split; [done|]. apply EX. intros (X & _). congruence. }
    destruct (N.eqb_spec (r_referrer r) nobody) as [En|En]. { exists m. split; [done|]. apply EX. by intros (_ & X & _). }
    destruct (lg_referrer s LG a Ra) as [X|[p0 Hp0]]. { unfold referrer in X. rewrite Ga in X. done. }
    unfold referrer in Hp0. rewrite Ga in Hp0.
    pose proof (tg_marks _ _ _ T (r_referrer r)) as M. rewrite Hp0 in M. destruct (m !! r_referrer r) as [pi|] eqn:Ep; [|done].
    cbn in M. unfold mark3 in M. injection M as M1 M2 M3.
    destruct (r_banished pi) eqn:Epb; cbn [negb].
    2: { exists m. split; [done|]. apply EX. intros (_ & _ & X). unfold banished, ref_get in X. rewrite Hp0 in X. cbn in X. congruence. }
    assert (MI : misled s a r). { split_and!; try done. unfold banished, ref_get. rewrite Hp0. cbn. congruence. }
    destruct (tg_up _ _ _ T _ _ Ep) as [_ UP].
    assert (NP : r_referrer pi <> nobody). { intros X. apply UP in X. revert X. apply TOP. by destruct MI as (_ & _ & ?). }
    destruct (parent_some _ _ T (Datatypes.S (size m)) (r_referrer r) pi Ep NP) as (p & k & P1 & P2 & P3 & P4).
    { intros k Hk. apply (tg_size _ _ T) in Hk. lia. }
    rewrite P1. destruct (lg_lines s LG a Ra) as [L1 L2]. rewrite Ga in L1, L2.
    assert (CL := tg_climbable _ _ T).
    assert (Mp : forall m1, alike m m1 -> is_Some (m1 !! p)).
    { intros m1 A. pose proof (tg_marks _ _ _ (tg_alike _ _ _ T A) p) as X. destruct P4 as [[y Hy] _]. rewrite Hy in X. destruct (m1 !! p); [by eexists|done]. }
    assert (W : exists m1, alike m m1 /\ (match lines_zero r with
            | None => None
            | Some true =>
                match <[ r_referrer r := pi <| r_referrals := fst (Lists.remove_ordered N.compare (r_referrals pi) a) |> ]> m !! p with
                | None => None
                | Some info => Some (<[ p := info <| r_referrals := r_referrals info ++ [a] |> ]> (<[ r_referrer r := pi <| r_referrals := fst (Lists.remove_ordered N.compare (r_referrals pi) a) |> ]> m))
                end
            | Some false =>
                match climb_lines (-1) (fun l => fst (Lists.remove_ordered N.compare l a)) r 10 1 (r_referrer r) m with
                | None => None
                | Some m => climb_lines 1 (fun l => l ++ [a]) r 10 1 p m
                end
            end) = Some m1).
    { destruct (lines_some r L1 L2) as [[] ->].
      - set (m2 := <[ r_referrer r := _ ]> m). assert (A2 : alike m m2) by (by eapply alike_insert).
        destruct (Mp m2 A2) as [info Hi]. rewrite Hi. eexists. split; [|done]. eapply alike_trans; [exact A2|]. by eapply alike_insert.
      - destruct (climb_some (-1) (fun l => fst (Lists.remove_ordered N.compare l a)) r L1 L2 10 1 (r_referrer r) m) as (m2 & C1 & C2); [lia|done|right; eauto|].
        rewrite C1. destruct (climb_some 1 (fun l => l ++ [a]) r L1 L2 10 1 p m2) as (m3 & C3 & C4); [lia|by eapply climbable_alike|right; by apply Mp|].
        rewrite C3. exists m3. split; [by eapply alike_trans|done]. }
    destruct W as (m1 & A1 & W). cbv zeta iota in W |- *. rewrite W. eexists. split; [done|]. pose proof (tg_alike _ _ _ T A1) as [T1 T2 T3 T4 T5].
    split.
    - intros q. destruct (decide (q = a)) as [->|N]; [by rewrite lookup_insert, Ea|by rewrite lookup_insert_ne].
    - intros q r0. destruct (decide (q = a)) as [->|N]; [rewrite lookup_insert; by intros [= <-]|rewrite lookup_insert_ne by done; apply T2].
    - intros q r0. destruct (decide (q = a)) as [->|N]; [rewrite lookup_insert; intros [= <-]; cbn|rewrite lookup_insert_ne by done; apply T3].
      split.
      + exists (k + 1)%nat. rewrite P3. replace (Datatypes.S (k + 1)) with (Datatypes.S k + 1)%nat by lia. rewrite up_plus. f_equal. cbn [up]. unfold referrer. by rewrite Ga.
      + unfold referrer. rewrite Ga. tauto.
    - intros q r0 X Y. destruct (decide (q = a)) as [->|N]; [rewrite lookup_insert; by eexists|rewrite lookup_insert_ne by done].
      apply elem_of_app in X as [X|X]; [by eapply T4|]. apply elem_of_list_singleton in X as [= -> ->]. done.
    - intros q r0 X Y. destruct (decide (q = a)) as [->|N].
      + rewrite Ea in X. injection X as <-. destruct Y as [Y|Y]; [|done]. exfalso. apply Y, elem_of_app. right. by left.
      + rewrite lookup_insert_ne by done. apply T5; [done|]. destruct Y as [Y|Y]; [left|by right]. intros Z. apply Y, elem_of_app. by left.
  Qed.
  Lemma transfer_all : exists m, ofold (transfer_one s) (records s) (st_ref s) = Some m /\ tg s (records s) m.
  Proof.
    assert (G : forall l pre m, records s = pre ++ l -> tg s pre m -> exists m', ofold (transfer_one s) l m = Some m' /\ tg s (records s) m').
    { induction l as [|[a r] l IH]; intros pre m El T; cbn [ofold].
      - exists m. split; [done|]. by rewrite El, app_nil_r.
      - destruct (transfer_go _ _ _ _ _ El T) as (m1 & -> & T1). apply (IH (pre ++ [(a, r)])); [by rewrite <- app_assoc|done]. }
    apply (G _ []); [done|]. split; try done.
    - intros q r E. assert (R : registered s q) by (unfold registered; eauto). pose proof (lg_lines s LG q R) as L. unfold ref_get in L. by rewrite E in L.
    - intros q r E. unfold referrer, ref_get. rewrite E. split; [|done]. exists 0%nat. cbn [up]. unfold referrer, ref_get. by rewrite E.
    - intros q r X. by apply elem_of_nil in X.
    - intros q r E _. by rewrite E.
  Qed.
End moving.
Theorem transfer_done s s' : legible s -> (forall a, banished s a = true -> referrer s a <> nobody) ->
  transfer_from_banished s = (s', Ok tt) ->
  (forall a, registered s' a <-> registered s a) /\ (forall a, banished s' a = banished s a) /\
  (forall a, member s a -> referrer s a <> nobody -> banished s (referrer s a) = true ->
     open s (referrer s' a) /\ exists n, referrer s' a = up s (Datatypes.S n) a) /\
  (forall a, ~ (member s a /\ referrer s a <> nobody /\ banished s (referrer s a) = true) -> referrer s' a = referrer s a).
Proof.
  intros LG TOP H. unfold transfer_from_banished in H. apply modify_ok in H. fold (records s) in H.
  destruct (transfer_all s LG TOP) as (m & E & T). rewrite E in H.
  assert (Es : st_ref s' = m) by (by subst s'). clear H E.
  assert (D : forall a, (exists r r', st_ref s !! a = Some r /\ m !! a = Some r' /\ ref_get s a = r /\ ref_get s' a = r' /\ mark3 r' = mark3 r) \/
                        (st_ref s !! a = None /\ m !! a = None /\ ref_get s a = r_zero /\ ref_get s' a = r_zero)).
  { intros a. pose proof (tg_marks _ _ _ T a) as M. unfold ref_get. rewrite Es. destruct (st_ref s !! a) as [r|], (m !! a) as [r'|]; try done; [left|by right].
    exists r, r'. split_and!; try done. cbn in M. congruence. }
  split_and!.
  - intros a. unfold registered. rewrite Es. destruct (D a) as [(r & r' & E1 & E2 & _)|(E1 & E2 & _)]; rewrite E1, E2; [split; eauto|done].
  - intros a. unfold banished. destruct (D a) as [(r & r' & _ & _ & -> & -> & M)|(_ & _ & -> & ->)]; [|done]. unfold mark3 in M. congruence.
  - intros a [Ra Hb] Hn HB. destruct (D a) as [(r & r' & E1 & E2 & G1 & G2 & _)|(E1 & _)]; [|destruct Ra; congruence].
    unfold referrer, banished in *. rewrite G1 in *. rewrite G2. destruct (tg_moved _ _ _ T a r) as (r2 & E3 & O); [by apply elem_records|done|].
    assert (r2 = r') as -> by congruence. split; [done|]. apply (tg_up _ _ _ T a r' E2).
  - intros a H. destruct (D a) as [(r & r' & E1 & E2 & G1 & G2 & _)|(_ & _ & G1 & G2)]; [|unfold referrer; by rewrite G1, G2].
    pose proof (tg_rest _ _ _ T a r E1) as X. rewrite E2 in X. cbn in X. unfold referrer. rewrite G1, G2. enough (Some (r_referrer r') = Some (r_referrer r)) by congruence.
    apply X. right. intros (X1 & X2 & X3). apply H. unfold member, registered, banished, referrer. rewrite G1. split_and!; eauto.
Qed.

(** ** Coming back *)
Definition ug (s : St) (m : gmap addr rinfo) : Prop :=
  (forall q, is_Some (m !! q) <-> is_Some (st_ref s !! q)) /\
  forall q r, m !! q = Some r -> (11 <= List.length (r_coins r))%nat /\ (11 <= List.length (r_deleg r))%nat /\
    (r_referrer r = nobody \/ r_referrer r = referrer s q) /\ r_deleg r !! 0%nat = r_deleg (ref_get s q) !! 0%nat /\
    (r_banished r = true -> banished s q = true).
Lemma zero_upto_first n c d y : zero_upto (Datatypes.S n) c d = Some true -> d !! 0%nat = Some y -> y = 0.
Proof.
  cbn [zero_upto]. destruct c as [|x c]; [done|]. destruct (negb (x =? 0)); [done|]. destruct d as [|z d]; [done|].
  destruct (Z.eqb_spec z 0) as [->|]; cbn [negb]; [|done]. intros _. cbn. congruence.
Qed.
Section coming.
  Context (s : St) (LG : legible s)
    (SMALL : forall a, banished s a = true -> Frac.is_int64 (bal s a uartrd) = true)
    (SAYS : forall a, banished s a = true -> bp_dust (st_bp s) < bal s a uartrd -> stored_deleg s a 0 <> 0).
  Lemma ug_alike m m' : ug s m -> alike m m' -> ug s m'.
  Proof.
    intros [U1 U2] A. split.
    - intros q. rewrite <- U1. specialize (A q). destruct (m' !! q), (m !! q); try done; split; intros _; by eexists.
    - intros q r' E. destruct (alike_some _ _ _ _ A E) as (r & Er & K). unfold keepf in K. injection K as K1 K2 K3 K4 K5 K6 K7. rewrite K1, K2, K5, K6, K7. by apply U2.
  Qed.
  Lemma ug_climbable m : ug s m -> climbable m.
  Proof.
    intros [U1 U2] q r E. destruct (U2 q r E) as (L1 & L2 & L3 & _). split_and!; try done. destruct L3 as [L3|L3]; [by left|].
    assert (R : registered s q) by (apply U1; eauto). rewrite L3. destruct (lg_referrer s LG q R) as [X|X]; [by left|right]. by apply U1.
  Qed.
  Lemma ug_insert m a r : ug s m -> registered s a -> (11 <= List.length (r_coins r))%nat -> (11 <= List.length (r_deleg r))%nat ->
    (r_referrer r = nobody \/ r_referrer r = referrer s a) -> r_deleg r !! 0%nat = r_deleg (ref_get s a) !! 0%nat ->
    (r_banished r = true -> banished s a = true) -> ug s (<[ a := r ]> m).
  Proof.
    intros [U1 U2] R H1 H2 H3 H4 H5. split.
    - intros q. destruct (decide (q = a)) as [->|N]; [rewrite lookup_insert; split; [done|by eexists]|rewrite lookup_insert_ne by done; apply U1].
    - intros q r'. destruct (decide (q = a)) as [->|N]; [rewrite lookup_insert; by intros [= <-]|rewrite lookup_insert_ne by done; apply U2].
  Qed.
  Lemma unbanish_go m a : registered s a -> ug s m -> exists m', unbanish_one s m a = Some m' /\ ug s m'.
  Proof.
    intros Ra U. pose proof U as [U1 U2]. destruct (proj2 (U1 a) Ra) as [r Er]. destruct (U2 a r Er) as (L1 & L2 & L3 & L4 & L5).
    unfold unbanish_one. rewrite Er. destruct (r_banished r) eqn:Eb; cbn [negb]; [|by exists m]. specialize (L5 eq_refl).
    unfold Frac.to_int64. change (amt (balance s a) uartrd) with (bal s a uartrd). rewrite (SMALL a L5).
    destruct (bp_dust (st_bp s) <? bal s a uartrd) eqn:ED.
    - apply Z.ltb_lt in ED.
      assert (P : exists p, unbanish_parent s m r = Some p /\ (p = nobody \/ p = referrer s a)).
      { unfold unbanish_parent. destruct (N.eqb_spec (r_referrer r) nobody) as [X|X]; [exists nobody; split; [done|by left]|].
        destruct (ug_climbable _ U a r Er) as (_ & _ & [Y|[pi Y]]); [done|]. rewrite Y. destruct L3 as [L3|L3]; [done|].
        eexists. split; [done|]. destruct (registration_closed s pi); [by left|by right]. }
      destruct P as (p & -> & HP). cbv zeta.
      set (r2 := r <| r_referrer := p |> <| r_banished := false |> <| r_banishment_at := None |> <| r_compression_at := None |> <| r_status := 1 |>).
      assert (U' : ug s (<[ a := r2 ]> m)) by (by apply ug_insert).
      destruct (lines_some r2 L1 L2) as [[] EL]; rewrite EL.
      + exfalso. apply (SAYS a L5 ED). unfold stored_deleg, line. destruct (r_deleg (ref_get s a) !! 0%nat) as [y|] eqn:Ey.
        * cbn. eapply zero_upto_first; [exact EL|]. change (r_deleg r2) with (r_deleg r). congruence.
        * done.
      + destruct (climb_some 1 (fun l => l ++ [a]) r2 L1 L2 10 1 p (<[ a := r2 ]> m)) as (m2 & C1 & C2); [lia|by apply ug_climbable| |].
        * destruct HP as [HP|HP]; [by left|]. rewrite HP. destruct (lg_referrer s LG a Ra) as [X|X]; [by left|right]. by apply U'.
        * exists m2. split; [done|]. by eapply ug_alike.
    - destruct (r_compression_at r); [|by exists m]. eexists. split; [done|]. by apply ug_insert.
  Qed.
  Lemma unbanish_all : exists m, ofold (unbanish_one s) (keysN (st_ref s)) (st_ref s) = Some m /\ ug s m.
  Proof.
    assert (G : forall l m, (forall a, a ∈ l -> registered s a) -> ug s m -> exists m', ofold (unbanish_one s) l m = Some m' /\ ug s m').
    { induction l as [|a l IH]; intros m Hl U; cbn [ofold]; [by exists m|].
      destruct (unbanish_go m a) as (m1 & -> & U'); [apply Hl; by left|done|]. apply IH; [|done]. intros x Hx. apply Hl. by right. }
    apply G; [intros a Ha; by apply elem_of_keysN in Ha|]. split; [done|]. intros q r E.
    assert (R : registered s q) by (unfold registered; eauto). pose proof (lg_lines s LG q R) as L. unfold referrer, banished, ref_get in *. rewrite E in *. cbn in *.
    destruct L. split_and!; auto.
  Qed.
End coming.
Theorem unbanish_done s s' : legible s ->
  (forall a, banished s a = true -> Frac.is_int64 (bal s a uartrd) = true) ->
  (forall a, banished s a = true -> bp_dust (st_bp s) < bal s a uartrd -> stored_deleg s a 0 <> 0) ->
  unbanish_delegated s = (s', Ok tt) ->
  un_inv s (keysN (st_ref s)) (st_ref s') /\ forall a, referrer s' a = nobody \/ referrer s' a = referrer s a.
Proof.
  intros LG H1 H2 H. unfold unbanish_delegated in H. apply modify_ok in H. destruct (unbanish_all s LG H1 H2) as (m & E & U).
  rewrite E in H. assert (Es : st_ref s' = m) by (by subst s'). clear H. rewrite Es. split.
  - apply (ofold_inv (un_inv s)) in E; [done| |].
    + intros pre a post m1 m2 El J Hf. by eapply unbanish_step.
    + split; [done|]. intros q r r' Q1 Q2. rewrite Q1 in Q2. injection Q2 as <-. split_and!; try done. intros X. by apply elem_of_nil in X.
  - intros a. unfold referrer at 1 2, ref_get. rewrite Es. destruct (m !! a) as [r|] eqn:Ea; [|by left]. by apply U.
Qed.
