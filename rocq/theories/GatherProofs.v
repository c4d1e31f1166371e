(** * Proofs about the validator updates of a block *)
From Verif Require Export NodingProofs VpProofs.
Open Scope Z_scope.

Lemma mfold_total {A B} (P : list A -> B -> St -> Prop) (f : B -> A -> M B) :
  (forall x l b s, P (x :: l) b s -> exists b' s', f b x s = (s', Ok b') /\ P l b' s') ->
  forall l b s, P l b s -> exists b' s', mfold l b f s = (s', Ok b') /\ P [] b' s'.
Proof.
  intros H l. induction l as [|x l IH]; intros b s HP; cbn; [eauto|].
  destruct (H x l b s HP) as (b1 & s1 & E & HP1). unfold bind. rewrite E. by apply IH.
Qed.

Lemma run_bind {A B} (m : M A) (f : A -> M B) s s' x : m s = (s', Ok x) -> bind m f s = f x s'.
Proof. unfold bind. by intros ->. Qed.

(** ** Updates *)
Lemma apply_updates_app c us vs : apply_updates c (us ++ vs) = apply_updates (apply_updates c us) vs.
Proof. unfold apply_updates. apply fold_left_app. Qed.
(** What must be sent when a record changes from [x] to [y] *)
Definition delta (x y : ninfo) : list (N * Z) :=
  if decide (n_power x = n_power y /\ n_last_pub x = n_last_pub y) then [] else
  (if negb (n_last_pub x =? n_last_pub y)%N && negb (n_last_pub x =? 0)%N then [(n_last_pub x, 0)] else []) ++
  (if (n_last_pub y =? 0)%N then [] else [(n_last_pub y, n_power y)]).

Section gather.
  Context (K : addr -> N -> Prop).
  Hypothesis K0 : forall z k, K z k -> k <> 0%N.
  (** Whether keys have one owner only, and the consensus set before *)
  Context (D : Prop) (HD : D -> forall z z' k, K z k -> K z' k -> z = z').
  Context (C0 : gmap N Z) (s0 : St).

  Definition rok (z : addr) (x : ninfo) : Prop :=
    (n_status x = true -> K z (n_pub x)) /\ (n_last_pub x <> 0%N -> K z (n_last_pub x)) /\
    0 <= n_power x /\ (n_power x = 0 <-> n_last_pub x = 0%N).

  Definition G (rem : list (addr * ninfo)) (result : list (N * Z)) (s : St) : Prop :=
    NoDup (map fst rem) /\
    (forall a x, (a, x) ∈ rem -> st_val s !! a = Some x /\ st_val s0 !! a = Some x) /\
    (forall z x, st_val s !! z = Some x -> rok z x) /\
    st_np s = st_np s0 /\
    (D -> in_step (apply_updates C0 result) s /\ acceptable C0 result /\
          forall k p, (k, p) ∈ result -> exists z, K z k /\ z ∉ map fst rem).

  Lemma G_fields rem result s s' : st_val s' = st_val s -> st_np s' = st_np s -> G rem result s -> G rem result s'.
  Proof. intros H1 H2. unfold G, in_step, on_record. by rewrite H1, H2. Qed.
  Lemma G_perm rem rem' result s : Permutation rem rem' -> G rem result s -> G rem' result s.
  Proof.
    intros HP (H1 & H2 & H3 & H4 & H5). split_and!; [| |done|done|].
    - by rewrite <- HP.
    - intros a x. rewrite <- HP. apply H2.
    - intros d. destruct (H5 d) as (I1 & I2 & I3). split_and!; [done|done|]. intros k p Hk.
      destruct (I3 k p Hk) as (z & HZ & HN). exists z. split; [done|]. by rewrite <- HP.
  Qed.

  Lemma delta_step c s s' a x y : D -> (forall z x, st_val s !! z = Some x -> rok z x) ->
    in_step c s -> st_val s !! a = Some x -> st_val s' = <[ a := y ]> (st_val s) -> rok a y ->
    in_step (apply_updates c (delta x y)) s'.
  Proof.
    intros d HR HI Ex Es HY k p. pose proof (HR _ _ Ex) as HX.
    destruct HX as (X1 & X2 & X3 & X4), HY as (Y1 & Y2 & Y3 & Y4).
    (* the new record set *)
    assert (HS : on_record s' k p <-> (on_record s k p /\ ~ (k = n_last_pub x /\ n_power x <> 0)) \/ (n_last_pub y = k /\ n_power y = p /\ p <> 0)).
    { unfold on_record. rewrite Es. split.
      - intros (z & w & E & E1 & E2 & E3). destruct (decide (a = z)) as [<-|Hz].
        + rewrite lookup_insert in E. injection E as <-. by right.
        + rewrite lookup_insert_ne in E by done. left. split; [eauto 10|]. intros [HK HN].
          destruct (HR _ _ E) as (_ & W2 & _ & W4). apply Hz. eapply (HD d); [apply X2; tauto|]. rewrite <- HK, <- E1. apply W2. rewrite <- W4. congruence.
      - intros [[(z & w & E & E1 & E2 & E3) HN]|(E1 & E2 & E3)].
        + destruct (decide (a = z)) as [<-|Hz].
          * rewrite Ex in E. injection E as <-. destruct HN. split; [done|congruence].
          * exists z, w. rewrite lookup_insert_ne by done. done.
        + exists a, y. by rewrite lookup_insert. }
    rewrite HS. specialize (HI k p). unfold delta.
    assert (HO : forall z w, st_val s !! z = Some w -> n_power w <> 0 -> n_last_pub w = n_last_pub y -> n_last_pub y <> 0%N -> z = a).
    { intros z w E E1 E2 E3. destruct (HR _ _ E) as (_ & W2 & _ & W4). eapply (HD d); [apply W2; tauto|]. rewrite E2. apply Y2. done. }
    destruct (decide _) as [[P1 P2]|HN].
    { cbn. rewrite HI. split.
      - intros H. destruct (decide (k = n_last_pub x /\ n_power x <> 0)) as [[-> HP]|]; [|by left]. right.
        destruct H as (z & w & E & E1 & E2 & E3). assert (z = a) as -> by (eapply HO; [exact E|congruence|congruence|intros E0; apply Y4 in E0; congruence]).
        rewrite Ex in E. injection E as <-. split_and!; congruence.
      - intros [[H _]|(E1 & E2 & E3)]; [done|]. exists a, x. split_and!; congruence. }
    destruct (n_last_pub x =? n_last_pub y)%N eqn:B1; cbn [negb andb app].
    - (* same key, another power *)
      assert (n_last_pub x = n_last_pub y) as B by lia. destruct (n_last_pub y =? 0)%N eqn:B2; [exfalso; apply HN; split; [|done]; apply N.eqb_eq in B2; transitivity 0; [apply X4|symmetry; apply Y4]; congruence|].
      cbn. unfold apply_update; cbn. assert (n_power y <> 0) by (rewrite Y4; lia). destruct (n_power y =? 0) eqn:B3; [lia|].
      destruct (decide (n_last_pub y = k)) as [<-|Hk].
      + rewrite lookup_insert. split; [intros [= <-]; right; done|]. intros [[H1 H2]|(_ & <- & _)]; [|done].
        exfalso. apply H2. rewrite B. split; [done|]. rewrite X4. lia.
      + rewrite lookup_insert_ne by done. rewrite HI. split; [intros H1; left; split; [done|]; intros [? _]; congruence|].
        intros [[? _]|[? _]]; [done|congruence].
    - assert (n_last_pub x <> n_last_pub y) as B by lia.
      assert (HX0 : n_last_pub x <> 0%N -> n_power x <> 0) by (rewrite X4; done).
      assert (E1 : forall c', (forall j, c' !! j = if decide (j = n_last_pub x /\ n_power x <> 0) then None else c !! j) ->
        apply_updates c' (if (n_last_pub y =? 0)%N then [] else [(n_last_pub y, n_power y)]) !! k = Some p <->
        on_record s k p /\ ~ (k = n_last_pub x /\ n_power x <> 0) \/ n_last_pub y = k /\ n_power y = p /\ p <> 0).
      { intros c' Hc. destruct (n_last_pub y =? 0)%N eqn:B2.
        - cbn. rewrite Hc. destruct (decide _) as [Hk|Hk].
          + split; [done|]. intros [[_ ?]|(? & ? & ?)]; [done|]. exfalso. apply N.eqb_eq in B2. apply Y4 in B2. congruence.
          + rewrite HI. split; [auto|]. intros [[? _]|(? & ? & ?)]; [done|]. exfalso. apply N.eqb_eq in B2. apply Y4 in B2. congruence.
        - cbn. unfold apply_update; cbn. assert (n_power y <> 0) by (rewrite Y4; lia). destruct (n_power y =? 0) eqn:B3; [lia|].
          destruct (decide (n_last_pub y = k)) as [<-|Hk].
          + rewrite lookup_insert. split; [intros [= <-]; right; done|]. intros [[H1 H2]|(_ & <- & _)]; [|done].
            destruct H1 as (z & w & E & E1 & E2 & E3). assert (z = a) as -> by (eapply HO; [exact E|congruence|done|lia]).
            rewrite Ex in E. injection E as <-. congruence.
          + rewrite lookup_insert_ne by done. rewrite Hc. destruct (decide _) as [Hj|Hj].
            * split; [done|]. intros [[_ ?]|[? _]]; [done|congruence].
            * rewrite HI. split; [auto|]. intros [[? _]|[? _]]; [done|congruence]. }
      destruct (n_last_pub x =? 0)%N eqn:B4; cbn [negb app].
      + apply E1. intros j. rewrite decide_False; [done|]. intros [_ HP]. apply HP, X4. lia.
      + match goal with |- context[apply_updates c (?u :: ?l)] => change (apply_updates c (u :: l)) with (apply_updates (apply_update c u) l) end. apply E1. intros j. cbn. unfold apply_update; cbn.
        destruct (decide (n_last_pub x = j)) as [<-|Hj].
        * rewrite lookup_delete, decide_True; [done|]. split; [done|]. apply HX0. lia.
        * rewrite lookup_delete_ne by done. rewrite decide_False; [done|]. intros [? _]. congruence.
  Qed.
  Lemma delta_keys a x y k p : rok a x -> rok a y -> (k, p) ∈ delta x y -> K a k.
  Proof.
    intros (X1 & X2 & X3 & X4) (Y1 & Y2 & Y3 & Y4). unfold delta. destruct (decide _); [by intros ?%elem_of_nil|].
    rewrite elem_of_app. intros [H|H].
    - destruct (_ && _) eqn:B; [|by apply elem_of_nil in H]. apply elem_of_list_singleton in H as [= -> ->]. apply X2. lia.
    - destruct (_ =? _)%N eqn:B; [by apply elem_of_nil in H|]. apply elem_of_list_singleton in H as [= -> ->]. apply Y2. lia.
  Qed.
  Lemma G_step a x rem result s s' y : (D -> in_step C0 s0) -> G ((a, x) :: rem) result s ->
    st_val s' = <[ a := y ]> (st_val s) -> st_np s' = st_np s -> rok a y -> G rem (result ++ delta x y) s'.
  Proof.
    intros HC (H1 & H2 & H3 & H4 & H5) HV HN HY. cbn in H1. apply NoDup_cons in H1 as [HA H1].
    destruct (H2 a x) as [Ea E0]; [left|]. pose proof (H3 _ _ Ea) as HX. split_and!.
    - done.
    - intros b w Hb. rewrite HV. assert (a <> b).
      { intros <-. apply HA. apply elem_of_list_fmap. by exists (a, w). }
      rewrite lookup_insert_ne by done. apply H2. by right.
    - intros z w. rewrite HV. destruct (decide (a = z)) as [<-|Hz]; [rewrite lookup_insert; by intros [= <-]|rewrite lookup_insert_ne by done; apply H3].
    - congruence.
    - intros d. destruct (H5 d) as (I1 & (I2 & I3) & I4). split; [|split; [split|]].
      + rewrite apply_updates_app. by eapply delta_step.
      + rewrite map_app. apply NoDup_app. split; [done|]. split.
        * intros k Hk Hk'. apply elem_of_list_fmap in Hk as ([k1 p1] & -> & Hk). apply elem_of_list_fmap in Hk' as ([k2 p2] & E & Hk').
          cbn in E. subst k2. destruct (I4 _ _ Hk) as (z & HZ & HN'). apply delta_keys with (a := a) in Hk'; [|done..].
          apply HN'. cbn. assert (z = a) as -> by (by eapply (HD d)). left.
        * unfold delta. destruct (decide _); [constructor|]. destruct (_ && _) eqn:B1, (n_last_pub y =? 0)%N eqn:B2; cbn.
          -- apply NoDup_singleton.
          -- apply NoDup_cons. split; [|apply NoDup_singleton]. rewrite elem_of_list_singleton. lia.
          -- constructor.
          -- apply NoDup_singleton.
      + intros k p Hk. apply elem_of_app in Hk as [Hk|Hk]; [by apply I3|].
        destruct HX as (X1 & X2 & X3 & X4), HY as (Y1 & Y2 & Y3 & Y4). unfold delta in Hk. destruct (decide _); [by apply elem_of_nil in Hk|].
        apply elem_of_app in Hk as [Hk|Hk].
        * destruct (_ && _) eqn:B; [|by apply elem_of_nil in Hk]. apply elem_of_list_singleton in Hk as [= -> ->]. split; [lia|]. intros _.
          exists (n_power x). apply (HC d). exists a, x. split_and!; [done..|]. rewrite X4. lia.
        * destruct (_ =? _)%N eqn:B; [by apply elem_of_nil in Hk|]. apply elem_of_list_singleton in Hk as [= -> ->]. split; [lia|]. intros E. apply Y4 in E. lia.
      + intros k p Hk. apply elem_of_app in Hk as [Hk|Hk].
        * destruct (I4 _ _ Hk) as (z & HZ & HN'). exists z. split; [done|]. intros Hz. apply HN'. by right.
        * exists a. split; [exact (delta_keys a x y k p HX HY Hk)|done].
  Qed.
  Lemma G_same a x rem result s : (D -> in_step C0 s0) -> G ((a, x) :: rem) result s -> G rem result s.
  Proof.
    intros HC H. destruct (H) as (_ & H2 & H3 & _). destruct (H2 a x) as [Ea _]; [left|].
    replace result with (result ++ delta x x). { eapply G_step; [done|exact H|by rewrite insert_id|done|by apply H3]. }
    unfold delta. rewrite decide_True by done. apply app_nil_r.
  Qed.
  Lemma put_same x p k n : n_power x = p -> n_last_pub x = k -> n_lottery x = n ->
    x = x <| n_power := p |> <| n_last_pub := k |> <| n_lottery := n |>.
  Proof. destruct x; cbn; by intros -> -> ->. Qed.
  Lemma put_same' x p k : n_power x = p -> n_last_pub x = k -> x = x <| n_power := p |> <| n_last_pub := k |>.
  Proof. destruct x; cbn; by intros -> ->. Qed.
  Lemma val_update_run a (f : ninfo -> M (option ninfo)) s s1 x y : st_val s !! a = Some x -> f x s = (s1, Ok (Some y)) ->
    val_update a f s = (s1 <| st_val := <[ a := y ]> (st_val s1) |>, Ok tt).
  Proof. intros E H. unfold val_update, val_get, bind. by rewrite E, H. Qed.

  (** *** First loop *)
  Definition P1 (l : list (addr * ninfo)) (acc : list (addr * ninfo) * list (N * Z)) (s : St) : Prop :=
    let '(active, result) := acc in
    G (active ++ l) result s /\ (forall a x, (a, x) ∈ active -> n_active x = true) /\
    (forall z x, st_val s !! z = Some x -> n_power x <> 0 -> z ∈ map fst (active ++ l)) /\
    (forall z x, st_val s0 !! z = Some x -> n_active x = true -> (z, x) ∈ active ++ l) /\
    st_lottery s = st_lottery s0 /\
    ((forall a x, (a, x) ∈ active -> is_Some (st_oper s !! n_pub x)) /\
     (forall k, is_Some (st_oper s0 !! k) -> is_Some (st_oper s !! k)) /\
     forall k a, st_oper s !! k = Some a -> st_oper s0 !! k = Some a \/ (K a k /\ is_Some (st_val s0 !! a))).
  Hypothesis HC : D -> in_step C0 s0.
  Lemma scan_total e l acc s : P1 (e :: l) acc s -> exists acc' s', gather_scan acc e s = (s', Ok acc') /\ P1 l acc' s'.
  Proof.
    destruct acc as [active result], e as [a x]. intros (HG & HA & HM & HE & HL & HO1 & HO2 & HO3).
    assert (HP : Permutation (active ++ (a, x) :: l) ((active ++ [(a, x)]) ++ l)) by by rewrite <- app_assoc.
    assert (HP' : Permutation (active ++ (a, x) :: l) ((a, x) :: active ++ l)) by by rewrite Permutation_middle.
    destruct (HG) as (_ & G2 & G3 & _). destruct (G2 a x) as [Ea E0]; [apply elem_of_app; right; left|].
    pose proof (G3 _ _ Ea) as (R1 & R2 & R3 & R4). unfold gather_scan. destruct (n_active x) eqn:EA.
    - assert (HN : n_pub x <> 0%N).
      { apply (K0 a), R1. unfold n_active in EA. by destruct (n_status x). }
      unfold bind, assert. destruct (n_pub x =? 0)%N eqn:EN; [lia|]. cbn. eexists _, _. split; [reflexivity|].
      split_and!.
      + eapply G_fields; [..|eapply G_perm; [exact HP|exact HG]]; reflexivity.
      + intros b w [Hb|Hb]%elem_of_app; [by eapply HA|]. apply elem_of_list_singleton in Hb as [= -> ->]. done.
      + intros z w E1 E2. rewrite <- HP. by eapply HM.
      + intros z w E1 E2. rewrite <- HP. by eapply HE.
      + done.
      + cbn. intros b w Hb. destruct (decide (n_pub x = n_pub w)) as [<-|Hn]; [rewrite lookup_insert; eauto|].
        rewrite lookup_insert_ne by done. apply elem_of_app in Hb as [Hb|Hb]; [by eapply HO1|]. apply elem_of_list_singleton in Hb as [= -> ->]. done.
      + cbn. intros k Hk. destruct (decide (n_pub x = k)) as [<-|Hn]; [rewrite lookup_insert; eauto|].
        rewrite lookup_insert_ne by done. by apply HO2.
      + cbn. intros k b. destruct (decide (n_pub x = k)) as [<-|Hn]; [rewrite lookup_insert|rewrite lookup_insert_ne by done; apply HO3].
        intros [= <-]. right. split; [|eauto]. apply R1. unfold n_active in EA. by destruct (n_status x).
    - assert (HE' : forall z w, st_val s0 !! z = Some w -> n_active w = true -> (z, w) ∈ active ++ l).
      { intros z w E1 E2. specialize (HE z w E1 E2). rewrite HP' in HE. apply elem_of_cons in HE as [[= -> ->]|?]; [congruence|done]. }
      destruct (n_power x =? 0) eqn:EP.
      + eexists _, _. split; [reflexivity|]. split_and!; [|done| |done|done|done|done|done].
        * eapply G_same; [done|]. eapply G_perm; [exact HP'|exact HG].
        * intros z w E1 E2. specialize (HM z w E1 E2). rewrite HP' in HM. cbn in HM. apply elem_of_cons in HM as [->|?]; [|done].
          rewrite E1 in Ea. injection Ea as ->. lia.
      + unfold bind, assert. destruct (n_last_pub x =? 0)%N eqn:EN; [exfalso; apply N.eqb_eq in EN; apply R4 in EN; lia|]. cbn [negb].
        unfold ret at 1. rewrite (val_update_run a _ s s x (x <| n_power := 0 |> <| n_last_pub := 0%N |>) Ea eq_refl).
        eexists _, _. split; [reflexivity|].
        assert (ED : delta x (x <| n_power := 0 |> <| n_last_pub := 0%N |>) = [(n_last_pub x, 0)]).
        { unfold delta; cbn. rewrite decide_False by lia. by rewrite EN. }
        rewrite <- ED. split_and!; [|done| |done|done|done|done|done].
        * eapply G_step; [done|eapply G_perm; [exact HP'|exact HG]|reflexivity..|].
          split_and!; cbn; [done|done|lia|done].
        * cbn. intros z w. destruct (decide (a = z)) as [<-|Hz]; [rewrite lookup_insert; intros [= <-]; cbn; lia|].
          rewrite lookup_insert_ne by done. intros E1 E2. specialize (HM z w E1 E2). rewrite HP' in HM. cbn in HM.
          by apply elem_of_cons in HM as [->|?].
  Qed.

  Definition same_pub (z : addr) (x : ninfo) : Prop := exists x0, st_val s0 !! z = Some x0 /\ n_pub x = n_pub x0 /\ n_active x = n_active x0.
  (** *** Second loop: the top *)
  Context (HNP : proper_nparams (st_np s0)).
  Context (top rest : list (addr * ninfo)).
  Definition P2 (l : list (addr * ninfo)) (acc : vpg * list (N * Z)) (s : St) : Prop :=
    let '(g, result) := acc in
    G (l ++ rest) result s /\ (forall a x, (a, x) ∈ l ++ rest -> n_active x = true) /\ vinv (st_np s0) g /\
    (forall z x, st_val s !! z = Some x -> n_power x <> 0 -> z ∈ map fst (l ++ rest) \/ z ∈ map fst top) /\
    (forall z, z ∈ map fst top -> z ∈ map fst l \/ exists x, st_val s !! z = Some x /\ n_power x <> 0 /\ n_last_pub x = n_pub x /\ same_pub z x /\ n_lottery x = 0) /\
    (forall a x, (a, x) ∈ l -> a ∈ map fst top) /\
    (queue_ok s0 -> forall a x, (a, x) ∈ l ++ rest -> n_lottery x <> 0 -> st_lottery s !! n_lottery x = Some a).
  Lemma top_total e l acc s : P2 (e :: l) acc s -> exists acc' s', gather_top (st_np s0) acc e s = (s', Ok acc') /\ P2 l acc' s'.
  Proof.
    destruct acc as [g result], e as [a x]. intros (HG & HA & HV & HM & HT & HI & HQ). cbn [app] in *.
    destruct (HG) as (G1 & G2 & G3 & G4 & _). destruct (G2 a x) as [Ea E0]; [left|]. cbn in G1. apply NoDup_cons in G1 as [Ga G1].
    pose proof (G3 _ _ Ea) as (R1 & R2 & R3 & R4). pose proof (HA a x ltac:(left)) as EA.
    assert (HK : K a (n_pub x)). { apply R1. unfold n_active in EA. by destruct (n_status x). } pose proof (K0 _ _ HK) as HN.
    destruct (vpg_total _ HNP (n_score x) g HV) as (pw & g' & Ev & Iv & _ & Hpw).
    set (y := x <| n_power := pw |> <| n_last_pub := n_pub x |> <| n_lottery := 0 |>).
    assert (HY : rok a y). { split_and!; cbn; [done..|lia|lia]. }
    assert (HD' : delta x y = (if negb (n_pub x =? n_last_pub x)%N && negb (n_last_pub x =? 0)%N then [(n_last_pub x, 0)] else []) ++
      (if negb (n_power x =? pw) || negb (n_pub x =? n_last_pub x)%N then [(n_pub x, pw)] else [])).
    { unfold delta, y; cbn. rewrite (N.eqb_sym (n_last_pub x)). destruct (decide _) as [[P1 P2]|HNN].
      - rewrite P1, P2, Z.eqb_refl, N.eqb_refl. done.
      - destruct (n_pub x =? 0)%N eqn:B; [lia|]. f_equal.
        destruct (negb (n_power x =? pw) || negb (n_pub x =? n_last_pub x)%N) eqn:B1; [done|]. exfalso. apply HNN. lia. }
    assert (EX : exists s', gather_top (st_np s0) (g, result) (a, x) s = (s', Ok (g', result ++ delta x y)) /\
      st_val s' = <[ a := y ]> (st_val s) /\ st_np s' = st_np s /\
      st_lottery s' = if n_lottery x =? 0 then st_lottery s else base.delete (n_lottery x) (st_lottery s)).
    { rewrite HD'. unfold gather_top, bind, assert. destruct (n_pub x =? 0)%N eqn:B; [lia|]. cbn [negb]. unfold ret at 1.
      unfold lift. rewrite Ev. unfold ret at 1. cbv beta iota zeta. unfold if_in_lottery, must, lottery_exclude.
      destruct (n_lottery x =? 0) eqn:BL.
      - unfold ret at 1. destruct (negb (n_power x =? pw) || negb (n_pub x =? n_last_pub x)%N) eqn:BU; cbn [orb negb].
        + rewrite (val_update_run a _ s s x y Ea); [|unfold ret, y; replace (n_lottery x) with 0 by lia; done].
          eexists. split; [reflexivity|]. done.
        + eexists. split; [reflexivity|]. split; [|done]. rewrite insert_id; [done|]. rewrite Ea. f_equal. apply put_same; lia.
      - unfold modify, bind. unfold ret at 1. cbv beta iota. rewrite orb_true_r. cbv iota.
        match goal with |- context[val_update a ?f ?s1] => rewrite (val_update_run a f s1 s1 x y Ea eq_refl) end.
        eexists. split; [reflexivity|]. done. }
    destruct EX as (s' & -> & Es & En & El). eexists _, _. split; [reflexivity|]. split_and!.
    - by eapply G_step.
    - intros b w Hb. eapply HA. by right.
    - done.
    - intros z w. rewrite Es. destruct (decide (a = z)) as [<-|Hz].
      + intros _ _. right. eapply HI. left.
      + rewrite lookup_insert_ne by done. intros E1 E2. destruct (HM z w E1 E2) as [H|H]; [|by right].
        cbn in H. apply elem_of_cons in H as [->|H]; [done|by left].
    - intros z Hz. destruct (decide (a = z)) as [<-|Hn].
      + right. exists y. rewrite Es, lookup_insert. cbn. split_and!; [done|lia|done|by exists x|done].
      + destruct (HT z Hz) as [H|(w & E1 & E2)]; [cbn in H; apply elem_of_cons in H as [->|H]; [done|by left]|].
        right. exists w. rewrite Es, lookup_insert_ne by done. done.
    - intros b w Hb. eapply HI. by right.
    - intros q b w Hb Hw. rewrite El. assert (HbL := HQ q b w ltac:(by right) Hw). destruct (n_lottery x =? 0) eqn:B; [done|].
      rewrite lookup_delete_ne; [done|]. intros EE. assert (HaL := HQ q a x ltac:(left) ltac:(lia)). rewrite EE, HbL in HaL.
      injection HaL as ->. apply Ga. apply elem_of_list_fmap. by exists (a, w).
  Qed.

  (** *** Third loop: the others *)
  Context (max_no : Z).
  Definition drawn (e : addr * ninfo) : bool := negb (n_lottery (snd e) =? 0) && (n_lottery (snd e) <=? max_no).
  Definition P3 (l : list (addr * ninfo)) (acc : vpg * list (N * Z)) (s : St) : Prop :=
    let '(g, result) := acc in
    G l result s /\ (forall a x, (a, x) ∈ l -> n_active x = true) /\ vinv (st_np s0) g /\
    (forall z x, st_val s !! z = Some x -> n_power x <> 0 ->
       z ∈ map fst l \/ z ∈ map fst top \/ z ∈ map fst (List.filter drawn rest)) /\
    (forall z, z ∈ map fst top \/ z ∈ map fst (List.filter drawn rest) ->
       z ∈ map fst l \/ exists x, st_val s !! z = Some x /\ n_power x <> 0 /\ n_last_pub x = n_pub x /\ same_pub z x /\
         (n_lottery x = 0 <-> z ∈ map fst top)) /\
    (forall e, e ∈ l -> e ∈ rest) /\ (forall e, e ∈ rest -> fst e ∉ map fst top) /\ (forall e, e ∈ rest -> drawn e = false -> fst e ∉ map fst top /\ fst e ∉ map fst (List.filter drawn rest)).
  Lemma rest_total e l acc s : P3 (e :: l) acc s -> exists acc' s', gather_rest (st_np s0) max_no acc e s = (s', Ok acc') /\ P3 l acc' s'.
  Proof.
    destruct acc as [g result], e as [a x]. intros (HG & HA & HV & HM & HT & HI & HNT & HO). cbn [app] in *.
    destruct (HG) as (G1 & G2 & G3 & G4 & _). destruct (G2 a x) as [Ea E0]; [left|]. cbn in G1. apply NoDup_cons in G1 as [Ga G1].
    pose proof (G3 _ _ Ea) as (R1 & R2 & R3 & R4). pose proof (HA a x ltac:(left)) as EA.
    assert (HK : K a (n_pub x)). { apply R1. unfold n_active in EA. by destruct (n_status x). } pose proof (K0 _ _ HK) as HN.
    assert (HR : (a, x) ∈ rest) by (apply HI; left).
    (* whichever record is written *)
    assert (FIN : forall y s' g', vinv (st_np s0) g' -> rok a y -> st_val s' = <[ a := y ]> (st_val s) -> st_np s' = st_np s ->
      (drawn (a, x) = true -> n_power y <> 0 /\ n_last_pub y = n_pub y /\ same_pub a y /\ n_lottery y <> 0) -> (drawn (a, x) = false -> n_power y = 0) ->
      P3 l (g', result ++ delta x y) s').
    { intros y s' g' Iv HY Es En HDr HUn. split_and!; [by eapply G_step|intros b w Hb; eapply HA; by right|done|..].
      - intros z w. rewrite Es. destruct (decide (a = z)) as [<-|Hz].
        + rewrite lookup_insert. intros [= <-] Hp. right; right. destruct (drawn (a, x)) eqn:B; [|by rewrite HUn in Hp].
          apply elem_of_list_fmap. exists (a, x). split; [done|]. apply elem_of_list_In, filter_In. split; [by apply elem_of_list_In|done].
        + rewrite lookup_insert_ne by done. intros E1 E2. destruct (HM z w E1 E2) as [H|H]; [|by right].
          cbn in H. apply elem_of_cons in H as [->|H]; [done|by left].
      - intros z Hz. destruct (decide (a = z)) as [<-|Hn].
        + right. exists y. rewrite Es, lookup_insert. destruct (drawn (a, x)) eqn:B.
          { destruct (HDr eq_refl) as (? & ? & ? & ?). do 4 (split; [done|]). split; [done|]. intros Hin. by destruct (HNT (a, x) HR). }
          exfalso. destruct (HO (a, x) HR B) as [O1 O2]. by destruct Hz.
        + destruct (HT z Hz) as [H|(w & E1 & E2)]; [cbn in H; apply elem_of_cons in H as [->|H]; [done|by left]|].
          right. exists w. rewrite Es, lookup_insert_ne by done. done.
      - intros e He. apply HI. by right.
      - done.
      - done. }
    unfold gather_rest. change (negb (n_lottery x =? 0) && (n_lottery x <=? max_no)) with (drawn (a, x)).
    destruct (drawn (a, x)) eqn:BD.
    - assert (HDL : n_lottery x <> 0). { unfold drawn in BD. cbn in BD. destruct (Z.eqb_spec (n_lottery x) 0); done. }
      destruct (vpg_total _ HNP (n_score x) g HV) as (pw & g' & Ev & Iv & _ & Hpw).
      set (y := x <| n_power := pw |> <| n_last_pub := n_pub x |>).
      assert (HY : rok a y). { split_and!; cbn; [done..|lia|lia]. }
      unfold bind, lift. rewrite Ev. unfold ret at 1. cbv beta iota.
      destruct (negb (negb (n_pub x =? n_last_pub x)%N) && (n_power x =? pw)) eqn:B1.
      + exists (g', result), s. split; [done|].
        assert (HD' : delta x y = []). { unfold delta, y; cbn. rewrite decide_True; [done|]. lia. }
        replace result with (result ++ delta x y) by (rewrite HD'; apply app_nil_r). apply FIN; [done|done| |done|cbn; intros _; split_and!; [lia|done|by exists x|by apply HDL]|done].
        rewrite insert_id; [done|]. rewrite Ea. f_equal. apply put_same'; lia.
      + rewrite (val_update_run a _ s s x y Ea eq_refl). eexists _, _. split; [reflexivity|].
        assert (HD' : delta x y = (if negb (n_pub x =? n_last_pub x)%N && negb (n_last_pub x =? 0)%N then [(n_last_pub x, 0)] else []) ++ [(n_pub x, pw)]).
        { unfold delta, y; cbn. rewrite (N.eqb_sym (n_last_pub x)). rewrite decide_False by (intros [Q1 Q2]; rewrite Q1, Q2, Z.eqb_refl, N.eqb_refl in B1; done).
          destruct (n_pub x =? 0)%N eqn:B; [lia|]. done. }
        rewrite <- HD'. apply FIN; [done|done|done|done|cbn; intros _; split_and!; [lia|done|by exists x|by apply HDL]|done].
    - cbv zeta. remember (negb (n_power x =? 0)) as out eqn:Eout.
      assert (HD' : forall y, n_power y = 0 -> n_last_pub y = 0%N -> delta x y = if out then [(n_last_pub x, 0)] else []).
      { intros y Y1 Y2. unfold delta. rewrite Eout, Y1, Y2. destruct (n_power x =? 0) eqn:B; cbn [negb].
        - rewrite decide_True; [done|]. split; [lia|]. apply R4. lia.
        - rewrite decide_False by lia. cbn. destruct (n_last_pub x =? 0)%N eqn:B2; [|done]. exfalso. apply N.eqb_eq in B2. apply R4 in B2. lia. }
      assert (HA1 : out && (n_last_pub x =? 0)%N = false).
      { rewrite Eout. destruct (n_power x =? 0) eqn:B; [done|]. cbn. destruct (n_last_pub x =? 0)%N eqn:B2; [|done]. apply N.eqb_eq in B2. apply R4 in B2. lia. }
      unfold bind, assert. rewrite HA1. cbn [negb]. unfold ret at 1.
      destruct (n_lottery x =? 0) eqn:BL.
      + unfold must, lottery_add_new. rewrite BL. cbn [negb]. unfold bind, get, modify. unfold ret at 1. cbv beta iota. rewrite orb_true_r.
        set (no := match last (keysZ (st_lottery s)) with Some k => k + 1 | None => 1 end).
        set (y := x <| n_power := 0 |> <| n_last_pub := 0%N |> <| n_lottery := no |>).
        match goal with |- context[val_update a ?f ?s1] => rewrite (val_update_run a f s1 s1 x y Ea eq_refl) end.
        eexists _, _. split; [reflexivity|]. refine (eq_ind _ (fun u => P3 l (g, result ++ u) _) _ _ (HD' y eq_refl eq_refl)). apply FIN; [done| |done|done|done|done].
        split_and!; cbn; [done|done|lia|done].
      + unfold ret at 1. rewrite orb_false_r. destruct out.
        * set (y := x <| n_power := 0 |> <| n_last_pub := 0%N |>).
          rewrite (val_update_run a _ s s x y Ea); [|unfold ret, y; by destruct x].
          eexists _, _. split; [reflexivity|]. refine (eq_ind _ (fun u => P3 l (g, result ++ u) _) _ _ (HD' y eq_refl eq_refl)). apply FIN; [done| |done|done|done|done].
          split_and!; cbn; [done|done|lia|done].
        * eexists _, _. split; [reflexivity|]. assert (HP0 : n_power x = 0) by lia.
          refine (eq_ind _ (fun u => P3 l (g, result ++ u) _) _ _ (HD' x HP0 (proj1 R4 HP0))). apply FIN; [done|by split_and!|by rewrite insert_id|done|done|done].
  Qed.
End gather.

(** ** The order of the candidates *)
#[export] Instance val_better_total : Total val_better.
Proof. intros x y. unfold val_better. lia. Qed.
#[export] Instance val_better_trans : Transitive val_better.
Proof. intros x y z. unfold val_better. lia. Qed.
Lemma sorted_take_drop {A} (R : A -> A -> Prop) (l : list A) n x y :
  StronglySorted R l -> x ∈ take n l -> y ∈ drop n l -> R x y.
Proof.
  revert n. induction l as [|e l IH]; intros n HS Hx Hy; [rewrite take_nil in Hx; by apply elem_of_nil in Hx|].
  destruct n as [|n]; [by apply elem_of_nil in Hx|]. cbn in *. apply StronglySorted_inv in HS as [HS HF].
  apply elem_of_cons in Hx as [->|Hx]; [|by eapply IH].
  rewrite Forall_forall in HF. apply HF. rewrite <- (take_drop n l). apply elem_of_app. by right.
Qed.
Lemma up_to_last (m : gmap Z addr) n k : is_Some (m !! k) -> 0 < k -> k <= default 0 (last (take n (keysZ m))) -> k ∈ take n (keysZ m).
Proof.
  intros Hk H0 HL. apply elem_of_keysZ in Hk. rewrite <- (take_drop n (keysZ m)) in Hk. apply elem_of_app in Hk as [Hk|Hk]; [done|].
  destruct (last (take n (keysZ m))) as [j|] eqn:E; cbn in HL; [|lia].
  assert (Hj : j ∈ take n (keysZ m)). { apply last_Some in E as [l' ->]. apply elem_of_app. right. left. }
  pose proof (sorted_take_drop Z.lt (keysZ m) n j k (sorted_keysZ m) Hj Hk). lia.
Qed.
Lemma drawn_bound (m : gmap Z addr) n (rest : list (addr * ninfo)) : NoDup (map fst rest) ->
  (forall a x, (a, x) ∈ rest -> n_lottery x <> 0 -> 0 < n_lottery x /\ m !! n_lottery x = Some a) ->
  (List.length (List.filter (drawn (default 0%Z (last (take n (keysZ m))))) rest) <= n)%nat.
Proof.
  intros HN HQ. set (f := drawn _).
  assert (HE : forall e, e ∈ List.filter f rest -> e ∈ rest /\ f e = true).
  { intros e He. apply elem_of_list_In, filter_In in He as [? ?]. split; [by apply elem_of_list_In|done]. }
  assert (HL : forall e, e ∈ List.filter f rest -> 0 < n_lottery (snd e) /\ m !! n_lottery (snd e) = Some (fst e) /\ n_lottery (snd e) ∈ take n (keysZ m)).
  { intros [a x] He. apply HE in He as [Hr Hf]. unfold f, drawn in Hf. cbn in *. apply andb_true_iff in Hf as [F1 F2].
    destruct (HQ a x Hr) as [Q1 Q2]; [lia|]. split_and!; [done..|]. apply up_to_last; [eauto|done|lia]. }
  assert (HNF : NoDup (map fst (List.filter f rest))).
  { clear -HN. induction rest as [|e r IH]; cbn in *; [constructor|]. apply NoDup_cons in HN as [H1 H2].
    destruct (f e); [cbn; apply NoDup_cons; split; [|by apply IH]|by apply IH].
    intros H. apply H1. apply elem_of_list_fmap in H as (y & -> & Hy). apply elem_of_list_fmap. exists y. split; [done|].
    apply elem_of_list_In, filter_In in Hy as [? _]. by apply elem_of_list_In. }
  transitivity (List.length (take n (keysZ m))); [|rewrite take_length; lia].
  rewrite <- (map_length (fun e => n_lottery (snd e)) (List.filter f rest)).
  apply NoDup_incl_length.
  - apply NoDup_ListNoDup.
    assert (HX : forall l, (forall e, e ∈ l -> m !! n_lottery (snd e) = Some (fst e)) -> NoDup (map fst l) -> NoDup (map (fun e => n_lottery (snd e)) l)).
    { clear. induction l as [|e l IH]; intros Hm HN; cbn in *; [constructor|]. apply NoDup_cons in HN as [H1 H2]. apply NoDup_cons. split.
      - intros H. apply elem_of_list_fmap in H as (y & E & Hy). apply H1. apply elem_of_list_fmap. exists y. split; [|done].
        pose proof (Hm e ltac:(left)) as E1. pose proof (Hm y ltac:(by right)) as E2. congruence.
      - apply IH; [intros; apply Hm; by right|done]. }
    apply HX; [|done]. intros e He. by apply HL.
  - intros k Hk. apply in_map_iff in Hk as (e & <- & He). apply elem_of_list_In. apply HL. by apply elem_of_list_In.
Qed.

(** ** The whole *)
Section whole.
  Context (K : addr -> N -> Prop).
  Hypothesis K0 : forall z k, K z k -> k <> 0%N.
  Context (D : Prop) (HD : D -> forall z z' k, K z k -> K z' k -> z = z').

  Theorem gather_ok C0 s0 : proper_nparams (st_np s0) -> (forall z x, st_val s0 !! z = Some x -> rok K z x) -> (D -> in_step C0 s0) ->
    exists s' us T L, gather s0 = (s', Ok us) /\
      (forall z x, st_val s' !! z = Some x -> rok K z x) /\ st_np s' = st_np s0 /\
      (D -> in_step (apply_updates C0 us) s' /\ acceptable C0 us) /\
      (forall z, z ∈ T ++ L <-> exists x, st_val s' !! z = Some x /\ n_power x <> 0) /\
      (forall z, z ∈ T ++ L -> exists x, st_val s' !! z = Some x /\ n_last_pub x = n_pub x /\ is_Some (st_oper s' !! n_pub x)) /\
      (forall k, is_Some (st_oper s0 !! k) -> is_Some (st_oper s' !! k)) /\
      (forall k a, st_oper s' !! k = Some a -> st_oper s0 !! k = Some a \/ (K a k /\ is_Some (st_val s0 !! a))) /\
      NoDup (T ++ L) /\ (forall z, z ∈ T ++ L -> is_validator s0 z = true) /\
      Z.of_nat (List.length T) <= np_max (st_np s0) /\
      (queue_ok s0 -> Z.of_nat (List.length L) <= Z.max 0 (np_lucky (st_np s0))) /\
      (forall z x, st_val s0 !! z = Some x -> n_active x = true -> z ∉ T ->
         Z.of_nat (List.length T) = np_max (st_np s0) /\
         forall b y, b ∈ T -> st_val s0 !! b = Some y -> val_better (b, y) (z, x)) /\
      (forall z x, z ∈ T ++ L -> st_val s' !! z = Some x -> n_active x = true /\ (n_lottery x = 0 <-> z ∈ T)).
  Proof.
    intros HNP HR HC. set (recs := map (fun a => (a, default n_zero (st_val s0 !! a))) (keysN (st_val s0))).
    assert (Hrec : forall a x, (a, x) ∈ recs <-> st_val s0 !! a = Some x).
    { intros a x. unfold recs. rewrite elem_of_list_fmap. split.
      - intros (b & [= -> ->] & Hb). apply elem_of_keysN in Hb as [y ->]. done.
      - intros E. exists a. rewrite E. split; [done|]. apply elem_of_keysN. eauto. }
    assert (Hfst : map fst recs = keysN (st_val s0)).
    { unfold recs. rewrite map_map. cbn. apply map_id. }
    destruct (mfold_total (P1 K D C0 s0) gather_scan (scan_total K K0 D HD C0 s0 HC) recs ([], []) s0) as ([active us1] & s1 & E1 & HP1).
    { split_and!; cbn [app].
      - split_and!; [rewrite Hfst; apply NoDup_keysN|intros a x Hx; split; by apply Hrec|done|done|].
        intros d. split_and!; [by apply HC| |].
        + split; [constructor|]. by intros k p ?%elem_of_nil.
        + by intros k p ?%elem_of_nil.
      - by intros a x ?%elem_of_nil.
      - intros z x E _. rewrite Hfst. apply elem_of_keysN. eauto.
      - intros z x E _. by apply Hrec.
      - done.
      - by intros a x ?%elem_of_nil.
      - done.
      - auto. }
    destruct HP1 as (HG1 & HA1 & HM1 & HE1 & HL1 & HO1 & HO2 & HO3). rewrite app_nil_r in *.
    set (len := Z.of_nat (List.length active)) in *. set (p := st_np s0) in *.
    set (n1 := if np_max p <? len then np_max p else len).
    set (n2 := if np_max p <? len then (if np_max p + np_lucky p <? len then np_lucky p else len - n1) else 0).
    set (sorted := merge_sort val_better active). set (top := take (Z.to_nat n1) sorted). set (rest := drop (Z.to_nat n1) sorted).
    assert (HPS : Permutation active (top ++ rest)).
    { unfold top, rest. rewrite take_drop. symmetry. apply merge_sort_Permutation. }
    assert (HSS : StronglySorted val_better sorted) by (apply StronglySorted_merge_sort; apply _).
    assert (HGs : G K D C0 s0 (top ++ rest) us1 s1) by (eapply G_perm; [exact HPS|exact HG1]).
    assert (HAs : forall a x, (a, x) ∈ top ++ rest -> n_active x = true). { intros a x. rewrite <- HPS. apply HA1. }
    pose proof HNP as (HNP1 & _).
    destruct (mfold_total (P2 K D C0 s0 top rest) (gather_top p) (top_total K K0 D HD C0 s0 HC HNP top rest) top (vpg_new, us1) s1)
      as ([g us2] & s2 & E2 & HP2).
    { split_and!; [done|done|by apply vinv_new|..].
      - intros z x Ez Hp. left. rewrite <- HPS. by eapply HM1.
      - auto.
      - intros a x Ha. apply elem_of_list_fmap. by exists (a, x).
      - intros HQ a x Ha Hl. rewrite HL1. destruct HGs as (_ & HG2 & _). destruct (HG2 a x Ha) as [_ E]. by apply (HQ a x E). }
    destruct HP2 as (HG2 & HA2 & HV2 & HM2 & HT2 & _ & HQ2). cbn [app map] in *.
    set (max_no := lottery_last_no (Z.to_nat n2) s2).
    assert (HND : NoDup (map fst (top ++ rest))) by apply HGs. rewrite map_app in HND. apply NoDup_app in HND as (HN1 & HN2 & HN3).
    assert (HNotIn : forall e, e ∈ rest -> drawn max_no e = false -> fst e ∉ map fst top /\ fst e ∉ map fst (List.filter (drawn max_no) rest)).
    { intros [a x] He Hd. split.
      - intros H. eapply HN2; [exact H|]. apply elem_of_list_fmap. by exists (a, x).
      - intros H. apply elem_of_list_fmap in H as ([a' y] & E & Hy). cbn in E. subst a'. apply elem_of_list_In, filter_In in Hy as [Hy Hf].
        apply elem_of_list_In in Hy. destruct HG2 as (_ & HG2 & _). destruct (HG2 _ _ He) as [Q1 _], (HG2 _ _ Hy) as [Q2 _].
        rewrite Q1 in Q2. injection Q2 as ->. congruence. }
    destruct (mfold_total (P3 K D C0 s0 top rest max_no) (gather_rest p max_no) (rest_total K K0 D HD C0 s0 HC HNP top rest max_no) rest (g, us2) s2)
      as ([g3 us] & s3 & E3 & HP3).
    { split_and!; [done|done|done|..].
      - intros z x Ez Hp. destruct (HM2 z x Ez Hp) as [H|H]; auto.
      - intros z [Hz|Hz].
        + destruct (HT2 z Hz) as [H|(w & W1 & W2 & W3 & W4 & W5)]; [by apply elem_of_nil in H|]. right. exists w. by split_and!.
        + left. apply elem_of_list_fmap in Hz as (y & -> & Hy). apply elem_of_list_fmap. exists y. split; [done|].
          apply elem_of_list_In, filter_In in Hy as [? _]. by apply elem_of_list_In.
      - auto.
      - intros [b w] Hb Hb'. eapply HN2; [exact Hb'|]. apply elem_of_list_fmap. by exists (b, w).
      - done. }
    destruct HP3 as (HG3 & _ & _ & HM3 & HT3 & _ & _ & _).
    set (T := map fst top). set (L := map fst (List.filter (drawn max_no) rest)).
    exists s3, us, T, L. destruct HG3 as (_ & _ & HR3 & HN4 & HD3).
    assert (Hlen : List.length sorted = List.length active) by (unfold sorted; by rewrite merge_sort_Permutation).
    assert (HnT : Z.of_nat (List.length T) = n1).
    { unfold T, top. rewrite map_length, take_length, Hlen. unfold n1, len in *. destruct (_ <? _) eqn:B; lia. }
    assert (HLr : forall z, z ∈ L -> z ∈ map fst rest).
    { intros z Hz. unfold L in Hz. apply elem_of_list_fmap in Hz as (y & -> & Hy). apply elem_of_list_fmap. exists y. split; [done|].
      apply elem_of_list_In, filter_In in Hy as [? _]. by apply elem_of_list_In. }
    assert (HMem : forall z, z ∈ T ++ L <-> exists x, st_val s3 !! z = Some x /\ n_power x <> 0).
    { intros z. rewrite elem_of_app. split.
      - intros Hz. destruct (HT3 z Hz) as [H|(x & Q1 & Q2 & _)]; [by apply elem_of_nil in H|]. eauto.
      - intros (x & Q1 & Q2). destruct (HM3 z x Q1 Q2) as [H|H]; [by apply elem_of_nil in H|done]. }
    assert (HOp : st_oper s3 = st_oper s1).
    { assert (Q2 : rel (same st_oper) (mfold top (vpg_new, us1) (gather_top p))) by (apply rel_mfold; [apply _|intros; frame]).
      assert (Q3 : rel (same st_oper) (mfold rest (g, us2) (gather_rest p max_no))) by (apply rel_mfold; [apply _|intros; frame]).
      specialize (Q2 s1). rewrite E2 in Q2. specialize (Q3 s2). rewrite E3 in Q3. unfold same in *. cbn in *. congruence. }
    split_and!.
    - unfold gather. etransitivity; [exact (run_bind _ _ s0 s0 recs eq_refl)|]. etransitivity; [exact (run_bind _ _ _ _ _ E1)|]. cbv beta iota.
      etransitivity; [exact (run_bind _ _ s1 s1 p (f_equal (fun x => (s1, Ok x)) (proj1 (proj2 (proj2 (proj2 HG1))))))|]. cbv zeta.
      etransitivity; [exact (run_bind _ _ _ _ _ E2)|]. cbv beta iota. etransitivity; [exact (run_bind _ _ s2 s2 max_no eq_refl)|].
      etransitivity; [exact (run_bind _ _ _ _ _ E3)|]. done.
    - done.
    - done.
    - intros d. destruct (HD3 d) as (Q1 & Q2 & _). done.
    - done.
    - intros z Hz. apply elem_of_app in Hz. destruct (HT3 z Hz) as [H|(x & Q1 & _ & Q2)]; [by apply elem_of_nil in H|].
      destruct Q2 as (Q2 & (x0 & Q3 & Q4 & _) & _). exists x. split_and!; [done|done|]. rewrite Q4, HOp.
      assert (Hz' : z ∈ map fst (top ++ rest)). { rewrite map_app. apply elem_of_app. destruct Hz as [?|?]; [by left|right; by apply HLr]. }
      apply elem_of_list_fmap in Hz' as ([a w] & -> & Ha). cbn in Q3. destruct HGs as (_ & HGs2 & _). destruct (HGs2 a w Ha) as [_ Eg]. rewrite Eg in Q3. injection Q3 as ->.
      apply (HO1 a). by rewrite HPS.
    - rewrite HOp. apply HO2.
    - intros k a Hk. rewrite HOp in Hk. by apply HO3.
    - apply NoDup_app. split_and!; [done|intros z Hz Hz'; eapply HN2; [exact Hz|by apply HLr]|].
      unfold L. clear -HN3. induction rest as [|e r IH]; cbn in *; [constructor|]. apply NoDup_cons in HN3 as [H1 H2].
      destruct (drawn max_no e); [cbn; apply NoDup_cons; split; [|by apply IH]|by apply IH].
      intros H. apply H1. apply elem_of_list_fmap in H as (y & -> & Hy). apply elem_of_list_fmap. exists y. split; [done|].
      apply elem_of_list_In, filter_In in Hy as [? _]. by apply elem_of_list_In.
    - intros z Hz. assert (Hz' : z ∈ map fst (top ++ rest)). { rewrite map_app. apply elem_of_app. apply elem_of_app in Hz as [?|?]; [by left|right; by apply HLr]. }
      apply elem_of_list_fmap in Hz' as ([a x] & -> & Ha). cbn. unfold is_validator. destruct HGs as (_ & HGs2 & _). destruct (HGs2 a x Ha) as [_ ->]. by eapply HAs.
    - rewrite HnT. unfold n1. destruct (_ <? _) eqn:B; lia.
    - intros HQ. unfold L. rewrite map_length.
      assert (B : (List.length (List.filter (drawn max_no) rest) <= Z.to_nat n2)%nat).
      { apply drawn_bound; [done|]. intros a x Ha Hl. specialize (HQ2 HQ a x Ha Hl). split; [|done].
        destruct HG2 as (_ & HG2' & _). destruct (HG2' a x Ha) as [_ E]. by apply (HQ a x E). }
      unfold n2 in B. destruct (np_max p <? len) eqn:B1; [|lia]. destruct (np_max p + np_lucky p <? len) eqn:B2; [lia|]. unfold n1 in B. lia.
    - intros z x Ez Hact Hz. pose proof (HE1 z x Ez Hact) as Hin. rewrite HPS in Hin. apply elem_of_app in Hin as [Hin|Hin].
      { exfalso. apply Hz. apply elem_of_list_fmap. by exists (z, x). }
      split.
      + rewrite HnT. unfold n1 in *. destruct (np_max p <? len) eqn:B; [done|]. exfalso. unfold rest, n1 in Hin.
        rewrite drop_ge in Hin; [by apply elem_of_nil in Hin|]. unfold len. rewrite Hlen. lia.
      + intros b y Hb Eb. apply elem_of_list_fmap in Hb as ([b' y'] & -> & Hb). cbn in Eb.
        destruct HGs as (_ & HGs2 & _). destruct (HGs2 b' y' ltac:(apply elem_of_app; by left)) as [_ E]. cbn. rewrite E in Eb. injection Eb as ->.
        by apply (sorted_take_drop val_better sorted (Z.to_nat n1)).
    - intros z x Hz Ez. assert (Hz0 := Hz). apply elem_of_app in Hz. destruct (HT3 z Hz) as [H|(w & Q1 & _ & _ & (x0 & Q3 & _ & Q4) & Q5)]; [by apply elem_of_nil in H|].
      rewrite Q1 in Ez. injection Ez as ->. split; [|exact Q5]. rewrite Q4.
      assert (Hz' : z ∈ map fst (top ++ rest)). { rewrite map_app. apply elem_of_app. destruct Hz as [?|?]; [by left|right; by apply HLr]. }
      apply elem_of_list_fmap in Hz' as ([a w'] & -> & Ha). cbn in Q3. destruct HGs as (_ & HGs2 & _). destruct (HGs2 a w' Ha) as [_ Eg]. rewrite Eg in Q3. injection Q3 as ->. by eapply HAs.
  Qed.
End whole.
