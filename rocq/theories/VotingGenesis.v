(** * Proofs about exporting and importing the state of voting *)
From Verif Require Export PollProofs.
Open Scope Z_scope.

(** ** The histories *)
Definition filed_props (s : St) : Prop :=
  (forall k h, st_phist s !! k = Some h -> ph_finished h = k) /\ (st_cur s = None -> st_agreed s = [] /\ st_disagreed s = [] /\ st_start s = 0).
Definition filed_polls (s : St) : Prop := forall k h, st_pollhist s !! k = Some h -> po_end (poh_poll h) / second = k.
Lemma filed_vsteps s s' : vsteps s s' -> filed_props s -> filed_props s'.
Proof.
  induction 1 as [s|s s1 s2 H H2 IH]; [done|]. intros [F1 F3]. apply IH. clear IH H2 s2.
  assert (R : forall p d, recorded p d s s1 -> forall k h, st_phist s1 !! k = Some h -> ph_finished h = k).
  { intros p d [_ R] k h. rewrite R. destruct (decide (st_height s = k)) as [<-|Hk]; [rewrite lookup_insert; by intros [= <-]|].
    rewrite lookup_insert_ne by done. apply F1. }
  destruct H as [_ (B1 & B2 & B3 & B4) [H1 _]|p _ _ _ _ (B1 & _) [H1 _]|p a _ _ _ _ (B1 & _) [H1 _]|p a _ _ _ _ (B1 & _) [H1 _]|p d _ _ _ _ _ (B1 & B2 & B3 & B4) HR|p _ _ _ _ (B1 & B2 & B3 & B4) HR].
  all: split; try done; try (by rewrite H1); try (by eapply R); try (by rewrite B1).
  - rewrite B1, B2, B3, B4. exact F3.
Qed.
Lemma filed_psteps s s' : psteps s s' -> filed_polls s -> filed_polls s'.
Proof.
  induction 1 as [s|s s1 s2 H H2 IH]; [done|]. intros F2. apply IH. clear IH H2 s2. unfold filed_polls.
  destruct H as [_ _ H|p _ _ _ _ _ _ H|p a b _ _ _ _ _ H|p d _ _ _ _ _ H]; rewrite H; try done.
  intros k h. destruct (decide (po_end p / second = k)) as [<-|Hk]; [rewrite lookup_insert; by intros [= <-]|].
  rewrite lookup_insert_ne by done. apply F2.
Qed.
Lemma filed_blocks bs s s' us : voting_ok s -> poll_ok s -> filed s -> run_blocks bs s = Some (s', us) -> filed s'.
Proof.
  intros HV HP [F1 F2 F3] HB. destruct (blocks_votes _ _ _ _ HV HB) as (_ & V & _). destruct (blocks_polls _ _ _ _ HP HB) as (_ & P & _).
  destruct (filed_vsteps _ _ V (conj F1 F3)) as [G1 G3]. pose proof (filed_psteps _ _ P F2). by split.
Qed.
(** Older entries stay *)
Lemma vsteps_height s s' : vsteps s s' -> st_height s <= st_height s'.
Proof.
  induction 1 as [s|s s1 s2 H1 H2 IH]; [lia|]. assert (st_height s <= st_height s1); [|lia].
  destruct H1 as [? ? [? ?]|? ? ? ? ? ? [? ?]|? ? ? ? ? ? ? [? ?]|? ? ? ? ? ? ? [? ?]|? ? ? ? ? ? ? ? [? ?]|? ? ? ? ? ? [? ?]]; lia.
Qed.
Lemma vsteps_hist s s' k : vsteps s s' -> k < st_height s -> st_phist s' !! k = st_phist s !! k.
Proof.
  induction 1 as [s|s s1 s2 H1 H2 IH]; [done|]. intros Hk.
  assert (HH : st_height s <= st_height s1) by (eapply vsteps_height, rtc_once; exact H1).
  rewrite IH by lia. clear IH H2 HH.
  destruct H1 as [? ? [H ?]|? ? ? ? ? ? [H ?]|? ? ? ? ? ? ? [H ?]|? ? ? ? ? ? ? [H ?]|? ? ? ? ? ? ? ? [? H]|? ? ? ? ? ? [? H]]; rewrite H; try done;
    apply lookup_insert_ne; lia.
Qed.

Lemma hist_blocks bs : forall s s' us k, voting_ok s -> run_blocks bs s = Some (s', us) -> k <= st_height s -> st_phist s' !! k = st_phist s !! k.
Proof.
  induction bs as [|b bs IH]; intros s s' us k HV H Hk; cbn in H.
  - by injection H as <- <-.
  - destruct (run_block b s) as [[s1 u]|] eqn:E1; [|discriminate].
    destruct (run_blocks bs s1) as [[s2 us']|] eqn:E2; [|discriminate]. injection H as <- <-.
    destruct (block_votes _ _ _ _ HV E1) as (V1 & S0 & _ & S1). rewrite (IH _ _ _ _ V1 E2) by (apply vsteps_height in S0; lia).
    rewrite (vsteps_hist _ _ k S1); [done|]. unfold begin_state. cbn. lia.
Qed.
(** What is filed stays until another proposal ends in the same block. *)
Lemma kept_or_again s s' k h : vsteps s s' -> st_phist s !! k = Some h ->
  st_phist s' !! k = Some h \/
  exists s3 s4 q, vsteps s s3 /\ vstep s3 s4 /\ vsteps s4 s' /\ st_height s3 = k /\ st_cur s3 = Some q /\ st_cur s4 = None.
Proof.
  induction 1 as [s|s s1 s2 H H2 IH]; [by left|]. intros E.
  assert (D : st_phist s1 !! k = Some h \/ exists q, st_height s = k /\ st_cur s = Some q /\ st_cur s1 = None).
  { assert (R : forall p d, recorded p d s s1 -> st_phist s1 !! k = Some h \/ st_height s = k).
    { intros p d [_ R]. destruct (decide (st_height s = k)); [by right|left]. by rewrite R, lookup_insert_ne. }
    destruct H as [_ _ [H1 _]|p _ _ _ _ _ [H1 _]|p a _ _ _ _ _ [H1 _]|p a _ _ _ _ _ [H1 _]|p d _ HC _ _ _ (B1 & _) HR|p HC _ _ _ (B1 & _) HR];
      try (left; by rewrite H1); (destruct (R _ _ HR) as [?|?]; [by left|right; by exists p]). }
  destruct D as [E1|(q & D)].
  - destruct (IH E1) as [?|(s3 & s4 & q & ? & ?)]; [by left|]. right. exists s3, s4, q. split; [by eapply rtc_l|done].
  - right. exists s, s1, q. split; [apply rtc_refl|done].
Qed.
Lemma pollhist_psteps s s' k h : psteps s s' -> st_pollhist s' !! k = Some h ->
  st_pollhist s !! k = Some h \/
  exists s1 p, psteps s s1 /\ st_poll s1 = Some p /\ po_end p <= st_now s1 /\ k = po_end p / second /\ poh_poll h = p /\
    poh_yes h = answers s1 true mod 2^64 /\ poh_no h = answers s1 false mod 2^64 /\
    (answers s1 true + answers s1 false < 2^63 -> decided (po_quorum p) (answers s1 true) (answers s1 false) (poh_dec h)).
Proof.
  induction 1 as [s|s s1 s2 H H2 IH]; [by left|]. intros E. destruct (IH E) as [E1|(s3 & p & H3 & ?)]; clear IH.
  - destruct H as [_ _ H|p _ _ _ _ _ _ H|p a b _ _ _ _ _ H|p d P1 P2 P3 _ _ H]; rewrite H in E1; try (by left).
    destruct (decide (po_end p / second = k)) as [Hk|Hk]; [|rewrite lookup_insert_ne in E1 by done; by left].
    rewrite Hk, lookup_insert in E1. injection E1 as <-. right. exists s, p. split_and!; try done.
  - right. exists s3, p. split; [by eapply rtc_l|done].
Qed.

(** ** Rebuilding a history *)
Lemma refile {A} (f : A -> Z) (m : gmap Z A) : (forall k h, m !! k = Some h -> f h = k) ->
  forall ks (m0 : gmap Z A) k, fold_left (fun m h => <[ f h := h ]> m) (omap (fun k => m !! k) ks) m0 !! k =
    if decide (k ∈ ks /\ is_Some (m !! k)) then m !! k else m0 !! k.
Proof.
  intros HF ks. induction ks as [|x ks IH]; intros m0 k; cbn.
  - rewrite decide_False; [done|]. intros [H _]. by apply elem_of_nil in H.
  - destruct (m !! x) as [h|] eqn:E; cbn.
    + rewrite IH, (HF _ _ E). destruct (decide (k = x)) as [->|Hk].
      * rewrite lookup_insert, E. case_decide; case_decide as D; try done; destruct D; (split; [left|eauto]).
      * rewrite lookup_insert_ne by done. case_decide as D1; case_decide as D2; try done; exfalso.
        -- apply D2. destruct D1. split; [by right|done].
        -- apply D1. destruct D2 as [D2 ?]. apply elem_of_cons in D2 as [?|?]; [done|by split].
    + rewrite IH. case_decide as D1; case_decide as D2; try done; exfalso.
      * apply D2. destruct D1. split; [by right|done].
      * destruct D2 as [D2 [y Hy]]. apply elem_of_cons in D2 as [->|?]; [congruence|]. apply D1. split; [done|eauto].
Qed.
Lemma refile_all {A} (f : A -> Z) (m : gmap Z A) : (forall k h, m !! k = Some h -> f h = k) ->
  fold_left (fun m h => <[ f h := h ]> m) (omap (fun k => m !! k) (keysZ m)) (∅ : gmap Z A) = m.
Proof.
  intros HF. apply map_eq. intros k. rewrite refile by done. case_decide as D; [done|].
  rewrite lookup_empty. destruct (m !! k) eqn:E; [|done]. destruct D. rewrite elem_of_keysZ. split; eauto.
Qed.

(** ** Giving the answers again *)
Definition with_answers (s : St) (m : gmap addr bool) (y n : Z) : St := s <| st_answers := m |> <| st_yes := y |> <| st_no := n |>.
Lemma with_id s : st_answers s = ∅ -> st_yes s = 0 -> st_no s = 0 -> with_answers s ∅ 0 0 = s.
Proof. destruct s. cbn. by intros -> -> ->. Qed.
Lemma qual_ext s1 s2 a r : ref_get s1 a = ref_get s2 a -> st_val s1 = st_val s2 -> st_np s1 = st_np s2 -> balance s1 a = balance s2 a ->
  is_qualified a s2 = (s2, Ok r) -> is_qualified a s1 = (s1, Ok r).
Proof.
  intros E1 E2 E3 E4. unfold is_qualified, delegated_in_network, bind, get, lift. unfold ret, panic. cbv beta iota. rewrite E1.
  destruct (sum_upto _ _); [|done]. cbv beta iota. rewrite E2, E3, E1.
  destruct (match st_val s2 !! a with Some x => n_staff x | None => false end); [by intros [= <-]|].
  destruct (r_status _ <? _); [by intros [= <-]|]. rewrite E4.
  destruct (Frac.to_uint64 (amt _ _)); [|done]. cbv beta iota. destruct (_ <? _); [by intros [= <-]|].
  destruct (Frac.to_uint64 _); [|done]. cbv beta iota. destruct (_ <? _); by intros [= <-].
Qed.
Lemma answer_again s p m y n a b : st_poll s = Some p -> m !! a = None -> may_answer (po_req p) s a ->
  (po_req p = ReqValidate -> exists r, is_qualified a s = (s, Ok r)) ->
  answer a b (with_answers s m y n) = (with_answers s (<[a:=b]> m) (if b then w64 (y + 1) else y) (if b then n else w64 (n + 1)), Ok tt).
Proof.
  intros HP HM HA HQ. unfold answer, bind at 1, get at 1. change (st_poll (with_answers s m y n)) with (st_poll s). rewrite HP.
  assert (X : forall (k : unit -> M unit) s2, s2 = with_answers s m y n -> bind
    (match po_req p with
     | ReqNone => ret tt
     | ReqValidate => let! (q, _) := must (is_qualified a) in ensure q "respondent not allowed"
     | ReqStatus st => let! r := get (fun s => ref_get s a) in ensure (negb (r_status r <? st)) "respondent not allowed" end) k s2 = k tt s2).
  { intros k s2 E. destruct (po_req p) eqn:EP; cbn in HA.
    - done.
    - destruct (HQ eq_refl) as [[q d] Hr]. pose proof (is_qualified_spec _ _ _ _ _ Hr) as (_ & _ & HS). apply HS in HA as ->.
      apply (qual_ext s2) in Hr; [|by subst s2..]. unfold bind, must. rewrite Hr. done.
    - unfold bind, get. subst s2. change (ref_get (with_answers s m y n) a) with (ref_get s a).
      replace (r_status (ref_get s a) <? s0) with false by lia. done. }
  rewrite X by done. unfold bind at 1, get at 1. change (st_answers (with_answers s m y n)) with m. rewrite HM.
  unfold bind, modify. by destruct b.
Qed.
Lemma answers_again s p : st_poll s = Some p -> forall l m y n,
  (forall a, a ∈ map fst l -> m !! a = None /\ may_answer (po_req p) s a /\ (po_req p = ReqValidate -> exists r, is_qualified a s = (s, Ok r))) ->
  NoDup (map fst l) ->
  y = Z.of_nat (List.length (List.filter (fun e => Bool.eqb (snd e) true) (map_to_list m))) mod 2^64 ->
  n = Z.of_nat (List.length (List.filter (fun e => Bool.eqb (snd e) false) (map_to_list m))) mod 2^64 ->
  exists m' y' n', mfor l (fun e => answer (fst e) (snd e)) (with_answers s m y n) = (with_answers s m' y' n', Ok tt) /\
    m' = list_to_map l ∪ m /\
    y' = Z.of_nat (List.length (List.filter (fun e => Bool.eqb (snd e) true) (map_to_list m'))) mod 2^64 /\
    n' = Z.of_nat (List.length (List.filter (fun e => Bool.eqb (snd e) false) (map_to_list m'))) mod 2^64.
Proof.
  intros HP l. induction l as [|[a b] l IH]; intros m y n HA HN HY HO.
  - exists m, y, n. split_and!; try done. cbn. by rewrite (left_id_L ∅ _).
  - cbn [mfor fst snd]. unfold bind. cbn [map fst] in *. apply NoDup_cons in HN as [N1 N2].
    destruct (HA a) as (A1 & A2 & A3); [left|]. rewrite (answer_again s p) by done.
    edestruct (IH (<[a:=b]> m)) as (m' & y' & n' & E1 & E2 & E3 & E4); [..|exists m', y', n'; split_and!; [exact E1| |done|done]].
    + intros z Hz. assert (z <> a) by (intros ->; done). rewrite lookup_insert_ne by done. apply HA. by right.
    + done.
    + rewrite answers_insert by done. subst y. destruct b; cbn [Bool.eqb]; [|done]. unfold w64. rewrite mod_succ. f_equal. lia.
    + rewrite answers_insert by done. subst n. destruct b; cbn [Bool.eqb]; [done|]. unfold w64. rewrite mod_succ. f_equal. lia.
    + rewrite E2. cbn. apply map_eq. intros k. rewrite !lookup_union. destruct (decide (k = a)) as [->|Hk].
      * rewrite !lookup_insert. rewrite not_elem_of_list_to_map_1 by done. by destruct (m !! a).
      * by rewrite !lookup_insert_ne.
Qed.
Lemma list_of_answers (m : gmap addr bool) : list_to_map (map (fun a => (a, default false (m !! a))) (keysN m)) = m.
Proof.
  apply map_eq. intros k. destruct (m !! k) as [b|] eqn:E.
  - apply elem_of_list_to_map_1.
    + rewrite map_map. cbn. rewrite map_id. apply NoDup_keysN.
    + apply elem_of_list_fmap. exists k. rewrite E. split; [done|]. apply elem_of_keysN. eauto.
  - apply not_elem_of_list_to_map_1. rewrite elem_of_list_fmap. intros ([k' b] & -> & H). cbn in *.
    apply elem_of_list_fmap in H as (k2 & [= -> ->] & H). apply elem_of_keysN in H as [? H]. congruence.
Qed.
Definition no_polls (s : St) : St := s <| st_poll := None |> <| st_answers := ∅ |> <| st_yes := 0 |> <| st_no := 0 |> <| st_pollhist := ∅ |>.
Definition restored (s : St) (vp pp : Z) (gov : list addr) (c : option proposal) (st : Z) (ag dis : list addr) (h : gmap Z phist) : St :=
  no_voting s <| st_vperiod := vp |> <| st_pperiod := pp |> <| st_gov := gov |> <| st_cur := c |> <| st_start := st |>
    <| st_agreed := ag |> <| st_disagreed := dis |> <| st_phist := h |>.
Lemma restored_eq s : restored s (st_vperiod s) (st_pperiod s) (st_gov s) (st_cur s) (st_start s) (st_agreed s) (st_disagreed s) (st_phist s) = no_polls s.
Proof. by destruct s. Qed.
Lemma repolled_eq s : with_answers (no_polls s <| st_poll := st_poll s |>) (st_answers s) (st_yes s) (st_no s) <| st_pollhist := st_pollhist s |> = s.
Proof. by destruct s. Qed.
Lemma import_polls s : poll_ok s ->
  (forall p a, st_poll s = Some p -> is_Some (st_answers s !! a) ->
     may_answer (po_req p) s a /\ (po_req p = ReqValidate -> exists r, is_qualified a s = (s, Ok r))) ->
  (match st_poll s with
   | Some p => do! modify (fun s => s <| st_poll := Some p |>) in
       must (mfor (match st_poll s with Some _ => map (fun a => (a, default false (st_answers s !! a))) (keysN (st_answers s)) | None => [] end) (fun e => answer (fst e) (snd e)))
   | None => ret tt end) (no_polls s) = (with_answers (no_polls s <| st_poll := st_poll s |>) (st_answers s) (st_yes s) (st_no s), Ok tt).
Proof.
  intros HP HA. destruct (st_poll s) as [p|] eqn:E.
  - unfold bind at 1, modify at 1. set (s3 := no_polls s <| st_poll := Some p |>).
    assert (W : with_answers s3 ∅ 0 0 = s3) by (apply with_id; reflexivity).
    assert (Q0 : st_poll s3 = Some p) by reflexivity.
    assert (Q1 : forall a, ref_get s3 a = ref_get s a) by reflexivity. assert (Q2 : st_val s3 = st_val s) by reflexivity.
    assert (Q3 : st_np s3 = st_np s) by reflexivity. assert (Q4 : forall a, balance s3 a = balance s a) by reflexivity.
    clearbody s3.
    destruct (answers_again s3 p Q0 (map (fun a => (a, default false (st_answers s !! a))) (keysN (st_answers s))) ∅ 0 0)
      as (m' & y' & n' & E1 & E2 & E3 & E4).
    + intros a Ha. rewrite map_map in Ha. cbn in Ha. rewrite map_id in Ha. apply elem_of_keysN in Ha. rewrite lookup_empty.
      split; [done|]. destruct (HA p a eq_refl Ha) as [A1 A2]. split.
      * unfold may_answer, qualified, on_staff, delegated_below in *. by rewrite Q1, Q2, Q3, Q4.
      * intros HQ. destruct (A2 HQ) as [r Hr]. exists r. by apply (qual_ext s3 s).
    + rewrite map_map. cbn. rewrite map_id. apply NoDup_keysN.
    + by rewrite map_to_list_empty.
    + by rewrite map_to_list_empty.
    + rewrite W in E1. unfold must. rewrite E1.
      rewrite list_of_answers, (right_id_L ∅ _) in E2. subst m'. rewrite E3, E4.
      rewrite (po_yes _ HP), (po_no _ HP). reflexivity.
  - rewrite (po_none _ HP E), (po_yes _ HP), (po_no _ HP). unfold answers. rewrite (po_none _ HP E). rewrite map_to_list_empty. cbn. unfold ret. by destruct s.
Qed.
Lemma reimport s : voting_ok s -> poll_ok s -> filed s ->
  (forall p a, st_poll s = Some p -> is_Some (st_answers s !! a) ->
     may_answer (po_req p) s a /\ (po_req p = ReqValidate -> exists r, is_qualified a s = (s, Ok r))) ->
  voting_import (voting_export s) (no_voting s) = (s, Ok tt).
Proof.
  intros HV HP [F1 F2 F3] HA.
  pose proof (vo_period _ HV) as V. pose proof (po_period _ HP) as P. unfold hour in *.
  pose proof (refile_all ph_finished (st_phist s) F1) as R1. pose proof (refile_all (fun h => po_end (poh_poll h) / second) (st_pollhist s) F2) as R2.
  assert (ST : (match st_cur s with Some _ => st_start s | None => 0 end) = st_start s).
  { destruct (st_cur s); [done|]. by destruct (F3 eq_refl) as (_ & _ & ->). }
  assert (H1 : voting_import (voting_export s) (no_voting s) =
    bind (match st_poll s with
     | Some p => do! modify (fun s => s <| st_poll := Some p |>) in
         must (mfor (match st_poll s with Some _ => map (fun a => (a, default false (st_answers s !! a))) (keysN (st_answers s)) | None => [] end) (fun e => answer (fst e) (snd e)))
     | None => ret tt end)
     (fun _ => modify (fun s' => s' <| st_pollhist := fold_left (fun m h => <[ po_end (poh_poll h) / second := h ]> m)
           (omap (fun k => st_pollhist s !! k) (keysZ (st_pollhist s))) (st_pollhist s') |>))
     (restored s (st_vperiod s) (st_pperiod s) (st_gov s) (st_cur s) (match st_cur s with Some _ => st_start s | None => 0 end) (st_agreed s) (st_disagreed s)
       (fold_left (fun m h => <[ ph_finished h := h ]> m) (omap (fun k => st_phist s !! k) (keysZ (st_phist s))) ∅))).
  { unfold voting_import. unfold bind at 1, assert.
    replace ((1 <=? vg_vperiod (voting_export s)) && (1 <=? vg_pperiod (voting_export s))) with true by (cbn; lia).
    cbn [voting_export vg_cur vg_poll vg_vperiod vg_pperiod vg_gov vg_start vg_agreed vg_disagreed vg_hist vg_answers vg_pollhist]. clear.
    match goal with |- _ = bind ?m ?k _ => generalize (bind m k); intros F end.
    destruct (st_cur s); unfold bind, modify, ret; cbv beta iota; unfold restored; (f_equal; by destruct s). }
  rewrite H1, R1, ST, restored_eq. clear H1 R1 ST. unfold bind at 1. rewrite import_polls by done. unfold modify.
  assert (N : st_pollhist (with_answers (no_polls s <| st_poll := st_poll s |>) (st_answers s) (st_yes s) (st_no s)) = ∅) by reflexivity.
  rewrite N, R2. f_equal. apply repolled_eq.
Qed.
