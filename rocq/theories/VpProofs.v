(** * Proofs about the assignment of voting power *)
From Coq Require Import QArith Lqa.
From Verif Require Export Spec_Pure DelegHist Spec_Noding.
Open Scope Z_scope.

Lemma lte_val x y : Frac.fden x <> 0 -> Frac.fden y <> 0 ->
  Frac.lte x y = Some (Qle_bool (qval x) (qval y)).
Proof.
  intros Hx Hy. destruct (FracProofs.lte_spec x y Hx Hy) as (b & -> & Hb). f_equal.
  destruct b, (Qle_bool _ _) eqn:E; try done.
  - assert (H : (qval x <= qval y)%Q) by by apply Hb. apply Qle_bool_iff in H. congruence.
  - apply Qle_bool_iff in E. apply Hb in E. done.
Qed.

Fixpoint valid_from (l : list (frac * Z)) (sum : frac) : option bool :=
  match l with
  | [] => Frac.equal sum (Frac.frac_int 1)
  | (part, pw) :: r =>
      if pw <=? 0 then Some false else
      if negb (Frac.is_positive part) then Some false else
      match Frac.add sum part with Some sum' => valid_from r sum' | None => None end
  end.
Lemma distribution_valid_eq lucky sl :
  distribution_valid lucky sl = if lucky <=? 0 then Some false else
    match sl with [] => Some false | _ => valid_from sl Frac.frac_zero end.
Proof.
  assert (H : forall l sum, (fix go l sum :=
        match l with
        | [] => Frac.equal sum (Frac.frac_int 1)
        | (part, pw) :: r =>
            if pw <=? 0 then Some false else
            if negb (Frac.is_positive part) then Some false else
            match Frac.add sum part with Some sum' => go r sum' | None => None end
        end) l sum = valid_from l sum).
  { induction l as [|[part pw] l IH]; intros sum; [done|]. cbn [valid_from]. destruct (pw <=? 0); [done|].
    destruct (negb _); [done|]. destruct (Frac.add sum part); [apply IH|done]. }
  unfold distribution_valid. destruct (lucky <=? 0); [done|]. destruct sl as [|e sl]; [done|]. exact (H (e :: sl) Frac.frac_zero).
Qed.
Lemma positive_den f : Frac.is_positive f = true -> Frac.fden f <> 0.
Proof. unfold Frac.is_positive. intros H E. rewrite E in H. cbn in H. rewrite Z.mul_0_r in H. discriminate. Qed.
Lemma valid_from_spec l : forall sum, Frac.fden sum <> 0 ->
  (valid_from l sum = Some true <->
   (forall f pw, (f, pw) ∈ l -> 0 < pw /\ Frac.fden f <> 0 /\ (0 < qval f)%Q) /\
   (qval sum + parts l (List.length l) == 1)%Q).
Proof.
  induction l as [|[part pw] l IH]; intros sum HD; cbn [valid_from List.length parts].
  - destruct (FracProofs.equal_spec sum (Frac.frac_int 1) HD) as (b & -> & Hb); [done|].
    assert (E1 : (qval (Frac.frac_int 1) == 1)%Q) by reflexivity.
    split.
    + intros [= ->]. split; [intros f pw H; by apply elem_of_nil in H|]. rewrite <- E1, <- (proj1 Hb eq_refl). ring.
    + intros [_ H]. f_equal. apply Hb. rewrite E1, <- H. ring.
  - destruct (pw <=? 0) eqn:E1.
    { split; [done|]. intros [H _]. destruct (H part pw ltac:(left)) as [? _]. lia. }
    destruct (Frac.is_positive part) eqn:E2; cbn [negb].
    2:{ split; [done|]. intros [H _]. destruct (H part pw ltac:(left)) as (_ & H2 & H3).
        apply (FracProofs.is_positive_spec part H2) in H3. congruence. }
    pose proof (positive_den _ E2) as HP. destruct (FracProofs.add_qval sum part HD HP) as (r & -> & Hr & Q).
    rewrite IH by lia. pose proof (proj1 (FracProofs.is_positive_spec part HP) E2) as HP'.
    split; intros [H1 H2]; split.
    + intros f pw' [[= -> ->]|H]%elem_of_cons; [split_and!; [lia|done..]|by apply H1].
    + rewrite <- H2, Q. ring.
    + intros f pw' H. apply H1. by right.
    + rewrite <- H2, Q. ring.
Qed.
Lemma distribution_spec lucky sl : distribution_valid lucky sl = Some true <-> proper_distribution lucky sl.
Proof.
  rewrite distribution_valid_eq. unfold proper_distribution. destruct (lucky <=? 0) eqn:E.
  { split; [done|]. intros [? _]. lia. }
  destruct sl as [|e sl]. { split; [done|]. by intros (_ & ? & _). }
  rewrite (valid_from_spec (e :: sl) Frac.frac_zero) by done.
  assert (E0 : (qval Frac.frac_zero == 0)%Q) by reflexivity. rewrite E0, Qplus_0_l.
  split; [intros [H1 H2]; split_and!; [lia|done..]|intros (_ & _ & H1 & H2); done].
Qed.
Lemma nparams_spec p : nparams_valid p = Some true -> proper_nparams p.
Proof.
  unfold nparams_valid. destruct (negb _) eqn:E; [done|]. intros H. apply distribution_spec in H.
  apply negb_false_iff in E. rewrite !andb_true_iff in E. unfold proper_nparams. split_and!; [lia..|done].
Qed.

(** ** The generator *)
Lemma parts_S sl j f pw : sl !! j = Some (f, pw) -> (parts sl (S j) == parts sl j + qval f)%Q.
Proof.
  revert j. induction sl as [|[f' pw'] sl IH]; intros j; [done|]. destruct j as [|j]; cbn [lookup list_lookup].
  - intros [= -> ->]. destruct sl; cbn [parts]; ring.
  - intros H. specialize (IH j H). change (parts ((f', pw') :: sl) (S (S j))) with (qval f' + parts sl (S j))%Q.
    change (parts ((f', pw') :: sl) (S j)) with (qval f' + parts sl j)%Q. rewrite IH. ring.
Qed.
Section generator.
  Context (p : nparams) (HP : proper_nparams p).
  Notation sl := (np_slices p).
  Notation max := (np_max p).
  Lemma slices_pos f pw : (f, pw) ∈ sl -> 0 < pw /\ Frac.fden f <> 0 /\ (0 < qval f)%Q.
  Proof. destruct HP as (_ & _ & _ & _ & _ & H & _). apply H. Qed.
  Lemma max_pos : 1 <= max.
  Proof. by destruct HP. Qed.
  Lemma lucky_pos : 0 < np_lucky_power p.
  Proof. by destruct HP as (_ & _ & _ & ? & _). Qed.
  (** The accumulated part is that of the slices up to the pointer. *)
  Definition vinv (g : vpg) : Prop :=
    0 <= g_count g /\ (g_ptr g < List.length sl)%nat /\
    (1 <= g_count g -> Frac.fden (g_acc g) <> 0 /\ (qval (g_acc g) == parts sl (S (g_ptr g)))%Q) /\
    (g_count g = 0 -> g_ptr g = O).
  Lemma vinv_new : vinv vpg_new.
  Proof.
    destruct HP as (_ & _ & _ & _ & H & _). unfold vinv; cbn. split_and!; [lia| |lia|done].
    destruct sl; cbn in *; [done|lia].
  Qed.
  Lemma room_at_end i j : 1 <= i <= max -> S j = List.length sl -> Qle_bool (inject_Z i / inject_Z max) (parts sl (S j)) = true.
  Proof.
    intros H1 H2. apply Qle_bool_iff. rewrite H2. destruct HP as (_ & _ & _ & _ & _ & _ & E). rewrite E.
    apply Qle_shift_div_r; [change 0%Q with (inject_Z 0); rewrite <- Zlt_Qlt; lia|]. rewrite Qmult_1_l, <- Zle_Qle. lia.
  Qed.
  Lemma vpg_first sc g : vinv g -> g_count g = 0 ->
    exists pw g', vpg_next p sc g = Some (pw, g') /\ vinv g' /\ g_count g' = 1 /\ g_last g' = sc /\ g_ptr g' = O /\
      slice_power sl 0 = Some pw.
  Proof.
    intros (H1 & H2 & H3 & H4) H0. unfold vpg_next. rewrite H0. change (0 + 1) with 1. pose proof max_pos.
    destruct (max <? 1) eqn:E; [lia|]. change (1 =? 1) with true. cbv iota.
    destruct (sl !! 0%nat) as [[f pw]|] eqn:E0; [|apply lookup_ge_None in E0; lia].
    assert (HF : (f, pw) ∈ sl) by by eapply elem_of_list_lookup_2. apply slices_pos in HF as (_ & HF & _).
    exists pw. eexists. split; [reflexivity|]. cbn. rewrite H4 by done. split_and!; [|done..|by unfold slice_power; rewrite E0].
    unfold vinv; cbn. split_and!; [lia|lia| |lia]. intros _. split; [done|].
    rewrite (parts_S _ _ _ _ E0). destruct sl; cbn [parts]; ring.
  Qed.
  Lemma vpg_top sc g : vinv g -> 1 <= g_count g < max ->
    let j' := if Qle_bool (inject_Z (g_count g + 1) / inject_Z max) (parts sl (S (g_ptr g))) || (sc =? g_last g)
              then g_ptr g else S (g_ptr g) in
    exists pw g', vpg_next p sc g = Some (pw, g') /\ vinv g' /\ g_count g' = g_count g + 1 /\ g_last g' = sc /\ g_ptr g' = j' /\
      slice_power sl j' = Some pw.
  Proof.
    intros (H1 & H2 & H3 & H4) H0. cbv zeta. destruct H3 as [HD HQ]; [lia|].
    unfold vpg_next. destruct (max <? g_count g + 1) eqn:E; [lia|]. destruct (g_count g + 1 =? 1) eqn:E'; [lia|].
    rewrite lte_val; [|cbn; pose proof max_pos; lia|done].
    assert (EB : Qle_bool (qval (Frac.new_fraction (g_count g + 1) max)) (qval (g_acc g)) =
                 Qle_bool (inject_Z (g_count g + 1) / inject_Z max) (parts sl (S (g_ptr g)))).
    { unfold qval at 1. cbn [Frac.fnum Frac.fden Frac.new_fraction].
      apply eq_true_iff_eq. rewrite !Qle_bool_iff, HQ. reflexivity. }
    rewrite EB. destruct (_ || _) eqn:EO.
    - destruct (lookup_lt_is_Some_2 sl (g_ptr g) H2) as [[f pw] EL]. rewrite EL.
      exists pw. eexists. split; [reflexivity|]. cbn. split_and!; [|done..|by unfold slice_power; rewrite EL].
      unfold vinv; cbn. split_and!; [lia|done|done|lia].
    - apply orb_false_iff in EO as [EO1 EO2].
      assert (HN : (S (g_ptr g) < List.length sl)%nat).
      { destruct (decide (S (g_ptr g) = List.length sl)) as [HE|]; [|lia].
        rewrite room_at_end in EO1; [done|lia|done]. }
      destruct (lookup_lt_is_Some_2 sl (S (g_ptr g)) HN) as [[f pw] EL]. rewrite EL.
      assert (HF : (f, pw) ∈ sl) by by eapply elem_of_list_lookup_2. apply slices_pos in HF as (_ & HF & _).
      destruct (FracProofs.add_qval _ _ HD HF) as (r & -> & Hr & Q).
      exists pw. eexists. split; [reflexivity|]. cbn. split_and!; [|done..|by unfold slice_power; rewrite EL].
      unfold vinv; cbn. split_and!; [lia|done| |lia]. intros _. split; [lia|].
      rewrite Q, HQ, (parts_S _ _ _ _ EL). reflexivity.
  Qed.
  Lemma vpg_lucky sc g : vinv g -> max <= g_count g ->
    exists g', vpg_next p sc g = Some (np_lucky_power p, g') /\ vinv g' /\ g_count g' = g_count g + 1.
  Proof.
    intros (H1 & H2 & H3 & H4) H0. unfold vpg_next. destruct (max <? g_count g + 1) eqn:E; [|lia].
    eexists. split; [reflexivity|]. split; [|done]. pose proof max_pos. unfold vinv; cbn. split_and!; [lia|done| |lia].
    intros _. apply H3. lia.
  Qed.
  Lemma slice_pos j pw : slice_power sl j = Some pw -> 0 < pw.
  Proof.
    unfold slice_power. destruct (sl !! j) as [[f pw']|] eqn:E; [|done]. intros [= <-].
    by destruct (slices_pos f pw' (elem_of_list_lookup_2 _ _ _ E)).
  Qed.
  (** One call: it never fails and gives a positive power. *)
  Lemma vpg_total sc g : vinv g -> exists pw g', vpg_next p sc g = Some (pw, g') /\ vinv g' /\ g_count g' = g_count g + 1 /\ 0 < pw.
  Proof.
    intros H. destruct (decide (max <= g_count g)).
    { destruct (vpg_lucky sc g H) as (g' & E & I & C); [done|]. exists (np_lucky_power p), g'. split_and!; [done..|apply lucky_pos]. }
    destruct (decide (g_count g = 0)) as [E0|E0].
    { destruct (vpg_first sc g H E0) as (pw & g' & E & I & C & _ & _ & S). exists pw, g'. split_and!; [done..|lia|by eapply slice_pos]. }
    destruct (vpg_top sc g H) as (pw & g' & E & I & C & _ & _ & S); [destruct H; lia|].
    exists pw, g'. split_and!; [done..|by eapply slice_pos].
  Qed.
  Lemma powers_lucky scores : forall g, vinv g -> max <= g_count g ->
    powers p scores g = Some (List.map (fun _ => np_lucky_power p) scores).
  Proof.
    induction scores as [|sc scores IH]; intros g H HG; [done|]. cbn.
    destruct (vpg_lucky sc g H HG) as (g' & -> & I & C). by rewrite IH by (done || lia).
  Qed.
  Lemma powers_top scores : forall g, vinv g -> 1 <= g_count g ->
    exists l, powers p scores g = Some l /\
      let n := Z.to_nat (max - g_count g) in
      Forall2 (fun j pw => slice_power sl j = Some pw)
        (slice_numbers max sl (g_count g + 1) (g_last g) (g_ptr g) (take n scores)) (take n l) /\
      drop n l = List.map (fun _ => np_lucky_power p) (drop n scores).
  Proof.
    induction scores as [|sc scores IH]; intros g H HG.
    { exists []. split; [done|]. cbv zeta. rewrite !take_nil, !drop_nil. split; [constructor|done]. }
    destruct (decide (max <= g_count g)) as [HM|HM].
    { exists (List.map (fun _ => np_lucky_power p) (sc :: scores)). split; [by apply powers_lucky|]. cbv zeta.
      replace (Z.to_nat (max - g_count g)) with 0%nat by lia. rewrite !take_0, !drop_0. split; [constructor|done]. }
    cbn [powers]. destruct (vpg_top sc g H) as (pw & g' & -> & I & C & L & P & S); [lia|].
    destruct (IH g' I) as (l & -> & F & D); [lia|]. exists (pw :: l). split; [done|]. cbv zeta.
    replace (Z.to_nat (max - g_count g)) with (Datatypes.S (Z.to_nat (max - g_count g'))) by lia. cbn [take drop slice_numbers].
    split; [|done]. constructor; [done|]. rewrite <- P. rewrite C, L in F. rewrite C. exact F.
  Qed.
  Lemma powers_all scores : exists l, powers p scores vpg_new = Some l /\
    Forall2 (fun j pw => slice_power sl j = Some pw) (all_slices max sl (take (Z.to_nat max) scores)) (take (Z.to_nat max) l) /\
    drop (Z.to_nat max) l = List.map (fun _ => np_lucky_power p) (drop (Z.to_nat max) scores).
  Proof.
    destruct scores as [|sc scores].
    { exists []. split; [done|]. rewrite !take_nil, !drop_nil. split; [constructor|done]. }
    cbn [powers]. destruct (vpg_first sc vpg_new vinv_new) as (pw & g' & -> & I & C & L & P & S); [done|].
    destruct (powers_top scores g' I) as (l & -> & F & D); [lia|]. exists (pw :: l). split; [done|].
    pose proof max_pos. replace (Z.to_nat max) with (Datatypes.S (Z.to_nat (max - 1))) by lia. cbn [take drop all_slices].
    rewrite C, L, P in F. rewrite C in D. split; [|done]. constructor; [done|]. exact F.
  Qed.
End generator.
