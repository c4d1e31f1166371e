(** * A confirmed transition keeps the referral records right *)
From Verif Require Export RefSteps.

Local Notation upd := RefTheory.upd.

(** What an ancestor at distance [i] gets on its line [k] when a subtree with
    the lines [src] comes under it *)
Definition share (src : nat -> Z) (i k : nat) : Z := if (i <=? k)%nat then src (k - i)%nat else 0.
Definition shared (ref : addr -> addr) (lines : list nat) (q : addr) (src : nat -> Z) (y : addr) (k : nat) : Z :=
  match pos ref lines q y with Some i => share src i k | None => 0 end.
Lemma adj_shared ref src q y k : @adj ref src q y k = shared ref (seq 1 10) q src y k.
Proof. done. Qed.
Lemma shared_ext ref ref' lines q src y k : (forall x, ref' x = ref x) -> shared ref' lines q src y k = shared ref lines q src y k.
Proof. intros H. unfold shared. by rewrite (pos_ext ref ref') by (intros; apply H). Qed.
Lemma shared_opp ref lines q src y k : shared ref lines q (fun j => - src j) y k = - shared ref lines q src y k.
Proof. unfold shared, share. destruct (pos _ _ _ _) as [i|]; [|done]. by destruct (i <=? k)%nat. Qed.
Lemma shared_cons ref i lines q src y k : q <> nobody -> 
  shared ref (i :: lines) q src y k = if (y =? q)%N then share src i k else shared ref lines (ref q) src y k.
Proof. intros Hq. unfold shared. cbn [pos]. rewrite (proj2 (N.eqb_neq q nobody) Hq). by destruct (y =? q)%N. Qed.
Lemma shared_nobody ref lines src y k : shared ref lines nobody src y k = 0.
Proof. unfold shared. by destruct lines. Qed.

Lemma pos_anc ref lines : forall a y j, pos ref lines a y = Some j -> y <> nobody /\ exists n, anc ref n a = y.
Proof.
  induction lines as [|i lines IH]; intros a y j; cbn; [done|]. destruct (N.eqb_spec a nobody) as [|Ha]; [done|].
  destruct (N.eqb_spec y a) as [->|Hy]; [intros _; split; [done|by exists 0%nat]|].
  intros H. apply IH in H as [H1 [n Hn]]. split; [done|]. exists (Datatypes.S n). by rewrite anc_S.
Qed.

Lemma fold_add_at' v n : forall j l, (j + n <= List.length l)%nat -> forall m,
  ln (fold_left (fun l i => add_at i (v i) l) (seq j n) l) m =
  ln l m + (if (j <=? m)%nat && (m <? j + n)%nat then v m else 0) /\
  List.length (fold_left (fun l i => add_at i (v i) l) (seq j n) l) = List.length l.
Proof.
  induction n as [|n IH]; intros j l Hn m.
  { cbn [seq fold_left]. split; [|done]. destruct (Nat.leb_spec j m), (Nat.ltb_spec m (j + 0)); cbn [andb]; lia. }
  cbn [seq fold_left]. destruct (IH (Datatypes.S j) (add_at j (v j) l) ltac:(rewrite len_add_at; lia) m) as [E1 E2].
  rewrite E1, E2, len_add_at, ln_add_at by lia. split; [|done].
  destruct (Nat.eqb_spec m j), (Nat.leb_spec (Datatypes.S j) m), (Nat.ltb_spec m (Datatypes.S j + n)), (Nat.leb_spec j m), (Nat.ltb_spec m (j + Datatypes.S n)); cbn [andb]; try lia.
  subst m. lia.
Qed.
Lemma fold_add_cnt' v n : forall j l, (j + n <= List.length l)%nat -> forall m,
  cong (2 ^ 64) (ln (fold_left (fun l i => add_cnt i (v i) l) (seq j n) l) m)
    (ln l m + (if (j <=? m)%nat && (m <? j + n)%nat then v m else 0)) /\
  (ranged l -> ranged (fold_left (fun l i => add_cnt i (v i) l) (seq j n) l)).
Proof.
  induction n as [|n IH]; intros j l Hn m.
  { cbn [seq fold_left]. split; [|done]. apply cong_eq. destruct (Nat.leb_spec j m), (Nat.ltb_spec m (j + 0)); cbn [andb]; lia. }
  cbn [seq fold_left]. destruct (IH (Datatypes.S j) (add_cnt j (v j) l) ltac:(rewrite len_add_cnt; lia) m) as [E1 E2].
  split; [|intros HR; by apply E2, ranged_add_cnt].
  eapply cong_trans; [exact E1|]. eapply cong_trans; [apply cong_add; [apply ln_add_cnt_cong; lia|apply cong_refl]|]. apply cong_eq.
  destruct (Nat.eqb_spec m j), (Nat.leb_spec (Datatypes.S j) m), (Nat.ltb_spec m (Datatypes.S j + n)), (Nat.leb_spec j m), (Nat.ltb_spec m (j + Datatypes.S n)); cbn [andb]; try lia.
  subst m. lia.
Qed.
Lemma ln_zip_lines sg i src l k : (1 <= i <= 10)%nat -> (11 <= List.length l)%nat -> (k <= 9)%nat ->
  ln (zip_lines sg i src l) k = ln l k + sg * share (ln src) i k.
Proof.
  intros Hi HL Hk. unfold zip_lines.
  destruct (fold_add_at' (fun j => sg * default 0 (src !! (j - i)%nat)) (11 - i) i l ltac:(lia) k) as [-> _]. unfold share.
  fold (ln src (k - i)). destruct (Nat.leb_spec i k), (Nat.ltb_spec k (i + (11 - i))); cbn [andb]; lia.
Qed.
Lemma ln_zip_cnt sg i src l k : (1 <= i <= 10)%nat -> (11 <= List.length l)%nat -> (k <= 9)%nat ->
  cong (2 ^ 64) (ln (zip_cnt sg i src l) k) (ln l k + sg * share (ln src) i k) /\ (ranged l -> ranged (zip_cnt sg i src l)).
Proof.
  intros Hi HL Hk. unfold zip_cnt.
  destruct (fold_add_cnt' (fun j => sg * default 0 (src !! (j - i)%nat)) (11 - i) i l ltac:(lia) k) as [E1 E2]. split; [|exact E2].
  eapply cong_trans; [exact E1|]. apply cong_eq. unfold share.
  fold (ln src (k - i)). destruct (Nat.leb_spec i k), (Nat.ltb_spec k (i + (11 - i))); cbn [andb]; lia.
Qed.

(** The records [g'] are the records [g] with [dc], [dd] and [dn] added. *)
Record more (g g' : addr -> rinfo) (dc dd dn : addr -> nat -> Z) : Prop := mkMore {
  mo_coins : forall y k, (k <= 9)%nat -> coinsg g' y k = coinsg g y k + dc y k;
  mo_deleg : forall y k, (k <= 9)%nat -> delegg g' y k = delegg g y k + dd y k;
  mo_cnt : forall y k, (k <= 9)%nat -> cong (2 ^ 64) (cntg g' y k) (cntg g y k + dn y k);
  mo_range : forall y, ranged (r_cnt (g y)) -> ranged (r_cnt (g' y)) }.
Lemma more_trans g1 g2 g3 dc dd dn dc' dd' dn' ec ed en : more g1 g2 dc dd dn -> more g2 g3 dc' dd' dn' ->
  (forall y k, (k <= 9)%nat -> ec y k = dc y k + dc' y k /\ ed y k = dd y k + dd' y k /\ en y k = dn y k + dn' y k) -> more g1 g3 ec ed en.
Proof.
  intros A B H. split.
  - intros y k Hk. destruct (H y k Hk) as (-> & _). rewrite (mo_coins _ _ _ _ _ B), (mo_coins _ _ _ _ _ A) by done. lia.
  - intros y k Hk. destruct (H y k Hk) as (_ & -> & _). rewrite (mo_deleg _ _ _ _ _ B), (mo_deleg _ _ _ _ _ A) by done. lia.
  - intros y k Hk. destruct (H y k Hk) as (_ & _ & ->). eapply cong_trans; [by apply (mo_cnt _ _ _ _ _ B)|].
    eapply cong_trans; [apply cong_add; [by apply (mo_cnt _ _ _ _ _ A)|apply cong_refl]|]. apply cong_eq. lia.
  - intros y HR. by apply (mo_range _ _ _ _ _ B), (mo_range _ _ _ _ _ A).
Qed.
Lemma more_zero g dc dd dn : (forall y k, dc y k = 0 /\ dd y k = 0 /\ dn y k = 0) -> more g g dc dd dn.
Proof.
  intros H. split; try done; intros y k Hk; destruct (H y k) as (E1 & E2 & E3); [lia|lia|apply cong_eq; lia].
Qed.

(** One step of the two chains *)
Lemma move_step (sg : Z) i src r r2 (g g' : addr -> rinfo) a (f : rinfo -> rinfo) : (1 <= i <= 10)%nat ->
  (forall r, r_coins (f r) = r_coins r /\ r_deleg (f r) = r_deleg r /\ r_cnt (f r) = r_cnt r) ->
  r = g a -> eqs (move_lines sg i src (f (normalize r))) r2 -> (forall y, g' y = if (y =? a)%N then r2 else g y) ->
  (forall y, shape (g' y) = if (y =? a)%N then shape (f (normalize (g a))) else shape (g y)) /\
  more g g' (fun y k => if (y =? a)%N then sg * share (ln (r_coins src)) i k else 0)
            (fun y k => if (y =? a)%N then sg * share (ln (r_deleg src)) i k else 0)
            (fun y k => if (y =? a)%N then sg * share (ln (r_cnt src)) i k else 0).
Proof.
  intros Hi Hf -> Q G. destruct (Hf (normalize (g a))) as (F1 & F2 & F3).
  assert (Q0 : r_coins r2 = zip_lines sg i (r_coins src) (pad (r_coins (g a))) /\ r_deleg r2 = zip_lines sg i (r_deleg src) (pad (r_deleg (g a))) /\
    r_cnt r2 = zip_cnt sg i (r_cnt src) (pad (r_cnt (g a))) /\ shape r2 = shape (f (normalize (g a)))).
  { set (m := move_lines sg i src (f (normalize (g a)))) in *.
    assert (M : r_coins m = zip_lines sg i (r_coins src) (pad (r_coins (g a))) /\ r_deleg m = zip_lines sg i (r_deleg src) (pad (r_deleg (g a))) /\
    r_cnt m = zip_cnt sg i (r_cnt src) (pad (r_cnt (g a))) /\ shape m = shape (f (normalize (g a)))).
    { unfold m, move_lines. cbn. rewrite F1, F2, F3. by split_and!. }
    destruct Q as (st & dd & ->). exact M. }
  destruct Q0 as (Q1 & Q2 & Q3 & Q4).
  pose proof (len_pad (r_coins (g a))). pose proof (len_pad (r_deleg (g a))). pose proof (len_pad (r_cnt (g a))).
  split; [intros y; rewrite G; by destruct (y =? a)%N|]. split.
  - intros y k Hk. unfold coinsg. rewrite G. destruct (N.eqb_spec y a) as [E0|]; [subst y|lia]. rewrite Q1, ln_zip_lines by lia. by rewrite ln_pad.
  - intros y k Hk. unfold delegg. rewrite G. destruct (N.eqb_spec y a) as [E0|]; [subst y|lia]. rewrite Q2, ln_zip_lines by lia. by rewrite ln_pad.
  - intros y k Hk. unfold cntg. rewrite G. destruct (N.eqb_spec y a) as [E0|]; [subst y|apply cong_eq; lia]. rewrite Q3.
    eapply cong_trans; [apply ln_zip_cnt; lia|]. rewrite ln_pad. apply cong_refl.
  - intros y HR. rewrite G. destruct (N.eqb_spec y a) as [E0|]; [subst y|done]. rewrite Q3. apply (ln_zip_cnt sg i (r_cnt src) (pad (r_cnt (g a))) 0); [lia..|].
    by apply ranged_pad.
Qed.

Lemma affirm_up_ok (src : rinfo) (lines : list nat) : forall b old new s s' b',
  Forall (fun i => (1 <= i <= 10)%nat) lines -> affirm_up lines src b old new s = (s', Ok b') ->
  let g := fun y => bu_get b y s in let g' := fun y => bu_get b' y s' in
  ranked g -> refg g nobody = nobody ->
  st_ref s' = st_ref s /\ (forall y, shape (g' y) = shape (g y)) /\
  more g g' (fun y k => - shared (refg g) lines old (ln (r_coins src)) y k + shared (refg g) lines new (ln (r_coins src)) y k)
            (fun y k => - shared (refg g) lines old (ln (r_deleg src)) y k + shared (refg g) lines new (ln (r_deleg src)) y k)
            (fun y k => - shared (refg g) lines old (ln (r_cnt src)) y k + shared (refg g) lines new (ln (r_cnt src)) y k).
Proof.
  induction lines as [|i lines IH]; intros b old new s s' b' HF H g g' RK Hno; cbn [affirm_up] in H.
  { apply ret_ok in H as [-> ->]. split_and!; [done..|]. apply more_zero. intros y k. done. }
  apply Forall_cons in HF as [Hi HF].
  destruct (N.eqb_spec old new) as [E0|Hon].
  { apply ret_ok in H as [-> ->]. split_and!; [done..|]. apply more_zero. intros y k. subst new. lia. }
  destruct RK as [rk Hrk].
  (* the old side *)
  apply bind_ok in H as ([b1 old'] & s1 & E1 & H).
  assert (S1 : let g1 := fun y => bu_get b1 y s1 in st_ref s1 = st_ref s /\ (forall y, shape (g1 y) = shape (g y)) /\
     (old <> nobody -> old' = refg g old) /\ (old = nobody -> old' = nobody) /\
     more g g1 (fun y k => if (y =? old)%N then -1 * (if (old =? nobody)%N then 0 else share (ln (r_coins src)) i k) else 0)
               (fun y k => if (y =? old)%N then -1 * (if (old =? nobody)%N then 0 else share (ln (r_deleg src)) i k) else 0)
               (fun y k => if (y =? old)%N then -1 * (if (old =? nobody)%N then 0 else share (ln (r_cnt src)) i k) else 0)).
  { destruct (N.eqb_spec old nobody) as [Eo|Ho].
    - apply ret_ok in E1 as [-> E1]. injection E1 as -> ->. split_and!; try done. apply more_zero. intros y k. by destruct (y =? old)%N.
    - apply bu_update_ok in E1 as (r2 & -> & Q & _ & ED & ES). cbn [fst] in Q.
      destruct (move_step (-1) i src (bu_get b old s) r2 g (fun y => bu_get b1 y s1) old (fun r => r)) as [M1 M2]; [done|done|done|exact Q| |].
      { intros y. rewrite (bu_get_ext b1 b1 s s1 y) by done. by apply bu_get_insert. }
      cbv zeta. split_and!; [done| |done|done|exact M2]. intros y. rewrite M1. by destruct (N.eqb_spec y old) as [E0|]; [subst y|]. }
  clear E1. cbv zeta in S1. set (g1 := fun y => bu_get b1 y s1) in *. destruct S1 as (ES1 & SH1 & EO1 & EO2 & M1).
  apply bind_ok in H as ([b2 new'] & s2 & E2 & H).
  assert (R1 : forall y, refg g1 y = refg g y) by (intros y; specialize (SH1 y); by apply shape_inj in SH1 as [SH1 _]).
  assert (S2 : let g2 := fun y => bu_get b2 y s2 in st_ref s2 = st_ref s1 /\ (forall y, shape (g2 y) = shape (g1 y)) /\
     (new <> nobody -> new' = refg g1 new) /\ (new = nobody -> new' = nobody) /\
     more g1 g2 (fun y k => if (y =? new)%N then 1 * (if (new =? nobody)%N then 0 else share (ln (r_coins src)) i k) else 0)
               (fun y k => if (y =? new)%N then 1 * (if (new =? nobody)%N then 0 else share (ln (r_deleg src)) i k) else 0)
               (fun y k => if (y =? new)%N then 1 * (if (new =? nobody)%N then 0 else share (ln (r_cnt src)) i k) else 0)).
  { destruct (N.eqb_spec new nobody) as [Eo|Ho].
    - apply ret_ok in E2 as [-> E2]. injection E2 as -> ->. split_and!; try done. apply more_zero. intros y k. by destruct (y =? new)%N.
    - apply bu_update_ok in E2 as (r2 & -> & Q & _ & ED & ES). cbn [fst] in Q.
      destruct (move_step 1 i src (bu_get b1 new s1) r2 g1 (fun y => bu_get b2 y s2) new (fun r => r)) as [M3 M4]; [done|done|done|exact Q| |].
      { intros y. rewrite (bu_get_ext b2 b2 s1 s2 y) by done. by apply bu_get_insert. }
      cbv zeta. split_and!; [done| |done|done|exact M4]. intros y. rewrite M3. by destruct (N.eqb_spec y new) as [E0|]; [subst y|]. }
  clear E2. cbv zeta in S2. set (g2 := fun y => bu_get b2 y s2) in *. destruct S2 as (ES2 & SH2 & EN1 & EN2 & M2).
  assert (R2 : forall y, refg g2 y = refg g y). { intros y. rewrite <- R1. specialize (SH2 y). by apply shape_inj in SH2 as [SH2 _]. }
  apply IH in H as (ES3 & SH3 & M3); [|done|exists rk; intros x; fold g2; rewrite R2; apply Hrk|fold g2; by rewrite R2].
  fold g2 in M3, SH3. fold g' in M3.
  split_and!; [congruence|intros y; etransitivity; [apply SH3|]; etransitivity; [apply SH2|apply SH1]|].
  eapply more_trans; [eapply more_trans; [exact M1|exact M2|]|exact M3|].
  { intros y k Hk. split_and!; reflexivity. }
  assert (SC : forall z n z' f y k, z <> nobody \/ z = nobody -> (z <> nobody -> z' = refg g z) -> (z = nobody -> z' = nobody) -> n = i ->
    shared (refg g) (n :: lines) z f y k = (if (y =? z)%N then (if (z =? nobody)%N then 0 else share f i k) else 0) + shared (refg g2) lines z' f y k).
  { intros z n z' f y k Hz H1 H2 ->. rewrite (shared_ext _ _ _ _ _ _ _ R2). destruct (N.eqb_spec z nobody) as [Ez|Hn].
    - rewrite (H2 Ez), Ez, !shared_nobody. by destruct (y =? nobody)%N.
    - rewrite shared_cons by done. rewrite (H1 Hn). destruct (N.eqb_spec y z) as [Ey|]; [|lia]. subst y.
      enough (E : shared (refg g) lines (refg g z) f z k = 0) by lia. unfold shared.
      destruct (pos (refg g) lines (refg g z) z) as [j|] eqn:EP; [|done]. exfalso.
      apply pos_anc in EP as [_ [n En]].
      apply (anc_acyclic rk Hrk Hno (Datatypes.S n) z Hn ltac:(lia)). by rewrite anc_S. }
  assert (DN : forall z : addr, z <> nobody \/ z = nobody) by (intros z; destruct (N.eq_dec z nobody); auto).
  assert (EN1' : new <> nobody -> new' = refg g new) by (intros Hn; rewrite <- R1; by apply EN1).
  intros y k Hk. rewrite !(SC old i old' _ y k (DN old) EO1 EO2 eq_refl), !(SC new i new' _ y k (DN new) EN1' EN2 eq_refl).
  destruct (y =? old)%N, (y =? new)%N; split_and!; lia.
Qed.

Lemma swap_remove_perm (l : list addr) x : (index_of x l < List.length l)%nat ->
  l ≡ₚ x :: match last l with Some z => removelast (<[ index_of x l := z ]> l) | None => l end.
Proof.
  intros H. destruct (last l) as [z|] eqn:E; [|apply last_None in E; subst l; cbn in H; lia].
  apply last_Some in E as [l' ->].
  assert (A : forall l : list addr, (index_of x l < List.length l)%nat -> exists l1 l2, l = l1 ++ x :: l2 /\ index_of x l = List.length l1).
  { clear. induction l as [|y l IH]; cbn; [lia|]. destruct (N.eqb_spec x y) as [->|Hxy].
    - intros _. by exists [], l.
    - intros H. destruct (IH ltac:(lia)) as (l1 & l2 & -> & E). exists (y :: l1), l2. split; [done|]. cbn. by rewrite E. }
  destruct (A _ H) as (l1 & l2 & E1 & E2). rewrite E2. destruct (decide (l2 = [])) as [->|Hn].
  - apply app_inj_tail in E1 as [-> ->]. rewrite insert_app_r_alt, Nat.sub_diag by done. cbn [insert list_insert].
    rewrite removelast_last. rewrite Permutation_app_comm. done.
  - destruct l2 as [|w l2 _] using rev_ind; [done|]. rewrite app_comm_cons, app_assoc in E1. apply app_inj_tail in E1 as [-> ->].
    rewrite insert_app_l by (rewrite app_length; cbn; lia). rewrite insert_app_r_alt, Nat.sub_diag by done. cbn [insert list_insert].
    rewrite removelast_last. solve_Permutation.
Qed.
Lemma move_ranked g x q l : sane g -> refg g x <> nobody -> q <> nobody -> bang g q = false -> (forall n, anc (refg g) n q <> x) ->
  refsg g (refg g x) ≡ₚ x :: l -> exists rk : addr -> nat, forall y, upd (refg g) x q y <> nobody -> (rk (upd (refg g) x q y) < rk y)%nat.
Proof.
  intros S Hr Hq Bq Hc El. pose proof (sn_forest S) as F.
  assert (Hx : x <> nobody) by (intros E; rewrite E in Hr; apply Hr, F).
  pose proof (forest_detach _ _ _ _ _ F Hr El) as F1.
  assert (up1 : forall n, anc (upd (refg g) x nobody) n q = anc (refg g) n q).
  { intros n. induction n as [|n IH]; [done|]. cbn. rewrite IH. apply upd_other, Hc. }
  pose proof (forest_attach _ _ _ x q F1 Hx Hq Bq ltac:(intros n; rewrite up1; apply Hc) ltac:(left; apply upd_same)) as F2.
  destruct (f_rank F2) as [rk Hrk]. exists rk. intros y. specialize (Hrk y).
  assert (E : upd (upd (refg g) x nobody) x q y = upd (refg g) x q y) by (unfold upd; by destruct (y =? x)%N). by rewrite E in Hrk.
Qed.

Lemma affirm_right x s s' : right s -> affirm_transition x s = (s', Ok tt) -> right s'.
Proof.
  intros R H. unfold affirm_transition in H. apply bind_ok in H as (r & s1 & E & H). apply get_ok in E as [-> ->]. cbv zeta in H.
  set (q := r_transition (ref_get s x)) in H.
  apply bind_ok in H as ([] & s1 & E & H). apply validate_ok in E as (-> & Hq & Hqx & Hqr & HO & _ & HUP).
  apply open_iff in HO.
  assert (Bq : bang (ref_get s) q = false).
  { eapply (open_not_ban _ s); [exact R|]. exact HO. }
  clearbody q.
  apply bind_ok in H as ([] & s1 & E & H). apply modify_ok in E.
  assert (GX : forall y, ref_get s1 y = if (y =? x)%N then ref_get s x <| r_referrer := q |> <| r_transition := nobody |> else ref_get s y).
  { intros y. rewrite E. unfold ref_get. cbn. destruct (N.eqb_spec y x) as [E0|Hy]; [subst y; by rewrite lookup_insert|by rewrite lookup_insert_ne by congruence]. }
  clear E. apply (proj1 (must_ok _ _ _ _)) in H.
  set (g := ref_get s) in *. set (r := g x) in *. change (r_referrer r) with (refg g x) in H. set (p := refg g x) in *.
  assert (SR : sane g) by exact R. pose proof (sn_forest SR) as F.
  (* under the old referrer *)
  apply bind_ok in H as ([b1 oa] & s2 & E & H).
  apply bu_updatem_ok in E as (s3 & b0 & r1 & r2 & E & Q & _ & ED & ES & _). rewrite bu_get_new in E.
  apply bind_ok in E as (? & ? & E1 & E). apply assert_ok in E1 as [-> E1].
  apply bind_ok in E as (? & ? & E2 & E). apply assert_ok in E2 as [-> _].
  apply ret_ok in E as [-> E]. injection E as -> -> ->. change (r_referrals (normalize (ref_get s1 p))) with (r_referrals (ref_get s1 p)) in *.
  assert (Hp : p <> nobody).
  { intros E0. rewrite E0 in E1. rewrite GX in E1. destruct (N.eqb_spec nobody x) as [E2|]; [|change (r_referrals (g nobody)) with (refsg g nobody) in E1; by rewrite (sn_none SR) in E1].
    change (r_referrals (r <| r_referrer := q |> <| r_transition := nobody |>)) with (refsg g x) in E1. rewrite <- E2, (sn_none SR) in E1. done. }
  assert (Hx : x <> nobody) by (intros E0; apply Hp; unfold p; rewrite E0; apply F).
  destruct (f_rank F) as [rk0 Hrk0].
  assert (Hpx : p <> x). { intros E0. pose proof (Hrk0 x Hp) as L. fold p in L. rewrite E0 in L. lia. }
  assert (GP : ref_get s1 p = g p) by (rewrite GX, (proj2 (N.eqb_neq p x) Hpx); done). rewrite GP in *.
  change (r_referrals (g p)) with (refsg g p) in *. change (r_referrer (g p)) with (refg g p) in *. change (r_arefs (g p)) with (arefsg g p) in *.
  apply Nat.ltb_lt in E1. pose proof (swap_remove_perm _ _ E1) as El.
  set (l0 := match last (refsg g p) with Some z => _ | None => _ end) in *. clearbody l0.
  assert (ND : NoDup (x :: l0)) by (rewrite <- El; apply F). apply NoDup_cons in ND as [Nl ND].
  assert (EF : fst (Lists.remove_fast N.compare l0 x) = l0).
  { destruct (remove_fast_perm l0 x) as [[_ E0]|E0]; [done|]. exfalso. apply Nl. rewrite E0. apply elem_of_cons. by left. }
  rewrite EF in Q. clear EF.
  assert (Bx : bang g x = false).
  { assert (Hin : x ∈ refsg g p) by (rewrite El; apply elem_of_cons; by left). apply (f_list F) in Hin as [_ Hin]; [done|done]. }
  assert (Hc : forall n, anc (refg g) n q <> x).
  { intros n En. destruct (HUP n) as (m & Hm & Em); [by rewrite up_anc|]. rewrite up_anc in Em. fold g in Em.
    apply (anc_below (f_nobody F) m n q); [lia|by rewrite En|done]. }
  destruct (move_ranked g x q l0 SR Hp Hq Bq Hc El) as [rk Hrk].
  set (act := r_active r) in *. assert (EA : act = actg g x) by done. clearbody act.
  destruct (move_step (-1) 1 r (ref_get s1 p) r2 (ref_get s1) (fun y => bu_get b1 y s2) p
    (fun r0 => r0 <| r_referrals := l0 |> <| r_arefs := if act then fst (Lists.remove_fast N.compare (arefsg g p) x) else arefsg g p |>)) as [SH2 M2].
  { lia. } { done. } { done. } { rewrite GP. exact Q. }
  { intros y. rewrite (bu_get_ext b1 b1 s1 s2 y) by done. rewrite (bu_get_insert bu_new b1 p r2 s1) by done. by rewrite bu_get_new. }
  set (g2 := fun y => bu_get b1 y s2) in *.
  (* under the new one *)
  apply bind_ok in H as ([b2 na] & s3 & E & H). apply bu_update_ok in E as (r3 & -> & Q3 & _ & ED3 & ES3). cbn [fst snd] in Q3, H.
  destruct (move_step 1 1 r (bu_get b1 q s2) r3 g2 (fun y => bu_get b2 y s3) q
    (fun r0 => r0 <| r_referrals := r_referrals r0 ++ [x] |> <| r_arefs := if act then r_arefs r0 ++ [x] else r_arefs r0 |>)) as [SH3 M3].
  { lia. } { done. } { done. } { exact Q3. }
  { intros y. rewrite (bu_get_ext b2 b2 s2 s3 y) by done. by rewrite (bu_get_insert b1 b2 q r3 s2) by done. }
  set (g3 := fun y => bu_get b2 y s3) in *. change (bu_get b1 q s2) with (g2 q) in *.
  (* and above *)
  apply bind_ok in H as (b3 & s4 & E & H).
  assert (G' : forall y, ref_get s' y = bu_get b3 y s4).
  { pose proof (commit_ref b3 s4) as C. rewrite H in C. cbn in C. intros y. by apply union_get. }
  set (g1 := ref_get s1) in *.
  assert (F1 : forall y, refg g1 y = upd (refg g) x q y /\ refsg g1 y = refsg g y /\ bang g1 y = bang g y /\ actg g1 y = actg g y /\
     arefsg g1 y = arefsg g y /\ r_compression_at (g1 y) = r_compression_at (g y) /\ (forall k, coinsg g1 y k = coinsg g y k) /\
     (forall k, delegg g1 y k = delegg g y k) /\ r_cnt (g1 y) = r_cnt (g y)).
  { intros y. unfold refg, refsg, bang, actg, arefsg, coinsg, delegg, cntg, upd. rewrite GX. destruct (N.eqb_spec y x) as [E0|]; [subst y; done|done]. }
  assert (F2 : forall y, refg g2 y = upd (refg g) x q y /\ refsg g2 y = (if (y =? p)%N then l0 else refsg g y) /\ bang g2 y = bang g y /\ actg g2 y = actg g y /\
     arefsg g2 y = (if (y =? p)%N then if act then fst (Lists.remove_fast N.compare (arefsg g p) x) else arefsg g p else arefsg g y) /\ r_compression_at (g2 y) = r_compression_at (g y)).
  { intros y. specialize (SH2 y). change (bu_get b1 y s2) with (g2 y) in SH2. destruct (F1 y) as (U1 & U2 & U3 & U4 & U5 & U6 & _).
    unfold refg, refsg, bang, actg, arefsg in *. destruct (N.eqb_spec y p) as [E0|].
    - subst y. apply shape_inj in SH2 as (V1 & V2 & V3 & V4 & V5 & V6). cbn in V1, V2, V3, V4, V5, V6. split_and!; congruence.
    - apply shape_inj in SH2 as (V1 & V2 & V3 & V4 & V5 & V6). split_and!; congruence. }
  assert (F3 : forall y, refg g3 y = upd (refg g) x q y /\ refsg g3 y = (if (y =? q)%N then refsg g2 q ++ [x] else refsg g2 y) /\ bang g3 y = bang g y /\ actg g3 y = actg g y /\
     arefsg g3 y = (if (y =? q)%N then if act then arefsg g2 q ++ [x] else arefsg g2 q else arefsg g2 y) /\ r_compression_at (g3 y) = r_compression_at (g y)).
  { intros y. specialize (SH3 y). change (bu_get b2 y s3) with (g3 y) in SH3. destruct (F2 y) as (U1 & U2 & U3 & U4 & U5 & U6).
    unfold refg, refsg, bang, actg, arefsg in *. destruct (N.eqb_spec y q) as [E0|].
    - subst y. apply shape_inj in SH3 as (V1 & V2 & V3 & V4 & V5 & V6). cbn in V1, V2, V3, V4, V5, V6. split_and!; congruence.
    - apply shape_inj in SH3 as (V1 & V2 & V3 & V4 & V5 & V6). split_and!; congruence. }
  assert (Hno : upd (refg g) x q nobody = nobody) by (rewrite upd_other by congruence; apply F).
  apply affirm_up_ok in E as (ES4 & SH4 & M4).
  2:{ repeat constructor; lia. }
  2:{ exists rk. intros y. change (refg (fun y => bu_get b2 y s3)) with (refg g3). destruct (F3 y) as [-> _]. apply Hrk. }
  2:{ change (refg (fun y => bu_get b2 y s3)) with (refg g3). destruct (F3 nobody) as [-> _]. apply Hno. }
  change (fun y => bu_get b2 y s3) with g3 in M4. set (g4 := fun y => bu_get b3 y s4) in *.
  change (r_referrer (normalize (g2 q))) with (refg g2 q) in M4.
  assert (F4 : forall y, refg g4 y = upd (refg g) x q y /\ refsg g4 y = refsg g3 y /\ bang g4 y = bang g y /\ actg g4 y = actg g y /\
     arefsg g4 y = arefsg g3 y /\ r_compression_at (g4 y) = r_compression_at (g y)).
  { intros y. specialize (SH4 y). change (bu_get b3 y s4) with (g4 y) in SH4. change (bu_get b2 y s3) with (g3 y) in SH4. destruct (F3 y) as (U1 & U2 & U3 & U4 & U5 & U6).
    unfold refg, refsg, bang, actg, arefsg in *. apply shape_inj in SH4 as (V1 & V2 & V3 & V4 & V5 & V6). split_and!; congruence. }
  eapply sane_ext; [exact G'|]. change (sane g4).
  assert (MM : more g1 g4 (fun y k => shared (refg g4) (seq 1 10) p (fun j => - coinsg g x j) y k + shared (refg g4) (seq 1 10) q (coinsg g x) y k)
     (fun y k => shared (refg g4) (seq 1 10) p (fun j => - delegg g x j) y k + shared (refg g4) (seq 1 10) q (delegg g x) y k)
     (fun y k => shared (refg g4) (seq 1 10) p (fun j => - cntg g x j) y k + shared (refg g4) (seq 1 10) q (cntg g x) y k)).
  { eapply more_trans; [eapply more_trans; [exact M2|exact M3|]|exact M4|].
    { intros y k Hk. split_and!; reflexivity. }
    assert (R34 : forall y, refg g4 y = refg g3 y) by (intros y; destruct (F4 y) as [-> _]; by destruct (F3 y) as [-> _]).
    assert (RP : refg g3 p = refg g p) by (destruct (F3 p) as [-> _]; by apply upd_other).
    assert (RQ : refg g3 q = refg g2 q) by (destruct (F3 q) as [-> _]; by destruct (F2 q) as [-> _]).
    assert (AC : forall a, a <> nobody -> forall f y k, shared (refg g4) (seq 1 10) a f y k = (if (y =? a)%N then share f 1 k else 0) + shared (refg g3) (seq 2 9) (refg g3 a) f y k).
    { intros a Ha f y k. rewrite (shared_ext _ _ _ _ _ _ _ R34). change (seq 1 10) with (1%nat :: seq 2 9). rewrite shared_cons by done.
      destruct (N.eqb_spec y a) as [E0|]; [|lia]. subst y. enough (E : shared (refg g3) (seq 2 9) (refg g3 a) f a k = 0) by lia.
      unfold shared. destruct (pos _ (seq 2 9) _ _) as [j|] eqn:EP; [|done]. exfalso. apply pos_anc in EP as [_ [n En]].
      assert (Hrk3 : forall y, refg g3 y <> nobody -> (rk (refg g3 y) < rk y)%nat) by (intros y; destruct (F3 y) as [-> _]; apply Hrk).
      apply (anc_acyclic rk Hrk3 ltac:(destruct (F3 nobody) as [-> _]; apply Hno) (Datatypes.S n) a Ha ltac:(lia)). by rewrite anc_S. }
    intros y k Hk. rewrite !shared_opp, !(AC p Hp), !(AC q Hq), RP, RQ.
    change (coinsg g x) with (ln (r_coins r)). change (delegg g x) with (ln (r_deleg r)). change (cntg g x) with (ln (r_cnt r)).
    split_and!; clear; destruct (y =? p)%N, (y =? q)%N; lia. }
  eapply (sane_move g g4 SR _ x q l0); try done.
  - intros y. apply F4.
  - intros y. destruct (F4 y) as (_ & -> & _). destruct (F3 y) as (_ & -> & _). fold p. unfold upd.
    destruct (F2 q) as (_ & EQ & _). destruct (F2 y) as (_ & -> & _).
    assert (Hqp : (q =? p)%N = false) by (apply N.eqb_neq; unfold referrer in Hqr; exact Hqr).
    rewrite EQ, Hqp. by destruct (y =? q)%N, (y =? p)%N.
  - intros y. apply F4.
  - intros y t. destruct (F4 y) as (_ & _ & _ & _ & _ & ->). done.
  - intros y k Hk. rewrite (mo_coins _ _ _ _ _ MM y k Hk), !adj_shared. fold p. destruct (F1 y) as (_ & _ & _ & _ & _ & _ & -> & _). lia.
  - intros y k Hk. rewrite (mo_deleg _ _ _ _ _ MM y k Hk), !adj_shared. fold p. destruct (F1 y) as (_ & _ & _ & _ & _ & _ & _ & -> & _). lia.
  - intros y. apply (mo_range _ _ _ _ _ MM). destruct (F1 y) as (_ & _ & _ & _ & _ & _ & _ & _ & ->). apply (sn_range SR).
  - intros y k Hk. eapply cong_trans; [apply (mo_cnt _ _ _ _ _ MM y k Hk)|]. rewrite !adj_shared. fold p. apply cong_eq.
    destruct (F1 y) as (_ & _ & _ & _ & _ & _ & _ & _ & EC). unfold cntg at 1. rewrite EC. fold (cntg g y k). lia.
  - intros y Hy. destruct (F4 y) as (_ & -> & _ & _ & -> & _). destruct (F3 y) as (_ & -> & _ & _ & -> & _).
    assert (Hqp : (q =? p)%N = false) by (apply N.eqb_neq; unfold referrer in Hqr; exact Hqr).
    destruct (F2 q) as (_ & EQ & _ & _ & EQ' & _). destruct (F2 y) as (_ & -> & _ & _ & -> & _). rewrite EQ, EQ', Hqp.
    destruct (N.eqb_spec y q) as [E0|Hyq].
    + rewrite filter_app. rewrite <- (sn_arefs SR q Hq). destruct act.
      * by rewrite filter_cons_True by congruence.
      * rewrite filter_cons_False by congruence. by rewrite app_nil_r.
    + destruct (N.eqb_spec y p) as [E0|Hyp]; [|by apply (sn_arefs SR)].
      pose proof (sn_arefs SR p Hp) as EP. rewrite (filter_Permutation _ _ _ El) in EP. destruct act.
      * rewrite filter_cons_True in EP by congruence. destruct (remove_fast_perm (arefsg g p) x) as [[HN _]|HP].
        -- exfalso. apply HN. rewrite EP. apply elem_of_cons. by left.
        -- rewrite HP in EP. by apply Permutation_cons_inv in EP.
      * by rewrite filter_cons_False in EP by congruence.
  Unshelve. intros y. apply F4.
Qed.
