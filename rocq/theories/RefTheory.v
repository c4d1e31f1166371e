(** * Referral structures in the abstract

    [ref] gives the referrer, [refs] the listed referrals, [ban] who is
    banished, [line] an amount per account and line. *)
From Verif Require Export Referral.
From Coq Require Export Lia.

(** Equality up to multiples of [M]; with [M = 0], equality. *)
Definition cong (M x y : Z) : Prop := exists q, x - y = q * M.
Lemma cong_refl M x : cong M x x.
Proof. exists 0. lia. Qed.
Lemma cong_eq M x y : x = y -> cong M x y.
Proof. intros ->. apply cong_refl. Qed.
Lemma cong_sym M x y : cong M x y -> cong M y x.
Proof. intros [q H]. exists (- q). lia. Qed.
Lemma cong_trans M x y z : cong M x y -> cong M y z -> cong M x z.
Proof. intros [q H] [q' H']. exists (q + q'). lia. Qed.
Lemma cong_add M x y x' y' : cong M x y -> cong M x' y' -> cong M (x + x') (y + y').
Proof. intros [q H] [q' H']. exists (q + q'). lia. Qed.
Lemma cong_zero x y : cong 0 x y -> x = y.
Proof. intros [q H]. lia. Qed.
Lemma cong_u64 x : cong (2 ^ 64) (u64 x) x.
Proof. unfold u64. exists (- (x / 2 ^ 64)). pose proof (Z.div_mod x (2 ^ 64) ltac:(lia)). lia. Qed.
Lemma cong_small M x y : 0 <= x < M -> cong M x y -> x = y mod M.
Proof. intros H [q Hq]. replace y with (x + (- q) * M) by lia. rewrite Z.mod_add by lia. by rewrite Z.mod_small. Qed.

(** Sums over lists of accounts *)
Definition sumz (f : addr -> Z) (l : list addr) : Z := foldr (fun c t => f c + t) 0 l.
Lemma sumz_app f l1 l2 : sumz f (l1 ++ l2) = sumz f l1 + sumz f l2.
Proof. induction l1 as [|x l1 IH]; cbn; [done|]. fold (sumz f (l1 ++ l2)) (sumz f l1). lia. Qed.
Lemma sumz_perm f l1 l2 : l1 ≡ₚ l2 -> sumz f l1 = sumz f l2.
Proof. intros H. unfold sumz. induction H; cbn; lia. Qed.
Lemma sumz_add f g l : sumz (fun c => f c + g c) l = sumz f l + sumz g l.
Proof. induction l as [|x l IH]; cbn; [done|]. fold (sumz f l) (sumz g l). unfold sumz in IH at 1. lia. Qed.
Lemma sumz_ext f g l : (forall c, c ∈ l -> f c = g c) -> sumz f l = sumz g l.
Proof.
  induction l as [|x l IH]; intros H; cbn; [done|]. fold (sumz f l) (sumz g l). rewrite (H x) by left.
  rewrite IH; [done|]. intros c Hc. apply H. by right.
Qed.
Lemma sumz_cong M f g l : (forall c, c ∈ l -> cong M (f c) (g c)) -> cong M (sumz f l) (sumz g l).
Proof.
  induction l as [|x l IH]; intros H; cbn; [apply cong_refl|]. apply cong_add; [apply H; left|].
  apply IH. intros c Hc. apply H. by right.
Qed.
Lemma sumz_zero f l : (forall c, c ∈ l -> f c = 0) -> sumz f l = 0.
Proof.
  induction l as [|x l IH]; intros H; cbn; [done|]. fold (sumz f l). rewrite (H x) by left.
  rewrite IH; [done|]. intros c Hc. apply H. by right.
Qed.
Lemma sumz_single f l c : NoDup l -> c ∈ l -> (forall d, d ∈ l -> d <> c -> f d = 0) -> sumz f l = f c.
Proof.
  induction 1 as [|x l Hx Hn IH]; intros Hc H; [by apply elem_of_nil in Hc|].
  cbn. fold (sumz f l). apply elem_of_cons in Hc as [->|Hc].
  - rewrite (sumz_zero f l); [lia|]. intros d Hd. apply H; [by right|]. intros ->. done.
  - rewrite IH; [|done|intros d Hd; apply H; by right]. rewrite (H x); [lia|left|]. intros ->. done.
Qed.
Lemma sumz_swap (h : addr -> addr -> Z) l1 l2 :
  sumz (fun x => sumz (h x) l2) l1 = sumz (fun y => sumz (fun x => h x y) l1) l2.
Proof.
  induction l1 as [|x l1 IH]; cbn.
  - symmetry. apply sumz_zero. done.
  - fold (sumz (fun x => sumz (h x) l2) l1). rewrite IH, <- sumz_add. done.
Qed.

Section structure.
  Context (ref : addr -> addr).
  (** The [n]-th referrer *)
  Fixpoint anc (n : nat) (a : addr) : addr := match n with O => a | S n => ref (anc n a) end.
  Lemma anc_add m n a : anc (m + n) a = anc m (anc n a).
  Proof. induction m as [|m IH]; cbn; congruence. Qed.
  Lemma anc_S n a : anc (S n) a = anc n (ref a).
  Proof. replace (S n) with (n + 1)%nat by lia. by rewrite anc_add. Qed.

  (** Which entry of [lines] the loop over the ancestors, starting at [a], uses
      for [y] *)
  Fixpoint pos (lines : list nat) (a y : addr) : option nat :=
    match lines with
    | [] => None
    | i :: rest => if (a =? nobody)%N then None else if (y =? a)%N then Some i else pos rest (ref a) y
    end.
End structure.

Record forest (ref : addr -> addr) (refs : addr -> list addr) (ban : addr -> bool) : Prop := mkForest {
  f_nobody : ref nobody = nobody;
  f_rank : exists rk : addr -> nat, forall x, ref x <> nobody -> (rk (ref x) < rk x)%nat;
  f_list : forall a x, a <> nobody -> (x ∈ refs a <-> ref x = a /\ ban x = false);
  f_nodup : forall a, NoDup (refs a);
  f_leaf : forall a, ban a = true -> refs a = [] /\ ref a <> nobody }.
Arguments f_nobody {_ _ _}. Arguments f_rank {_ _ _}. Arguments f_list {_ _ _}.
Arguments f_nodup {_ _ _}. Arguments f_leaf {_ _ _}.

(** Each line is the sum of the referrals' previous lines. *)
Definition lined (M : Z) (refs : addr -> list addr) (line : addr -> nat -> Z) : Prop :=
  forall a k, a <> nobody -> (1 <= k <= 9)%nat -> cong M (line a k) (sumz (fun c => line c (k - 1)%nat) (refs a)).

Section facts.
  Context {ref : addr -> addr} (rk : addr -> nat).
  Hypothesis Hrk : forall x, ref x <> nobody -> (rk (ref x) < rk x)%nat.
  Hypothesis Hno : ref nobody = nobody.
  Lemma anc_nobody n : anc ref n nobody = nobody.
  Proof. induction n as [|n IH]; cbn; congruence. Qed.
  Lemma anc_rank n a : anc ref n a <> nobody -> (rk (anc ref n a) + n <= rk a)%nat.
  Proof.
    induction n as [|n IH]; intros H; [cbn; lia|]. cbn in *.
    assert (anc ref n a <> nobody) by (intros E; rewrite E, Hno in H; done).
    specialize (Hrk _ H). specialize (IH H0). lia.
  Qed.
  Lemma anc_below n m a : (n <= m)%nat -> anc ref m a <> nobody -> anc ref n a <> nobody.
  Proof.
    intros L H E. replace m with ((m - n) + n)%nat in H by lia. rewrite anc_add, E, anc_nobody in H. done.
  Qed.
  Lemma anc_inj m n a : anc ref m a = anc ref n a -> anc ref m a <> nobody -> m = n.
  Proof.
    assert (A : forall m n, (m < n)%nat -> anc ref m a = anc ref n a -> anc ref n a <> nobody -> False).
    { intros m' n' L E H. replace n' with ((n' - m') + m')%nat in E, H by lia. rewrite anc_add in E, H.
      pose proof (anc_rank (n' - m') (anc ref m' a) H) as R. rewrite <- E in R. lia. }
    intros E H. destruct (Nat.lt_trichotomy m n) as [L|[L|L]]; [|done|].
    - exfalso. apply (A m n); [done|done|by rewrite <- E].
    - exfalso. apply (A n m); [done|done|done].
  Qed.
  Lemma anc_acyclic n a : a <> nobody -> (0 < n)%nat -> anc ref n a <> a.
  Proof. intros H Hn E. enough (n = 0%nat) by lia. apply (anc_inj n 0 a); cbn; congruence. Qed.
  (** What [pos] says about consecutive lines *)
  Lemma pos_some i n a y j : pos ref (seq i n) a y = Some j ->
    (i <= j < i + n)%nat /\ y <> nobody /\ anc ref (j - i) a = y.
  Proof using Type.
    revert i a. induction n as [|n IH]; intros i a; cbn; [discriminate|].
    destruct (N.eqb_spec a nobody) as [|Ha]; [discriminate|]. destruct (N.eqb_spec y a) as [->|Hy].
    - intros [= ->]. clear Hno. split_and!; [lia|lia|exact Ha|]. by replace (j - j)%nat with 0%nat by lia.
    - intros H. apply IH in H as (H1 & H2 & H3). clear Hno. split_and!; [lia|lia|exact H2|].
      rewrite <- H3. replace (j - i)%nat with (S (j - S i)) by lia. by rewrite anc_S.
  Qed.
  Lemma pos_intro i n a y j : (i <= j < i + n)%nat -> y <> nobody -> anc ref (j - i) a = y ->
    pos ref (seq i n) a y = Some j.
  Proof.
    revert i a. induction n as [|n IH]; intros i a Hj Hy E; [lia|]. cbn.
    destruct (N.eqb_spec a nobody) as [->|Ha]; [rewrite anc_nobody in E; congruence|].
    destruct (N.eqb_spec y a) as [->|Hya].
    - f_equal. enough (j - i = 0)%nat by lia. apply (anc_inj (j - i) 0 a); [done|by rewrite E].
    - destruct (Nat.eq_dec j i) as [->|]; [replace (i - i)%nat with 0%nat in E by lia; cbn in E; congruence|].
      apply IH; [lia|done|]. rewrite <- anc_S. by replace (S (j - S i)) with (j - i)%nat by lia.
  Qed.
  Lemma pos_none i n a y : y <> nobody -> pos ref (seq i n) a y = None <-> forall m, (m < n)%nat -> anc ref m a <> y.
  Proof.
    intros Hy. split.
    - intros H m Hm E. assert (pos ref (seq i n) a y = Some (i + m)%nat); [|congruence].
      apply pos_intro; [lia|done|]. by replace (i + m - i)%nat with m by lia.
    - intros H. destruct (pos ref (seq i n) a y) as [j|] eqn:E; [|done].
      apply pos_some in E as (H1 & _ & H3). exfalso. apply (H (j - i)%nat); [lia|done].
  Qed.
End facts.

(** The loop does not see a change of the referrer of an account above which it
    does not pass *)
Lemma pos_ext ref ref' lines a y :
  (forall n, anc ref n a <> nobody -> ref' (anc ref n a) = ref (anc ref n a)) -> pos ref' lines a y = pos ref lines a y.
Proof.
  revert a. induction lines as [|i lines IH]; intros a H; cbn; [done|].
  destruct (N.eqb_spec a nobody) as [|Ha]; [done|]. destruct (y =? a)%N; [done|].
  pose proof (H 0%nat Ha) as H0. cbn in H0. rewrite H0. apply IH. intros n. rewrite <- anc_S. apply (H (S n)).
Qed.

Section chains.
  Context {ref : addr -> addr} {refs : addr -> list addr} {ban : addr -> bool} (F : forest ref refs ban).
  Lemma parent_not_ban x : ban x = false -> ref x <> nobody -> ban (ref x) = false.
  Proof.
    intros Hx Hr. destruct (ban (ref x)) eqn:E; [|done]. apply (f_leaf F) in E as [E _].
    assert (A : x ∈ refs (ref x)) by (apply (f_list F); auto). rewrite E in A. by apply elem_of_nil in A.
  Qed.
  Lemma anc_not_ban n x : ban x = false -> anc ref n x <> nobody -> ban (anc ref n x) = false.
  Proof.
    induction n as [|n IH]; intros Hx Hn; cbn in *; [done|]. apply parent_not_ban; [|done]. apply IH; [done|].
    intros E. rewrite E, (f_nobody F) in Hn. done.
  Qed.

  (** The changes along a chain of ancestors repair one wrong account. *)
  Definition adj (S : nat -> Z) (q y : addr) (k : nat) : Z :=
    match pos ref (seq 1 10) q y with
    | Some i => if (i <=? k)%nat then S (k - i)%nat else 0
    | None => 0
    end.
  Lemma chain_repair M (line line' : addr -> nat -> Z) (S : nat -> Z) q :
    (q <> nobody -> ban q = false) ->
    (forall y k, y <> nobody -> y <> q -> (1 <= k <= 9)%nat ->
       cong M (line y k) (sumz (fun c => line c (k - 1)%nat) (refs y))) ->
    (forall k, q <> nobody -> (1 <= k <= 9)%nat ->
       cong M (line q k + S (k - 1)%nat) (sumz (fun c => line c (k - 1)%nat) (refs q))) ->
    (forall y k, y <> nobody -> (k <= 9)%nat -> cong M (line' y k) (line y k + adj S q y k)) ->
    lined M refs line'.
  Proof.
    intros Hq HL HQ H'. destruct (f_rank F) as [rk Hrk].
    (* a child on the chain is followed by its referrer *)
    assert (up : forall c y i, c ∈ refs y -> y <> nobody -> pos ref (seq 1 10) q c = Some i -> (i <= 9)%nat ->
      pos ref (seq 1 10) q y = Some (i + 1)%nat).
    { intros c y i Hc Hy Hp Hi. apply pos_some in Hp as (H1 & H2 & H3).
      apply (pos_intro rk Hrk (f_nobody F)); [lia|done|].
      replace (i + 1 - 1)%nat with (1 + (i - 1))%nat by lia. rewrite anc_add, H3. cbn. by destruct (proj1 (f_list F y c Hy) Hc). }
    assert (sums : forall y k, y <> nobody -> (1 <= k <= 9)%nat ->
      sumz (fun c => adj S q c (k - 1)%nat) (refs y) = if (y =? q)%N then 0 else adj S q y k).
    { intros y k Hy Hk. destruct (N.eqb_spec y q) as [->|Hyq].
      - apply sumz_zero. intros c Hc. unfold adj. destruct (pos ref (seq 1 10) q c) as [i|] eqn:E; [|done].
        destruct (Nat.leb_spec i (k - 1)); [|done]. exfalso.
        pose proof E as E'. apply pos_some in E' as (E' & _).
        apply (up c q i) in E; [|done|done|lia].
        rewrite (pos_intro rk Hrk (f_nobody F) 1 10 q q 1) in E; [injection E; lia|lia|done|done].
      - destruct (pos ref (seq 1 10) q y) as [j|] eqn:E.
        + assert (E' := E). apply pos_some in E' as (H1 & _ & H3).
          assert (j <> 1%nat) by (intros ->; cbn in H3; congruence).
          set (c0 := anc ref (j - 2) q).
          assert (R0 : ref c0 = y).
          { rewrite <- H3. replace (j - 1)%nat with (1 + (j - 2))%nat by lia. by rewrite anc_add. }
          assert (N0 : c0 <> nobody) by (intros E0; rewrite E0, (f_nobody F) in R0; congruence).
          assert (Hqn : q <> nobody).
          { intros ->. apply N0. unfold c0. apply anc_nobody, F. }
          assert (B0 : ban c0 = false) by (apply anc_not_ban; auto).
          assert (I0 : c0 ∈ refs y) by (apply (f_list F); auto).
          assert (P0 : pos ref (seq 1 10) q c0 = Some (j - 1)%nat).
          { apply (pos_intro rk Hrk (f_nobody F)); [lia|done|].
            by replace (j - 1 - 1)%nat with (j - 2)%nat by lia. }
          rewrite (sumz_single _ _ c0); [|apply (f_nodup F)|done|].
          * unfold adj. rewrite P0, E. destruct (Nat.leb_spec (j - 1) (k - 1)), (Nat.leb_spec j k); try lia.
            f_equal. lia.
          * intros d Hd Hne. unfold adj. destruct (pos ref (seq 1 10) q d) as [i|] eqn:Ed; [|done].
            destruct (Nat.leb_spec i (k - 1)); [|done]. exfalso. apply Hne.
            assert (Ed' := Ed). apply pos_some in Ed' as (D1 & _ & D3).
            apply (up d y i) in Ed; [|done|done|lia]. rewrite E in Ed. injection Ed as Ed.
            rewrite <- D3. unfold c0. f_equal. lia.
        + rewrite (sumz_zero _ (refs y)); [by unfold adj; rewrite E|]. intros c Hc. unfold adj.
          destruct (pos ref (seq 1 10) q c) as [i|] eqn:Ec; [|done].
          destruct (Nat.leb_spec i (k - 1)); [|done]. apply (up c y i) in Ec; [congruence|done|done|lia]. }
    assert (N0 : forall a x, a <> nobody -> x ∈ refs a -> x <> nobody).
    { intros a x Ha Hx ->. apply (f_list F) in Hx as [Hx _]; [|done]. rewrite (f_nobody F) in Hx. congruence. }
    intros y k Hy Hk.
    eapply cong_trans; [apply H'; [done|lia]|].
    eapply cong_trans; [|apply cong_sym, sumz_cong; intros c Hc; apply H'; [by eapply N0|lia]].
    rewrite sumz_add, sums by done.
    destruct (N.eqb_spec y q) as [->|Hyq].
    - assert (adj S q q k = S (k - 1)%nat) as ->.
      { unfold adj. rewrite (pos_intro rk Hrk (f_nobody F) 1 10 q q 1); [|lia|done|done].
        destruct (Nat.leb_spec 1 k); [done|lia]. }
      rewrite Z.add_0_r. by apply HQ.
    - apply cong_add; [by apply HL|apply cong_refl].
  Qed.
End chains.

(** Changing one value of a function *)
Definition upd {A} (f : addr -> A) (x : addr) (v : A) : addr -> A := fun y => if (y =? x)%N then v else f y.
Lemma upd_same {A} (f : addr -> A) x v : upd f x v x = v.
Proof. unfold upd. by rewrite N.eqb_refl. Qed.
Lemma upd_other {A} (f : addr -> A) x v y : y <> x -> upd f x v y = f y.
Proof. intros H. unfold upd. by destruct (N.eqb_spec y x). Qed.

(** A structure only matters pointwise. *)
Lemma forest_ext ref refs ban ref' refs' ban' :
  (forall x, ref' x = ref x) -> (forall x, refs' x ≡ₚ refs x) -> (forall x, ban' x = ban x) ->
  forest ref refs ban -> forest ref' refs' ban'.
Proof.
  intros H1 H2 H3 F. split.
  - rewrite H1. apply F.
  - destruct (f_rank F) as [rk Hrk]. exists rk. intros x. rewrite H1. apply Hrk.
  - intros a x Ha. rewrite H1, H3, (H2 a). by apply (f_list F).
  - intros a. rewrite (H2 a). apply F.
  - intros a. rewrite H3, H1. intros Hb. destruct (f_leaf F a Hb) as [E1 E2]. split; [|done].
    specialize (H2 a). rewrite E1 in H2. by apply Permutation_nil_r.
Qed.

(** An account is attached under an account that is not below it. *)
Lemma forest_attach ref refs ban x q :
  forest ref refs ban -> x <> nobody -> q <> nobody -> ban q = false -> (forall n, anc ref n q <> x) ->
  ref x = nobody \/ ban x = true ->
  forest (upd ref x q) (upd refs q (refs q ++ [x])) (upd ban x false).
Proof.
  intros F Hx Hq Bq Hc Hfree. destruct (f_rank F) as [rk Hrk].
  assert (Hqx : q <> x) by apply (Hc 0%nat).
  split.
  - rewrite upd_other by congruence. apply F.
  - set (below := fun y => existsb (fun n => (anc ref n y =? x)%N) (seq 0 (S (rk y)))).
    assert (Hb : forall y, below y = true <-> exists n, anc ref n y = x).
    { intros y. unfold below. rewrite existsb_exists. split.
      - intros (n & _ & E). exists n. by apply N.eqb_eq.
      - intros [n E]. exists n. split; [|by apply N.eqb_eq]. apply in_seq.
        assert (anc ref n y <> nobody) by congruence. pose proof (anc_rank rk Hrk (f_nobody F) n y H). lia. }
    exists (fun y => if below y then (rk y + S (rk q))%nat else rk y). intros y.
    destruct (N.eq_dec y x) as [->|Hy].
    + rewrite upd_same. intros _.
      assert (below q = false) as ->.
      { destruct (below q) eqn:E; [|done]. apply Hb in E as [n E]. by destruct (Hc n). }
      assert (below x = true) as -> by (apply Hb; by exists 0%nat). lia.
    + rewrite upd_other by done. intros Hr. specialize (Hrk y Hr).
      destruct (below y) eqn:E.
      * apply Hb in E as [n E]. destruct n as [|n]; [cbn in E; congruence|]. rewrite anc_S in E.
        assert (below (ref y) = true) as -> by (apply Hb; by exists n). lia.
      * destruct (below (ref y)) eqn:E'; [|lia]. apply Hb in E' as [n E'].
        assert (below y = true); [|congruence]. apply Hb. exists (S n). by rewrite anc_S.
  - intros a y Ha. destruct (N.eq_dec a q) as [->|Haq].
    + rewrite upd_same, elem_of_app, elem_of_list_singleton. destruct (N.eq_dec y x) as [->|Hy].
      * rewrite !upd_same. tauto.
      * rewrite !upd_other by done. rewrite (f_list F q y Hq). tauto.
    + rewrite upd_other by done. destruct (N.eq_dec y x) as [->|Hy].
      * rewrite !upd_same, (f_list F a x Ha). split; [intros [E1 E2]; exfalso|intros [E1 _]; congruence].
        destruct Hfree; congruence.
      * rewrite !(upd_other _ x) by done. by apply (f_list F).
  - intros a. destruct (N.eq_dec a q) as [->|Haq]; [rewrite upd_same|rewrite upd_other by done; apply F].
    apply NoDup_app. split_and!; [apply F| |apply NoDup_singleton].
    intros y Hy E. apply elem_of_list_singleton in E as ->. apply (f_list F) in Hy as [E1 E2]; [|done].
    destruct Hfree; congruence.
  - intros a. destruct (N.eq_dec a x) as [->|Ha]; [by rewrite upd_same|]. rewrite !(upd_other _ x) by done.
    intros B. destruct (f_leaf F a B) as [E1 E2]. split; [|done]. destruct (N.eq_dec a q) as [->|]; [congruence|].
    by rewrite upd_other.
Qed.

(** An account leaves its referrer: with its subtree, or banished. *)
Lemma NoDup_remove_perm (x : addr) l l' : NoDup l -> l ≡ₚ x :: l' -> NoDup l' /\ (forall y, y ∈ l' <-> y ∈ l /\ y <> x).
Proof.
  intros Hn E. rewrite E in Hn. apply NoDup_cons in Hn as [H1 H2]. split; [done|]. intros y. rewrite E, elem_of_cons.
  split; [|tauto]. intros Hy. split; [by right|]. intros ->. done.
Qed.
Lemma forest_detach ref refs ban x l :
  forest ref refs ban -> ref x <> nobody -> refs (ref x) ≡ₚ x :: l ->
  forest (upd ref x nobody) (upd refs (ref x) l) ban.
Proof.
  intros F Hr El. destruct (f_rank F) as [rk Hrk]. set (p := ref x) in *.
  destruct (NoDup_remove_perm x (refs p) l (f_nodup F p) El) as [Hn Hl].
  assert (Hx : x ∈ refs p) by (rewrite El; left). apply (f_list F) in Hx as [_ Hb]; [|done].
  split.
  - unfold upd. destruct (N.eqb_spec nobody x); [done|]. apply F.
  - exists rk. intros y. unfold upd. destruct (N.eqb_spec y x); [done|]. apply Hrk.
  - intros a y Ha. destruct (N.eq_dec a p) as [->|Hap].
    + rewrite upd_same, Hl, (f_list F p y Ha). unfold upd. destruct (N.eqb_spec y x) as [->|]; [split; [tauto|intros [? _]; congruence]|tauto].
    + rewrite (upd_other _ p) by done. rewrite (f_list F a y Ha). unfold upd. destruct (N.eqb_spec y x) as [->|]; [|done].
      split; [intros [E _]; exfalso; apply Hap; by rewrite <- E|intros [? _]; congruence].
  - intros a. destruct (N.eq_dec a p) as [->|]; [by rewrite upd_same|rewrite upd_other by done; apply F].
  - intros a Ba. destruct (f_leaf F a Ba) as [E1 E2]. destruct (N.eq_dec a p) as [->|Hap].
    { rewrite E1 in El. by apply Permutation_nil_cons in El. }
    rewrite upd_other by done. split; [done|]. rewrite upd_other; [done|]. intros ->. congruence.
Qed.
Lemma forest_banish ref refs ban x l :
  forest ref refs ban -> ref x <> nobody -> refs x = [] -> refs (ref x) ≡ₚ x :: l ->
  forest ref (upd refs (ref x) l) (upd ban x true).
Proof.
  intros F Hr Hleaf El. destruct (f_rank F) as [rk Hrk]. set (p := ref x) in *.
  destruct (NoDup_remove_perm x (refs p) l (f_nodup F p) El) as [Hn Hl].
  assert (Hpx : x <> p).
  { intros E. specialize (Hrk x Hr). fold p in Hrk. rewrite <- E in Hrk. lia. }
  split.
  - apply F.
  - by exists rk.
  - intros a y Ha. destruct (N.eq_dec a p) as [->|Hap].
    + rewrite upd_same, Hl, (f_list F p y Ha). unfold upd. destruct (N.eqb_spec y x) as [->|]; [|tauto].
      split; [tauto|intros [_ ?]; congruence].
    + rewrite (upd_other _ p) by done. rewrite (f_list F a y Ha). unfold upd. destruct (N.eqb_spec y x) as [->|]; [|done].
      split; [intros [E _]; exfalso; apply Hap; by rewrite <- E|intros [_ ?]; congruence].
  - intros a. destruct (N.eq_dec a p) as [->|]; [by rewrite upd_same|rewrite upd_other by done; apply F].
  - intros a. unfold upd at 1. destruct (N.eqb_spec a x) as [->|Ha]; intros Ba.
    + split; [|done]. by rewrite upd_other.
    + destruct (f_leaf F a Ba) as [E1 E2]. split; [|done]. destruct (N.eq_dec a p) as [->|]; [|by rewrite upd_other].
      rewrite E1 in El. by apply Permutation_nil_cons in El.
Qed.

(** The referrals of an account go to its referrer. *)
Definition moved (ref : addr -> addr) (l : list addr) (p : addr) : addr -> addr :=
  fun y => if bool_decide (y ∈ l) then p else ref y.
Lemma forest_compress ref refs ban x :
  forest ref refs ban -> ref x <> nobody ->
  forest (moved ref (refs x) (ref x)) (upd (upd refs x []) (ref x) (refs (ref x) ++ refs x)) ban.
Proof.
  intros F Hr. destruct (f_rank F) as [rk Hrk]. set (p := ref x) in *.
  assert (Hx : x <> nobody) by (intros ->; apply Hr, F).
  assert (Hpx : p <> x).
  { intros E. specialize (Hrk x Hr). fold p in Hrk. rewrite E in Hrk. lia. }
  assert (C : forall y, y ∈ refs x -> ref y = x /\ ban y = false) by (intros y; by apply (f_list F)).
  split.
  - unfold moved. rewrite bool_decide_false; [apply F|]. intros H. apply C in H as [H _].
    rewrite (f_nobody F) in H. congruence.
  - exists rk. intros y. unfold moved. case_bool_decide as E; [|apply Hrk].
    intros _. apply C in E as [E _]. assert (ref y <> nobody) by congruence. pose proof (Hrk y H). pose proof (Hrk x Hr).
    fold p in H1. rewrite E in H0. lia.
  - intros a y Ha. destruct (N.eq_dec a p) as [->|Hap].
    + rewrite upd_same, elem_of_app, (f_list F p y Ha). unfold moved. case_bool_decide as E.
      * specialize (C y E). split; [intros _; tauto|tauto].
      * tauto.
    + rewrite (upd_other _ p) by done. destruct (N.eq_dec a x) as [->|Hax].
      * rewrite upd_same, elem_of_nil. split; [done|]. intros [E1 E2]. unfold moved in E1. case_bool_decide as E; [congruence|].
        apply E, (f_list F); auto.
      * rewrite upd_other by done. rewrite (f_list F a y Ha). unfold moved. case_bool_decide as E; [|done].
        apply C in E as [E _]. split; intros [? _]; congruence.
  - intros a. destruct (N.eq_dec a p) as [->|Hap].
    + rewrite upd_same. apply NoDup_app. split_and!; [apply F| |apply F]. intros y H1 H2. apply C in H2 as [H2 _].
      apply (f_list F) in H1 as [H1 _]; [|done]. congruence.
    + rewrite upd_other by done. destruct (N.eq_dec a x) as [->|]; [rewrite upd_same; apply NoDup_nil_2|].
      rewrite upd_other by done. apply F.
  - intros a Ba. destruct (f_leaf F a Ba) as [E1 E2]. split.
    + destruct (N.eq_dec a p) as [->|Hap].
      * rewrite upd_same, E1. cbn. destruct (refs x) as [|y l] eqn:Ex; [done|].
        (* a referrer that is banished has no listed referrals, hence [x] is banished too *)
        destruct (ban x) eqn:Bx; [apply (f_leaf F) in Bx as [Bx _]; congruence|].
        assert (A : x ∈ refs p) by (apply (f_list F); auto). rewrite E1 in A. by apply elem_of_nil in A.
      * rewrite upd_other by done. unfold upd. by destruct (a =? x)%N.
    + unfold moved. case_bool_decide; done.
Qed.

(** ** The lines after each kind of change *)
Section lines.
  Context {ref : addr -> addr} {refs : addr -> list addr} {ban : addr -> bool} (F : forest ref refs ban).
  Context (M : Z) (line line' : addr -> nat -> Z).
  Hypothesis HL : lined M refs line.

  Lemma unlisted x a : ref x = nobody \/ ban x = true -> a <> nobody -> x ∉ refs a.
  Proof using F. intros H Ha Hx. apply (f_list F) in Hx as [E1 E2]; [|done]. destruct H; congruence. Qed.

  Lemma lined_attach {ref' refs' ban'} x q (S : nat -> Z) :
    forest ref' refs' ban' -> x <> q -> q <> nobody -> ban' q = false ->
    (forall y, refs' y = upd refs q (refs q ++ [x]) y) ->
    ref x = nobody \/ ban x = true ->
    (forall k, (1 <= k <= 9)%nat -> cong M (S k) (sumz (fun c => line c (k - 1)%nat) (refs x))) ->
    (forall y k, y <> nobody -> (k <= 9)%nat ->
       cong M (line' y k) ((if (y =? x)%N then S k else line y k) + @adj ref' S q y k)) ->
    lined M refs' line'.
  Proof.
    intros F' Hxq Hq Bq HR Hfree HS H'.
    apply (chain_repair F' M (fun y k => if (y =? x)%N then S k else line y k) line' S q); [done| |..|exact H'].
    - intros y k Hy Hyq Hk. rewrite HR, upd_other by done.
      rewrite (sumz_ext _ (fun c => line c (k - 1)%nat)).
      + destruct (N.eqb_spec y x) as [->|]; [by apply HS|by apply HL].
      + intros c Hc. destruct (N.eqb_spec c x) as [->|]; [|done]. exfalso. by eapply unlisted.
    - intros k _ Hk. rewrite HR, upd_same, sumz_app. cbn. rewrite N.eqb_refl.
      rewrite (proj2 (N.eqb_neq q x)) by congruence. apply cong_add; [|apply cong_eq; lia].
      rewrite (sumz_ext _ (fun c => line c (k - 1)%nat)); [by apply HL|].
      intros c Hc. destruct (N.eqb_spec c x) as [->|]; [|done]. exfalso. by eapply unlisted.
  Qed.

  Lemma lined_detach {ref' refs' ban'} x l :
    forest ref' refs' ban' -> ref x <> nobody -> ban' (ref x) = false -> refs (ref x) ≡ₚ x :: l ->
    (forall y, refs' y ≡ₚ upd refs (ref x) l y) ->
    (forall y k, y <> nobody -> (k <= 9)%nat ->
       cong M (line' y k) (line y k + @adj ref' (fun j => - line x j) (ref x) y k)) ->
    lined M refs' line'.
  Proof.
    intros F' Hr Bq El HR H'.
    apply (chain_repair F' M line line' (fun j => - line x j) (ref x)); [done| |..|exact H'].
    - intros y k Hy Hyq Hk. rewrite (sumz_perm _ _ _ (HR y)), upd_other by done. by apply HL.
    - intros k _ Hk. rewrite (sumz_perm _ _ _ (HR _)), upd_same.
      pose proof (HL (ref x) k Hr Hk) as [u Hu]. rewrite (sumz_perm _ _ _ El) in Hu.
      change (sumz (fun c => line c (k - 1)%nat) (x :: l)) with (line x (k - 1)%nat + sumz (fun c => line c (k - 1)%nat) l) in Hu.
      exists u. lia.
  Qed.

  Lemma lined_own x d :
    (ref x <> nobody -> ban x = false) ->
    (forall y k, y <> nobody -> (k <= 9)%nat ->
       cong M (line' y k) (line y k + (if (y =? x)%N then if (k =? 0)%nat then d else 0 else 0)
                           + @adj ref (fun j => if (j =? 0)%nat then d else 0) (ref x) y k)) ->
    lined M refs line'.
  Proof.
    intros Bx H'.
    apply (chain_repair F M (fun y k => line y k + if (y =? x)%N then if (k =? 0)%nat then d else 0 else 0) line'
             (fun j => if (j =? 0)%nat then d else 0) (ref x)); [| |..|exact H'].
    - intros Hr. by apply (parent_not_ban F); auto.
    - intros y k Hy Hyq Hk. rewrite sumz_add. apply cong_add; [by apply HL|].
      rewrite sumz_zero; [destruct (y =? x)%N; [|apply cong_refl]; destruct (Nat.eqb_spec k 0); [lia|apply cong_refl]|].
      intros c Hc. destruct (N.eqb_spec c x) as [->|]; [|done]. apply (f_list F) in Hc as [Hc _]; [congruence|done].
    - intros k Hr Hk. rewrite sumz_add.
      assert (E : sumz (fun c => if (c =? x)%N then if (k - 1 =? 0)%nat then d else 0 else 0) (refs (ref x)) =
                  if (k - 1 =? 0)%nat then d else 0).
      { rewrite (sumz_single _ _ x); [by rewrite N.eqb_refl|apply (f_nodup F)|apply (f_list F); auto|].
        intros c _ Hc. by rewrite (proj2 (N.eqb_neq c x) Hc). }
      rewrite E. apply cong_add; [|apply cong_refl].
      destruct (HL (ref x) k Hr Hk) as [u Hu]. exists u.
      destruct (N.eqb_spec (ref x) x) as [Ex|]; [|lia].
      destruct (Nat.eqb_spec k 0); lia.
  Qed.

  (** A banished account counts nowhere. *)
  Lemma lined_alone x :
    ban x = true -> (forall y k, y <> nobody -> (k <= 9)%nat -> (k <> 0%nat \/ y <> x) -> cong M (line' y k) (line y k)) ->
    lined M refs line'.
  Proof.
    intros Bx H' a k Ha Hk. eapply cong_trans; [apply H'; [done|lia|left; lia]|].
    eapply cong_trans; [by apply HL|]. apply sumz_cong. intros c Hc. apply cong_sym.
    assert (Hcx : c <> x) by (intros ->; eapply unlisted; eauto).
    assert (c <> nobody). { intros ->. apply (f_list F) in Hc as [Hc _]; [|done]. rewrite (f_nobody F) in Hc. congruence. }
    apply H'; [done|lia|by right].
  Qed.

  Lemma lined_compress {ref' refs' ban'} x :
    forest ref' refs' ban' -> ref x <> nobody -> ban x = false -> ban' (ref x) = false ->
    (forall y, refs' y = upd (upd refs x []) (ref x) (refs (ref x) ++ refs x) y) ->
    (forall y k, y <> nobody -> (k <= 9)%nat ->
       cong M (line' y k) ((if (y =? x)%N then if (k =? 0)%nat then line x 0%nat else 0 else line y k)
         + @adj ref' (fun j => line x (j + 1)%nat - if (j =? 0)%nat then 0 else line x j) (ref x) y k)) ->
    lined M refs' line'.
  Proof.
    intros F' Hr Bx Bp HR H'. destruct (f_rank F) as [rk Hrk].
    assert (Hx : x <> nobody) by (intros E; rewrite E in Hr; apply Hr, F).
    assert (Hpx : ref x <> x). { intros E. pose proof (Hrk x Hr) as L. rewrite E in L. lia. }
    apply (chain_repair F' M (fun y k => if (y =? x)%N then if (k =? 0)%nat then line x 0%nat else 0 else line y k) line'
             (fun j => line x (j + 1)%nat - if (j =? 0)%nat then 0 else line x j) (ref x)); [done| |..|exact H'].
    - intros y k Hy Hyq Hk. rewrite HR, upd_other by done. destruct (N.eqb_spec y x) as [->|Hyx].
      + rewrite upd_same. cbn. destruct (Nat.eqb_spec k 0); [lia|]. apply cong_refl.
      + rewrite upd_other by done. rewrite (sumz_ext _ (fun c => line c (k - 1)%nat)); [by apply HL|].
        intros c Hc. destruct (N.eqb_spec c x) as [->|]; [|done]. exfalso.
        apply (f_list F) in Hc as [Hc _]; [congruence|done].
    - intros k _ Hk. rewrite HR, upd_same, sumz_app.
      rewrite (proj2 (N.eqb_neq (ref x) x) Hpx).
      rewrite (sumz_ext _ (fun c => line c (k - 1)%nat) (refs x)); cycle 1.
      { intros c Hc. destruct (N.eqb_spec c x) as [->|]; [|done]. exfalso. apply (f_list F) in Hc as [Hc _]; done. }
      pose proof (HL x k Hx Hk) as [u Hu]. pose proof (HL (ref x) k Hr Hk) as [v Hv].
      assert (Hin : x ∈ refs (ref x)) by (apply (f_list F); auto).
      apply elem_of_Permutation in Hin as [l El].
      pose proof (f_nodup F (ref x)) as Hn. rewrite El in Hn. apply NoDup_cons in Hn as [Hn _].
      rewrite (sumz_perm _ _ _ El) in Hv. rewrite (sumz_perm _ _ _ El).
      change (sumz (fun c => line c (k - 1)%nat) (x :: l)) with (line x (k - 1)%nat + sumz (fun c => line c (k - 1)%nat) l) in Hv.
      cbn [sumz foldr]. rewrite N.eqb_refl.
      fold (sumz (fun c => if (c =? x)%N then if (k - 1 =? 0)%nat then line x 0%nat else 0 else line c (k - 1)%nat) l).
      rewrite (sumz_ext _ (fun c => line c (k - 1)%nat) l); cycle 1.
      { intros c Hc. destruct (N.eqb_spec c x) as [->|]; done. }
      replace (k - 1 + 1)%nat with k by lia.
      exists (v + u). destruct (Nat.eqb_spec (k - 1) 0) as [E|]; [rewrite E in *; lia|lia].
  Qed.
End lines.
