(** * Reasoning about the monad *)
From Verif Require Export Monad.
From Coq Require Export Lia.

(** ** Relations kept by every run, whatever the result *)
Definition rel (R : St -> St -> Prop) {A} (m : M A) : Prop := forall s, R s (fst (m s)).

Section rel.
  Context (R : St -> St -> Prop) `{!PreOrder R}.

  Lemma rel_ret {A} (a : A) : rel R (ret a).
  Proof. intros s. apply reflexivity. Qed.
  Lemma rel_fail {A} e : rel R (fail (A := A) e).
  Proof. intros s. apply reflexivity. Qed.
  Lemma rel_throw {A} e : rel R (throw (A := A) e).
  Proof. intros s. apply reflexivity. Qed.
  Lemma rel_panic {A} e : rel R (panic (A := A) e).
  Proof. intros s. apply reflexivity. Qed.
  Lemma rel_get {A} (f : St -> A) : rel R (get f).
  Proof. intros s. apply reflexivity. Qed.
  Lemma rel_modify f : (forall s, R s (f s)) -> rel R (modify f).
  Proof. intros H s. apply H. Qed.
  Lemma rel_bind {A B} (m : M A) (f : A -> M B) :
    rel R m -> (forall a, rel R (f a)) -> rel R (bind m f).
  Proof.
    intros Hm Hf s. unfold bind. specialize (Hm s). destruct (m s) as [s1 [a|e|e]]; cbn in *; auto.
    transitivity s1; [exact Hm|apply Hf].
  Qed.
  Lemma rel_lift {A} e (o : option A) : rel R (lift e o).
  Proof. destruct o; [apply rel_ret|apply rel_panic]. Qed.
  Lemma rel_ensure b e : rel R (ensure b e).
  Proof. destruct b; [apply rel_ret|apply rel_fail]. Qed.
  Lemma rel_assert b e : rel R (assert b e).
  Proof. destruct b; [apply rel_ret|apply rel_panic]. Qed.
  Lemma rel_when b m : rel R m -> rel R (when b m).
  Proof. destruct b; [auto|intros; apply rel_ret]. Qed.
  Lemma rel_must {A} (m : M A) : rel R m -> rel R (must m).
  Proof. intros H s. specialize (H s). unfold must. destruct (m s) as [s1 [a|e|e]]; exact H. Qed.
  Lemma rel_recovered {A} (m : M A) : rel R m -> rel R (recovered m).
  Proof. intros H s. specialize (H s). unfold recovered. destruct (m s) as [s1 [a|e|e]]; exact H. Qed.
  Lemma rel_try {A} (m : M A) : rel R m -> rel R (try m).
  Proof. intros H s. specialize (H s). unfold try. destruct (m s) as [s1 [a|e|e]]; exact H. Qed.
  Lemma rel_mfor {A} (l : list A) f : (forall x, rel R (f x)) -> rel R (mfor l f).
  Proof. intros H. induction l as [|x l IH]; cbn; [apply rel_ret|apply rel_bind; auto]. Qed.
  Lemma rel_mfold {A B} (l : list A) (b : B) f : (forall b x, rel R (f b x)) -> rel R (mfold l b f).
  Proof.
    intros H. revert b. induction l as [|x l IH]; intros b; cbn; [apply rel_ret|apply rel_bind; auto].
  Qed.
  Lemma rel_fun {A} (m : M A) : (forall s, R s (fst (m s))) -> rel R m.
  Proof. auto. Qed.
End rel.

Lemma rel_weaken (R R' : St -> St -> Prop) {A} (m : M A) :
  (forall s s', R s s' -> R' s s') -> rel R m -> rel R' m.
Proof. intros H Hm s. apply H, Hm. Qed.

(** ** Equality of a component *)
Definition same {B} (f : St -> B) : St -> St -> Prop := fun s s' => f s' = f s.
#[export] Instance same_preorder {B} (f : St -> B) : PreOrder (same f).
Proof. split; unfold same; [intros ?; reflexivity|intros x y z H1 H2; congruence]. Qed.
(** A predicate that is kept *)
Definition keeps (P : St -> Prop) : St -> St -> Prop := fun s s' => P s -> P s'.
#[export] Instance keeps_preorder (P : St -> Prop) : PreOrder (keeps P).
Proof. split; unfold keeps; [intros ?; auto|intros x y z H1 H2 H; auto]. Qed.

Create HintDb rel discriminated.
#[export] Hint Extern 0 (PreOrder _) => (typeclasses eauto) : rel.

(** Structural steps.  [rel_step tac] uses [tac] on what has no structure. *)
Ltac rel_struct :=
  lazymatch goal with
  | |- rel _ (bind _ _) => apply rel_bind; [typeclasses eauto| |intros ?]
  | |- rel _ (ret _) => apply rel_ret; typeclasses eauto
  | |- rel _ (fail _) => apply rel_fail; typeclasses eauto
  | |- rel _ (throw _) => apply rel_throw; typeclasses eauto
  | |- rel _ (panic _) => apply rel_panic; typeclasses eauto
  | |- rel _ (get _) => apply rel_get; typeclasses eauto
  | |- rel _ (lift _ _) => apply rel_lift; typeclasses eauto
  | |- rel _ (ensure _ _) => apply rel_ensure; typeclasses eauto
  | |- rel _ (assert _ _) => apply rel_assert; typeclasses eauto
  | |- rel _ (when _ _) => apply rel_when; [typeclasses eauto|]
  | |- rel _ (must _) => apply rel_must
  | |- rel _ (recovered _) => apply rel_recovered
  | |- rel _ (try _) => apply rel_try
  | |- rel _ (mfor _ _) => apply rel_mfor; [typeclasses eauto|intros ?]
  | |- rel _ (mfold _ _ _) => apply rel_mfold; [typeclasses eauto|intros ? ?]
  | |- rel _ (match ?x with _ => _ end) => destruct x
  | |- rel _ (let '(_, _) := ?x in _) => destruct x
  | |- rel _ (let _ := _ in _) => cbv zeta
  | |- rel _ ((fun _ => _) _) => cbv beta
  | |- rel _ (id _) => unfold id
  end.
Ltac rel_unfold :=
  lazymatch goal with
  | |- rel _ ?m =>
      let rec hd t := lazymatch t with ?f _ => hd f | _ => t end in
      let h := hd m in unfold h
  end.
Ltac rel_auto := repeat first [ progress rel_struct | solve [auto 3 with rel] ].

(** ** Inversion of successful runs *)
Lemma bind_ok {A B} (m : M A) (f : A -> M B) s s' b :
  bind m f s = (s', Ok b) <-> exists a s1, m s = (s1, Ok a) /\ f a s1 = (s', Ok b).
Proof.
  unfold bind. destruct (m s) as [s1 [a|e|e]].
  - split; [intros H; eauto|intros (a' & s1' & [= <- <-] & H); exact H].
  - split; [discriminate|intros (a' & s1' & H & _); discriminate].
  - split; [discriminate|intros (a' & s1' & H & _); discriminate].
Qed.
Lemma ret_ok {A} (a b : A) s s' : ret a s = (s', Ok b) <-> s' = s /\ b = a.
Proof. unfold ret. split; [intros [= <- <-]; auto|intros [-> ->]; auto]. Qed.
Lemma get_ok {A} (f : St -> A) b s s' : get f s = (s', Ok b) <-> s' = s /\ b = f s.
Proof. unfold get. split; [intros [= <- <-]; auto|intros [-> ->]; auto]. Qed.
Lemma modify_ok f (b : unit) s s' : modify f s = (s', Ok b) <-> s' = f s.
Proof. unfold modify. destruct b. split; [intros [= <-]; auto|intros ->; auto]. Qed.
Lemma ensure_ok c e (b : unit) s s' : ensure c e s = (s', Ok b) <-> s' = s /\ c = true.
Proof.
  destruct b, c; cbn; unfold ret, fail; split; try (intros [= <-]; auto); intros [? ?]; subst; auto; discriminate.
Qed.
Lemma assert_ok c e (b : unit) s s' : assert c e s = (s', Ok b) <-> s' = s /\ c = true.
Proof.
  destruct b, c; cbn; unfold ret, panic; split; try (intros [= <-]; auto); intros [? ?]; subst; auto; discriminate.
Qed.
Lemma lift_ok {A} e (o : option A) b s s' : lift e o s = (s', Ok b) <-> s' = s /\ o = Some b.
Proof.
  destruct o; cbn; unfold ret, panic; split; try (intros [= <- <-]; auto); intros [? [=]]; subst; auto; discriminate.
Qed.
Lemma must_ok {A} (m : M A) b s s' : must m s = (s', Ok b) <-> m s = (s', Ok b).
Proof. unfold must. destruct (m s) as [s1 [a|e|e]]; split; auto; discriminate. Qed.
Lemma recovered_ok {A} (m : M A) b s s' : recovered m s = (s', Ok b) <-> m s = (s', Ok b).
Proof. unfold recovered. destruct (m s) as [s1 [a|e|e]]; split; auto; discriminate. Qed.
Lemma try_ok {A} (m : M A) x s s' :
  try m s = (s', Ok x) <-> match x with inl a => m s = (s', Ok a) | inr e => m s = (s', Err e) end.
Proof.
  unfold try. destruct (m s) as [s1 [a|e|e]]; destruct x; split; congruence.
Qed.
Lemma fail_ok {A} e (b : A) s s' : fail e s = (s', Ok b) <-> False.
Proof. split; [discriminate|tauto]. Qed.
Lemma throw_ok {A} e (b : A) s s' : throw e s = (s', Ok b) <-> False.
Proof. split; [discriminate|tauto]. Qed.
Lemma panic_ok {A} e (b : A) s s' : panic e s = (s', Ok b) <-> False.
Proof. split; [discriminate|tauto]. Qed.

Ltac minv1 H :=
  lazymatch type of H with
  | bind _ _ _ = (_, Ok _) => apply bind_ok in H; destruct H as (? & ? & ? & H)
  | ret _ _ = (_, Ok _) => apply ret_ok in H; destruct H as [? ?]
  | get _ _ = (_, Ok _) => apply get_ok in H; destruct H as [? ?]
  | modify _ _ = (_, Ok _) => apply modify_ok in H
  | ensure _ _ _ = (_, Ok _) => apply ensure_ok in H; destruct H as [? ?]
  | assert _ _ _ = (_, Ok _) => apply assert_ok in H; destruct H as [? ?]
  | lift _ _ _ = (_, Ok _) => apply lift_ok in H; destruct H as [? ?]
  | must _ _ = (_, Ok _) => apply (proj1 (must_ok _ _ _ _)) in H
  | recovered _ _ = (_, Ok _) => apply (proj1 (recovered_ok _ _ _ _)) in H
  | try _ _ = (_, Ok _) => apply (proj1 (try_ok _ _ _ _)) in H
  | fail _ _ = (_, Ok _) => apply fail_ok in H; destruct H
  | throw _ _ = (_, Ok _) => apply throw_ok in H; destruct H
  | panic _ _ = (_, Ok _) => apply panic_ok in H; destruct H
  end.
(** Decompose every hypothesis about a successful run as far as it goes. *)
Ltac minv :=
  repeat match goal with
  | H : _ = (_, Ok _) |- _ => minv1 H; subst; cbn beta iota zeta in *
  end.

(** Loops *)
Lemma mfor_ok_nil {A} (f : A -> M unit) s s' b : mfor [] f s = (s', Ok b) <-> s' = s.
Proof. cbn. rewrite ret_ok. destruct b. tauto. Qed.
Lemma mfor_app {A} (l1 l2 : list A) f s :
  mfor (l1 ++ l2) f s = bind (mfor l1 f) (fun _ => mfor l2 f) s.
Proof.
  revert s. induction l1 as [|x l1 IH]; intros s; cbn; [reflexivity|].
  unfold bind. destruct (f x s) as [s1 [a|e|e]]; [|reflexivity|reflexivity].
  rewrite IH. reflexivity.
Qed.

(** ** Sorted keys of a store *)
Lemma elem_of_keysZ {A} (m : gmap Z A) k : k ∈ keysZ m <-> is_Some (m !! k).
Proof.
  unfold keysZ. rewrite merge_sort_Permutation, elem_of_list_fmap. split.
  - intros ([k' x] & -> & H). apply elem_of_map_to_list in H. cbn. eauto.
  - intros [x H]. exists (k, x). split; [reflexivity|]. by apply elem_of_map_to_list.
Qed.
Lemma elem_of_keysN {A} (m : gmap N A) k : k ∈ keysN m <-> is_Some (m !! k).
Proof.
  unfold keysN. rewrite merge_sort_Permutation, elem_of_list_fmap. split.
  - intros ([k' x] & -> & H). apply elem_of_map_to_list in H. cbn. eauto.
  - intros [x H]. exists (k, x). split; [reflexivity|]. by apply elem_of_map_to_list.
Qed.
Lemma NoDup_keysZ {A} (m : gmap Z A) : NoDup (keysZ m).
Proof. unfold keysZ. rewrite merge_sort_Permutation. apply NoDup_fst_map_to_list. Qed.
Lemma NoDup_keysN {A} (m : gmap N A) : NoDup (keysN m).
Proof. unfold keysN. rewrite merge_sort_Permutation. apply NoDup_fst_map_to_list. Qed.

#[export] Instance Zle_total : Total Z.le.
Proof. intros x y. lia. Qed.
#[export] Instance Nle_total : Total N.le.
Proof. intros x y. lia. Qed.
Lemma strict_sorted {A} (R S : A -> A -> Prop) (l : list A) :
  (forall x y, R x y -> x <> y -> S x y) ->
  StronglySorted R l -> NoDup l -> StronglySorted S l.
Proof.
  intros HRS Hs. induction Hs as [|x l Hs IH HF]; intros Hn; constructor.
  - apply IH. by inversion Hn.
  - inversion Hn as [|? ? Hx Hl]; subst. rewrite Forall_forall in *. intros y Hy.
    apply HRS; [by apply HF|]. intros ->. done.
Qed.
Lemma sorted_keysZ {A} (m : gmap Z A) : StronglySorted Z.lt (keysZ m).
Proof.
  apply (strict_sorted Z.le); [intros; lia| |apply NoDup_keysZ].
  unfold keysZ. apply StronglySorted_merge_sort; apply _.
Qed.
Lemma sorted_keysN {A} (m : gmap N A) : StronglySorted N.lt (keysN m).
Proof.
  apply (strict_sorted N.le); [intros; lia| |apply NoDup_keysN].
  unfold keysN. apply StronglySorted_merge_sort; apply _.
Qed.
(** A strictly sorted list is determined by its elements. *)
Lemma sorted_uniqueZ (l1 l2 : list Z) :
  StronglySorted Z.lt l1 -> StronglySorted Z.lt l2 -> (forall k, k ∈ l1 <-> k ∈ l2) -> l1 = l2.
Proof.
  intros H1. revert l2. induction H1 as [|x l1 H1 IH F1]; intros l2 H2 E.
  - destruct l2 as [|y l2]; [reflexivity|].
    exfalso. apply (not_elem_of_nil y), E. left.
  - destruct H2 as [|y l2 H2 F2].
    + exfalso. apply (not_elem_of_nil x), E. left.
    + rewrite Forall_forall in F1, F2.
      assert (x = y) as ->.
      { assert (Hx : x ∈ y :: l2) by (apply E; left).
        assert (Hy : y ∈ x :: l1) by (apply E; left).
        apply elem_of_cons in Hx as [->|Hx]; [reflexivity|].
        apply elem_of_cons in Hy as [->|Hy]; [reflexivity|].
        specialize (F1 _ Hy). specialize (F2 _ Hx). lia. }
      f_equal. apply IH; [exact H2|]. intros k. specialize (E k).
      rewrite !elem_of_cons in E. split; intros Hk.
      * destruct E as [E _]. destruct E as [->|?]; auto. specialize (F1 _ Hk). lia.
      * destruct E as [_ E]. destruct E as [->|?]; auto. specialize (F2 _ Hk). lia.
Qed.
