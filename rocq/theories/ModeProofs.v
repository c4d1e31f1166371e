(** * Relations kept by some runs only

    [okrel]: by successful runs.  [nprel]: by runs that do not panic (a panic is
    undone with its transaction, logged with its task, or stops the node). *)
From Verif Require Export Sweep.

Definition okrel (R : St -> St -> Prop) {A} (m : M A) : Prop := forall s s' a, m s = (s', Ok a) -> R s s'.
Definition nprel (R : St -> St -> Prop) {A} (m : M A) : Prop :=
  forall s s' r, m s = (s', r) -> (forall e, r <> Panic e) -> R s s'.

Lemma okrel_rel R {A} (m : M A) : rel R m -> okrel R m.
Proof. intros H s s' a E. specialize (H s). by rewrite E in H. Qed.
Lemma nprel_rel R {A} (m : M A) : rel R m -> nprel R m.
Proof. intros H s s' r E _. specialize (H s). by rewrite E in H. Qed.
Lemma okrel_nprel R {A} (m : M A) : nprel R m -> okrel R m.
Proof. intros H s s' a E. (eapply H; solve [eauto | intros ?; discriminate]). Qed.

Section modes.
  Context (R : St -> St -> Prop) `{!PreOrder R}.

  Lemma okrel_bind {A B} (m : M A) (f : A -> M B) :
    okrel R m -> (forall a, okrel R (f a)) -> okrel R (bind m f).
  Proof. intros Hm Hf s s' b H. apply bind_ok in H as (a & s1 & H1 & H2). transitivity s1; [(eapply Hm; solve [eauto | intros ?; discriminate])|(eapply Hf; solve [eauto | intros ?; discriminate])]. Qed.
  Lemma okrel_get {A} (f : St -> A) : okrel R (get f).
  Proof. apply okrel_rel, rel_get; apply _. Qed.
  Lemma okrel_modify f : (forall s, R s (f s)) -> okrel R (modify f).
  Proof. intros H. by apply okrel_rel, rel_modify. Qed.
  Lemma okrel_must {A} (m : M A) : okrel R m -> okrel R (must m).
  Proof. intros H s s' a E. apply (proj1 (must_ok _ _ _ _)) in E. (eapply H; solve [eauto | intros ?; discriminate]). Qed.
  Lemma okrel_try {A} (m : M A) : nprel R m -> okrel R (try m).
  Proof. intros H s s1 a E. apply (proj1 (try_ok _ _ _ _)) in E. destruct a; (eapply H; [exact E|]; intros ?; discriminate). Qed.
  Lemma okrel_mfor {A} (l : list A) f : (forall x, okrel R (f x)) -> okrel R (mfor l f).
  Proof. intros H. induction l as [|x l IH]; cbn; [by apply okrel_rel, rel_ret|apply okrel_bind; auto]. Qed.
  Lemma okrel_mfold {A B} (l : list A) (b : B) f : (forall b x, okrel R (f b x)) -> okrel R (mfold l b f).
  Proof.
    intros H. revert b. induction l as [|x l IH]; intros b; cbn; [by apply okrel_rel, rel_ret|apply okrel_bind; auto].
  Qed.
  Lemma okrel_when b m : okrel R m -> okrel R (when b m).
  Proof. destruct b; [auto|intros; apply okrel_rel, rel_ret, _]. Qed.

  Lemma nprel_bind {A B} (m : M A) (f : A -> M B) :
    nprel R m -> (forall a, nprel R (f a)) -> nprel R (bind m f).
  Proof.
    intros Hm Hf s s' b H HP. unfold bind in H. specialize (Hm s). destruct (m s) as [s1 [a|e|e]].
    - transitivity s1; [(eapply Hm; solve [eauto | intros ?; discriminate])|(eapply Hf; solve [eauto | intros ?; discriminate])].
    - injection H as <- <-. (eapply Hm; solve [eauto | intros ?; discriminate]).
    - injection H as <- <-. by destruct (HP e).
  Qed.
  Lemma nprel_get {A} (f : St -> A) : nprel R (get f).
  Proof. apply nprel_rel, rel_get; apply _. Qed.
  Lemma nprel_modify f : (forall s, R s (f s)) -> nprel R (modify f).
  Proof. intros H. by apply nprel_rel, rel_modify. Qed.
  Lemma nprel_must {A} (m : M A) : okrel R m -> nprel R (must m).
  Proof.
    intros H s s' r E HP. unfold must in E. specialize (H s). destruct (m s) as [s1 [a|e|e]]; injection E as <- <-.
    - eapply H; solve [reflexivity | intros ?; discriminate].
    - by destruct (HP e).
    - by destruct (HP e).
  Qed.
  Lemma nprel_try {A} (m : M A) : nprel R m -> nprel R (try m).
  Proof.
    intros H s s' r E HP. unfold try in E. specialize (H s). destruct (m s) as [s1 [a|e|e]]; injection E as <- <-.
    - eapply H; solve [reflexivity | intros ?; discriminate].
    - eapply H; solve [reflexivity | intros ?; discriminate].
    - by destruct (HP e).
  Qed.
  Lemma nprel_mfor {A} (l : list A) f : (forall x, nprel R (f x)) -> nprel R (mfor l f).
  Proof. intros H. induction l as [|x l IH]; cbn; [by apply nprel_rel, rel_ret|apply nprel_bind; auto]. Qed.
  Lemma nprel_mfold {A B} (l : list A) (b : B) f : (forall b x, nprel R (f b x)) -> nprel R (mfold l b f).
  Proof.
    intros H. revert b. induction l as [|x l IH]; intros b; cbn; [by apply nprel_rel, rel_ret|apply nprel_bind; auto].
  Qed.
  Lemma nprel_when b m : nprel R m -> nprel R (when b m).
  Proof. destruct b; [auto|intros; apply nprel_rel, rel_ret, _]. Qed.
End modes.
#[export] Hint Resolve okrel_nprel okrel_rel nprel_rel : modes.

Ltac mode_struct :=
  lazymatch goal with
  | |- okrel _ (bind _ _) => apply okrel_bind; [typeclasses eauto| |intros ?]
  | |- okrel _ (modify _) => apply okrel_modify; intros ?; cbv beta
  | |- okrel _ (must _) => apply okrel_must
  | |- okrel _ (try _) => apply okrel_try
  | |- okrel _ (when _ _) => apply okrel_when; [typeclasses eauto|]
  | |- okrel _ (mfor _ _) => apply okrel_mfor; [typeclasses eauto|intros ?]
  | |- okrel _ (mfold _ _ _) => apply okrel_mfold; [typeclasses eauto|intros ? ?]
  | |- okrel _ (match ?x with _ => _ end) => destruct x
  | |- okrel _ (let '(_, _) := ?x in _) => destruct x
  | |- okrel _ (let _ := _ in _) => cbv zeta
  | |- okrel _ ((fun _ => _) _) => cbv beta
  | |- okrel _ (ret _) => apply okrel_rel, rel_ret; typeclasses eauto
  | |- okrel _ (fail _) => apply okrel_rel, rel_fail; typeclasses eauto
  | |- okrel _ (throw _) => apply okrel_rel, rel_throw; typeclasses eauto
  | |- okrel _ (panic _) => apply okrel_rel, rel_panic; typeclasses eauto
  | |- okrel _ (get _) => apply okrel_rel, rel_get; typeclasses eauto
  | |- okrel _ (lift _ _) => apply okrel_rel, rel_lift; typeclasses eauto
  | |- okrel _ (ensure _ _) => apply okrel_rel, rel_ensure; typeclasses eauto
  | |- okrel _ (assert _ _) => apply okrel_rel, rel_assert; typeclasses eauto
  | |- nprel _ (bind _ _) => apply nprel_bind; [typeclasses eauto| |intros ?]
  | |- nprel _ (modify _) => apply nprel_modify; intros ?; cbv beta
  | |- nprel _ (must _) => apply nprel_must
  | |- nprel _ (try _) => apply nprel_try
  | |- nprel _ (when _ _) => apply nprel_when; [typeclasses eauto|]
  | |- nprel _ (mfor _ _) => apply nprel_mfor; [typeclasses eauto|intros ?]
  | |- nprel _ (mfold _ _ _) => apply nprel_mfold; [typeclasses eauto|intros ? ?]
  | |- nprel _ (match ?x with _ => _ end) => destruct x
  | |- nprel _ (let '(_, _) := ?x in _) => destruct x
  | |- nprel _ (let _ := _ in _) => cbv zeta
  | |- nprel _ ((fun _ => _) _) => cbv beta
  | |- nprel _ (ret _) => apply nprel_rel, rel_ret; typeclasses eauto
  | |- nprel _ (fail _) => apply nprel_rel, rel_fail; typeclasses eauto
  | |- nprel _ (throw _) => apply nprel_rel, rel_throw; typeclasses eauto
  | |- nprel _ (panic _) => apply nprel_rel, rel_panic; typeclasses eauto
  | |- nprel _ (get _) => apply nprel_rel, rel_get; typeclasses eauto
  | |- nprel _ (lift _ _) => apply nprel_rel, rel_lift; typeclasses eauto
  | |- nprel _ (ensure _ _) => apply nprel_rel, rel_ensure; typeclasses eauto
  | |- nprel _ (assert _ _) => apply nprel_rel, rel_assert; typeclasses eauto
  end.
