(** * Proofs about util/lists.go *)
From Coq Require Import List Bool Sorting.Sorted Permutation Lia.
From Verif Require Import Lists.
Import ListNotations.

Section proofs.
  Context {A : Type} (cmp : A -> A -> comparison).
  (** [cmp] is a strict total order. *)
  Hypothesis cmp_eq : forall x y, cmp x y = Eq <-> x = y.
  Hypothesis cmp_anti : forall x y, cmp y x = CompOpp (cmp x y).
  Hypothesis cmp_trans : forall x y z, cmp x y = Lt -> cmp y z = Lt -> cmp x z = Lt.

  Definition ltk (x y : A) : Prop := cmp x y = Lt.

  Lemma eqk_spec x y : reflect (x = y) (eqk cmp x y).
  Proof.
    unfold eqk. destruct (cmp x y) eqn:E; constructor.
    - now apply cmp_eq.
    - intros ->. assert (cmp y y = Eq) by now apply cmp_eq. congruence.
    - intros ->. assert (cmp y y = Eq) by now apply cmp_eq. congruence.
  Qed.

  Lemma contains_spec l x : contains cmp l x = true <-> In x l.
  Proof.
    induction l as [|s r IH]; simpl; [intuition discriminate|].
    destruct (eqk_spec s x); simpl; [intuition|]. rewrite IH. intuition.
  Qed.

  Lemma remove_ordered_spec l x :
    (~ In x l /\ remove_ordered cmp l x = (l, false)) \/
    (exists l1 l2, l = l1 ++ x :: l2 /\ ~ In x l1 /\ remove_ordered cmp l x = (l1 ++ l2, true)).
  Proof.
    induction l as [|s r IH]; simpl; [left; auto|].
    destruct (eqk_spec s x) as [->|N].
    - right. exists [], r. auto.
    - destruct IH as [[Hn E]|(l1 & l2 & -> & Hn & E)]; rewrite E.
      + left. intuition.
      + right. exists (s :: l1), l2. simpl. intuition.
  Qed.

  Lemma remove_fast_spec l x :
    (~ In x l /\ remove_fast cmp l x = (l, false)) \/
    (exists l1 l2 l', l = l1 ++ x :: l2 /\ ~ In x l1 /\ Permutation l' l2 /\
       remove_fast cmp l x = (l1 ++ l', true)).
  Proof.
    induction l as [|s r IH]; simpl; [left; auto|].
    destruct (eqk_spec s x) as [->|N].
    - right. exists [], r. eexists. split; [reflexivity|]. split; [auto|]. split; [|reflexivity].
      destruct (rev r) as [|z t] eqn:E.
      + assert (r = []) by (rewrite <- (rev_involutive r), E; reflexivity). subst. constructor.
      + assert (r = rev t ++ [z]) as -> by (rewrite <- (rev_involutive r), E; reflexivity).
        apply Permutation_cons_append.
    - destruct IH as [[Hn E]|(l1 & l2 & l' & -> & Hn & P & E)]; rewrite E.
      + left. intuition.
      + right. exists (s :: l1), l2, l'. simpl. intuition.
  Qed.

  Lemma add_onto_end_spec l x :
    (In x l /\ add_onto_end cmp l x = (l, false)) \/ (~ In x l /\ add_onto_end cmp l x = (l ++ [x], true)).
  Proof.
    unfold add_onto_end. destruct (contains cmp l x) eqn:E.
    - left. split; auto. now apply contains_spec.
    - right. split; auto. intro H. apply contains_spec in H. congruence.
  Qed.

  Lemma lt_irrefl x : ~ ltk x x.
  Proof. unfold ltk. assert (cmp x x = Eq) by now apply cmp_eq. congruence. Qed.

  Lemma sorted_head_min s r x : StronglySorted ltk (s :: r) -> In x r -> ltk s x.
  Proof. intros H I. inversion H; subst. rewrite Forall_forall in *. auto. Qed.

  Lemma add_sorted_spec l x : StronglySorted ltk l ->
    let '(l', b) := add_sorted cmp l x in
    StronglySorted ltk l' /\ (forall y, In y l' <-> y = x \/ In y l) /\ (b = true <-> ~ In x l) /\
    (b = false -> l' = l).
  Proof.
    induction l as [|s r IH]; intros Hs; simpl.
    - repeat split; auto; try (intros; tauto); try (constructor; constructor); try (simpl; intuition congruence).
    - destruct (cmp s x) eqn:E.
      + apply cmp_eq in E. subst. repeat split; auto; simpl; try intuition congruence.
      + inversion Hs; subst. specialize (IH H1).
        destruct (add_sorted cmp r x) as [r' b]. destruct IH as (S' & M & B & K).
        repeat split.
        * constructor; auto. rewrite Forall_forall in *. intros y Hy. apply M in Hy as [->|Hy]; auto.
        * simpl. rewrite M. intuition.
        * simpl. rewrite M. intuition.
        * intros Hb. simpl. apply B in Hb. intros [->|Hi]; [apply (lt_irrefl x); exact E|auto].
        * intros Hb. apply B. simpl in Hb. intuition.
        * intros Hb. now rewrite K.
      + assert (Lx : ltk x s) by (unfold ltk; rewrite cmp_anti, E; reflexivity).
        repeat split; auto; try (simpl; intuition congruence).
        * constructor; auto. rewrite Forall_forall. intros y [->|Hy]; auto.
          eapply cmp_trans; [exact Lx|]. now apply (sorted_head_min s r).
        * intros _ [->|Hi]; [now apply (lt_irrefl x)|].
          apply (lt_irrefl x). eapply cmp_trans; [exact Lx|]. now apply (sorted_head_min s r).
  Qed.

  Lemma merge_nil_r l : merge_sorted cmp l [] = l.
  Proof. destruct l; reflexivity. Qed.

  Lemma merge_in l1 : forall l2 y, In y (merge_sorted cmp l1 l2) <-> In y l1 \/ In y l2.
  Proof.
    induction l1 as [|a r1 IH1]; intros l2 y.
    - destruct l2; simpl; tauto.
    - induction l2 as [|b r2 IH2].
      + simpl. tauto.
      + simpl. destruct (cmp a b) eqn:E.
        * apply cmp_eq in E. subst. simpl. rewrite IH1. tauto.
        * simpl. rewrite IH1. simpl. tauto.
        * simpl in IH2. simpl. rewrite IH2. simpl. tauto.
  Qed.

  Lemma sorted_app_iff_all (s : A) l : StronglySorted ltk l -> (forall y, In y l -> ltk s y) -> StronglySorted ltk (s :: l).
  Proof. intros. constructor; auto. rewrite Forall_forall. auto. Qed.

  Lemma merge_sorted_sorted l1 : forall l2, StronglySorted ltk l1 -> StronglySorted ltk l2 ->
    StronglySorted ltk (merge_sorted cmp l1 l2).
  Proof.
    induction l1 as [|a r1 IH1]; intros l2 H1 H2.
    - destruct l2; simpl; auto.
    - induction l2 as [|b r2 IH2].
      + simpl. auto.
      + assert (H1' := H1). assert (H2' := H2). inversion H1'; subst. inversion H2'; subst.
        simpl. destruct (cmp a b) eqn:E.
        * apply cmp_eq in E. subst. apply sorted_app_iff_all; auto.
          intros y Hy. apply merge_in in Hy. rewrite Forall_forall in *. destruct Hy; auto.
        * apply sorted_app_iff_all; [now apply IH1|].
          intros y Hy. apply merge_in in Hy. rewrite Forall_forall in *. destruct Hy as [|[->|]]; auto.
          eapply cmp_trans; eauto. now apply H6.
        * assert (Lb : ltk b a) by (unfold ltk; rewrite cmp_anti, E; reflexivity).
          apply sorted_app_iff_all; [now apply IH2|].
          intros y Hy. apply (merge_in (a :: r1) r2 y) in Hy. rewrite Forall_forall in *. destruct Hy as [[->|]|]; auto.
          eapply cmp_trans; [exact Lb|]. now apply H4.
  Qed.
End proofs.
