(** * The qualification check *)
From Verif Require Export NodingProofs Spec_Noding.
Open Scope Z_scope.

Lemma sum_upto_spec n : forall l x, sum_upto n l = Some x -> x = fold_right Z.add 0 (take (S n) l).
Proof.
  induction n as [|n IH]; intros [|y l] x H; cbn [sum_upto] in H; try done.
  - injection H as <-. cbn. destruct l; cbn; lia.
  - destruct (sum_upto n l) as [z|] eqn:E; [|done]. injection H as <-. rewrite (IH l z E). done.
Qed.
Lemma lines_max st : Nat.min (lines_opened st) 10 = lines_opened st.
Proof. unfold lines_opened. by repeat destruct (_ =? _). Qed.
Lemma is_qualified_spec a s s' q d : is_qualified a s = (s', Ok (q, d)) ->
  s' = s /\ d = delegated_below s a /\ (q = true <-> qualified s a).
Proof.
  intros H. split; [by apply qualified_read in H|]. unfold is_qualified, delegated_in_network in H.
  apply bind_ok in H as (d' & s1 & H1 & H). apply bind_ok in H1 as (r & s2 & H0 & H1). apply get_ok in H0 as [-> ->].
  apply lift_ok in H1 as [-> H1]. rewrite lines_max in H1. apply sum_upto_spec in H1. change (d' = delegated_below s a) in H1.
  do 3 (apply bind_ok in H as (? & ? & H0 & H); apply get_ok in H0 as [-> ->]). change (match st_val s !! a with Some x => n_staff x | None => false end) with (on_staff s a) in H.
  unfold qualified. destruct (on_staff s a). { apply ret_ok in H as [_ [= -> ->]]. split; [done|]. split; auto. }
  match type of H with context[if ?b then _ else _] => destruct b eqn:B1 end. { apply ret_ok in H as [_ [= -> ->]]. split; [done|]. split; [done|]. intros [?|[? _]]; [done|lia]. }
  apply bind_ok in H as (self & s1 & H0 & H). apply get_ok in H0 as [-> ->].
  apply bind_ok in H as (u & s1 & H0 & H). apply lift_ok in H0 as [-> H0].
  assert (U : forall x y, Frac.to_uint64 x = Some y -> y = x).
  { intros x y. unfold Frac.to_uint64. destruct (Frac.is_uint64 x); [by intros [= <-]|done]. }
  apply U in H0 as ->. match type of H with context[if ?b then _ else _] => destruct b eqn:B2 end. { apply ret_ok in H as [_ [= -> ->]]. split; [done|]. split; [done|]. intros [?|(_ & ? & _)]; [done|lia]. }
  apply bind_ok in H as (t & s1 & H0 & H). apply lift_ok in H0 as [-> H0]. apply U in H0 as ->.
  match type of H with context[if ?b then _ else _] => destruct b eqn:B3 end; apply ret_ok in H as [_ [= -> ->]]; rewrite <- H1; (split; [done|]).
  - split; [done|]. intros [?|(_ & _ & ?)]; [done|lia].
  - split; [|done]. intros _. right. lia.
Qed.
