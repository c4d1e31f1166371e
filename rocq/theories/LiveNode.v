(** * Validators can leave, respondents can answer *)
From Coq Require Import QArith.
From Verif Require Import Spec_Pure QualProofs LiveProofs Spec_Live Spec_Noding Spec_Voting.
Open Scope Z_scope.

Lemma wp_off a x s : st_val s !! a = Some x ->
  wp (switch_off a) (fun _ s' => (exists y, st_val s' !! a = Some y /\ n_status y = false) /\ forall b, b <> a -> st_val s' !! b = st_val s !! b) s.
Proof.
  intros E. unfold switch_off, val_update. apply wp_bind. eapply wp_of; [unfold val_get; rewrite E; reflexivity|]. apply wp_bind.
  destruct (n_status x) eqn:N; cbn [negb].
  2: { apply wp_ret, wp_ret. split; [by exists x|done]. }
  apply wp_bind. eapply (wp_mono _ (fun y s' => n_status y = false /\ st_val s' = st_val s)).
  - unfold if_in_lottery. cbn [n_lottery]. change (n_lottery (x <| n_status := false |>)) with (n_lottery x). destruct (n_lottery x =? 0) eqn:L; [by apply wp_ret|].
    apply wp_must. unfold lottery_exclude. change (n_lottery (x <| n_status := false |>)) with (n_lottery x). rewrite L. apply wp_bind, wp_modify, wp_ret. done.
  - intros y s1 [Y V]. apply wp_ret. unfold val_set. apply wp_modify. split.
    + exists y. split; [|done]. change (<[ a := y ]> (st_val s1) !! a = Some y). apply lookup_insert.
    + intros b Hb. change (<[ a := y ]> (st_val s1) !! b = st_val s !! b). rewrite lookup_insert_ne by done. by rewrite V.
Qed.

Lemma score_same il d x : n_status (fst (update_score il d x)) = n_status x /\ n_jailed (fst (update_score il d x)) = n_jailed x /\ n_banned (fst (update_score il d x)) = n_banned x.
Proof. unfold update_score. cbv zeta. by destruct (_ =? n_score x). Qed.

Lemma wp_unjail a x s : healthy s -> st_val s !! a = Some x -> n_jailed x = true -> n_unjail_at x <= st_height s ->
  wp (unjail a) (fun _ s' => (exists y, st_val s' !! a = Some y /\ n_jailed y = false /\ n_banned y = n_banned x /\ (n_status y = true <-> n_status x = true /\ qualified s a)) /\
     forall b, b <> a -> st_val s' !! b = st_val s !! b) s.
Proof.
  intros H E J U. unfold unjail. apply wp_bind. eapply wp_of; [unfold val_get; rewrite E; reflexivity|].
  apply wp_bind, wp_ensure; [done|]. apply wp_bind, wp_get, wp_bind, wp_ensure; [lia|]. cbv zeta. apply wp_bind.
  pose proof (wp_qualified a s H ltac:(by exists x)) as W. apply wp_run in W as (s1 & [q d] & W & -> & D). eapply wp_of; [exact W|].
  apply is_qualified_spec in W as (_ & _ & Q). cbn [snd] in D.
  assert (S : forall y, (forall b, b <> a -> st_val (s <| st_val := <[ a := y ]> (st_val s) |>) !! b = st_val s !! b) /\ st_val (s <| st_val := <[ a := y ]> (st_val s) |>) !! a = Some y).
  { intros y. split; [intros b Hb; change (<[ a := y ]> (st_val s) !! b = st_val s !! b); by rewrite lookup_insert_ne|].
    change (<[ a := y ]> (st_val s) !! a = Some y). apply lookup_insert. }
  destruct q.
  - apply wp_bind. apply (wp_lift _ _ d); [apply int64_some; lia|]. apply wp_bind, wp_get, wp_modify.
    destruct (S (fst (update_score (st_ilog s) d (x <| n_jailed := false |>)))) as [S1 S2]. split; [|exact S1].
    eexists. split; [exact S2|]. destruct (score_same (st_ilog s) d (x <| n_jailed := false |>)) as (-> & -> & ->).
    split_and!; try done. change (n_status x = true <-> n_status x = true /\ qualified s a). tauto.
  - apply wp_modify. destruct (S (x <| n_jailed := false |> <| n_status := false |>)) as [S1 S2]. split; [|exact S1].
    eexists. split; [exact S2|]. split_and!; try done. split; [done|]. intros [_ X]. by apply Q in X.
Qed.

Lemma wp_qual a s : healthy s -> (11 <= List.length (r_deleg (ref_get s a)))%nat -> wp (is_qualified a) (fun qd s' => s' = s) s.
Proof.
  intros H HL. unfold is_qualified, delegated_in_network. destruct (healthy_fit s a H) as [_ HF].
  set (n := Nat.min (lines_opened (r_status (ref_get s a))) 10).
  assert (Hn : (n <= 10)%nat) by lia. specialize (HF n Hn).
  apply wp_bind, wp_bind, wp_get. apply (wp_lift _ _ (upto (ref_get s a) n)); [apply sum_upto_line; lia|].
  apply wp_bind, wp_get. apply wp_bind, wp_get. apply wp_bind, wp_get.
  destruct (match st_val s !! a with Some x => n_staff x | None => false end); [by apply wp_ret|].
  destruct (_ <? np_min_status (st_np s)); [by apply wp_ret|].
  pose proof (healthy_deleg s a H) as HD. unfold delegation in HD.
  apply wp_bind, wp_get. apply wp_bind. apply (wp_lift _ _ (amt (balance s a) uartrd)); [by apply uint64_some|].
  destruct (_ <? np_min_self (st_np s)); [by apply wp_ret|].
  apply wp_bind. apply (wp_lift _ _ (upto (ref_get s a) n)); [by apply uint64_some|].
  destruct (_ <? np_min_total (st_np s)); by apply wp_ret.
Qed.

Lemma wp_answer a yes p s : st_poll s = Some p -> st_answers s !! a = None -> may_answer (po_req p) s a ->
  (po_req p = ReqValidate -> healthy s /\ (11 <= List.length (r_deleg (ref_get s a)))%nat) ->
  wp (answer a yes) (fun _ s' => st_answers s' = <[ a := yes ]> (st_answers s) /\ st_poll s' = Some p) s.
Proof.
  intros E A M HQ. unfold answer. apply wp_bind, wp_get. rewrite E. apply wp_bind.
  eapply (wp_mono _ (fun _ s' => s' = s)).
  - unfold may_answer in M. destruct (po_req p) as [| |st] eqn:R.
    all: try (by apply wp_ret).
    all: try (destruct (HQ eq_refl) as [H HL]; pose proof (wp_qual a s H HL) as W; apply wp_run in W as (s1 & [q d] & W & ->);
      apply wp_bind, wp_must; eapply wp_of; [exact W|]; apply is_qualified_spec in W as (_ & _ & Q); apply wp_ensure; [by apply Q|done]).
    all: apply wp_bind, wp_get, wp_ensure; [lia|done].
  - intros [] ? ->. apply wp_bind, wp_get. rewrite A. apply wp_bind, wp_modify, wp_modify. destruct yes; split; done.
Qed.
