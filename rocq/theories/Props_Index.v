(** * C106: the lists of accounts by status *)
From Verif Require Import IndexGen Witness Spec_Bank Spec_Genesis Spec_Index Props_Genesis.

Lemma with_status_spec s st l : with_status s st l -> NoDup l /\ 5 <= st /\ forall a, a ∈ l <-> (st, a) ∈ st_index s.
Proof.
  unfold with_status, query_with_status. destruct (_ && _) eqn:E; [|done]. intros H. injection H as <-.
  apply andb_prop in E as [_ E]. apply Z.leb_le in E. unfold min_indexed in E.
  set (f := List.filter (fun e : Z * addr => fst e =? st) (elements (st_index s))).
  assert (F : forall e, e ∈ f <-> fst e = st /\ e ∈ st_index s).
  { intros e. unfold f. rewrite elem_of_list_In, filter_In, <- elem_of_list_In, elem_of_elements, Z.eqb_eq. tauto. }
  assert (N : NoDup f).
  { unfold f. apply NoDup_ListNoDup, List.NoDup_filter, NoDup_ListNoDup, NoDup_elements. }
  split_and!; [|done|].
  - rewrite merge_sort_Permutation. clear -F N. assert (G : forall e, e ∈ f -> fst e = st) by (intros e He; by apply F). clear F.
    induction N as [|[x y] l Hx Hl IH]; cbn; [constructor|]. constructor; [|apply IH; intros; apply G; by right].
    intros H. apply Hx. apply elem_of_list_fmap in H as ([x2 y2] & E2 & H). cbn in E2. subst y2.
    assert (E1 : x = st) by (apply (G (x, y)); left). assert (E2 : x2 = st) by (apply (G (x2, y)); by right). congruence.
  - intros a. rewrite merge_sort_Permutation, elem_of_list_fmap. split.
    + intros ([x y] & -> & H). apply F in H as [<- H]. done.
    + intros H. exists (st, a). split; [done|]. by apply F.
Qed.
(** Asking for a high status gives a list. *)
Lemma with_status_high s st : st ∈ high -> exists l, with_status s st l.
Proof. unfold high. rewrite !elem_of_cons, elem_of_nil. intros [->|[->|[->|[->|[]]]]]; eexists; reflexivity. Qed.

(** A chain is started from a genesis file and runs; no task or hook is cut
    short.  Then whoever has a high status is on the list of that status.
    Missing: histories where something is cut short, or a renewal meets a
    banished account. *)
Theorem C106_complete_partial : forall g s s1 u bs s' us,
  st_ref s = ∅ -> st_index s = ∅ -> init_genesis g s = (s1, Ok u) ->
  times_from (st_now s1) bs -> renewed_in_place bs s1 -> run_blocks bs s1 = Some (s', us) -> aborts s' = aborts s1 ->
  forall st l a, with_status s' st l -> status s' a = st -> a ∈ l.
Proof.
  intros g s s1 u bs s' us E1 E2 HI HT HF HR HA st l a Hl <-. apply with_status_spec in Hl as (_ & L & Hl). apply Hl.
  assert (X : ixs false s').
  { eapply blocks_ix; [exact HT| |exact HR|exact HA|by eapply init_ix; [..|exact HI]].
    intros t s2 Ht. unfold finds. destruct (t_hook t) eqn:EH; try done. by eapply HF. }
  by apply (proj1 (X a)).
Qed.
Print Assumptions C106_complete_partial.

(** If moreover nobody is banished in the file, and a banishment never finds an
    account with a high status, the list has the accounts with that status and
    nobody else, each once. *)
Theorem C106_partial : forall g s s1 u bs s' us,
  st_ref s = ∅ -> st_index s = ∅ -> rg_banished (g_ref g) = [] -> init_genesis g s = (s1, Ok u) ->
  times_from (st_now s1) bs -> renewed_in_place bs s1 -> banished_low bs s1 -> run_blocks bs s1 = Some (s', us) -> aborts s' = aborts s1 ->
  forall st, st ∈ high -> exists l, with_status s' st l /\ NoDup l /\ forall a, a ∈ l <-> status s' a = st.
Proof.
  intros g s s1 u bs s' us E1 E2 EB HI HT HF HL HR HA st Hst. destruct (with_status_high s' st Hst) as [l Hl]. exists l. split; [done|].
  apply with_status_spec in Hl as (N & L & Hl). split; [done|]. intros a. rewrite Hl.
  assert (X : ixs true s').
  { eapply blocks_ix; [exact HT| |exact HR|exact HA|by eapply init_ix; [..|exact HI]].
    intros t s2 Ht. unfold finds. destruct (t_hook t) eqn:EH; try done; [by eapply HF|]. intros _. by eapply HL. }
  destruct (X a) as [X1 X2]. split.
  - intros H. by apply (proj1 (X2 eq_refl)) in H as [H _].
  - intros <-. by apply X1.
Qed.
Print Assumptions C106_partial.

(** How to see the two conditions on a concrete history *)
Definition place_check (x : step * St) : bool :=
  match fst x with
  | STask t => match t_hook t with HRefresh => negb (banished (snd x) (t_data t)) | HBanish => status (snd x) (t_data t) <? 5 | _ => true end
  | SMsg _ => true
  end.
Lemma place_checked bs s : forallb place_check (steps bs s) = true -> renewed_in_place bs s /\ banished_low bs s.
Proof.
  rewrite forallb_forall. intros H. split; intros t s1 Ht EH; apply elem_of_list_In in Ht; specialize (H _ Ht); cbv [place_check fst snd] in H; rewrite EH in H.
  - by apply negb_true_iff.
  - by apply Z.ltb_lt.
Qed.

(** Two accounts have a high status until it is taken from them: from one after
    three days, from the other one after five. *)
Definition file2 : genesis := mkGen
  [Task (T0 + 3 * day_ns) HDowngrade 12%N; Task (T0 + 5 * day_ns) HDowngrade 13%N; Task (T0 + 4 * day_ns) HBanish 13%N]
  [(10%N, 1); (11%N, 2); (12%N, 3); (13%N, 4)]
  (mkRG [10%N] [(10, [11; 12]); (11, [13])]%N [] [] [(13%N, T0 + 4 * day_ns)]
        [(12%N, 6, T0 + 3 * day_ns); (13%N, 5, T0 + 5 * day_ns)] [])
  [(10%N, uc 1000000000000); (11%N, uc 20000000000); (12%N, uc 300); (13%N, uc 5000)] ∅
  [(10%N, p_zero <| p_until := Some (T0 + 400 * day_ns) |>)]
  [] [mkGV 10 100 0 0 0 false 0 [] false true 0 0 true []] [] (mkVG 24 24 [10%N] None 0 [] [] [] None [] []) [].
Definition start2 : St := exec (init_genesis file2) empty_chain.
Definition hist2a : list block := [blk (T0 + day_ns) []; blk (T0 + 3 * day_ns) []].
Definition hist2b : list block := hist2a ++ [blk (T0 + 4 * day_ns) []].
Example C106_complete_example :
  st_ref empty_chain = ∅ /\ st_index empty_chain = ∅ /\ (exists u, init_genesis file2 empty_chain = (start2, Ok u)) /\
  times_from (st_now start2) hist2b /\ renewed_in_place hist2b start2 /\
  (exists us, run_blocks hist2b start2 = Some (after hist2b start2, us)) /\ aborts (after hist2b start2) = aborts start2 /\
  with_status (after hist2b start2) 5 [12; 13]%N /\ status (after hist2b start2) 12 = 5.
Proof.
  destruct (run_ok (init_genesis file2) empty_chain) as [u H]; [by vm_compute|].
  split; [reflexivity|]. split; [reflexivity|]. split; [exists u; exact H|]. clear H. split; [vm_compute; repeat split; congruence|].
  split.
  { assert (P : forallb (fun x => match fst x with
      | STask t => match t_hook t with HRefresh => negb (banished (snd x) (t_data t)) | _ => true end
      | SMsg _ => true end) (steps hist2b start2) = true) by by vm_compute.
    rewrite forallb_forall in P. intros t s1 Ht EH. apply elem_of_list_In in Ht. specialize (P _ Ht). cbv [fst snd] in P. rewrite EH in P. by apply negb_true_iff. }
  split; [apply after_runs; by vm_compute|]. split; [by vm_compute|]. split; by vm_compute.
Qed.
Example C106_example :
  st_ref empty_chain = ∅ /\ st_index empty_chain = ∅ /\ rg_banished (g_ref file2) = [] /\ (exists u, init_genesis file2 empty_chain = (start2, Ok u)) /\
  times_from (st_now start2) hist2a /\ renewed_in_place hist2a start2 /\ banished_low hist2a start2 /\
  (exists us, run_blocks hist2a start2 = Some (after hist2a start2, us)) /\ aborts (after hist2a start2) = aborts start2 /\
  (* one account comes from the list of the sixth status to that of the fifth *)
  with_status start2 6 [12%N] /\ with_status start2 5 [13%N] /\
  with_status (after hist2a start2) 6 [] /\ with_status (after hist2a start2) 5 [12; 13]%N.
Proof.
  destruct (run_ok (init_genesis file2) empty_chain) as [u H]; [by vm_compute|].
  split; [reflexivity|]. split; [reflexivity|]. split; [reflexivity|]. split; [exists u; exact H|]. clear H. split; [vm_compute; repeat split; congruence|].
  destruct (place_checked hist2a start2) as [P1 P2]; [by vm_compute|]. split; [exact P1|]. split; [exact P2|]. clear P1 P2.
  split; [apply after_runs; by vm_compute|]. split; [by vm_compute|]. split; [by vm_compute|]. split; [by vm_compute|]. split; by vm_compute.
Qed.

(** The lists are not right in general: the chain is started from a file
    without mistakes, and one of two accounts with the fifth status is banished,
    which takes its status away.  It stays on the list of the fifth status. *)
Theorem C106_refuted : exists g s s1 u bs s' us l a,
  tidy (st_now s) g /\ blank s /\ st_index s = ∅ /\ rg_banished (g_ref g) = [] /\ init_genesis g s = (s1, Ok u) /\
  times_from (st_now s1) bs /\ renewed_in_place bs s1 /\ run_blocks bs s1 = Some (s', us) /\ aborts s' = aborts s1 /\
  with_status s' 5 l /\ a ∈ l /\ banished s' a = true /\ status s' a = 0.
Proof.
  destruct C106_complete_example as (_ & E2 & [u H3] & H4 & H5 & [us H6] & H7 & H8 & _).
  exists file2, empty_chain, start2, u, hist2b, (after hist2b start2), us, [12; 13]%N, 13%N.
  split. { apply tidy_checked; [exists (fun _ => 0%nat); constructor|]. apply (bool_decide_unpack _). vm_compute. exact I. }
  split; [split; reflexivity|]. split; [exact E2|]. split; [reflexivity|]. split; [exact H3|]. split; [exact H4|]. split; [exact H5|].
  split; [exact H6|]. split; [exact H7|]. split; [exact H8|]. clear. split; [right; left|]. split; by vm_compute.
Qed.
Print Assumptions C106_refuted.
