(** * C74-: the start of a chain *)
From Verif Require Import GenesisProofs ExportProofs StatusProofs Witness Spec_Bank Spec_Genesis Props_Network.

Lemma run_ok {A} (m : M A) s : ok (eval m s) = true -> exists x, m s = (exec m s, Ok x).
Proof. unfold eval, exec. destruct (m s) as [s' [x|e|e]]; cbn; [eauto|discriminate|discriminate]. Qed.

(** ** C74 *)

(** A chain is started from a file without mistakes: its network is in order, it
    is the one the file describes, and line 0 of every member is what the member
    has. *)
Theorem C74 : forall g s s' u,
  tidy (st_now s) g -> blank s -> init_genesis g s = (s', Ok u) ->
  network s' /\ described (g_ref g) s' /\ forall x, x ∈ members s' -> own_line_right s' x.
Proof.
  intros g s s' u T F H. pose proof (init_imported _ _ _ _ T F H) as [I1 I2 I3 I4 I5 I6 I7].
  assert (M : forall x, x ∈ members s' <-> is_Some (st_ref s' !! x)).
  { intros x. unfold members. rewrite elem_of_list_fmap. split.
    - intros ([y r] & -> & Hy). apply elem_of_map_to_list in Hy. eauto.
    - intros [r Hr]. exists (x, r). split; [done|]. by apply elem_of_map_to_list. }
  assert (MI : forall x, x ∈ members s' -> in_file g x) by (intros x Hx; apply I2, M, Hx).
  assert (L : forall x, x ∈ listed (g_ref g) -> x ∈ members s' /\ banished s' x = false).
  { intros x Hx. split; [apply M, I4; apply elem_of_app; by left|by apply I5]. }
  split_and!.
  - by apply network_right.
  - split.
    + intros a Ha. destruct (L a) as [L1 L2]; [apply elem_of_app; by left|]. split_and!; [done|by apply I6|done].
    + intros p l a Hp Ha. destruct (L a) as [L1 L2]; [by eapply elem_listed|]. split_and!; [done|by eapply I7|done].
    + intros a Ha. by apply MI, elem_of_app in Ha.
  - intros x Hx. by apply own_line_held, I3, MI.
Qed.
Print Assumptions C74.

(** A file with two levels, a banished account, and all kinds of notes *)
Definition file1 : genesis := mkGen [] [(10%N, 1); (11%N, 2); (12%N, 3); (13%N, 4); (14%N, 5)]
  (mkRG [10%N] [(10, [11; 12]); (11, [13])]%N [(14, 13)]%N [(12%N, T0 + day_ns)] [] [(11%N, 2, T0 + day_ns)] [(13, 12)]%N)
  [(10%N, uc 1000000000000); (11%N, uc 20000000000); (12%N, uc 300); (13%N, uc 5000)] ∅
  [(10%N, p_zero <| p_until := Some (T0 + 400 * day_ns) |>); (11%N, p_zero <| p_until := Some (T0 + 40 * day_ns) |>); (12%N, p_zero)]
  [] [mkGV 10 100 0 0 0 false 0 [] false true 0 0 true []] [] (mkVG 24 24 [10%N] None 0 [] [] [] None [] []) [].
Definition start1 : St := exec (init_genesis file1) empty_chain.
(** How to see that a concrete file is tidy *)
Lemma tidy_checked now g :
  (exists rank : addr -> nat, Forall (fun e => snd e ∈ expelled (g_ref g) -> (rank (snd e) < rank (fst e))%nat) (rg_banished (g_ref g))) ->
  nobody ∉ listed (g_ref g) /\
  Forall (fun e => fst e ∈ listed (g_ref g) /\ fst e ∉ snd e) (rg_other (g_ref g)) /\
  Forall (fun e => fst e <> nobody /\ fst e ∉ listed (g_ref g) /\ snd e ∈ listed (g_ref g) ++ expelled (g_ref g)) (rg_banished (g_ref g)) /\
  Forall (fun e => fst e ∈ listed (g_ref g)) (rg_comp (g_ref g)) /\
  Forall (fun e => fst e ∈ listed (g_ref g)) (rg_ban (g_ref g)) /\
  Forall (fun e => fst (fst e) ∈ listed (g_ref g) /\ snd (fst e) <> 0) (rg_down (g_ref g)) /\
  Forall (fun e => fst e ∈ listed (g_ref g) /\ snd e ∈ listed (g_ref g)) (rg_trans (g_ref g)) /\
  Forall (fun e => fst e ∈ listed (g_ref g) ++ expelled (g_ref g) /\ (p_active now (snd e) = true -> fst e ∈ listed (g_ref g))) (g_profs g) ->
  tidy now g.
Proof.
  rewrite !Forall_forall. intros (rank & HR) (H1 & H2 & H3 & H4 & H5 & H6 & H7 & H8). rewrite Forall_forall in HR. split.
  - done.
  - intros p l. exact (H2 (p, l)).
  - intros a p. exact (H3 (a, p)).
  - exists rank. intros a p. exact (HR (a, p)).
  - intros a t. exact (H4 (a, t)).
  - intros a t. exact (H5 (a, t)).
  - intros a st t. exact (H6 (a, st, t)).
  - intros a p. exact (H7 (a, p)).
  - intros a p. exact (H8 (a, p)).
Qed.
Lemma file1_tidy : tidy T0 file1.
Proof.
  apply tidy_checked; [|apply (bool_decide_unpack _); vm_compute; exact I].
  exists (fun _ => 0%nat). apply (bool_decide_unpack _). vm_compute. exact I.
Qed.
Example C74_example :
  tidy (st_now empty_chain) file1 /\ blank empty_chain /\ (exists u, init_genesis file1 empty_chain = (start1, Ok u)) /\
  referrer start1 13 = 11%N /\ banished start1 14 = true /\ stored_coins start1 10 1 = 20000000300 /\ stored_coins start1 10 2 = 5000 /\
  stored_active start1 10 1 = 1 /\ status start1 11 = 2.
Proof.
  destruct (run_ok (init_genesis file1) empty_chain) as [u H]; [by vm_compute|].
  split; [exact file1_tidy|]. split; [split; reflexivity|]. split; [exists u; exact H|]. clear H. split_and!; by vm_compute.
Qed.

(** The same, followed by blocks: whatever the chain does from its start on,
    its network stays in order. *)
Theorem C74_history_partial : forall g s s1 u bs s' us,
  tidy (st_now s) g -> blank s -> init_genesis g s = (s1, Ok u) ->
  times_from (st_now s1) bs -> regular bs s1 -> run_blocks bs s1 = Some (s', us) -> network s'.
Proof. intros g s s1 u bs s' us T F H. eapply network_history. by eapply C74. Qed.
Print Assumptions C74_history_partial.

(** ** C75 *)

(** A chain the records of which are in order is exported, and another one is
    started from the file: it has the same members under the same referrers,
    with the same coins, and its network is in order.  (Banished accounts are
    members again; nothing is said about their place, because one with enough
    coins is taken back at once.)  Missing: the records that are not in order,
    see [C75_refuted]. *)
Theorem C75_partial : forall s g s0 s' u,
  settled (st_now s0) s -> export_genesis s = (s, Ok g) -> blank s0 -> init_genesis g s0 = (s', Ok u) ->
  network s' /\ (forall x, x ∈ members s' -> own_line_right s' x) /\
  (forall a, a ∈ members s' <-> a ∈ members s) /\
  (forall a, a ∈ members s -> banished s a = false -> banished s' a = false /\ referrer s' a = referrer s a) /\
  (forall a, balance s' a = balance s a).
Proof.
  intros s g s0 s' u SE HE B HI. pose proof (export_tidy _ _ _ _ SE HE) as T. pose proof (C74 _ _ _ _ T B HI) as (N & D & O).
  pose proof (init_imported _ _ _ _ T B HI) as [_ _ _ I4 _ _ _]. apply export_run in HE as (_ & HE & HB & _).
  pose proof (se_network _ _ SE) as NS. split_and!; [done|done| | |].
  - intros a. rewrite <- (export_everyone s _ NS HE a). split.
    + intros Ha. apply elem_of_app. by apply (ds_members _ _ D).
    + intros Ha. apply NetProofs.members_spec. by apply I4.
  - intros a Ha Hb. assert (L : a ∈ listed (g_ref g)) by (by apply (export_listed s _ NS HE)).
    apply elem_of_app in L as [L|L].
    + destruct (ds_top _ _ D a L) as (_ & R & Bn). split; [done|]. apply (export_top s _ HE) in L as (_ & _ & L). congruence.
    + apply elem_of_list_In, in_flat_map in L as ([p l] & Hp & L). apply elem_of_list_In in Hp. apply elem_of_list_In in L. cbn [snd] in L.
      destruct (ds_other _ _ D p l a Hp L) as (_ & R & Bn). split; [done|]. apply (export_other s _ HE) in Hp as (-> & Hl & _).
      assert (Pn : p <> nobody) by (intros ->; by rewrite (proj2 (nw_nobody _ NS)) in Hl).
      apply (nw_listed _ NS p a Pn) in L as [L _]. congruence.
  - intros a. rewrite (init_balances _ _ _ _ (balance s) (keysN (st_bal s)) HI B HB a). destruct (decide _) as [|Hn]; [done|].
    unfold balance. destruct (st_bal s !! a) as [c|] eqn:E; [|done]. exfalso. apply Hn, elem_of_keysN. eauto.
Qed.
Print Assumptions C75_partial.

Lemma settled_checked now s : network_check s ->
  nobody ∉ members s /\
  Forall (fun a => (banished s a = false -> status s a <> 0) /\ (banished s a = true -> referrer s a ∈ members s) /\
    (banished s a = false -> transition_of s a <> nobody -> transition_of s a ∈ members s /\ banished s (transition_of s a) = false)) (members s) /\
  Forall (fun e => fst e ∈ members s /\ (p_active now (snd e) = true -> banished s (fst e) = false)) (map_to_list (st_prof s)) ->
  settled now s.
Proof.
  intros N (H1 & H2 & H3). rewrite Forall_forall in H2. rewrite Forall_forall in H3. split.
  - by apply network_checked.
  - done.
  - intros a Ha. by apply H2.
  - intros a Ha. by apply H2.
  - intros a Ha. by apply H2.
  - intros a p Hp. apply elem_of_map_to_list in Hp. exact (H3 _ Hp).
Qed.
(** The chain of [C24_example], after the transition *)
Definition grown : St := after (take 2 growth) w0.
Definition restart (s : St) : St := empty_chain <| st_now := st_now s |> <| st_height := st_height s |>.
Definition exported (s : St) : genesis := match eval export_genesis s with Ok g => g | _ => file1 end.
Definition restarted (s : St) : St := exec (init_genesis (exported s)) (restart s).
Lemma exported_ok s : ok (eval export_genesis s) = true -> export_genesis s = (s, Ok (exported s)).
Proof.
  unfold exported, eval. destruct (export_genesis s) as [s1 [g|e|e]] eqn:E; cbn; [|done|done]. intros _. by apply export_run in E as [-> _].
Qed.
#[local] Instance network_check_decision s : Decision (network_check s).
Proof. unfold network_check. apply _. Defined.
Example C75_example :
  settled (st_now (restart grown)) grown /\ export_genesis grown = (grown, Ok (exported grown)) /\ blank (restart grown) /\
  (exists u, init_genesis (exported grown) (restart grown) = (restarted grown, Ok u)) /\
  members (restarted grown) = [15; 11; 13; 12; 20; 10; 14]%N /\ referrer (restarted grown) 15 = 12%N /\ stored_active (restarted grown) 10 2 = 2.
Proof.
  destruct (run_ok (init_genesis (exported grown)) (restart grown)) as [u H]; [by vm_compute|].
  split. { apply settled_checked; (apply (bool_decide_unpack _); vm_compute; exact I). }
  split. { apply exported_ok. by vm_compute. }
  split; [split; reflexivity|]. split; [exists u; exact H|]. clear H. split_and!; by vm_compute.
Qed.

(** An account registered as its own referrer is not found by the export, and is
    missing in the new chain. *)
Definition selfish : St := after self_block w0.
Theorem C75_refuted : exists bs s s1 us g s0 s' u a,
  network s /\ run_blocks bs s = Some (s1, us) /\ export_genesis s1 = (s1, Ok g) /\ st_now s0 = st_now s1 /\ blank s0 /\ init_genesis g s0 = (s', Ok u) /\
  a ∈ members s1 /\ banished s1 a = false /\ a ∉ members s'.
Proof.
  destruct (after_runs self_block w0) as [us H]; [by vm_compute|].
  destruct (run_ok (init_genesis (exported selfish)) (restart selfish)) as [u H1]; [by vm_compute|].
  assert (H2 : export_genesis selfish = (selfish, Ok (exported selfish))) by (apply exported_ok; by vm_compute).
  exists self_block, w0, selfish, us, (exported selfish), (restart selfish), (restarted selfish), u, 20%N. split_and!.
  - apply network_checked, (bool_decide_unpack _). vm_compute. exact I.
  - exact H.
  - exact H2.
  - reflexivity.
  - split; reflexivity.
  - exact H1.
  - apply (bool_decide_unpack _). vm_compute. exact I.
  - by vm_compute.
  - apply (bool_decide_unpack _). vm_compute. exact I.
Qed.
Print Assumptions C75_refuted.
