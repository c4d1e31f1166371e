(** * C76-: names, cards and account numbers of a new chain *)
From Verif Require Import NumberHist NameGenesis GenesisProofs ExportProofs Witness Spec_Profile Spec_Genesis Props_Profile Props_Genesis.
Open Scope Z_scope.

Lemma letters_same s s' : same_letters s s' -> cview s' = cview s.
Proof. intros [E1 E2 E3 E4]. unfold cview. congruence. Qed.

(** ** C76 *)

(** A chain started from a file that names no account twice and gives no
    nickname to two accounts: nicknames are unique and their owners are found
    under them, account numbers are 0, 1, 2, ..., and every profile has the card
    with the number of its account.  Missing: the other files, see
    [C76_refuted]. *)
Theorem C76_partial : forall g s s' u,
  letters_ok s -> nameless s -> names_apart s g -> init_genesis g s = (s', Ok u) ->
  names_ok s' /\ numbered s' /\ carded s'.
Proof.
  intros g s s' u L [A X P N] [N1 N2 N3] H. split_and!.
  - by eapply init_names.
  - by eapply init_numbered.
  - by eapply init_carded.
Qed.
Print Assumptions C76_partial.
(** And so it stays. *)
Theorem C76_history_partial : forall g s s1 u bs s' us,
  letters_ok s -> nameless s -> names_apart s g -> init_genesis g s = (s1, Ok u) ->
  times_from (st_now s1) bs -> run_blocks bs s1 = Some (s', us) ->
  names_ok s' /\ numbered s' /\ carded s'.
Proof.
  intros g s s1 u bs s' us L Z A H T R. destruct (C76_partial _ _ _ _ L Z A H) as (H1 & H2 & H3).
  destruct (card_blocks _ _ _ _ T R H1 H3) as [H4 H5]. split_and!; [done|by eapply num_blocks|done].
Qed.
Print Assumptions C76_history_partial.

Lemma letters_empty : letters_ok empty_chain.
Proof.
  assert (E : st_lower empty_chain = to_lower /\ st_space empty_chain = is_space) by (split; by vm_compute).
  intros c. destruct E as [-> ->]. unfold to_lower, is_space. destruct ((65 <=? c) && (c <=? 90))%N eqn:E; [|done].
  destruct (N.eqb_spec c 32), (N.eqb_spec (c + 32) 32); lia.
Qed.
Definition with_nicks (n m : list N) (g : genesis) : genesis :=
  mkGen (g_tasks g) (g_accs g) (g_ref g) (g_bals g) (g_supply g)
    [(10%N, p_zero <| p_nick := n |> <| p_until := Some (T0 + 400 * day_ns) |>); (11%N, p_zero <| p_nick := m |> <| p_until := Some (T0 + 40 * day_ns) |>); (12%N, p_zero)]
    (g_del g) (g_active g) (g_other g) (g_vote g) (g_earn g).
Definition file2 : genesis := with_nicks alice abc file1.
Definition start2 : St := exec (init_genesis file2) empty_chain.
Definition step2 : list block :=
  [blk (T0 + psec) [tx1 (MCreateAccount 10 20 11 (Some (p_zero <| p_nick := [97; 98; 100]%N |>))); tx1 (MUpdateProfile 11 [UNick [99; 100; 101]%N])]].
Definition state2 : St := after step2 start2.
Lemma apart_checked s g : NoDup (map fst (g_accs g)) /\ NoDup (map fst (g_profs g)) /\
  Forall (fun e => Forall (fun f => trim s (p_nick (snd e)) <> [] -> nick_key s (p_nick (snd e)) = nick_key s (p_nick (snd f)) -> fst e = fst f) (g_profs g)) (g_profs g) ->
  names_apart s g.
Proof.
  intros (H1 & H2 & H3). split; [done|done|]. intros a p b q Ha Hb. rewrite Forall_forall in H3. specialize (H3 _ Ha). rewrite Forall_forall in H3. exact (H3 _ Hb).
Qed.
Lemma file2_apart : names_apart empty_chain file2.
Proof. apply apart_checked, (bool_decide_unpack _). vm_compute. exact I. Qed.
Lemma empty_nameless : nameless empty_chain.
Proof. split; reflexivity. Qed.
Example C76_example :
  letters_ok empty_chain /\ nameless empty_chain /\ names_apart empty_chain file2 /\ (exists u, init_genesis file2 empty_chain = (start2, Ok u)) /\
  times_from (st_now start2) step2 /\ (exists us, run_blocks step2 start2 = Some (state2, us)) /\
  nickname state2 11 = [99; 100; 101]%N /\ owner_of state2 alice2 = Some 10%N /\ card state2 20 = Some (Z.lxor 6 3735928559) /\ owner_of state2 abc = None.
Proof.
  destruct (run_ok (init_genesis file2) empty_chain) as [u H]; [by vm_compute|]. destruct (after_runs step2 start2) as [us H2]; [by vm_compute|].
  split; [exact letters_empty|]. split; [exact empty_nameless|]. split; [exact file2_apart|]. split; [exists u; exact H|]. clear H.
  split; [vm_compute; repeat split; congruence|]. split; [exists us; exact H2|]. clear H2. split_and!; by vm_compute.
Qed.

(** A file that gives one nickname to two accounts is accepted.  Both have it,
    and only one of them is found under it. *)
Definition file3 : genesis := with_nicks alice alice2 file1.
Theorem C76_refuted : exists g s s' u a b,
  letters_ok s /\ nameless s /\ NoDup (map fst (g_accs g)) /\ NoDup (map fst (g_profs g)) /\ init_genesis g s = (s', Ok u) /\
  a <> b /\ nick_key s' (nickname s' a) = nick_key s' (nickname s' b) /\ nickname s' a <> [] /\ owner_of s' (nickname s' a) = Some b.
Proof.
  destruct (run_ok (init_genesis file3) empty_chain) as [u H]; [by vm_compute|].
  exists file3, empty_chain, (exec (init_genesis file3) empty_chain), u, 10%N, 11%N.
  split; [exact letters_empty|]. split; [exact empty_nameless|]. split; [apply (bool_decide_unpack _); vm_compute; exact I|].
  split; [apply (bool_decide_unpack _); vm_compute; exact I|]. split; [exact H|]. clear H.
  split; [done|]. split; [by vm_compute|]. split; [|by vm_compute].
  assert (E : nickname (exec (init_genesis file3) empty_chain) 10 = alice) by by vm_compute. rewrite E. discriminate.
Qed.
Print Assumptions C76_refuted.

(** ** C77 *)

(** A chain is started from such a file and lives through any blocks; its state
    is exported, and another chain started from that file.  It has the same
    profiles with the same cards, the same accounts with the same numbers, and
    its records of nicknames, cards and numbers are in order. *)
Theorem C77 : forall g0 s00 s1 u0 bs s us g s0 s' u,
  letters_ok s00 -> nameless s00 -> names_apart s00 g0 -> init_genesis g0 s00 = (s1, Ok u0) ->
  times_from (st_now s1) bs -> run_blocks bs s1 = Some (s, us) ->
  export_genesis s = (s, Ok g) -> nameless s0 -> same_letters s s0 -> init_genesis g s0 = (s', Ok u) ->
  (forall a, st_prof s' !! a = st_prof s !! a) /\
  (forall a, st_accs s' !! a = st_accs s !! a) /\
  names_ok s'.
Proof.
  intros g0 s00 s1 u0 bs s us g s0 s' u L Z A H T R HE [A0 X0 P0 N0] SL HI.
  destruct (C76_history_partial _ _ _ _ _ _ _ L Z A H T R) as (H1 & (H2 & H3 & H4) & H5). apply letters_same in SL.
  assert (G : forall n, 0 <= n < st_next_acc s -> exists a, st_accs s !! a = Some n) by (intros n; by apply H4).
  assert (G0 : forall a n, st_accs s !! a = Some n -> 0 <= n) by (intros a n Ha; apply (H4 n); eauto).
  destruct (names_again s g s0 s' u H1 H5 G G0 SL A0 X0 P0 N0 HE HI) as (K1 & K2 & _ & K3). split_and!; [done|by apply K3|done].
Qed.
Print Assumptions C77.
Example C77_example :
  (exists u, init_genesis file2 empty_chain = (start2, Ok u)) /\ times_from (st_now start2) step2 /\ (exists us, run_blocks step2 start2 = Some (state2, us)) /\
  export_genesis state2 = (state2, Ok (exported state2)) /\ nameless (restart state2) /\ same_letters state2 (restart state2) /\
  (exists u, init_genesis (exported state2) (restart state2) = (restarted state2, Ok u)) /\
  nickname (restarted state2) 11 = [99; 100; 101]%N /\ card (restarted state2) 20 = Some (Z.lxor 6 3735928559).
Proof.
  destruct (run_ok (init_genesis file2) empty_chain) as [u H]; [by vm_compute|]. destruct (after_runs step2 start2) as [us H2]; [by vm_compute|].
  destruct (run_ok (init_genesis (exported state2)) (restart state2)) as [u' H3]; [by vm_compute|].
  split; [exists u; exact H|]. clear H. split; [vm_compute; repeat split; congruence|]. split; [exists us; exact H2|]. clear H2.
  split. { apply exported_ok. by vm_compute. }
  split; [split; reflexivity|]. split; [split; by vm_compute|]. split; [exists u'; exact H3|]. clear H3. split_and!; by vm_compute.
Qed.
