(** * What the properties of the start of a chain talk about *)
From Verif Require Import Spec_Profile.
From Verif Require Export Spec_Network Genesis.

(** The accounts the genesis file puts into the referral network: those at the
    top, those under a referrer, and the banished ones *)
Definition listed (g : rgen) : list addr := rg_top g ++ flat_map snd (rg_other g).
Definition expelled (g : rgen) : list addr := map fst (rg_banished g).

(** A file without the mistakes the import does not notice: everything it says
    is said about accounts it puts into the network, nobody is their own
    referral, nobody is both listed and banished, the former referrers of
    banished accounts do not run in circles, and the accounts with a running
    subscription are not banished. *)
Record tidy (now : time) (g : genesis) : Prop := mkTidy {
  td_nobody : nobody ∉ listed (g_ref g);
  td_referrer : forall p l, (p, l) ∈ rg_other (g_ref g) -> p ∈ listed (g_ref g) /\ p ∉ l;
  td_banished : forall a p, (a, p) ∈ rg_banished (g_ref g) ->
    a <> nobody /\ a ∉ listed (g_ref g) /\ p ∈ listed (g_ref g) ++ expelled (g_ref g);
  td_ends : exists rank : addr -> nat, forall a p, (a, p) ∈ rg_banished (g_ref g) -> p ∈ expelled (g_ref g) -> (rank p < rank a)%nat;
  td_compression : forall a t, (a, t) ∈ rg_comp (g_ref g) -> a ∈ listed (g_ref g);
  td_banishment : forall a t, (a, t) ∈ rg_ban (g_ref g) -> a ∈ listed (g_ref g);
  td_downgrade : forall a st t, (a, st, t) ∈ rg_down (g_ref g) -> a ∈ listed (g_ref g) /\ st <> 0;
  td_transition : forall a p, (a, p) ∈ rg_trans (g_ref g) -> a ∈ listed (g_ref g) /\ p ∈ listed (g_ref g);
  td_profile : forall a p, (a, p) ∈ g_profs g ->
    a ∈ listed (g_ref g) ++ expelled (g_ref g) /\ (p_active now p = true -> a ∈ listed (g_ref g)) }.

(** A chain nothing has happened on: no records, no coins *)
Definition blank (s : St) : Prop := st_ref s = ∅ /\ st_bal s = ∅.

(** The chain has the network the file describes.  (A banished account with
    enough coins is taken back at once, so nothing is said about its place.) *)
Record described (g : rgen) (s : St) : Prop := mkDescribed {
  ds_top : forall a, a ∈ rg_top g -> a ∈ members s /\ referrer s a = nobody /\ banished s a = false;
  ds_other : forall p l a, (p, l) ∈ rg_other g -> a ∈ l -> a ∈ members s /\ referrer s a = p /\ banished s a = false;
  ds_members : forall a, a ∈ members s -> a ∈ listed g \/ a ∈ expelled g }.

(** The referrer an account has asked for, as long as the request is open *)
Definition transition_of (s : St) (a : addr) : addr := r_transition (ref_get s a).
(** A chain in a state fit for being exported: the network is in order, nobody
    is in it without an address or without a status, banished accounts were
    expelled from under a member, transitions are to members that are not
    banished, only members have profiles, and no banished one has a running
    subscription. *)
Record settled (now : time) (s : St) : Prop := mkSettled {
  se_network : network s;
  se_nobody : nobody ∉ members s;
  se_status : forall a, a ∈ members s -> banished s a = false -> status s a <> 0;
  se_former : forall a, a ∈ members s -> banished s a = true -> referrer s a ∈ members s;
  se_transition : forall a, a ∈ members s -> banished s a = false -> transition_of s a <> nobody ->
    transition_of s a ∈ members s /\ banished s (transition_of s a) = false;
  se_profile : forall a p, st_prof s !! a = Some p -> a ∈ members s /\ (p_active now p = true -> banished s a = false) }.

(** The numbers of the accounts are 0, 1, 2, ... without gaps, and the account
    that collects the fees has one. *)
Definition numbered (s : St) : Prop :=
  acc_exists s fee_collector = true /\ 0 <= st_next_acc s /\
  forall n, 0 <= n < st_next_acc s <-> exists a, st_accs s !! a = Some n.
(** Every profile has its card: the number of its account, disguised. *)
Definition carded (s : St) : Prop :=
  forall a p, st_prof s !! a = Some p -> exists n, st_accs s !! a = Some n /\ p_card p = Z.lxor n (pp_card_magic (st_pp s)).

(** A file that names no account twice and gives no nickname to two accounts *)
Record names_apart (s : St) (g : genesis) : Prop := mkApart {
  na_accounts : NoDup (map fst (g_accs g));
  na_profiles : NoDup (map fst (g_profs g));
  na_nicknames : forall a p b q, (a, p) ∈ g_profs g -> (b, q) ∈ g_profs g ->
    trim s (p_nick p) <> [] -> nick_key s (p_nick p) = nick_key s (p_nick q) -> a = b }.
(** A chain without accounts and names *)
Record nameless (s : St) : Prop := mkNameless {
  nl_accounts : st_accs s = ∅; nl_next : st_next_acc s = 0; nl_profiles : st_prof s = ∅; nl_nicknames : st_nick s = ∅ }.
(** The same alphabet, and the same number cards are disguised with *)
Record same_letters (s s' : St) : Prop := mkLetters {
  sl_lower : st_lower s' = st_lower s; sl_title : st_title s' = st_title s; sl_space : st_space s' = st_space s;
  sl_magic : pp_card_magic (st_pp s') = pp_card_magic (st_pp s) }.
