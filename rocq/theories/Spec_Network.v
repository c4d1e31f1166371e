(** * What the properties of the referral network as a whole talk about *)
From Verif Require Export Spec_Referral Spec_History.

(** Everyone with a record in the network *)
Definition members (s : St) : list addr := map fst (map_to_list (st_ref s)).
(** The members, except the banished ones, whose [k]-th referrer is [a] (the
    0-th one is the member itself) *)
Definition at_line (s : St) (k : nat) (a : addr) : list addr :=
  filter (fun x => up s k x = a /\ banished s x = false) (members s).
(** What an account has: main, delegated and revoking coins; and what of it is
    delegated *)
Definition holding (s : St) (a : addr) : Z :=
  amt (balance s a) uartr + amt (balance s a) uartrd + amt (balance s a) uartrr.
Definition delegation (s : St) (a : addr) : Z := amt (balance s a) uartrd.
(** What the records say: coins, delegated coins and active accounts at a line *)
Definition stored_coins (s : St) (a : addr) (k : nat) : Z := line (r_coins (ref_get s a)) k.
Definition stored_deleg (s : St) (a : addr) (k : nat) : Z := line (r_deleg (ref_get s a)) k.
Definition stored_active (s : St) (a : addr) (k : nat) : Z := line (r_cnt (ref_get s a)) k.

(** The records describe a forest, and what they say about the lines 1 to 9 is
    what the accounts of the line say about themselves.  ([nobody] stands for a
    missing address.) *)
Record network (s : St) : Prop := mkNetwork {
  nw_nobody : referrer s nobody = nobody /\ referrals s nobody = [];
  (* going from referrer to referrer comes to an end *)
  nw_ends : forall a, exists n, up s n a = nobody;
  (* the referrals of an account are those that name it as their referrer, except the banished ones *)
  nw_listed : forall p x, p <> nobody -> (x ∈ referrals s p <-> referrer s x = p /\ banished s x = false);
  nw_once : forall p, NoDup (referrals s p);
  nw_banished : forall a, banished s a = true -> referrals s a = [] /\ referrer s a <> nobody /\ active s a = false;
  (* the active ones among the referrals *)
  nw_active : forall p, p <> nobody -> active_referrals s p ≡ₚ filter (fun x => active s x = true) (referrals s p);
  nw_compression : forall a t, r_compression_at (ref_get s a) = Some t -> active s a = false /\ banished s a = false;
  nw_coins : forall a k, a <> nobody -> (1 <= k <= 9)%nat ->
    stored_coins s a k = sum (map (fun x => stored_coins s x 0) (at_line s k a));
  nw_deleg : forall a k, a <> nobody -> (1 <= k <= 9)%nat ->
    stored_deleg s a k = sum (map (fun x => stored_deleg s x 0) (at_line s k a));
  (* the counters are numbers of 64 bits *)
  nw_count : forall a k, a <> nobody -> (k <= 9)%nat ->
    stored_active s a k = Z.of_nat (List.length (filter (fun x => active s x = true) (at_line s k a))) mod 2 ^ 64;
  nw_range : forall a k, 0 <= stored_active s a k < 2 ^ 64;
  (* the record of the missing address, should there be one, counts itself as well *)
  nw_none : stored_active s nobody 0 = if active s nobody then 1 else 0 }.

(** The part of this that is about the lists only: an account lists those that
    name it as their referrer, except the banished ones, each once, and among
    them marks the active ones.  It says nothing about where the chains of
    referrers lead. *)
Record lists_right (s : St) : Prop := mkLists {
  lr_nobody : referrer s nobody = nobody /\ referrals s nobody = [];
  lr_listed : forall p x, p <> nobody -> (x ∈ referrals s p <-> referrer s x = p /\ banished s x = false);
  lr_once : forall p, NoDup (referrals s p);
  lr_banished : forall a, banished s a = true -> active s a = false;
  lr_active : forall p, p <> nobody -> active_referrals s p ≡ₚ filter (fun x => active s x = true) (referrals s p) }.

(** Somebody registers [a] as its own referrer in the course of the history. *)
Definition self_made (bs : list block) (s : St) (a : addr) : Prop :=
  exists c p s1, (SMsg (MCreateAccount c a a p), s1) ∈ steps bs s.
(** The chains of referrers: each comes to an end, the last of it having no
    referrer or being its own one; and the referrer of a banished account, if
    there is one, is in the network. *)
Record chains_right (s : St) : Prop := mkChains {
  cr_ends : forall a, exists n, referrer s (up s n a) = up s n a;
  cr_known : forall a, banished s a = true -> referrer s a = nobody \/ referrer s a ∈ members s }.

(** The histories the claims are proved for: nobody is registered as their own
    referral; when a banishment is carried out, the account has no referrals. *)
Definition network_step (x : step) (s : St) : Prop :=
  match x with
  | SMsg (MCreateAccount _ a r _) => a <> r
  | STask t => t_hook t = HBanish -> referrals s (t_data t) = []
  | _ => True
  end.
Definition regular (bs : list block) (s : St) : Prop := forall x s1, (x, s1) ∈ steps bs s -> network_step x s1.

(** What an account says about itself is true: the record is in use, and its
    0-th line holds what the account has. *)
Definition own_line_right (s : St) (x : addr) : Prop :=
  (status s x <> 0 \/ banished s x = true) /\ stored_coins s x 0 = holding s x /\ stored_deleg s x 0 = delegation s x.
(** Somebody registers [x] in the course of the history. *)
Definition registered_in (bs : list block) (s : St) (x : addr) : Prop :=
  exists c r p s1, (SMsg (MCreateAccount c x r p), s1) ∈ steps bs s.
