(** * What the properties of profiles talk about *)
From Coq Require Import QArith Qround.
From Verif Require Import App Spec_Pure.
From Verif Require Export Spec_Bank Spec_Delegating.
Open Scope Z_scope.

(** ** Nicknames and card numbers *)

(** Two nicknames are the same when they are equal up to the case of letters
    and the blanks around them. *)
Definition nick_key (s : St) (n : list N) : list N := lower s (trim s n).
(** Whom the nickname belongs to, as the query by nickname answers *)
Definition owner_of (s : St) (n : list N) : option addr := nick_owner s n.
(** The nickname of an account, empty if it has none *)
Definition nickname (s : St) (a : addr) : list N := match st_prof s !! a with Some p => p_nick p | None => [] end.
Definition card (s : St) (a : addr) : option Z := option_map p_card (st_prof s !! a).
(** Whom the card belongs to, as the query by card number answers *)
Definition card_owner (s : St) (c : Z) : option addr := st_card s !! c.

(** Blanks stay blanks in lower case (true of Unicode). *)
Definition letters_ok (s : St) : Prop := forall c, st_space s (st_lower s c) = st_space s c.

(** The records of names, cards and accounts agree. *)
Record names_ok (s : St) : Prop := {
  no_letters : letters_ok s;
  (* the owner of a nickname is found under it *)
  no_nick : forall a p, st_prof s !! a = Some p -> trim s (p_nick p) <> [] -> st_nick s !! nick_key s (p_nick p) = Some a;
  (* what nicknames are recorded under has no blanks around *)
  no_keys : forall k a, st_nick s !! k = Some a -> trim s k = k;
  (* no nickname looks like a card number *)
  no_prefix : forall a p, st_prof s !! a = Some p -> has_prefix artr_prefix (title s (trim s (p_nick p))) = false;
  (* account numbers *)
  no_below : forall a n, st_accs s !! a = Some n -> n < st_next_acc s;
  no_number : forall a b n, st_accs s !! a = Some n -> st_accs s !! b = Some n -> a = b;
  no_profile : forall a p, st_prof s !! a = Some p -> acc_exists s a = true;
  (* a card has the number of its account, disguised; the first accounts may have none *)
  no_card : forall a p, st_prof s !! a = Some p -> p_card p <> 0 ->
    st_card s !! p_card p = Some a /\
    exists n, st_accs s !! a = Some n /\ p_card p = Z.lxor n (pp_card_magic (st_pp s))
}.

(** A nickname without blanks around it *)
Definition trimmed (s : St) (n : list N) : Prop := trim s n = n.
(** The messages of a transaction give no nicknames with blanks around them. *)
Definition upd_trimmed (s : St) (u : upd) : Prop := match u with UNick n => trimmed s n | _ => True end.
Definition msg_trimmed (s : St) (m : msg) : Prop :=
  match m with
  | MUpdateProfile _ us => Forall (upd_trimmed s) us
  | MCreateAccount _ _ _ (Some p) => trimmed s (p_nick p)
  | _ => True
  end.
Definition tx_trimmed (s : St) (t : tx) : Prop := Forall (msg_trimmed s) (tx_msgs t).
(** Every nickname is without blanks, and only nicknames in use are recorded. *)
Definition names_clean (s : St) : Prop :=
  (forall a p, st_prof s !! a = Some p -> trimmed s (p_nick p)) /\
  (forall k a, st_nick s !! k = Some a -> exists p, st_prof s !! a = Some p /\ p_nick p <> [] /\ lower s (p_nick p) = k).

(** ** Subscription *)

(** Until when an account is active *)
Definition until (s : St) (a : addr) : option time := match st_prof s !! a with Some p => p_until p | None => None end.
Definition active_now (s : St) (p : profile) : bool := match p_until p with Some t => st_now s <? t | None => false end.
(** What is asked of the storage, in bytes: the amount given, or as before, or the amount included *)
Definition storage_asked (s : St) (p : profile) (gbs : Z) : Z :=
  if gbs =? 0 then (if p_storage_limit p =? 0 then pp_base_storage (st_pp s) * gb else p_storage_limit p) else gbs * gb.
(** The published price of a month *)
Definition month_price (s : St) : Z := trunc (qval (pp_token_rate (st_pp s)) * inject_Z (pp_sub_price (st_pp s))).
(** The price of [b] bytes of storage for a month *)
Definition storage_price (s : St) (b : Z) : Q :=
  (qval (pp_token_rate (st_pp s)) * inject_Z (pp_storage_price (st_pp s)) * (inject_Z b / inject_Z gb))%Q.
(** The surcharge for storage: for what exceeds the amount included, and, when
    the limit of an active account changes, for the rest of the current month *)
Definition surcharge (s : St) (p : profile) (b : Z) : Z :=
  let next := storage_price s (b - pp_base_storage (st_pp s) * gb) in
  match p_until p with
  | Some t =>
      if active_now s p && negb (b =? p_storage_limit p)
      then Z.max 0 (Qfloor (next + storage_price s (b - p_storage_limit p) * (inject_Z (t - st_now s) / inject_Z (one_month s))))
      else trunc next
  | None => trunc next
  end.
(** No amount of storage exceeds what the arithmetic of the program can hold. *)
Definition storage_fits (s : St) (p : profile) (b : Z) : Prop :=
  0 < st_day s /\ 0 <= b < 2^63 /\ 0 <= p_storage_limit p < 2^63 /\
  0 <= pp_base_storage (st_pp s) * gb < 2^63 /\
  - 2^63 <= (b - pp_base_storage (st_pp s) * gb) * pp_storage_price (st_pp s) < 2^63 /\
  (forall t, p_until p = Some t -> t - st_now s < 2^63).
(** [s'] is [s] after [a] has paid [total], of which [fee] goes to the fee splitter and the rest to the company *)
Definition paid (s s' : St) (a : addr) (total fee : Z) : Prop :=
  (forall x, bal s' x uartr = bal s x uartr - at_ x a total + at_ x (rp_company (st_rp s)) (total - fee) + at_ x splitter fee) /\
  (forall x d, d <> uartr -> bal s' x d = bal s x d) /\
  supply s' = supply s.
(** The subscription of [a], whose profile is [p], is paid for once, and its end moved by one month *)
Definition tariff_paid (s s' : St) (a : addr) (p : profile) (gbs : Z) (auto : bool) : Prop :=
  let b := storage_asked s p gbs in
  exists total fee p',
    (storage_fits s p b -> total = month_price s + surcharge s p b) /\
    fee_of (month_price s) s = Some fee /\ 0 <= fee <= total /\
    paid s s' a total fee /\
    st_prof s' = <[ a := p' ]> (st_prof s) /\
    p_until p' = (if negb (active_now s p) && negb auto then Some (st_now s + one_month s)
                  else option_map (fun t => t + one_month s) (p_until p)).
(** A step of history in which either nobody's paid time changes or one account pays for its own *)
Definition pays (a : addr) (s s' : St) : Prop :=
  exists p gbs auto, st_prof s !! a = Some p /\ tariff_paid s s' a p gbs auto.
Inductive astep (s s' : St) : Prop :=
  | A_same : (forall a, until s' a = until s a) -> astep s s'
  | A_pay a : pays a s s' -> (forall x, x <> a -> until s' x = until s x) -> astep s s'.
(** The messages of a transaction create no accounts that are active from the start. *)
Definition msg_unpaid (m : msg) : Prop :=
  match m with MCreateAccount _ _ _ (Some p) => p_until p = None | _ => True end.
Definition tx_unpaid (t : tx) : Prop := Forall msg_unpaid (tx_msgs t).

(** ** Traffic and extra storage *)

(** The traffic limit after the monthly reset: what was used beyond the amount
    included is taken off, but at least the amount included is left. *)
Definition vpn_after (s : St) (p : profile) : Z :=
  let base := pp_base_vpn (st_pp s) * gb in Z.max base (p_vpn_limit p - Z.max 0 (p_vpn_cur p - base)).
(** No more was used than the limit and the amount included allow. *)
Definition vpn_fits (s : St) (p : profile) : Prop :=
  0 <= p_vpn_limit p < 2^64 /\ 0 <= pp_base_vpn (st_pp s) /\ p_vpn_cur p <= p_vpn_limit p + pp_base_vpn (st_pp s) * gb.
(** The traffic of a profile is not touched, or counted anew *)
Definition vpn_same (p p' : profile) : Prop := p_vpn_limit p' = p_vpn_limit p /\ p_vpn_cur p' = p_vpn_cur p.
Definition vpn_reset (s : St) (p p' : profile) : Prop := p_vpn_limit p' = vpn_after s p /\ p_vpn_cur p' = 0.
(** The price of one more month of the extra storage of [p] *)
Definition im_price (s : St) (p : profile) : Z :=
  trunc (qval (pp_token_rate (st_pp s)) * inject_Z (p_im_extra p * pp_storage_price (st_pp s))).
(** [a] has paid the fee [f] to the fee splitter, nothing else has moved. *)
Definition fee_taken (s s' : St) (a : addr) (f : Z) : Prop :=
  (forall x, bal s' x uartr = bal s x uartr - at_ x a f + at_ x splitter f) /\ (forall x d, d <> uartr -> bal s' x d = bal s x d).
