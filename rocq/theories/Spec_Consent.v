(** * What the properties about consent and prices talk about *)
From Coq Require Import QArith Qround.
From Verif Require Import App Spec_Pure.
From Verif Require Export Spec_Profile.
Open Scope Z_scope.

(** ** Profiles *)

(** What the owner of a profile decides: automatic payment, noding, storage,
    validator and VPN switches, nickname and card number *)
Definition settings (p : profile) := (p_autopay p, p_noding p, p_storage p, p_validator p, p_vpn p, p_nick p, p_card p).
(** What time may do to a profile whose owner does nothing.  The settings stay;
    the automatic payment of extra storage may be switched off, not on.  Who does
    not pay automatically is given no further time; who does not pay automatically
    for extra storage keeps it as it is until it ends. *)
Definition aged (p p' : profile) : Prop :=
  settings p' = settings p /\ (p_im_autopay p' = true -> p_im_autopay p = true) /\
  (p_autopay p = false -> p_until p' = p_until p) /\
  (p_im_autopay p = false -> p_im_extra p' = p_im_extra p /\ p_im_until p' = p_im_until p \/ p_im_extra p' = 0 /\ p_im_until p' = None).
(** None of the messages of the transaction is signed by [z] *)
Definition not_signed (z : addr) (t : tx) : Prop := z ∉ map signer (tx_msgs t).

(** ** Prices *)

(** [s'] is [s] after [a] has paid [n] uartr to [b] *)
Definition handed_over (s s' : St) (a b : addr) (n : Z) : Prop :=
  (forall x, bal s' x uartr = bal s x uartr - at_ x a n + at_ x b n) /\
  (forall x d, d <> uartr -> bal s' x d = bal s x d) /\ supply s' = supply s.
(** No coin has moved *)
Definition still (s s' : St) : Prop := (forall x d, bal s' x d = bal s x d) /\ supply s' = supply s.
(** The nickname a list of updates ends with; [n] if none of them sets it *)
Definition nick_asked (us : list upd) (n : list N) : list N :=
  fold_left (fun n u => match u with UNick x => x | _ => n end) us n.
(** Only blanks *)
Definition blank (s : St) (n : list N) : Prop := forall c, c ∈ n -> st_space s c = true.

(** The part of a month left until [t] *)
Definition month_left (s : St) (t : time) : Q := (inject_Z (t - st_now s) / inject_Z (one_month s))%Q.
(** The price of [x] gigabytes at [unit] for the part [part] of a month *)
Definition gb_price (s : St) (unit x : Z) (part : Q) : Z :=
  trunc (qval (pp_token_rate (st_pp s)) * inject_Z (x * unit) * part).
(** The amounts fit the arithmetic of the program. *)
Definition gb_fits (s : St) (unit x : Z) (part : Q) : Prop :=
  0 < st_day s /\ - 2^63 <= x * unit < 2^63 /\ - 2^63 <= gb_price s unit x part < 2^63.
(** [a] has paid [n] for a purchase, fee included, and its profile is now [p'] *)
Definition bought (s s' : St) (a : addr) (n : Z) (p' : profile) : Prop :=
  exists fee, (if n =? 0 then fee = 0 else fee_of n s = Some fee) /\ 0 <= fee <= n /\ paid s s' a n fee /\
    st_prof s' = <[ a := p' ]> (st_prof s).
(** 64-bit unsigned sum *)
Definition plus64 (x y : Z) : Z := (x + y) mod 2^64.
(** Extra storage has been bought and its time is not over. *)
Definition im_now (s : St) (p : profile) : bool :=
  negb (p_im_extra p =? 0) && match p_im_until p with Some t => st_now s <? t | None => false end.
