(** * What the properties of profile updates talk about *)
From Verif Require Import App.
From Verif Require Export Spec_Referral Spec_Consent.

(** [v] is what the updates ask for where [f] says what one update asks for: the
    value of the last that asks for anything, or the [old] one if none does. *)
Definition asked {A} (f : upd -> option A) (us : list upd) (old v : A) : Prop :=
  (exists before u after, us = before ++ u :: after /\ f u = Some v /\ Forall (fun x => f x = None) after) \/
  (Forall (fun x => f x = None) us /\ v = old).
(** What one update asks for *)
Definition autopay_in (u : upd) : option bool := match u with UAutoPay b => Some b | _ => None end.
Definition noding_in (u : upd) : option bool := match u with UNoding b => Some b | _ => None end.
Definition storage_in (u : upd) : option bool := match u with UStorage b => Some b | _ => None end.
Definition validator_in (u : upd) : option bool := match u with UValidator b => Some b | _ => None end.
Definition vpn_in (u : upd) : option bool := match u with UVpn b => Some b | _ => None end.
Definition im_autopay_in (u : upd) : option bool := match u with UImAutoPay b => Some b | _ => None end.
Definition nick_in (u : upd) : option (list N) := match u with UNick n => Some n | _ => None end.

(** The number of bytes of a text in UTF-8 *)
Definition bytes (n : list N) : Z :=
  sum (map (fun c => if decide (c < 128)%N then 1 else if decide (c < 2048)%N then 2 else if decide (c < 65536)%N then 3 else 4) n).
(** A nickname that may be asked for: none, or at least three bytes without
    blanks and punctuation ( * / : ' quote = [ ] , . ) that do not start with ARTR- *)
Definition proper_nick (n : list N) : Prop :=
  n = [] \/
  (3 <= bytes n /\ (forall c, c ∈ n -> c ∉ [32; 42; 47; 58; 39; 34; 61; 91; 93; 44; 46]%N) /\
   forall rest, n <> [65; 82; 84; 82; 45]%N ++ rest).
