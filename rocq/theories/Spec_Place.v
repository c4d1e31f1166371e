(** * What the properties about one's place in the network talk about *)
From Verif Require Import App.
From Verif Require Export Spec_Referral Spec_History.
Open Scope Z_scope.

(** [a] has a record in the referral network. *)
Definition member (s : St) (a : addr) : Prop := is_Some (st_ref s !! a).
(** The referrer [a] has asked to be moved to; nobody if it has not asked *)
Definition wished (s : St) (a : addr) : addr := r_transition (ref_get s a).
(** [z] is a member and not banished; its referrer is [p] and the referrer it
    has asked for is [q]. *)
Definition placed (s : St) (z p q : addr) : Prop :=
  member s z /\ banished s z = false /\ referrer s z = p /\ wished s z = q.
(** A step that does not concern the place of [z]: it is no request of [z] to be
    moved, and neither the banishment of [z] nor the compression of an account
    [z] is listed under. *)
Definition no_concern (z : addr) (x : step) (s : St) : Prop :=
  match x with
  | SMsg (MRequestTransition a _) => a <> z
  | SMsg _ => True
  | STask t => (t_hook t = HBanish -> t_data t <> z) /\ (t_hook t = HCompression -> z ∉ referrals s (t_data t))
  end.
