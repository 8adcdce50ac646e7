(** * Specification vocabulary for keeper requests (C04-C10, C42-C44, C54, C55). *)
From Verif Require Import Base Lists Types Account Exchange System.

(** The request stored at an index of an account, if any. *)
Definition request_at (w : world) (a : addr) (i : N) : option keeper_request :=
  match w_accounts w !! a with Some acc => kl_kvs (ac_requests acc) !! i | None => None end.
(** The number of requests ever submitted to an account. *)
Definition request_count (w : world) (a : addr) : N :=
  match w_accounts w !! a with Some acc => kl_ptr (ac_requests acc) | None => 0%N end.
(** The first index that has not been invalidated by a liquidation. *)
Definition valid_start (w : world) (a : addr) : N :=
  match w_accounts w !! a with Some acc => ac_vstart acc | None => 0%N end.
Definition active_set (w : world) (a : addr) : gset N :=
  match w_accounts w !! a with Some acc => ac_active acc | None => ∅ end.

Definition pending (s : N) : Prop := s = STATUS_DORMANT \/ s = STATUS_ACTIVE.
Definition final (s : N) : Prop := s = STATUS_EXECUTED \/ s = STATUS_CANCELLED \/ s = STATUS_EXPIRED.
(** The status changes the protocol documents. *)
Inductive status_move : N -> N -> Prop :=
| dormant_active : status_move STATUS_DORMANT STATUS_ACTIVE
| dormant_cancelled : status_move STATUS_DORMANT STATUS_CANCELLED
| dormant_expired : status_move STATUS_DORMANT STATUS_EXPIRED
| active_executed : status_move STATUS_ACTIVE STATUS_EXECUTED
| active_cancelled : status_move STATUS_ACTIVE STATUS_CANCELLED
| active_expired : status_move STATUS_ACTIVE STATUS_EXPIRED.

(** Calls that submit requests to an account, with their delay. *)
Definition submits (o : op) : option (addr * N) :=
  match o with
  | ORemoveCollateralRequest _ _ a _ _ => Some (a, 0%N)
  | OMarginOrderRequest _ delay _ a _ _ _ _ _ _ _ _ => Some (a, delay)
  | OMarginOrderTpSlRequest _ delay _ a _ _ _ _ _ _ _ => Some (a, delay)
  | _ => None
  end.
(** A time after the submission or expiry offset of a call; offsets of 2^63 and
    more wrap around. *)
Definition after (now : Z) (seconds : N) : Z := now + (if (seconds <? 2 ^ 63)%N then Z.of_N seconds else Z.of_N seconds - 2 ^ 64).
(** The index a reference stands for when the request gets index [n]. *)
Definition refers (r : index_ref) (n j : N) : Prop :=
  match r with IRIndex i => j = i | IRRelative off => Z.of_N j = Z.of_N n + off end.
