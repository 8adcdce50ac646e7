(** * Specification vocabulary for the referral generator (C35, C36). *)
From Verif Require Import Base Lists Types Config Oracle Pool Account Fees Referral ExInternal Exchange System Sums Spec.

(** Uses a code, or an allocation, has left. *)
Definition uses_left (c : rcode) : Z := Z.of_N (rc_max c) - Z.of_N (rc_count c).
Definition slots_left (a : ralloc) : Z := Z.of_N (ra_max a) - Z.of_N (ra_count a).
(** What the codes, and the allocations, still promise of a resource. *)
Definition promised_by_codes (w : world) (r : resource) : Z := msum (fun _ c => uses_left c * amount_in r (rc_claims c)) (gn_codes (w_gen w)).
Definition promised_by_allocations (w : world) (r : resource) : Z := msum (fun _ l => lsum (fun a => slots_left a * amount_in r (ra_claims a)) l) (gn_allocs (w_gen w)).
Definition generator_vault (w : world) (r : resource) : Z := default 0 (gn_vaults (w_gen w) !! r).
(** Referral uses handed out for a referral: the uses of its codes, and the codes its allocations can still issue. *)
Definition issued (w : world) (id : N) : Z :=
  msum (fun _ c => if (rc_ref c =? id)%N then Z.of_N (rc_max c) else 0) (gn_codes (w_gen w)) + lsum slots_left (default [] (gn_allocs (w_gen w) !! id)).
(** Uses made of the codes of a referral, and accounts opened with it. *)
Definition used (w : world) (id : N) : Z := msum (fun _ c => if (rc_ref c =? id)%N then Z.of_N (rc_count c) else 0) (gn_codes (w_gen w)).
Definition referred_accounts (w : world) (id : N) : Z := msum (fun _ a => if bool_decide (ac_ref a = Some id) then 1 else 0) (w_accounts w).
(** The accounts a history opened with the code hashing to [h]. *)
Definition claims_code (E : env) (h : N) (o : op) : bool :=
  match o with OCreateAccount _ _ _ (Some s) _ => (e_hash E s =? h)%N | _ => false end.
Definition times_claimed (E : env) (h : N) (l : list (ctx * op * outp)) : Z := Z.of_nat (length (List.filter (fun x => claims_code E h (snd (fst x))) l)).
(** The codes a history issued from allocation [i] of referral [id]. *)
Definition issues_from (id i : N) (o : op) : Z :=
  match o with OCreateReferralCodesFromAllocation pr j hs => if (snd pr =? id)%N && (j =? i)%N then Z.of_nat (size hs) else 0 | _ => 0 end.
Definition issued_from (id i : N) (l : list (ctx * op * outp)) : Z := lsum (fun x => issues_from id i (snd (fst x))) l.
