(** * Remaining read-only methods. *)
From Verif Require Import Base DFloat Lists Types Config Oracle Pool Account Fees Referral ExInternal Exchange System.

(** referral_generator.rs:57-63 *)
Definition gn_get_allocations (g : generator) (id : N) : list ralloc := default [] (gn_allocs g !! id).
(** referral_generator.rs:65-67 *)
Definition gn_get_code (g : generator) (h : N) : option rcode := gn_codes g !! h.
(** exchange.rs:653-663; reading the data of a missing NFT panics *)
Definition g_referral_details (w : world) (id : N) : res (list ralloc * referral) :=
  d ← expect (w_refs w !! id) EEngine; Ok (gn_get_allocations (w_gen w) id, d).
(** exchange.rs:698-702 (the order is the hash map's) *)
Definition g_collaterals (w : world) : list resource := map fst (map_to_list (cf_collaterals (w_config w))).
(** margin_account.rs:109-111 *)
Definition acc_get_request (a : account) (i : N) : option keeper_request := kl_get (ac_requests a) i.
(** margin_account.rs:126-128 *)
Definition acc_get_requests_by_indexes (a : account) (is_ : list N) : gmap N (option keeper_request) :=
  list_to_map (map (fun i => (i, acc_get_request a i)) is_).
(** margin_account.rs:130-132 *)
Definition acc_get_requests_len (a : account) : N := kl_len (ac_requests a).
(** margin_pool.rs:63-72, the position part: one entry per requested pair *)
Definition pool_get_info_positions (now : Z) (p : pool) (ids : gset pair_id) : gmap pair_id pool_position :=
  pool_get_positions now p ids.
(** fee_delegator.rs:92-94 *)
Definition dl_get_info (d : delegator) : Z * Z * Z * Z * bool :=
  (dl_vault d, dl_vb d, dl_max_lock d, dl_mult d, dl_contingent d).
