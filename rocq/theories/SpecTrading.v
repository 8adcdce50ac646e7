(** * Specification vocabulary for trading (C16-C19, C26, C48, C49, C55).
    Observable state only. *)
From Verif Require Import Base DFloat Lists Types Config Oracle Pool Account Fees Referral ExInternal Exchange System Sums.

(** What the pool records for a pair; nothing recorded counts as zero. *)
Definition pair_field (f : pool_position -> Z) (w : world) (k : pair_id) : Z :=
  match po_positions (w_pool w) !! k with Some pp => f pp | None => 0 end.
Definition open_interest_long : world -> pair_id -> Z := pair_field pp_oi_long.
Definition open_interest_short : world -> pair_id -> Z := pair_field pp_oi_short.
Definition pool_cost : world -> pair_id -> Z := pair_field pp_cost.
(** What an account holds of a pair; no stored position is amount 0, cost 0. *)
Definition held (acc : account) (k : pair_id) : account_position :=
  match ac_positions acc !! k with Some p => p | None => mkAP 0 0 0 end.
Definition sum_accounts (f : account -> Z) (w : world) : Z := msum (fun _ acc => f acc) (w_accounts w).
(** The value of the net open interest of a pair at a price (rounded toward zero, 18 digits). *)
Definition net_value (pp : pool_position) (price : Z) : Z :=
  Z.quot ((pp_oi_long pp - pp_oi_short pp) * price) (10 ^ 18).
Definition sum_pairs (f : pool_position -> Z) (w : world) : Z := msum (fun _ pp => f pp) (po_positions (w_pool w)).
(** The last time a pair was updated. *)
Definition last_updated (w : world) (k : pair_id) : option Z := pp_last_update <$> po_positions (w_pool w) !! k.
Definition lifetime_reward (w : world) (id : N) : option Z := rf_total_rewarded <$> w_refs w !! id.
