(** * Specification vocabulary for liquidation (C15, C16) and auto-deleveraging (C28, C29). *)
From Verif Require Import Base DFloat Lists Types Config Oracle Pool Account Fees Referral ExInternal Exchange System Sums SpecOracle SpecTrading SpecMargin.

(** The pool's record of a pair with its funding brought up to date, everything else as before. *)
Definition funded (w w' : world) (k : pair_id) : pool_position :=
  pool_pair w k <| pp_funding_long_index := pp_funding_long_index (pool_pair w' k) |> <| pp_funding_short_index := pp_funding_short_index (pool_pair w' k) |>.
(** The fee of closing one position of an account completely. *)
Definition fee_term (w w' : world) (acc : account) (k : pair_id) (pos : account_position) : Z :=
  match pair_cfg w' k with Some pc => trading_fee (g_exchange_config w') pc (funded w w' k) (fee_share w' acc) (price_of w' k) (mul (- ap_amount pos) (price_of w' k)) | None => 0 end.

(** The part of the referral share of fees that goes to the account's referrer: none without a referral. *)
Definition referral_share (w : world) (acc : account) : Z :=
  match ac_ref acc with Some id => match w_refs w !! id with Some d => rf_fee_referral d | None => 0 end | None => 0 end.

(** Auto-deleveraging. The pool marked to the call's price for one pair: total skew, total trader profit
    and unrealised funding, with the funding accrued since the pair's last update. *)
Definition marked_skew (w : world) (k : pair_id) (price : Z) : Z :=
  po_skew (w_pool w) - pp_skew_abs_snap (pool_pair w k) + Z.abs (net_value (pool_pair w k) price).
Definition marked_pnl (w : world) (k : pair_id) (price : Z) : Z :=
  po_pnl (w_pool w) - pp_pnl_snap (pool_pair w k) + (pp_cost (pool_pair w k) - net_value (pool_pair w k) price).
Definition accrued (w w' : world) (a : addr) (k : pair_id) : Z :=
  po_upf (w_pool w') - po_upf (w_pool w) + funding_owed (pool_pair w' k) (position w a k).
Definition ratio (skew value : Z) : Z := Z.quot (skew * 10 ^ 18) (Z.max value (10 ^ 18)).
Definition marked_skew_ratio (w w' : world) (a : addr) (k : pair_id) (price : Z) : Z :=
  ratio (marked_skew w k price) (po_base (w_pool w) + po_vb (w_pool w) + (po_upf (w_pool w) + accrued w w' a k) + marked_pnl w k price).
(** The profit ratio the deleveraging looks at, and the threshold it must exceed: -(u^3 + b u) with u = (skew ratio - offset) / a. *)
Definition profit_ratio (price : Z) (pos : account_position) : Z := Z.quot ((mul (ap_amount pos) price - ap_cost pos) * 10 ^ 18) (ap_cost pos).
Definition adl_threshold (ec : exchange_config) (sr : Z) : Z :=
  let u := Z.quot (sr * 10 ^ 18) (ec_adl_a ec) - Z.quot (ec_adl_offset ec * 10 ^ 18) (ec_adl_a ec) in - mul (mul u u) u - mul (ec_adl_b ec) u.
