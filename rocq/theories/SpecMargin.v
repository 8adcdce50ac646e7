(** * Specification vocabulary for valuation and margin (C14, C15, C20, C26-C30, C48, C49, C51).
    Written from the documentation, over observable state only: what an account is worth
    and what margin it must keep. All amounts are 18-digit decimals; [mul] is the
    decimal product rounded toward zero. *)
From Verif Require Import Base DFloat Lists Types Config Oracle Pool Account Fees Referral ExInternal Exchange System Sums SpecOracle SpecTrading.

Definition mul (a b : Z) : Z := Z.quot (a * b) (10 ^ 18).
(** What the pool records for a pair; a pair never traded is all zero. *)
Definition pool_pair (w : world) (k : pair_id) : pool_position :=
  match po_positions (w_pool w) !! k with Some pp => pp | None => mkPP 0 0 0 0 0 0 0 0 (w_now w) (10 ^ 18) end.
Definition price_of (w : world) (k : pair_id) : Z := match stored_price w k with Some (p, _) => p | None => 0 end.
(** The share of the fees an account pays: 1, or 1 - rebate with a referral. *)
Definition fee_share (w : world) (acc : account) : Z :=
  match ac_ref acc with
  | Some id => match w_refs w !! id with Some d => 10 ^ 18 - rf_fee_rebate d | None => 10 ^ 18 end
  | None => 10 ^ 18
  end.
(** The fee of trading [value] (signed) at [price] when the pool holds [pp]:
    (|value| fee_0 + value (2 skew + value) fee_1) * share, at least 0, at most fee_max |value|. *)
Definition trading_fee (ec : exchange_config) (pc : pair_config) (pp : pool_position) (share price value : Z) : Z :=
  let skew := mul (pp_oi_long pp - pp_oi_short pp) price in
  Z.max 0 (Z.min (mul (mul (Z.abs value) (pc_fee_0 pc) + mul (mul value (2 * skew + value)) (pc_fee_1 pc)) share)
                 (mul (Z.abs value) (ec_fee_max ec))).
(** The funding a position owes: its size times the growth of its side's index. *)
Definition side_index (pp : pool_position) (size : Z) : Z := if 0 <? size then pp_funding_long_index pp else pp_funding_short_index pp.
Definition funding_owed (pp : pool_position) (pos : account_position) : Z :=
  mul (Z.abs (ap_amount pos)) (side_index pp (ap_amount pos) - ap_funding pos).
(** Profit of a position if it were closed at [price]: value, less what it cost, the closing fee and the funding owed. *)
Definition profit (ec : exchange_config) (pc : pair_config) (pp : pool_position) (share price : Z) (pos : account_position) : Z :=
  mul (ap_amount pos) price - ap_cost pos - trading_fee ec pc pp share price (mul (- ap_amount pos) price) - funding_owed pp pos.

(** The configuration as the getters report it (stored in a 16-bit float format, decoded on reading). *)
Definition pair_cfg (w : world) (k : pair_id) : option pair_config := pc_decompress <$> hl_kvs (cf_pairs (w_config w)) !! k.
Definition coll_cfg (w : world) (r : resource) : option collateral_config := g_collateral_configs w !! r.
(** Totals over an account's positions and configured collaterals, with the prices and
    configuration of [w], and [pp] as the pool's records. *)
Definition positions_profit (pp : pair_id -> pool_position) (w : world) (acc : account) : Z :=
  msum (fun k pos => match pair_cfg w k with Some pc => profit (g_exchange_config w) pc (pp k) (fee_share w acc) (price_of w k) pos | None => 0 end) (ac_positions acc).
Definition positions_margin (rate : pair_config -> Z) (w : world) (acc : account) : Z :=
  msum (fun k pos => match pair_cfg w k with Some pc => mul (Z.abs (mul (ap_amount pos) (price_of w k))) (rate pc) | None => 0 end) (ac_positions acc).
Definition collateral_total (rate : collateral_config -> Z) (w : world) (acc : account) : Z :=
  msum (fun r x => match coll_cfg w r with Some cc => mul (mul x (price_of w (cc_pair_id cc))) (rate cc) | None => 0 end) (ac_coll acc).
(** Account value and the two margin requirements. *)
Definition account_value_at (pp : pair_id -> pool_position) (w : world) (acc : account) : Z :=
  positions_profit pp w acc + collateral_total cc_discount w acc + ac_vb acc.
Definition account_value (w : world) (acc : account) : Z := account_value_at (pool_pair w) w acc.
Definition margin_required (rate : pair_config -> Z) (w : world) (acc : account) : Z :=
  positions_margin rate w acc + collateral_total cc_margin w acc.
Definition initial_margin : world -> account -> Z := margin_required pc_margin_initial.
Definition maintenance_margin : world -> account -> Z := margin_required pc_margin_maintenance.

(** The pool's value and the skew ratio that limits risk. *)
Definition pool_value (w : world) : Z := po_base (w_pool w) + po_vb (w_pool w) + po_upf (w_pool w) + po_pnl (w_pool w).
Definition skew_ratio (w : world) : Z := Z.quot (po_skew (w_pool w) * 10 ^ 18) (Z.max (pool_value w) (10 ^ 18)).
(** How an order changes the position: a normal order by its amount; a reduce-only order
    toward zero by at most the position, when it opposes it. *)
Definition order_change (size amount : Z) (reduce_only : bool) : Z :=
  if reduce_only then (if size * amount <? 0 then Z.sgn amount * Z.min (Z.abs amount) (Z.abs size) else 0) else amount.
(** The order a call executes. *)
Definition executes_order (w : world) (o : op) (a : addr) (r : req_order) : Prop :=
  exists i upd acc kr, o = OProcessRequest a i upd /\ w_accounts w !! a = Some acc /\ kl_kvs (ac_requests acc) !! i = Some kr /\
    kr_request kr = ROrder r /\ w_now w < kr_expiry kr.
Definition executes_removal (w : world) (o : op) (a : addr) (r : req_remove) : Prop :=
  exists i upd acc kr, o = OProcessRequest a i upd /\ w_accounts w !! a = Some acc /\ kl_kvs (ac_requests acc) !! i = Some kr /\
    kr_request kr = RRemove r /\ w_now w < kr_expiry kr.
Definition position (w : world) (a : addr) (k : pair_id) : account_position :=
  match w_accounts w !! a with Some acc => held acc k | None => mkAP 0 0 0 end.
Definition size_of (w : world) (a : addr) (k : pair_id) : Z := ap_amount (position w a k).
Definition balance (w : world) (a : addr) : Z := match w_accounts w !! a with Some acc => ac_vb acc | None => 0 end.
(** Order limits. *)
Definition within_limit (l : price_limit) (price : Z) : Prop :=
  match l with PLNone => True | PLGte p => p <= price | PLLte p => price <= p end.
Definition within_slippage (l : slippage_limit) (fee value : Z) : Prop :=
  match l with SLNone => True | SLPercent p => fee <= Z.quot (mul value p) 100 | SLAbsolute x => fee <= x end.
(** The total fee an order event reports (reported as negative amounts). *)
Definition order_fee (e : ev_order) : Z := - (eo_fee_pool e + eo_fee_protocol e + eo_fee_treasury e + eo_fee_referral e).
Definition cost_of (w : world) (a : addr) (k : pair_id) : Z := ap_cost (position w a k).
(** What the trader's side of a pair is worth at a price, before any closing fee: balance, value of
    the position, less its cost and the funding it owes. *)
Definition trader_value (w : world) (a : addr) (k : pair_id) (price : Z) : Z :=
  balance w a + mul (size_of w a k) price - cost_of w a k - funding_owed (pool_pair w k) (position w a k).
Definition referral_balance (w : world) (a : addr) : Z :=
  match w_accounts w !! a with
  | Some acc => match ac_ref acc with Some id => match w_refs w !! id with Some d => rf_balance d | None => 0 end | None => 0 end
  | None => 0 end.
