(** * Specification vocabulary for funding and pair updates (C19, C41). Observable state only. *)
From Verif Require Import Base Lists Types Config Oracle Pool Account ExInternal Exchange System Sums SpecOracle SpecTrading SpecMargin.

(** The distinct pairs of a list. *)
Definition distinct (ps : list pair_id) : list pair_id := elements (list_to_set ps : gset pair_id).
(** Seconds since the pair was last updated. *)
Definition elapsed (w : world) (k : pair_id) : Z := w_now w - pp_last_update (pool_pair w k).
(** How much the two funding indexes (what one unit of a long, or short, position owes) grew. *)
Definition long_growth (w w' : world) (k : pair_id) : Z := pp_funding_long_index (pool_pair w' k) - pp_funding_long_index (pool_pair w k).
Definition short_growth (w w' : world) (k : pair_id) : Z := pp_funding_short_index (pool_pair w' k) - pp_funding_short_index (pool_pair w k).
(** What the holders of the pair are charged by that in total (times 10^18). *)
Definition charged (w w' : world) (k : pair_id) : Z :=
  long_growth w w' k * open_interest_long w k + short_growth w w' k * open_interest_short w k.
(** The most the long side, and (negated) the short side, can push the second funding rate to: the value of the open interest. *)
Definition long_value (w w' : world) (k : pair_id) : Z := mul (open_interest_long w k) (price_of w' k).
Definition short_value (w w' : world) (k : pair_id) : Z := mul (- open_interest_short w k) (price_of w' k).
(** The yearly funding rate the longs pay the shorts when positive. *)
Definition clamp (x lo hi : Z) : Z := Z.max lo (Z.min x hi).
Definition funding_rate (pc : pair_config) (w w' : world) (k : pair_id) : Z :=
  mul (mul (open_interest_long w k - open_interest_short w k) (price_of w' k)) (pc_funding_1 pc) +
  mul (clamp (pp_funding_2_rate (pool_pair w' k)) (short_value w w' k) (long_value w w' k)) (pc_funding_2 pc).
(** A pair is due for an update: the period has passed, or the price moved by the configured ratio. *)
Definition due (pc : pair_config) (w w' : world) (k : pair_id) : bool :=
  (pc_update_period_seconds pc <=? elapsed w k) ||
  (pc_update_price_delta_ratio pc <=? Z.quot (Z.abs (price_of w' k - pp_last_price (pool_pair w k)) * 10 ^ 18) (pp_last_price (pool_pair w k))).
Definition is_due (w w' : world) (k : pair_id) : bool := match pair_cfg w k with Some pc => due pc w w' k | None => false end.
Definition rewards_minted (w w' : world) : Z := w_rewards w' - w_rewards w.
(** The reward a keeper is owed for a call (C41): the configured reward for a processed request, a liquidation or a
    deleveraging; one whole token for each distinct due pair of an update; nothing for anything else. *)
Definition due_pairs (w w' : world) (ps : list pair_id) : Z := Z.of_nat (length (List.filter (is_due w w') (distinct ps))).
Definition reward_owed (w w' : world) (o : op) : Z :=
  match o with
  | OProcessRequest _ _ _ | OLiquidate _ _ _ | OAutoDeleverage _ _ _ => ec_reward_keeper (g_exchange_config w)
  | OUpdatePairs ps _ => due_pairs w w' ps * 10 ^ 18
  | _ => 0
  end.
