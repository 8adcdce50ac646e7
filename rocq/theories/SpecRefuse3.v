(** * Specification vocabulary for the reasons the owner's and the referral admin's calls are refused (C65). *)
From Verif Require Import Base DFloat Types Config Oracle Pool Account Referral Exchange System Sums SpecMargin SpecAuth SpecRequests SpecOracle Spec SpecTrading SpecRefuse.

Definition not_owner (cx : ctx) (w : world) : Prop := rule_sat (cx_sat cx) (w_owner w) = false.
(** The roles a user admin may set as well as the owner. *)
Definition user_roles : list role := [RProtocolSwap; RLiquidity; RReferralUser; RAccountCreation; RAccountManagement; RRemoveCollateralRequest; RMarginOrderRequest; RCancelRequest].
(** A value that does not fit the 16-bit numbers configurations are stored in: its magnitude (with 18 decimals) is about 10^16 or more. *)
Definition unstorable (x : Z) : Prop := ~ (- 1024 * 10 ^ 31 < x < 1025 * 10 ^ 31).
Definition outside (hi x : Z) : Prop := ~ (0 <= x <= hi).
(** Configurations that are not accepted. *)
Definition bad_exchange_config (c : exchange_config) : Prop :=
  ec_positions_max c = 0%N \/ ec_skew_ratio_cap c < 0 \/ ec_adl_offset c < 0 \/ ec_adl_a c < 0 \/ ec_adl_b c < 0 \/ ec_fee_liquidity_add c < 0 \/ ec_fee_liquidity_remove c < 0 \/
  outside (3 * 10 ^ 17) (ec_fee_share_protocol c) \/ outside (15 * 10 ^ 16) (ec_fee_share_treasury c) \/ outside (10 ^ 18) (ec_fee_share_referral c) \/
  ec_fee_max c < 0 \/ ec_protocol_burn_amount c < 1000 * 10 ^ 18 \/ ec_reward_keeper c < 0.
Definition exchange_decimals (c : exchange_config) : list Z :=
  [ec_skew_ratio_cap c; ec_adl_offset c; ec_adl_a c; ec_adl_b c; ec_fee_liquidity_add c; ec_fee_liquidity_remove c; ec_fee_share_protocol c; ec_fee_share_treasury c; ec_fee_share_referral c; ec_fee_max c; ec_protocol_burn_amount c; ec_reward_keeper c].
Definition bad_pair_config (c : pair_config) : Prop :=
  pc_price_age_max c <= 0 \/ pc_oi_max c < 0 \/ pc_trade_size_min c < 0 \/ pc_update_price_delta_ratio c <= 0 \/ pc_update_period_seconds c <= 0 \/
  outside (10 ^ 18) (pc_margin_initial c) \/ outside (pc_margin_initial c) (pc_margin_maintenance c) \/ outside (2 * 10 ^ 18) (pc_funding_1 c) \/ outside (4 * 10 ^ 18) (pc_funding_2 c) \/
  outside (10000 * 10 ^ 18) (pc_funding_2_delta c) \/ pc_funding_2_decay c < 0 \/ outside (10 ^ 18) (pc_funding_pool_0 c) \/ outside (2 * 10 ^ 18) (pc_funding_pool_1 c) \/
  outside (10 ^ 17) (pc_funding_share c) \/ outside (15 * 10 ^ 15) (pc_fee_0 c) \/ outside (10 ^ 12) (pc_fee_1 c).
Definition pair_decimals (c : pair_config) : list Z :=
  [pc_oi_max c; pc_trade_size_min c; pc_update_price_delta_ratio c; pc_margin_initial c; pc_margin_maintenance c; pc_funding_1 c; pc_funding_2 c; pc_funding_2_delta c; pc_funding_2_decay c; pc_funding_pool_0 c; pc_funding_pool_1 c; pc_funding_share c; pc_fee_0 c; pc_fee_1 c].
Definition bad_collateral_config (c : collateral_config) : Prop := cc_price_age_max c <= 0 \/ ~ (8 * 10 ^ 17 <= cc_discount c <= 10 ^ 18) \/ outside (10 ^ 17) (cc_margin c).
Definition collateral_decimals (c : collateral_config) : list Z := [cc_discount c; cc_margin c].

(** ** Referral codes and allocations *)
(** What claims ask for of a token: only positive amounts count. *)
Definition asked (r : resource) (cs : claims) : Z := lsum (fun c => if (fst c =? r)%N then Z.max 0 (snd c) else 0) cs.
(** What a batch of codes asks for: codes with several uses may carry no claims. *)
Definition asked_by_codes (r : resource) (hs : gmap N (claims * N)) : Z := msum (fun _ x => asked r (fst x)) hs.
(** What stops tokens [ts] handed over from covering the amounts [need]: a token that is neither base nor a collateral; not enough of one;
    amounts out of range, alone or together with what the generator holds. *)
Definition not_covered (w : world) (ts : list bucket) (need : resource -> Z) (e : error) : Prop :=
  e = EInvalidCollateral /\ (exists b, b ∈ ts /\ b_res b <> BASE /\ coll_cfg w (b_res b) = None) \/
  e = EInsufficientToken /\ (exists r, amount_in r ts < need r) \/
  e = EArithmetic /\ (exists r, DMAX < amount_in r ts \/ DMAX < need r \/ DMAX < default 0 (gn_vaults (w_gen w) !! r) + amount_in r ts).
(** No room for [n] more referrals. *)
Definition no_room (d : referral) (n : Z) (e : error) : Prop :=
  (e = EReferralLimitReached \/ e = EArithmetic) /\ Z.min (Z.of_N (rf_max_referrals d)) (2 ^ 64 - 1) < Z.of_N (rf_referrals d) + n.
Definition allocation_stopped (w : world) (d : referral) (ts : list bucket) (cs : claims) (n : N) (e : error) : Prop :=
  no_room d (Z.of_N n) e \/ e = EInvalidClaimAmount /\ (exists c, c ∈ cs /\ snd c <= 0) \/ not_covered w ts (fun r => Z.of_N n * asked r cs) e.
Definition codes_stopped (w : world) (d : referral) (ts : list bucket) (hs : gmap N (claims * N)) (e : error) : Prop :=
  e = EArithmetic /\ 2 ^ 64 - 1 < msum (fun _ x => Z.of_N (snd x)) hs \/
  no_room d (msum (fun _ x => Z.of_N (snd x)) hs) e \/
  e = EInvalidClaimAmount /\ (exists h cs n c, hs !! h = Some (cs, n) /\ c ∈ cs /\ snd c <= 0) \/
  e = EMultiUseWithClaims /\ (exists h cs n, hs !! h = Some (cs, n) /\ n <> 1%N /\ cs <> []) \/
  e = EReferralCodeExists /\ (exists h, is_Some (hs !! h) /\ is_Some (gn_codes (w_gen w) !! h)) \/
  not_covered w ts (fun r => asked_by_codes r hs) e.
