{
 "claims": [
  {
   "property": "C01",
   "status": "proved",
   "theorems": [
    "C01_ledger_equals_oaths",
    "C01_zero_after_transactions",
    "C01_no_call_creates_claims"
   ],
   "note": ""
  },
  {
   "property": "C02",
   "status": "proved",
   "theorems": [
    "C02_tokens_conserved",
    "C02_lock_fee",
    "C02_external_tokens",
    "C02_resources_distinct",
    "C02_no_vault_is_overdrawn",
    "C02_over_history",
    "C02_nothing_from_nothing"
   ],
   "note": ""
  },
  {
   "property": "C03",
   "status": "proved",
   "theorems": [
    "C03_recorded_collateral_is_in_the_vault",
    "C03_changes_agree"
   ],
   "note": ""
  },
  {
   "property": "C04",
   "status": "proved",
   "theorems": [
    "C04_requests_only_move_forward",
    "C04_final_is_final",
    "C04_statuses_known"
   ],
   "note": ""
  },
  {
   "property": "C05",
   "status": "proved",
   "theorems": [
    "C05_processed_once"
   ],
   "note": ""
  },
  {
   "property": "C06",
   "status": "proved",
   "theorems": [
    "C06_active_set_exact",
    "C06_indexes_exist"
   ],
   "note": ""
  },
  {
   "property": "C07",
   "status": "proved",
   "theorems": [
    "C07_submissions_bounded"
   ],
   "note": ""
  },
  {
   "property": "C08",
   "status": "proved",
   "theorems": [
    "C08_liquidation_invalidates",
    "C08_never_executed"
   ],
   "note": ""
  },
  {
   "property": "C09",
   "status": "proved",
   "theorems": [
    "C09_processed_inside_window",
    "C09_expired_changes_nothing_else"
   ],
   "note": ""
  },
  {
   "property": "C10",
   "status": "proved",
   "theorems": [
    "C10_two_step",
    "C10_wraps"
   ],
   "note": "Proved for delay_seconds < 2^63; the wrap-around beyond it is proved to break the titled claim (counterexample history)."
  },
  {
   "property": "C11",
   "status": "proved",
   "theorems": [
    "C11_step",
    "C11_prices_move_forward",
    "C11_only_the_owner_removes"
   ],
   "note": ""
  },
  {
   "property": "C12",
   "status": "proved",
   "theorems": [
    "C12_signed",
    "C12_provenance",
    "C12_keys"
   ],
   "note": ""
  },
  {
   "property": "C13",
   "status": "proved",
   "theorems": [
    "C13_fresh",
    "C13_traded_pairs_are_configured",
    "C13_reported_prices"
   ],
   "note": ""
  },
  {
   "property": "C14",
   "status": "proved",
   "theorems": [
    "C14_margin_after_opening",
    "C14_margin_after_withdrawing",
    "C14_margin_after_oath"
   ],
   "note": ""
  },
  {
   "property": "C15",
   "status": "proved",
   "theorems": [
    "C15_only_below_maintenance",
    "C15_reported"
   ],
   "note": ""
  },
  {
   "property": "C16",
   "status": "proved",
   "theorems": [
    "C16_clean_account",
    "C16_open_interest"
   ],
   "note": ""
  },
  {
   "property": "C17",
   "status": "proved",
   "theorems": [
    "C17_open_interest",
    "C17_no_empty_position",
    "C17_open_interest_nonneg"
   ],
   "note": ""
  },
  {
   "property": "C18",
   "status": "proved",
   "theorems": [
    "C18_totals",
    "C18_snapshots",
    "C18_skew"
   ],
   "note": ""
  },
  {
   "property": "C19",
   "status": "proved",
   "theorems": [
    "C19_funding_collected_is_distributed",
    "C19_who_pays",
    "C19_rate_is_bounded",
    "C19_second_update_changes_nothing",
    "C19_exact",
    "C19_every_call"
   ],
   "note": ""
  },
  {
   "property": "C20",
   "status": "proved",
   "theorems": [
    "C20_order_fee_bounds",
    "C20_order_fee_formula",
    "C20_liquidation_fee_bounds",
    "C20_adl_fee_bounds"
   ],
   "note": ""
  },
  {
   "property": "C21",
   "status": "proved",
   "theorems": [
    "C21_order_fee_split_exact",
    "C21_liquidation_fee_split_exact",
    "C21_adl_fee_split_exact",
    "C21_order_referral_share",
    "C21_liquidation_referral_share",
    "C21_adl_referral_share",
    "C21_add_liquidity_fee_split",
    "C21_remove_liquidity_fee_split"
   ],
   "note": ""
  },
  {
   "property": "C22",
   "status": "proved",
   "theorems": [
    "C22_round_trip",
    "C22_refuted_with_no_supply"
   ],
   "note": "Proved whenever LP tokens were outstanding before; refuted by a reachable history when the supply is zero and the pool has value."
  },
  {
   "property": "C23",
   "status": "proved",
   "theorems": [
    "C23_supply_only_by_providers",
    "C23_supply_nonneg",
    "C23_add_does_not_dilute",
    "C23_remove_does_not_dilute"
   ],
   "note": ""
  },
  {
   "property": "C24",
   "status": "proved",
   "theorems": [
    "C24_open_interest_limit",
    "C24_positions_limit",
    "C24_collaterals_limit",
    "C24_order_skew_limit",
    "C24_remove_liquidity_skew_limit"
   ],
   "note": ""
  },
  {
   "property": "C25",
   "status": "proved",
   "theorems": [
    "C25_withdrawals_are_covered"
   ],
   "note": ""
  },
  {
   "property": "C26",
   "status": "proved",
   "theorems": [
    "C26_order_changes_position_as_asked",
    "C26_reduce_only"
   ],
   "note": ""
  },
  {
   "property": "C27",
   "status": "proved",
   "theorems": [
    "C27_limits_respected"
   ],
   "note": ""
  },
  {
   "property": "C28",
   "status": "proved",
   "theorems": [
    "C28_conditional_and_total",
    "C28_open_interest",
    "C28_threshold_decreasing",
    "C28_zero_a_disables"
   ],
   "note": ""
  },
  {
   "property": "C29",
   "status": "proved",
   "theorems": [
    "C29_long_ratio_sign",
    "C29_long_deleveraged_in_profit",
    "C29_short_ratio_inverted",
    "C29_refuted_for_shorts"
   ],
   "note": "Proved for long positions; refuted for shorts by a reachable state (a defect of the code)."
  },
  {
   "property": "C30",
   "status": "proved",
   "theorems": [
    "C30_debt_swap"
   ],
   "note": ""
  },
  {
   "property": "C31",
   "status": "proved",
   "theorems": [
    "C31_level_needed",
    "C31_rules_after",
    "C31_rules_change_only_with_level_1",
    "C31_new_account"
   ],
   "note": ""
  },
  {
   "property": "C32",
   "status": "proved",
   "theorems": [
    "C32_owner_only",
    "C32_roles",
    "C32_delegator",
    "C32_no_badge_no_call",
    "C32_withdrawn_freezes"
   ],
   "note": ""
  },
  {
   "property": "C33",
   "status": "proved",
   "theorems": [
    "C33_registry_exact"
   ],
   "note": ""
  },
  {
   "property": "C34",
   "status": "proved",
   "theorems": [
    "C34_widening",
    "C34_recovery_key",
    "C34_add_rule",
    "C34_refuted_when_open"
   ],
   "note": "Proved unless the old rule was allow-all; refuted for allow-all by a reachable history (a defect of the code)."
  },
  {
   "property": "C35",
   "status": "proved",
   "theorems": [
    "C35_solvent",
    "C35_promises_nonnegative",
    "C35_claim_is_served",
    "C35_paying_codes_are_single_use",
    "C35_ex"
   ],
   "note": ""
  },
  {
   "property": "C36",
   "status": "proved",
   "theorems": [
    "C36_code_history",
    "C36_new_code_history",
    "C36_allocation_history",
    "C36_counter_exact",
    "C36_referred_accounts",
    "C36_quota",
    "C36_referrals_stay",
    "C36_fee_shares",
    "C36_account_referral_fixed",
    "C36_account_referral_from_code"
   ],
   "note": ""
  },
  {
   "property": "C37",
   "status": "proved",
   "theorems": [
    "C37_backed_base_only",
    "C37_backed_between_transactions",
    "C37_vaults_nonnegative",
    "C37_any_burnable_token_drains",
    "C37_flash_oath_drains",
    "C37_refuted",
    "C37_ex",
    "C37_wrap_exact",
    "C37_unwrap_exact",
    "C37_round_trip",
    "C37_backing_exact",
    "C37_backed_iff",
    "C37_only_foreign_unwraps_lose"
   ],
   "note": "C37_backing_exact accounts for every history exactly; C37_backed_base_only is the titled claim for honest unwraps; C37_refuted, C37_any_burnable_token_drains and C37_flash_oath_drains show the defect of the code."
  },
  {
   "property": "C38",
   "status": "proved",
   "theorems": [
    "C38_supplies",
    "C38_repay_exact",
    "C38_loan_exact",
    "C38_repaid_base_only",
    "C38_refuted",
    "C38_loans_accounted",
    "C38_repaid_iff",
    "C38_oath_leaves"
   ],
   "note": "C38_loans_accounted accounts for every history exactly; C38_refuted shows the defect of the code (unwrap burns the oath)."
  },
  {
   "property": "C39",
   "status": "proved",
   "theorems": [
    "C39_accepted_iff_it_fits",
    "C39_sign_magnitude_and_error",
    "C39_three_digits_exact",
    "C39_idempotent",
    "C39_monotone_up_to_rounding",
    "C39_monotone_refuted",
    "C39_exchange_config_read_back",
    "C39_pair_configs_read_back",
    "C39_collateral_configs_read_back",
    "C39_collateral_config_removed",
    "C39_config_changes_only_so"
   ],
   "note": "Every part of the statement is proved; full monotonicity is refuted (C39_monotone_refuted) and replaced by monotonicity up to the float's precision; every setter call is proved to store the read-back of exactly what was given, and nothing else changes the configuration."
  },
  {
   "property": "C40",
   "status": "proved",
   "theorems": [
    "C40_exchange_config",
    "C40_pair_config_stays_valid_when",
    "C40_collateral_config_stays_valid_when",
    "C40_durations_wrap_refuted",
    "C40_margins_swap_refuted",
    "C40_pair_rates",
    "C40_collateral_rates",
    "C40_pair_config_in_every_state",
    "C40_collateral_config_in_every_state"
   ],
   "note": "Proved for every reachable state as an exact characterisation: what is read back is the recorded rounding of a validated configuration, and it passes validation if and only if no duration wrapped to 0 and the rounded margins kept their order (C40_pair_config_in_every_state, C40_collateral_config_in_every_state). The unconditional reading is false of the code: C40_durations_wrap_refuted, C40_margins_swap_refuted."
  },
  {
   "property": "C41",
   "status": "proved",
   "theorems": [
    "C41_rewards_match_the_work",
    "C41_no_reward_for_a_repeated_update"
   ],
   "note": ""
  },
  {
   "property": "C42",
   "status": "proved",
   "theorems": [
    "C42_live_requests_cancellable",
    "C42_invalidated_refuted",
    "C42_invalidated_marked"
   ],
   "note": "Proved for every set of live pending requests; refuted for requests invalidated by a liquidation (C42_invalidated_refuted)."
  },
  {
   "property": "C43",
   "status": "proved",
   "theorems": [
    "C43_cancelled_never_executes",
    "C43_mutual_never_both",
    "C43_dormant_needs_activation",
    "C43_tp_sl"
   ],
   "note": ""
  },
  {
   "property": "C44",
   "status": "proved",
   "theorems": [
    "C44_tp_sl_linked"
   ],
   "note": ""
  },
  {
   "property": "C45",
   "status": "proved",
   "theorems": [
    "C45_list_history",
    "C45_new_list_history",
    "C45_length_is_pushes",
    "C45_writes_succeed",
    "C45_range",
    "C45_hash_list_history",
    "C45_new_hash_list_history",
    "C45_request_pages",
    "C45_pair_pages",
    "C45_pair_order",
    "C45_wrapper_inputs",
    "C45_ex"
   ],
   "note": ""
  },
  {
   "property": "C46",
   "status": "proved",
   "theorems": [
    "C46_lock_fee_bounded",
    "C46_oaths_only_settled",
    "C46_settled_against_the_account",
    "C46_settled_against_the_new_account",
    "C46_no_oath_after_transactions",
    "C46_fee_balances_nonneg",
    "C46_lock_fee_exact"
   ],
   "note": ""
  },
  {
   "property": "C47",
   "status": "proved",
   "theorems": [
    "C47_collect_treasury",
    "C47_collect_fee_delegator",
    "C47_collect_referral_rewards",
    "C47_swap_protocol_fee",
    "C47_pool_net_value_unchanged",
    "C47_collect_succeeds"
   ],
   "note": ""
  },
  {
   "property": "C48",
   "status": "proved",
   "theorems": [
    "C48_trade_moves_only_fees",
    "C48_trader_pays_only_the_fee"
   ],
   "note": ""
  },
  {
   "property": "C49",
   "status": "proved",
   "theorems": [
    "C49_order_settles_funding",
    "C49_adl_settles_funding"
   ],
   "note": ""
  },
  {
   "property": "C50",
   "status": "proved",
   "theorems": [
    "C50_other_accounts_untouched",
    "C50_unnamed_changes_none",
    "C50_accounts_persist"
   ],
   "note": ""
  },
  {
   "property": "C51",
   "status": "proved",
   "theorems": [
    "C51_positions_any_order",
    "C51_collateral_any_order",
    "C51_positions_succeed_in_any_order",
    "C51_collateral_succeeds_in_any_order",
    "C51_liquidation_any_order",
    "C51_liquidated_collateral_any_order"
   ],
   "note": ""
  },
  {
   "property": "C52",
   "status": "proved",
   "theorems": [
    "C52_balance_and_referral",
    "C52_positions",
    "C52_collaterals",
    "C52_active_requests",
    "C52_history",
    "C52_available",
    "C52_positions_configured"
   ],
   "note": ""
  },
  {
   "property": "C53",
   "status": "proved",
   "theorems": [
    "C53_stale_feed_blocks"
   ],
   "note": ""
  },
  {
   "property": "C54",
   "status": "proved",
   "theorems": [
    "C54_references_resolved",
    "C54_dangling_never_executes",
    "C54_wraps"
   ],
   "note": ""
  },
  {
   "property": "C55",
   "status": "proved",
   "theorems": [
    "C55_requests_grow",
    "C55_last_update",
    "C55_lifetime_reward"
   ],
   "note": ""
  },
  {
   "property": "C56",
   "status": "proved",
   "theorems": [
    "C56_get_variables",
    "C56_only_owner_sets",
    "C56_free_tokens",
    "C56_free_tokens_available",
    "C56_mint_amounts",
    "C56_admin_mint"
   ],
   "note": ""
  },
  {
   "property": "C57",
   "status": "proved",
   "theorems": [
    "C57_pool_details",
    "C57_quoted_price_is_charged",
    "C57_quoted_price_is_paid",
    "C57_pair_details",
    "C57_pair_details_available",
    "C57_referral_details",
    "C57_collaterals",
    "C57_requests"
   ],
   "note": ""
  },
  {
   "property": "C58",
   "status": "proved",
   "theorems": [
    "C58_funds",
    "C58_referrals",
    "C58_accounts",
    "C58_pool"
   ],
   "note": ""
  },
  {
   "property": "C59",
   "status": "proved",
   "theorems": [
    "C59_add_collateral",
    "C59_create_account",
    "C59_only_configured_tokens"
   ],
   "note": ""
  },
  {
   "property": "C60",
   "status": "proved",
   "theorems": [
    "C60_never_behind_the_message",
    "C60_newest_takes_effect",
    "C60_old_prices_ignored",
    "C60_replay_harmless",
    "C60_bad_message_rejected",
    "C60_unread_message",
    "C60_add_key",
    "C60_remove_key",
    "C60_remove_price",
    "C60_revoked_key"
   ],
   "note": ""
  },
  {
   "property": "C61",
   "status": "proved",
   "theorems": [
    "C61_withdrawal_submitted",
    "C61_order_submitted",
    "C61_tp_sl_touches_nothing_else",
    "C61_cancelled",
    "C61_order_executed",
    "C61_one_request_changes",
    "C61_tp_sl_submitted"
   ],
   "note": ""
  },
  {
   "property": "C62",
   "status": "proved",
   "theorems": [
    "C62_mint_referral",
    "C62_update_referral",
    "C62_add_allocation",
    "C62_mint_with_allocation",
    "C62_create_codes",
    "C62_codes_from_allocation"
   ],
   "note": ""
  },
  {
   "property": "C63",
   "status": "proved",
   "theorems": [
    "C63_events_tell_the_change",
    "C63_events_tell_the_history",
    "C63_from_the_start",
    "C63_events_tell_the_balances",
    "C63_debt_swap_balance",
    "C63_settings_are_reported",
    "C63_events_fix_the_settings",
    "C63_oaths_are_not_reported"
   ],
   "note": ""
  },
  {
   "property": "C64",
   "status": "proved",
   "theorems": [
    "C64_only_the_named_account_is_read",
    "C64_histories",
    "C64_requests_commute"
   ],
   "note": ""
  },
  {
   "property": "C65",
   "status": "proved",
   "theorems": [
    "C65_liquidation",
    "C65_cancel",
    "C65_withdrawal_request",
    "C65_order_request",
    "C65_tp_sl_request",
    "C65_deposit",
    "C65_process",
    "C65_add_liquidity",
    "C65_remove_liquidity",
    "C65_update_pairs",
    "C65_swap_debt",
    "C65_deleverage",
    "C65_collect_treasury",
    "C65_collect_fee_delegator",
    "C65_collect_referral_rewards",
    "C65_swap_protocol_fee",
    "C65_lock_fee",
    "C65_delegator_settings",
    "C65_rules",
    "C65_mint_referral",
    "C65_update_referral",
    "C65_codes_from_allocation",
    "C65_oracle",
    "C65_process_configured",
    "C65_cancel_oath",
    "C65_withdrawal_request_oath",
    "C65_order_request_oath",
    "C65_tp_sl_request_oath",
    "C65_deposit_oath",
    "C65_create_account",
    "C65_rules_oath",
    "C65_exchange_config",
    "C65_pair_configs",
    "C65_collateral_configs",
    "C65_owner",
    "C65_add_allocation",
    "C65_mint_with_allocation",
    "C65_create_codes",
    "C65_order_refused_for_margin"
   ],
   "note": ""
  },
  {
   "property": "C66",
   "status": "proved",
   "theorems": [
    "C66_stored_was_delivered",
    "C66_stored_is_newest",
    "C66_order_of_delivery"
   ],
   "note": ""
  },
  {
   "property": "C67",
   "status": "proved",
   "theorems": [
    "C67_idle_account_can_withdraw",
    "C67_refused_for_margin",
    "C67_only_the_margin"
   ],
   "note": ""
  },
  {
   "property": "C68",
   "status": "proved",
   "theorems": [
    "C68_deposit_adds_value",
    "C68_deposit_keeps_margin"
   ],
   "note": ""
  },
  {
   "property": "C69",
   "status": "proved",
   "theorems": [
    "C69_every_request_was_asked_for",
    "C69_since_instantiation",
    "C69_positions_change_only_as_asked",
    "C69_collateral_leaves_only_as_asked",
    "C69_balance_leaves_only_as_asked"
   ],
   "note": ""
  },
  {
   "property": "C70",
   "status": "proved",
   "theorems": [
    "C70_stored_requests_well_formed",
    "C70_configuration_always_found"
   ],
   "note": ""
  },
  {
   "property": "C71",
   "status": "proved",
   "theorems": [
    "C71_closing_needs_no_margin",
    "C71_rebalancing_needs_no_skew",
    "C71_tolerant_order_never_slips",
    "C71_getting_out"
   ],
   "note": ""
  },
  {
   "property": "C72",
   "status": "proved",
   "theorems": [
    "C72_no_profit_at_one_price",
    "C72_pool_does_not_lose",
    "C72_no_profit_across_pairs",
    "C72_pool_does_not_lose_across_pairs"
   ],
   "note": ""
  },
  {
   "property": "C73",
   "status": "proved",
   "theorems": [
    "C73_profit_mirrors_the_traders",
    "C73_balance_sheet",
    "C73_balance_sheet_between_transactions",
    "C73_funding_mirrors_the_traders",
    "C73_funding_unchanged",
    "C73_net_balance_sheet"
   ],
   "note": ""
  }
 ]
}