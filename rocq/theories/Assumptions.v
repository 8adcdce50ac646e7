(** Generated by tools/gen_manifest.py: prints the axioms under every claimed theorem. *)
From Verif Require Import Props_Config Props_Ledger Props_Tokens Props_Requests Props_Requests2 Props_Requests3 Props_Positions Props_Oracle Props_Orders Props_Limits Props_Collateral Props_Margin Props_Liq Props_Adl Props_LP Props_Rates Props_Swap Props_Perm Props_Funding Props_Auth Props_Referral Props_Wrapper Props_Lists Props_Getters Props_Getters2 Props_Tools Props_Split Props_Stored Props_Access Props_Deposits Props_Wrapper2 Props_Oracle2 Props_Submit Props_RefAdmin Props_Funding2 Props_Accrual Props_Events Props_Events2 Props_Indep Props_Refuse Props_Refuse2 Props_Refuse3 Props_Refuse4 Props_Refuse5 Props_Refuse6 Props_Refuse7 Props_Refuse8 Props_Refuse9 Props_Refuse10 Props_Oracle3 Props_Live Props_Live2 Props_Deposits2 Props_Tokens2 Props_Provenance Props_WellFormed Props_Exit Props_Refuse11 Props_Refuse12 Props_Refuse13 Props_Refuse14 Props_Refuse15 Props_Submit2 Props_Provenance2 Props_Live3 Props_OnePrice Props_Sheet Props_Sheet2 Props_OnePrice2.
(* Every claimed theorem is a component of one of the tuples below, so what is printed for a tuple covers each of its theorems. *)
Definition claims_0 := (
  @C01_ledger_equals_oaths,
  @C01_zero_after_transactions,
  @C01_no_call_creates_claims,
  @C02_tokens_conserved,
  @C02_lock_fee,
  @C02_external_tokens,
  @C02_resources_distinct,
  @C02_no_vault_is_overdrawn,
  @C02_over_history,
  @C02_nothing_from_nothing,
  @C03_recorded_collateral_is_in_the_vault,
  @C03_changes_agree,
  @C04_requests_only_move_forward,
  @C04_final_is_final,
  @C04_statuses_known,
  @C05_processed_once,
  @C06_active_set_exact,
  @C06_indexes_exist,
  @C07_submissions_bounded,
  @C08_liquidation_invalidates,
  @C08_never_executed,
  @C09_processed_inside_window,
  @C09_expired_changes_nothing_else,
  @C10_two_step,
  @C10_wraps,
  @C11_step,
  @C11_prices_move_forward,
  @C11_only_the_owner_removes,
  @C12_signed,
  @C12_provenance,
  @C12_keys,
  @C13_fresh,
  @C13_traded_pairs_are_configured,
  @C13_reported_prices,
  @C14_margin_after_opening,
  @C14_margin_after_withdrawing,
  @C14_margin_after_oath,
  @C15_only_below_maintenance,
  @C15_reported,
  @C16_clean_account,
  @C16_open_interest,
  @C17_open_interest,
  @C17_no_empty_position,
  @C17_open_interest_nonneg,
  @C18_totals,
  @C18_snapshots,
  @C18_skew,
  @C19_funding_collected_is_distributed,
  @C19_who_pays,
  @C19_rate_is_bounded,
  @C19_second_update_changes_nothing,
  @C19_exact,
  @C19_every_call,
  @C20_order_fee_bounds,
  @C20_order_fee_formula,
  @C20_liquidation_fee_bounds,
  @C20_adl_fee_bounds,
  @C21_order_fee_split_exact,
  @C21_liquidation_fee_split_exact,
  @C21_adl_fee_split_exact).
Print Assumptions claims_0.
Definition claims_1 := (
  @C21_order_referral_share,
  @C21_liquidation_referral_share,
  @C21_adl_referral_share,
  @C21_add_liquidity_fee_split,
  @C21_remove_liquidity_fee_split,
  @C22_round_trip,
  @C22_refuted_with_no_supply,
  @C23_supply_only_by_providers,
  @C23_supply_nonneg,
  @C23_add_does_not_dilute,
  @C23_remove_does_not_dilute,
  @C24_open_interest_limit,
  @C24_positions_limit,
  @C24_collaterals_limit,
  @C24_order_skew_limit,
  @C24_remove_liquidity_skew_limit,
  @C25_withdrawals_are_covered,
  @C26_order_changes_position_as_asked,
  @C26_reduce_only,
  @C27_limits_respected,
  @C28_conditional_and_total,
  @C28_open_interest,
  @C28_threshold_decreasing,
  @C28_zero_a_disables,
  @C29_long_ratio_sign,
  @C29_long_deleveraged_in_profit,
  @C29_short_ratio_inverted,
  @C29_refuted_for_shorts,
  @C30_debt_swap,
  @C31_level_needed,
  @C31_rules_after,
  @C31_rules_change_only_with_level_1,
  @C31_new_account,
  @C32_owner_only,
  @C32_roles,
  @C32_delegator,
  @C32_no_badge_no_call,
  @C32_withdrawn_freezes,
  @C33_registry_exact,
  @C34_widening,
  @C34_recovery_key,
  @C34_add_rule,
  @C34_refuted_when_open,
  @C35_solvent,
  @C35_promises_nonnegative,
  @C35_claim_is_served,
  @C35_paying_codes_are_single_use,
  @C35_ex,
  @C36_code_history,
  @C36_new_code_history,
  @C36_allocation_history,
  @C36_counter_exact,
  @C36_referred_accounts,
  @C36_quota,
  @C36_referrals_stay,
  @C36_fee_shares,
  @C36_account_referral_fixed,
  @C36_account_referral_from_code,
  @C37_backed_base_only,
  @C37_backed_between_transactions).
Print Assumptions claims_1.
Definition claims_2 := (
  @C37_vaults_nonnegative,
  @C37_any_burnable_token_drains,
  @C37_flash_oath_drains,
  @C37_refuted,
  @C37_ex,
  @C37_wrap_exact,
  @C37_unwrap_exact,
  @C37_round_trip,
  @C37_backing_exact,
  @C37_backed_iff,
  @C37_only_foreign_unwraps_lose,
  @C38_supplies,
  @C38_repay_exact,
  @C38_loan_exact,
  @C38_repaid_base_only,
  @C38_refuted,
  @C38_loans_accounted,
  @C38_repaid_iff,
  @C38_oath_leaves,
  @C39_accepted_iff_it_fits,
  @C39_sign_magnitude_and_error,
  @C39_three_digits_exact,
  @C39_idempotent,
  @C39_monotone_up_to_rounding,
  @C39_monotone_refuted,
  @C39_exchange_config_read_back,
  @C39_pair_configs_read_back,
  @C39_collateral_configs_read_back,
  @C39_collateral_config_removed,
  @C39_config_changes_only_so,
  @C40_exchange_config,
  @C40_pair_config_stays_valid_when,
  @C40_collateral_config_stays_valid_when,
  @C40_durations_wrap_refuted,
  @C40_margins_swap_refuted,
  @C40_pair_rates,
  @C40_collateral_rates,
  @C40_pair_config_in_every_state,
  @C40_collateral_config_in_every_state,
  @C41_rewards_match_the_work,
  @C41_no_reward_for_a_repeated_update,
  @C42_live_requests_cancellable,
  @C42_invalidated_refuted,
  @C42_invalidated_marked,
  @C43_cancelled_never_executes,
  @C43_mutual_never_both,
  @C43_dormant_needs_activation,
  @C43_tp_sl,
  @C44_tp_sl_linked,
  @C45_list_history,
  @C45_new_list_history,
  @C45_length_is_pushes,
  @C45_writes_succeed,
  @C45_range,
  @C45_hash_list_history,
  @C45_new_hash_list_history,
  @C45_request_pages,
  @C45_pair_pages,
  @C45_pair_order,
  @C45_wrapper_inputs).
Print Assumptions claims_2.
Definition claims_3 := (
  @C45_ex,
  @C46_lock_fee_bounded,
  @C46_oaths_only_settled,
  @C46_settled_against_the_account,
  @C46_settled_against_the_new_account,
  @C46_no_oath_after_transactions,
  @C46_fee_balances_nonneg,
  @C46_lock_fee_exact,
  @C47_collect_treasury,
  @C47_collect_fee_delegator,
  @C47_collect_referral_rewards,
  @C47_swap_protocol_fee,
  @C47_pool_net_value_unchanged,
  @C47_collect_succeeds,
  @C48_trade_moves_only_fees,
  @C48_trader_pays_only_the_fee,
  @C49_order_settles_funding,
  @C49_adl_settles_funding,
  @C50_other_accounts_untouched,
  @C50_unnamed_changes_none,
  @C50_accounts_persist,
  @C51_positions_any_order,
  @C51_collateral_any_order,
  @C51_positions_succeed_in_any_order,
  @C51_collateral_succeeds_in_any_order,
  @C51_liquidation_any_order,
  @C51_liquidated_collateral_any_order,
  @C52_balance_and_referral,
  @C52_positions,
  @C52_collaterals,
  @C52_active_requests,
  @C52_history,
  @C52_available,
  @C52_positions_configured,
  @C53_stale_feed_blocks,
  @C54_references_resolved,
  @C54_dangling_never_executes,
  @C54_wraps,
  @C55_requests_grow,
  @C55_last_update,
  @C55_lifetime_reward,
  @C56_get_variables,
  @C56_only_owner_sets,
  @C56_free_tokens,
  @C56_free_tokens_available,
  @C56_mint_amounts,
  @C56_admin_mint,
  @C57_pool_details,
  @C57_quoted_price_is_charged,
  @C57_quoted_price_is_paid,
  @C57_pair_details,
  @C57_pair_details_available,
  @C57_referral_details,
  @C57_collaterals,
  @C57_requests,
  @C58_funds,
  @C58_referrals,
  @C58_accounts,
  @C58_pool,
  @C59_add_collateral).
Print Assumptions claims_3.
Definition claims_4 := (
  @C59_create_account,
  @C59_only_configured_tokens,
  @C60_never_behind_the_message,
  @C60_newest_takes_effect,
  @C60_old_prices_ignored,
  @C60_replay_harmless,
  @C60_bad_message_rejected,
  @C60_unread_message,
  @C60_add_key,
  @C60_remove_key,
  @C60_remove_price,
  @C60_revoked_key,
  @C61_withdrawal_submitted,
  @C61_order_submitted,
  @C61_tp_sl_touches_nothing_else,
  @C61_cancelled,
  @C61_order_executed,
  @C61_one_request_changes,
  @C61_tp_sl_submitted,
  @C62_mint_referral,
  @C62_update_referral,
  @C62_add_allocation,
  @C62_mint_with_allocation,
  @C62_create_codes,
  @C62_codes_from_allocation,
  @C63_events_tell_the_change,
  @C63_events_tell_the_history,
  @C63_from_the_start,
  @C63_events_tell_the_balances,
  @C63_debt_swap_balance,
  @C63_settings_are_reported,
  @C63_events_fix_the_settings,
  @C63_oaths_are_not_reported,
  @C64_only_the_named_account_is_read,
  @C64_histories,
  @C64_requests_commute,
  @C65_liquidation,
  @C65_cancel,
  @C65_withdrawal_request,
  @C65_order_request,
  @C65_tp_sl_request,
  @C65_deposit,
  @C65_process,
  @C65_add_liquidity,
  @C65_remove_liquidity,
  @C65_update_pairs,
  @C65_swap_debt,
  @C65_deleverage,
  @C65_collect_treasury,
  @C65_collect_fee_delegator,
  @C65_collect_referral_rewards,
  @C65_swap_protocol_fee,
  @C65_lock_fee,
  @C65_delegator_settings,
  @C65_rules,
  @C65_mint_referral,
  @C65_update_referral,
  @C65_codes_from_allocation,
  @C65_oracle,
  @C65_process_configured).
Print Assumptions claims_4.
Definition claims_5 := (
  @C65_cancel_oath,
  @C65_withdrawal_request_oath,
  @C65_order_request_oath,
  @C65_tp_sl_request_oath,
  @C65_deposit_oath,
  @C65_create_account,
  @C65_rules_oath,
  @C65_exchange_config,
  @C65_pair_configs,
  @C65_collateral_configs,
  @C65_owner,
  @C65_add_allocation,
  @C65_mint_with_allocation,
  @C65_create_codes,
  @C65_order_refused_for_margin,
  @C66_stored_was_delivered,
  @C66_stored_is_newest,
  @C66_order_of_delivery,
  @C67_idle_account_can_withdraw,
  @C67_refused_for_margin,
  @C67_only_the_margin,
  @C68_deposit_adds_value,
  @C68_deposit_keeps_margin,
  @C69_every_request_was_asked_for,
  @C69_since_instantiation,
  @C69_positions_change_only_as_asked,
  @C69_collateral_leaves_only_as_asked,
  @C69_balance_leaves_only_as_asked,
  @C70_stored_requests_well_formed,
  @C70_configuration_always_found,
  @C71_closing_needs_no_margin,
  @C71_rebalancing_needs_no_skew,
  @C71_tolerant_order_never_slips,
  @C71_getting_out,
  @C72_no_profit_at_one_price,
  @C72_pool_does_not_lose,
  @C72_no_profit_across_pairs,
  @C72_pool_does_not_lose_across_pairs,
  @C73_profit_mirrors_the_traders,
  @C73_balance_sheet,
  @C73_balance_sheet_between_transactions,
  @C73_funding_mirrors_the_traders,
  @C73_funding_unchanged,
  @C73_net_balance_sheet).
Print Assumptions claims_5.
