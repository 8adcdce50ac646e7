# Functions of /repo and the model definitions that cite their lines

| function | lines | model definitions |
|---|---|---|
| account/src/margin_account.rs `new` | 57-95 | Account.acc_new |
| account/src/margin_account.rs `get_info` | 97-107 | Account.acc_new |
| account/src/margin_account.rs `get_request` | 109-111 | Getters.acc_get_request |
| account/src/margin_account.rs `get_requests` | 113-117 | Account.acc_get_requests |
| account/src/margin_account.rs `get_requests_tail` | 119-124 | Account.acc_get_requests_tail |
| account/src/margin_account.rs `get_requests_by_indexes` | 126-128 | Getters.acc_get_requests_by_indexes |
| account/src/margin_account.rs `get_requests_len` | 130-132 | Getters.acc_get_requests_len |
| account/src/margin_account.rs `get_active_requests` | 134-136 | Account.acc_get_active |
| account/src/margin_account.rs `update` | 138-161 | Account.acc_merge_positions, Account.acc_update |
| account/src/margin_account.rs `update_referral_id` | 163-165 | Account.acc_update_referral_id |
| account/src/margin_account.rs `deposit_collateral_batch` | 167-177 | Account.coll_add, Account.acc_deposit |
| account/src/margin_account.rs `withdraw_collateral_batch` | 179-193 | Account.coll_sub, Account.acc_withdraw |
| account/src/margin_account/structs.rs `remove` | 12-16 | Account.account_position, Account.apos_zero |
| common/build.rs `write_resource` | 7-20 | - |
| common/build.rs `write_package` | 22-35 | - |
| common/build.rs `write_component` | 37-50 | - |
| common/build.rs `main` | 52-93 | - |
| common/src/d_float.rs `new` | 24-34 | DFloat.dfloat_new |
| common/src/d_float.rs `into` | 38-40 | DFloat.dfloat_to |
| common/src/d_float.rs `from` | 44-62 | DFloat.bit_len, DFloat.dfloat_pos10, DFloat.dfloat_from |
| common/src/d_float.rs `test_new` | 70-79 | - |
| common/src/d_float.rs `test_into` | 82-94 | - |
| common/src/d_float.rs `test_from` | 97-109 | - |
| common/src/d_float.rs `test_loop` | 112-123 | - |
| common/src/d_float.rs `test_new_panic_exponent_pos` | 127-129 | - |
| common/src/d_float.rs `test_new_panic_exponent_neg` | 133-135 | - |
| common/src/d_float.rs `test_new_panic_significand_pos` | 139-141 | - |
| common/src/d_float.rs `test_new_panic_significand_neg` | 145-147 | - |
| common/src/hash_list.rs `new` | 12-21 | Lists.kl_new, Lists.hl_new |
| common/src/hash_list.rs `insert` | 23-32 | Lists.kl_push, Lists.kl_get, Lists.hl_insert |
| common/src/hash_list.rs `get` | 34-36 | Lists.kl_update, Lists.hl_get |
| common/src/hash_list.rs `get_mut` | 38-40 | Lists.kl_update |
| common/src/hash_list.rs `range` | 42-53 | Lists.kl_range_from, Lists.kl_range, Lists.kl_len, Lists.hl_range_from, Lists.hl_range |
| common/src/hash_list.rs `len` | 55-57 | Lists.kl_len, Lists.hl_len |
| common/src/list.rs `new` | 13-21 | Lists.kl_new |
| common/src/list.rs `push` | 23-26 | Lists.kl_push |
| common/src/list.rs `get` | 28-30 | Lists.kl_get |
| common/src/list.rs `get_mut` | 32-34 | - |
| common/src/list.rs `update` | 36-39 | Lists.kl_update |
| common/src/list.rs `range` | 41-51 | Lists.kl_range_from, Lists.kl_range |
| common/src/list.rs `len` | 53-55 | Lists.kl_len |
| common/src/vaults.rs `new` | 9-16 | - |
| common/src/vaults.rs `amount` | 18-24 | Account.vts_amount |
| common/src/vaults.rs `amounts` | 26-28 | - |
| common/src/vaults.rs `put` | 30-38 | Account.vts_put |
| common/src/vaults.rs `put_batch` | 40-44 | Account.vts_put_batch |
| common/src/vaults.rs `take` | 46-52 | Account.vts_take |
| common/src/vaults.rs `take_batch` | 54-59 | - |
| common/src/vaults.rs `take_advanced` | 61-67 | Account.vts_take_adv |
| common/src/vaults.rs `take_advanced_batch` | 69-74 | Account.vts_take_adv_batch |
| config/src/config.rs `new` | 42-58 | Config.config_new |
| config/src/config.rs `get_info` | 60-70 | - |
| config/src/config.rs `get_pair_configs` | 72-76 | Config.config_get_pair_configs |
| config/src/config.rs `get_pair_configs_by_ids` | 78-83 | Config.config_get_pair |
| config/src/config.rs `get_pair_configs_len` | 85-87 | - |
| config/src/config.rs `update_exchange_config` | 89-92 | Config.config_update_exchange |
| config/src/config.rs `update_pair_configs` | 94-99 | Config.config_update_pair1, Config.config_update_pairs |
| config/src/config.rs `update_collateral_configs` | 101-106 | Config.config_update_collaterals |
| config/src/config.rs `remove_collateral_config` | 108-110 | Config.config_remove_collateral |
| config/src/config/structs.rs `decompress` | 19-25 | - |
| config/src/config/structs.rs `default` | 97-115 | Config.exchange_config_default |
| config/src/config/structs.rs `validate` | 119-133 | Config.ec_validate |
| config/src/config/structs.rs `compress` | 135-153 | Config.ec_compress |
| config/src/config/structs.rs `decompress` | 157-175 | Config.ec_decompress |
| config/src/config/structs.rs `validate` | 255-272 | Config.pc_validate |
| config/src/config/structs.rs `compress` | 274-294 | Config.pc_compress |
| config/src/config/structs.rs `decompress` | 298-318 | Config.pc_decompress |
| config/src/config/structs.rs `validate` | 346-350 | Config.cc_validate |
| config/src/config/structs.rs `compress` | 352-359 | Config.cc_compress |
| config/src/config/structs.rs `decompress` | 363-370 | Config.cc_decompress |
| env_registry/src/env_registry.rs `new` | 21-28 | Wrapper.env_reg, Tools.er_new, Tools.er_run |
| env_registry/src/env_registry.rs `get_variables` | 30-35 | Wrapper.env_reg, Wrapper.er_get |
| env_registry/src/env_registry.rs `set_variables` | 37-41 | Wrapper.env_reg, Wrapper.er_set |
| env_registry/src/env_registry.rs `remove_variables` | 43-47 | Wrapper.env_reg, Wrapper.er_remove |
| exchange/src/exchange.rs `push_and_get_prices_with_auth` | 71-297 | Exchange.role, System.access, System.op_access, System.needs_authority |
| exchange/src/exchange.rs `get_prices_with_auth` | 72-297 | Exchange.role, System.access, System.op_access, System.needs_authority |
| exchange/src/exchange.rs `get_info` | 86-297 | Exchange.role, System.access, System.op_access, System.needs_authority |
| exchange/src/exchange.rs `get_pair_configs` | 87-297 | Exchange.role, System.access, System.op_access, System.needs_authority |
| exchange/src/exchange.rs `get_pair_configs_by_ids` | 88-297 | Exchange.role, System.access, System.op_access, System.needs_authority |
| exchange/src/exchange.rs `get_pair_configs_len` | 89-297 | Exchange.role, System.access, System.op_access, System.needs_authority |
| exchange/src/exchange.rs `update_exchange_config` | 92-297 | Exchange.role, System.access, System.op_access, System.needs_authority |
| exchange/src/exchange.rs `update_pair_configs` | 93-297 | Exchange.role, System.access, System.op_access, System.needs_authority |
| exchange/src/exchange.rs `update_collateral_configs` | 94-297 | Exchange.role, System.access, System.op_access, System.needs_authority |
| exchange/src/exchange.rs `remove_collateral_config` | 95-297 | Exchange.role, System.access, System.op_access, System.needs_authority |
| exchange/src/exchange.rs `new` | 102-297 | Exchange.role, System.access, System.op_access, System.needs_authority |
| exchange/src/exchange.rs `get_info` | 105-297 | Exchange.role, System.access, System.op_access, System.needs_authority |
| exchange/src/exchange.rs `get_request` | 106-297 | Exchange.role, System.access, System.op_access, System.needs_authority |
| exchange/src/exchange.rs `get_requests_tail` | 108-297 | Exchange.role, System.access, System.op_access, System.needs_authority |
| exchange/src/exchange.rs `get_requests_by_indexes` | 109-297 | Exchange.role, System.access, System.op_access, System.needs_authority |
| exchange/src/exchange.rs `get_active_requests` | 111-297 | Exchange.role, System.access, System.op_access, System.needs_authority |
| exchange/src/exchange.rs `update` | 114-297 | Exchange.role, System.access, System.op_access, System.needs_authority |
| exchange/src/exchange.rs `deposit_collateral_batch` | 116-297 | Exchange.role, System.access, System.op_access, System.needs_authority |
| exchange/src/exchange.rs `withdraw_collateral_batch` | 117-297 | Exchange.role, System.access, System.op_access, System.needs_authority |
| exchange/src/exchange.rs `get_info` | 127-297 | Exchange.role, System.access, System.op_access, System.needs_authority |
| exchange/src/exchange.rs `get_positions` | 129-297 | Exchange.role, System.access, System.op_access, System.needs_authority |
| exchange/src/exchange.rs `update` | 132-297 | Exchange.role, System.access, System.op_access, System.needs_authority |
| exchange/src/exchange.rs `deposit` | 133-297 | Exchange.role, System.access, System.op_access, System.needs_authority |
| exchange/src/exchange.rs `withdraw` | 134-297 | Exchange.role, System.access, System.op_access, System.needs_authority |
| exchange/src/exchange.rs `get_allocations` | 144-297 | Exchange.role, System.access, System.op_access, System.needs_authority |
| exchange/src/exchange.rs `add_allocation` | 148-297 | Exchange.role, System.access, System.op_access, System.needs_authority |
| exchange/src/exchange.rs `create_referral_codes` | 149-297 | Exchange.role, System.access, System.op_access, System.needs_authority |
| exchange/src/exchange.rs `create_referral_codes_from_allocation` | 150-297 | Exchange.role, System.access, System.op_access, System.needs_authority |
| exchange/src/exchange.rs `claim_referral_code` | 151-297 | Exchange.role, System.access, System.op_access, System.needs_authority |
| exchange/src/exchange.rs `get_protocol_virtual_balance` | 161-297 | Exchange.role, System.access, System.op_access, System.needs_authority |
| exchange/src/exchange.rs `get_treasury_virtual_balance` | 162-297 | Exchange.role, System.access, System.op_access, System.needs_authority |
| exchange/src/exchange.rs `update_protocol_virtual_balance` | 165-297 | Exchange.role, System.access, System.op_access, System.needs_authority |
| exchange/src/exchange.rs `update_treasury_virtual_balance` | 166-297 | Exchange.role, System.access, System.op_access, System.needs_authority |
| exchange/src/exchange.rs `distribute` | 167-297 | Exchange.role, System.access, System.op_access, System.needs_authority |
| exchange/src/exchange.rs `get_virtual_balance` | 178-297 | Exchange.role, System.access, System.op_access, System.needs_authority |
| exchange/src/exchange.rs `update_virtual_balance` | 186-297 | Exchange.role, System.access, System.op_access, System.needs_authority |
| exchange/src/exchange.rs `get_permissions` | 203-297 | Exchange.role, System.access, System.op_access, System.needs_authority |
| exchange/src/exchange.rs `set_permissions` | 206-297 | Exchange.role, System.access, System.op_access, System.needs_authority |
| exchange/src/exchange.rs `new` | 306-357 | - |
| exchange/src/exchange.rs `deposit_authority` | 361-366 | Exchange.m_deposit_authority |
| exchange/src/exchange.rs `withdraw_authority` | 368-372 | Exchange.m_withdraw_authority |
| exchange/src/exchange.rs `signal_upgrade` | 374-381 | Exchange.m_signal_upgrade |
| exchange/src/exchange.rs `update_exchange_config` | 383-394 | Exchange.m_update_exchange_config |
| exchange/src/exchange.rs `update_pair_configs` | 396-407 | Exchange.m_update_pair_configs |
| exchange/src/exchange.rs `update_collateral_configs` | 409-420 | Exchange.m_update_collateral_configs |
| exchange/src/exchange.rs `remove_collateral_config` | 422-433 | Exchange.m_remove_collateral_config |
| exchange/src/exchange.rs `collect_treasury` | 437-458 | Exchange.pool_pay_out, Exchange.m_collect_treasury |
| exchange/src/exchange.rs `collect_fee_delegator` | 460-481 | Exchange.pool_pay_out, Exchange.m_collect_fee_delegator, Exchange.FEE_REF_MAX, Exchange.ref_fee_ok |
| exchange/src/exchange.rs `mint_referral` | 483-518 | Exchange.mint_referral_nft, Exchange.m_mint_referral |
| exchange/src/exchange.rs `mint_referral_with_allocation` | 520-538 | Exchange.m_mint_referral_with_allocation |
| exchange/src/exchange.rs `update_referral` | 540-568 | Exchange.m_update_referral |
| exchange/src/exchange.rs `add_referral_allocation` | 570-600 | Exchange.assert_ref_tokens, Exchange.add_referral_allocation, Exchange.m_add_referral_allocation |
| exchange/src/exchange.rs `get_pairs` | 604-610 | Exchange.g_pairs |
| exchange/src/exchange.rs `get_permissions` | 612-617 | Exchange.g_permissions |
| exchange/src/exchange.rs `get_account_details` | 619-631 | Exchange.g_account_details |
| exchange/src/exchange.rs `get_pool_details` | 633-640 | Exchange.g_pool_details |
| exchange/src/exchange.rs `get_pair_details` | 642-650 | Exchange.g_pair_details |
| exchange/src/exchange.rs `get_referral_details` | 652-665 | Exchange.g_exchange_config, Getters.g_referral_details |
| exchange/src/exchange.rs `get_exchange_config` | 667-671 | Exchange.g_exchange_config, Exchange.g_pair_configs |
| exchange/src/exchange.rs `get_pair_configs` | 673-679 | Exchange.g_pair_configs, Exchange.g_pair_configs_len |
| exchange/src/exchange.rs `get_pair_configs_len` | 681-685 | Exchange.g_pair_configs_len, Exchange.g_collateral_configs |
| exchange/src/exchange.rs `get_collateral_configs` | 687-692 | Exchange.g_collateral_configs |
| exchange/src/exchange.rs `get_collaterals` | 694-698 | Exchange.g_collateral_configs, Exchange.g_protocol_balance, Exchange.g_treasury_balance, Getters.g_collaterals |
| exchange/src/exchange.rs `get_protocol_balance` | 700-704 | Exchange.g_protocol_balance, Exchange.g_treasury_balance, Getters.g_collaterals |
| exchange/src/exchange.rs `get_treasury_balance` | 706-710 | Exchange.g_protocol_balance, Exchange.g_treasury_balance |
| exchange/src/exchange.rs `swap_protocol_fee` | 714-746 | Exchange.pool_pay_out, Exchange.m_swap_protocol_fee |
| exchange/src/exchange.rs `add_liquidity` | 748-760 | Exchange.m_add_liquidity |
| exchange/src/exchange.rs `remove_liquidity` | 762-774 | Exchange.m_remove_liquidity |
| exchange/src/exchange.rs `create_referral_codes` | 776-808 | Exchange.assert_ref_tokens, Exchange.check_ref_proof, Exchange.m_create_referral_codes |
| exchange/src/exchange.rs `create_referral_codes_from_allocation` | 810-824 | Exchange.check_ref_proof, Exchange.m_create_referral_codes_from_allocation |
| exchange/src/exchange.rs `collect_referral_rewards` | 826-853 | Exchange.pool_pay_out, Exchange.check_ref_proof, Exchange.m_collect_referral_rewards |
| exchange/src/exchange.rs `create_account` | 855-931 | Types.sub_rules, Types.price_rec, Types.env, Exchange.add_collateral_oath, Exchange.reg_insert_all, Exchange.m_create_account |
| exchange/src/exchange.rs `create_recovery_key` | 933-979 | Exchange.settle_oath, Exchange.settle_oath_opt, Exchange.extend_rule, Exchange.m_create_recovery_key |
| exchange/src/exchange.rs `add_auth_rule` | 981-1034 | Exchange.settle_oath_opt, Exchange.extend_rule, Exchange.m_add_auth_rule |
| exchange/src/exchange.rs `set_level_1_auth` | 1036-1059 | Exchange.settle_oath_opt, Exchange.m_set_level_auth |
| exchange/src/exchange.rs `set_level_2_auth` | 1061-1084 | Exchange.m_set_level_auth |
| exchange/src/exchange.rs `set_level_3_auth` | 1086-1109 | Exchange.m_set_level_auth |
| exchange/src/exchange.rs `add_collateral` | 1111-1142 | Exchange.add_collateral_oath, Exchange.m_add_collateral |
| exchange/src/exchange.rs `remove_collateral_request` | 1144-1186 | Exchange.m_remove_collateral_request |
| exchange/src/exchange.rs `margin_order_request` | 1188-1256 | Exchange.m_margin_order_request |
| exchange/src/exchange.rs `margin_order_tp_sl_request` | 1258-1377 | Exchange.m_margin_order_tp_sl_request |
| exchange/src/exchange.rs `cancel_requests` | 1379-1401 | Exchange.m_cancel_requests |
| exchange/src/exchange.rs `process_request` | 1405-1442 | Exchange.mint_reward, Exchange.m_process_request |
| exchange/src/exchange.rs `swap_debt` | 1444-1464 | Exchange.m_swap_debt |
| exchange/src/exchange.rs `liquidate` | 1466-1487 | Exchange.mint_reward, Exchange.m_liquidate |
| exchange/src/exchange.rs `auto_deleverage` | 1489-1513 | Exchange.mint_reward, Exchange.m_auto_deleverage |
| exchange/src/exchange.rs `update_pairs` | 1515-1539 | Exchange.mint_reward, Exchange.upd_pair1, Exchange.m_update_pairs |
| exchange/src/exchange.rs `_pair_feeds` | 1543-1552 | ExInternal.x_pair_feeds |
| exchange/src/exchange.rs `_pair_feeds_no_max_age` | 1554-1561 | ExInternal.x_pair_feeds_no_max_age |
| exchange/src/exchange.rs `_pool_value` | 1563-1571 | ExInternal.x_pool_value |
| exchange/src/exchange.rs `_skew_ratio` | 1573-1578 | ExInternal.x_skew_ratio |
| exchange/src/exchange.rs `_assert_lp_resource` | 1580-1588 | - |
| exchange/src/exchange.rs `_assert_base_resource` | 1590-1598 | - |
| exchange/src/exchange.rs `_assert_pool_integrity` | 1600-1612 | ExInternal.x_assert_pool_integrity |
| exchange/src/exchange.rs `_assert_account_integrity` | 1614-1630 | ExInternal.x_assert_account_integrity |
| exchange/src/exchange.rs `_assert_valid_collateral` | 1632-1642 | ExInternal.x_assert_account_integrity, ExInternal.x_assert_valid_collateral |
| exchange/src/exchange.rs `_assert_position_limit` | 1644-1655 | ExInternal.x_assert_valid_collateral, ExInternal.x_assert_position_limit |
| exchange/src/exchange.rs `_assert_collaterals_limit` | 1657-1668 | ExInternal.x_assert_position_limit, ExInternal.x_assert_collaterals_limit |
| exchange/src/exchange.rs `_assert_active_requests_limit` | 1670-1681 | ExInternal.x_assert_active_requests_limit |
| exchange/src/exchange.rs `_calculate_fee` | 1683-1701 | ExInternal.x_calculate_fee |
| exchange/src/exchange.rs `_account_details` | 1703-1782 | ExInternal.x_funding_due, Exchange.position_details1, Exchange.collateral_details1, Exchange.g_account_details |
| exchange/src/exchange.rs `_pool_details` | 1784-1808 | Exchange.g_pool_details |
| exchange/src/exchange.rs `_pair_details` | 1810-1824 | Exchange.g_pair_details |
| exchange/src/exchange.rs `_settle_fee_oath` | 1826-1845 | ExInternal.x_settle_fee_oath |
| exchange/src/exchange.rs `_add_liquidity` | 1847-1883 | ExInternal.x_add_liquidity |
| exchange/src/exchange.rs `_remove_liquidity` | 1885-1924 | ExInternal.x_remove_liquidity |
| exchange/src/exchange.rs `_set_level_1_auth` | 1926-1959 | Types.sub_rules, ExInternal.pm_get, ExInternal.pm_set, ExInternal.ac_level, ExInternal.ac_set_level, ExInternal.reg_remove |
| exchange/src/exchange.rs `_set_level_2_auth` | 1961-1994 | ExInternal.pm_get, ExInternal.pm_set, ExInternal.ac_level, ExInternal.ac_set_level, ExInternal.reg_remove, ExInternal.reg_insert |
| exchange/src/exchange.rs `_set_level_3_auth` | 1996-2029 | ExInternal.pm_get, ExInternal.pm_set, ExInternal.ac_level, ExInternal.ac_set_level, ExInternal.reg_remove, ExInternal.reg_insert |
| exchange/src/exchange.rs `_add_collateral` | 2031-2058 | ExInternal.x_add_base, ExInternal.is_base, ExInternal.x_add_collateral |
| exchange/src/exchange.rs `_remove_collateral` | 2060-2114 | ExInternal.x_merge_claims, ExInternal.x_claim1, ExInternal.x_remove_collateral |
| exchange/src/exchange.rs `_margin_order` | 2116-2205 | ExInternal.x_split, ExInternal.x_margin_order |
| exchange/src/exchange.rs `_swap_debt` | 2207-2250 | ExInternal.x_swap_debt |
| exchange/src/exchange.rs `_liquidate` | 2252-2318 | ExInternal.x_liquidate |
| exchange/src/exchange.rs `_auto_deleverage` | 2320-2384 | ExInternal.x_adl_threshold, ExInternal.x_auto_deleverage |
| exchange/src/exchange.rs `_open_position` | 2386-2439 | ExInternal.x_open_position |
| exchange/src/exchange.rs `_close_position` | 2441-2481 | ExInternal.x_close_position |
| exchange/src/exchange.rs `_update_pair` | 2483-2603 | ExInternal.x_funding_2_decay, ExInternal.x_funding_2, ExInternal.x_funding_indexes, ExInternal.x_funding_step, ExInternal.x_update_pair |
| exchange/src/exchange.rs `_update_pair_snaps` | 2605-2628 | ExInternal.x_update_pair_snaps |
| exchange/src/exchange.rs `_value_positions` | 2630-2669 | ExInternal.x_funding_due, ExInternal.x_value_position1, ExInternal.x_value_positions |
| exchange/src/exchange.rs `_liquidate_positions` | 2671-2737 | ExInternal.x_funding_due, ExInternal.x_liq_position1, ExInternal.res_liq_pos, ExInternal.x_liquidate_positions, ExInternal.res_liq_coll |
| exchange/src/exchange.rs `_value_collateral` | 2739-2763 | ExInternal.x_value_collateral1, ExInternal.x_value_collateral |
| exchange/src/exchange.rs `_liquidate_collateral` | 2765-2798 | ExInternal.x_liq_collateral1, ExInternal.x_liquidate_collateral |
| exchange/src/exchange.rs `_settle_account` | 2800-2808 | ExInternal.x_settle_account |
| exchange/src/exchange.rs `_settle_funding` | 2810-2835 | ExInternal.x_funding_due, ExInternal.x_settle_funding |
| exchange/src/exchange.rs `_settle_fees_basic` | 2837-2852 | ExInternal.x_settle_fees_basic |
| exchange/src/exchange.rs `_settle_fees_referral` | 2854-2872 | ExInternal.x_settle_fees_referral |
| exchange/src/exchange/requests.rs `compare` | 20-26 | Types.price_limit, Types.pl_compare |
| exchange/src/exchange/requests.rs `price` | 28-34 | Types.price_limit, Types.pl_compare |
| exchange/src/exchange/requests.rs `op` | 36-42 | Types.price_limit, Types.pl_compare |
| exchange/src/exchange/requests.rs `compare` | 53-56 | Types.slippage_limit, Types.sl_allowed, Types.sl_compare |
| exchange/src/exchange/requests.rs `allowed_slippage` | 58-64 | Types.slippage_limit, Types.sl_allowed, Types.sl_compare, Types.index_ref, Types.ir_resolve |
| exchange/src/exchange/requests.rs `resolve` | 74-79 | Types.index_ref, Types.ir_resolve |
| exchange/src/exchange/requests.rs `encode` | 106-108 | Types.keeper_request |
| exchange/src/exchange/requests.rs `decode` | 110-112 | Types.keeper_request |
| exchange/src/exchange/virtual_config.rs `new` | 14-26 | Config.vc_new |
| exchange/src/exchange/virtual_config.rs `exchange_config` | 28-30 | - |
| exchange/src/exchange/virtual_config.rs `pair_config` | 32-37 | Config.config, Config.vc_pair |
| exchange/src/exchange/virtual_config.rs `collateral_configs` | 39-41 | Config.config |
| exchange/src/exchange/virtual_config.rs `collateral_feeds` | 43-45 | Config.config_new, Config.vc_feeds |
| exchange/src/exchange/virtual_margin_account.rs `new` | 35-65 | Account.account, Account.acc_new, Account.va_new, Account.va_add_active |
| exchange/src/exchange/virtual_margin_account.rs `realize` | 67-99 | Account.acc_new, Account.va_updates, Account.va_event_requests, Account.va_realize, Exchange.acc_events, Exchange.get_acc |
| exchange/src/exchange/virtual_margin_account.rs `address` | 101-103 | - |
| exchange/src/exchange/virtual_margin_account.rs `positions` | 105-107 | - |
| exchange/src/exchange/virtual_margin_account.rs `positions_mut` | 109-112 | Account.va_set_positions, Getters.acc_get_request |
| exchange/src/exchange/virtual_margin_account.rs `position_ids` | 114-116 | Account.acc_get_requests |
| exchange/src/exchange/virtual_margin_account.rs `position` | 118-120 | Account.acc_get_requests_tail, Account.va_position |
| exchange/src/exchange/virtual_margin_account.rs `position_mut` | 122-125 | Account.acc_get_requests_tail, Account.va_set_position |
| exchange/src/exchange/virtual_margin_account.rs `referral` | 127-135 | Account.acc_get_active, Getters.acc_get_requests_by_indexes, Getters.acc_get_requests_len |
| exchange/src/exchange/virtual_margin_account.rs `fee_share_referral` | 137-139 | Account.acc_merge_positions, Account.acc_update, Account.va_fee_share_referral |
| exchange/src/exchange/virtual_margin_account.rs `fee_rebate` | 141-143 | Account.acc_merge_positions, Account.acc_update, Account.va_fee_rebate |
| exchange/src/exchange/virtual_margin_account.rs `reward_referral` | 145-151 | Account.acc_merge_positions, Account.acc_update, Account.va_reward_referral |
| exchange/src/exchange/virtual_margin_account.rs `requests_len` | 153-155 | Account.acc_update |
| exchange/src/exchange/virtual_margin_account.rs `keeper_request` | 157-163 | Account.acc_update, Account.acc_update_referral_id, Account.va_keeper_request |
| exchange/src/exchange/virtual_margin_account.rs `keeper_requests` | 165-180 | Account.acc_update_referral_id, Account.coll_add, Account.acc_deposit, Account.acc_withdraw, Account.va_keeper_requests |
| exchange/src/exchange/virtual_margin_account.rs `requests_tail` | 182-184 | Account.coll_sub, Account.acc_withdraw |
| exchange/src/exchange/virtual_margin_account.rs `active_requests` | 186-191 | Account.coll_sub, Account.acc_withdraw, Exchange.newer, Exchange.sort_desc |
| exchange/src/exchange/virtual_margin_account.rs `active_requests_len` | 193-195 | Account.acc_withdraw |
| exchange/src/exchange/virtual_margin_account.rs `collateral_amount` | 197-199 | Account.va_collateral_amount |
| exchange/src/exchange/virtual_margin_account.rs `collateral_amounts` | 201-203 | - |
| exchange/src/exchange/virtual_margin_account.rs `virtual_balance` | 205-207 | - |
| exchange/src/exchange/virtual_margin_account.rs `valid_requests_start` | 209-211 | - |
| exchange/src/exchange/virtual_margin_account.rs `get_level_1_auth` | 213-215 | - |
| exchange/src/exchange/virtual_margin_account.rs `get_level_2_auth` | 217-219 | - |
| exchange/src/exchange/virtual_margin_account.rs `get_level_3_auth` | 221-223 | - |
| exchange/src/exchange/virtual_margin_account.rs `verify_level_1_auth` | 225-228 | - |
| exchange/src/exchange/virtual_margin_account.rs `verify_level_2_auth` | 230-233 | - |
| exchange/src/exchange/virtual_margin_account.rs `verify_level_3_auth` | 235-238 | - |
| exchange/src/exchange/virtual_margin_account.rs `set_level_1_auth` | 240-242 | - |
| exchange/src/exchange/virtual_margin_account.rs `set_level_2_auth` | 244-246 | - |
| exchange/src/exchange/virtual_margin_account.rs `set_level_3_auth` | 248-250 | - |
| exchange/src/exchange/virtual_margin_account.rs `push_request` | 252-272 | Account.va_push_request |
| exchange/src/exchange/virtual_margin_account.rs `try_set_keeper_requests_status` | 274-297 | Account.va_try_set1, Account.va_try_set_status |
| exchange/src/exchange/virtual_margin_account.rs `cancel_requests` | 313-327 | Account.va_cancel1, Account.va_cancel_requests |
| exchange/src/exchange/virtual_margin_account.rs `process_request` | 329-367 | Account.va_process_request |
| exchange/src/exchange/virtual_margin_account.rs `deposit_collateral_batch` | 369-380 | Account.coll_add, Account.va_deposit |
| exchange/src/exchange/virtual_margin_account.rs `withdraw_collateral_batch` | 382-396 | Account.coll_sub, Account.va_withdraw |
| exchange/src/exchange/virtual_margin_account.rs `add_virtual_balance` | 398-400 | Account.va_add_vb |
| exchange/src/exchange/virtual_margin_account.rs `update_valid_requests_start` | 402-409 | Account.va_update_valid_start |
| exchange/src/exchange/virtual_margin_account.rs `_add_active_request` | 411-414 | Account.va_add_active |
| exchange/src/exchange/virtual_margin_account.rs `_remove_active_request` | 416-419 | Account.va_remove_active |
| exchange/src/exchange/virtual_margin_account.rs `_status_phases` | 421-428 | Account.status_phases, Account.is_pending, Account.in_list |
| exchange/src/exchange/virtual_margin_pool.rs `new` | 20-33 | Pool.pool, Pool.vp_new |
| exchange/src/exchange/virtual_margin_pool.rs `realize` | 35-54 | Pool.pool, Pool.pool_new, Pool.vp_realize, Exchange.pool_events |
| exchange/src/exchange/virtual_margin_pool.rs `position` | 56-58 | Pool.pool_new, Pool.vp_position |
| exchange/src/exchange/virtual_margin_pool.rs `position_mut` | 60-63 | Pool.pool_new, Pool.vp_set_position, Getters.pool_get_info_positions |
| exchange/src/exchange/virtual_margin_pool.rs `base_tokens_amount` | 65-67 | Getters.pool_get_info_positions |
| exchange/src/exchange/virtual_margin_pool.rs `virtual_balance` | 69-71 | Getters.pool_get_info_positions |
| exchange/src/exchange/virtual_margin_pool.rs `unrealized_pool_funding` | 73-75 | Pool.pool_get_position |
| exchange/src/exchange/virtual_margin_pool.rs `skew_abs_snap` | 77-79 | Pool.pool_get_positions |
| exchange/src/exchange/virtual_margin_pool.rs `pnl_snap` | 81-83 | Pool.pool_get_positions |
| exchange/src/exchange/virtual_margin_pool.rs `deposit` | 85-88 | Pool.pool_update, Pool.vp_deposit |
| exchange/src/exchange/virtual_margin_pool.rs `withdraw` | 90-94 | Pool.pool_update, Pool.vp_withdraw |
| exchange/src/exchange/virtual_margin_pool.rs `add_virtual_balance` | 96-98 | Pool.pool_deposit, Pool.vp_add_vb, Pool.vp_add_upf, Pool.vp_add_skew, Pool.vp_add_pnl |
| exchange/src/exchange/virtual_margin_pool.rs `add_unrealized_pool_funding` | 100-102 | Pool.pool_withdraw, Pool.vp_add_vb, Pool.vp_add_upf, Pool.vp_add_skew, Pool.vp_add_pnl |
| exchange/src/exchange/virtual_margin_pool.rs `add_skew_abs_snap` | 104-106 | Pool.vp_add_vb, Pool.vp_add_upf, Pool.vp_add_skew, Pool.vp_add_pnl |
| exchange/src/exchange/virtual_margin_pool.rs `add_pnl_snap` | 108-110 | Pool.vp_add_vb, Pool.vp_add_upf, Pool.vp_add_skew, Pool.vp_add_pnl |
| exchange/src/exchange/virtual_oracle.rs `new` | 12-49 | Oracle.oracle, Oracle.vo_feed1, Oracle.vo_merge_feeds, Oracle.vo_price1, Oracle.vo_new, System.access |
| exchange/src/exchange/virtual_oracle.rs `price` | 51-53 | Oracle.vo_price |
| exchange/src/exchange/virtual_oracle.rs `price_resource` | 55-58 | Oracle.vo_price_resource |
| faucet/src/lib.rs `new` | 21-137 | Tools.fc_op, Tools.fc_step, Tools.fc_new, Tools.fc_run |
| faucet/src/lib.rs `update_mint_amount` | 139-141 | Wrapper.faucet, Wrapper.fc_update |
| faucet/src/lib.rs `admin_mint_token` | 143-147 | Wrapper.faucet, Wrapper.fc_admin_mint |
| faucet/src/lib.rs `free_tokens` | 149-159 | Wrapper.faucet, Wrapper.fc_free1, Wrapper.fc_free_tokens |
| fee_delegator/src/fee_delegator.rs `new` | 44-90 | Fees.dl_new, System.run, System.tx, System.tx_reachable |
| fee_delegator/src/fee_delegator.rs `get_info` | 92-94 | Getters.dl_get_info |
| fee_delegator/src/fee_delegator.rs `get_virtual_balance` | 96-98 | - |
| fee_delegator/src/fee_delegator.rs `update_max_lock` | 100-103 | Fees.dl_update_max_lock |
| fee_delegator/src/fee_delegator.rs `update_price_multiplier` | 105-108 | Fees.dl_update_mult |
| fee_delegator/src/fee_delegator.rs `update_is_contingent` | 110-112 | Fees.dl_update_contingent |
| fee_delegator/src/fee_delegator.rs `update_virtual_balance` | 114-117 | Fees.dl_update_vb |
| fee_delegator/src/fee_delegator.rs `deposit` | 119-121 | Fees.dl_deposit |
| fee_delegator/src/fee_delegator.rs `withdraw` | 123-126 | Fees.dl_withdraw |
| fee_delegator/src/fee_delegator.rs `lock_fee` | 128-147 | Fees.dl_lock_fee |
| fee_distributor/src/fee_distributor.rs `new` | 28-39 | Fees.fd_new |
| fee_distributor/src/fee_distributor.rs `get_protocol_virtual_balance` | 41-43 | - |
| fee_distributor/src/fee_distributor.rs `get_treasury_virtual_balance` | 45-47 | - |
| fee_distributor/src/fee_distributor.rs `update_protocol_virtual_balance` | 49-52 | Fees.fd_update_protocol |
| fee_distributor/src/fee_distributor.rs `update_treasury_virtual_balance` | 54-57 | Fees.fd_update_treasury |
| fee_distributor/src/fee_distributor.rs `distribute` | 59-62 | Fees.fd_distribute |
| oracle/src/oracle.rs `new` | 36-68 | System.genesis_roles, System.genesis |
| oracle/src/oracle.rs `add_key` | 70-77 | Oracle.oracle_add_key |
| oracle/src/oracle.rs `remove_key` | 79-81 | Oracle.oracle_remove_key |
| oracle/src/oracle.rs `remove_price` | 83-85 | Oracle.oracle_remove_price |
| oracle/src/oracle.rs `push_and_get_prices_with_auth` | 87-89 | - |
| oracle/src/oracle.rs `get_prices_with_auth` | 91-93 | - |
| oracle/src/oracle.rs `push_and_get_prices` | 95-97 | - |
| oracle/src/oracle.rs `get_prices` | 99-101 | - |
| oracle/src/oracle.rs `_push_and_get_prices` | 103-124 | Types.price_rec, Types.env, Oracle.oracle_push1, Oracle.oracle_push |
| oracle/src/oracle.rs `_get_prices` | 126-131 | Oracle.oracle_get |
| permission_registry/src/permission_registry.rs `new` | 30-40 | - |
| permission_registry/src/permission_registry.rs `get_permissions` | 42-44 | Referral.reg_get |
| permission_registry/src/permission_registry.rs `set_permissions` | 46-48 | Referral.reg_set |
| pool/src/margin_pool.rs `new` | 43-61 | Pool.pool_new |
| pool/src/margin_pool.rs `get_info` | 63-72 | Getters.pool_get_info_positions |
| pool/src/margin_pool.rs `get_position` | 74-76 | Pool.pool_get_position |
| pool/src/margin_pool.rs `get_positions` | 78-83 | Pool.pool_get_positions |
| pool/src/margin_pool.rs `update` | 85-94 | Pool.pool_update |
| pool/src/margin_pool.rs `deposit` | 96-98 | Pool.pool_deposit |
| pool/src/margin_pool.rs `withdraw` | 100-102 | Pool.pool_withdraw |
| pool/src/margin_pool/structs.rs `default` | 19-32 | Pool.pp_default |
| referral_generator/src/referral_generator.rs `new` | 43-55 | - |
| referral_generator/src/referral_generator.rs `get_allocations` | 57-63 | Getters.gn_get_allocations |
| referral_generator/src/referral_generator.rs `get_referral_code` | 65-67 | Getters.gn_get_code |
| referral_generator/src/referral_generator.rs `add_allocation` | 69-130 | Referral.map_tokens, Referral.add_claim, Referral.take_claim, Referral.take_claims, Referral.gn_add_allocation |
| referral_generator/src/referral_generator.rs `create_referral_codes` | 132-202 | Referral.map_tokens, Referral.take_claim, Referral.take_claims, Referral.add_code_claims, Referral.insert_code, Referral.gn_create_codes |
| referral_generator/src/referral_generator.rs `create_referral_codes_from_allocation` | 204-234 | Referral.gn_create_from_alloc |
| referral_generator/src/referral_generator.rs `claim_referral_code` | 236-248 | Referral.gn_claim |
| token_wrapper/src/token_wrapper.rs `new` | 57-105 | Types.FLASH_OATH, Wrapper.wrapper, Wrapper.tw_new, Wrapper.tw_wrap |
| token_wrapper/src/token_wrapper.rs `deposit_authority` | 107-109 | Wrapper.wrapper, Wrapper.tw_step |
| token_wrapper/src/token_wrapper.rs `withdraw_authority` | 111-113 | Wrapper.wrapper, Wrapper.tw_step |
| token_wrapper/src/token_wrapper.rs `add_input` | 115-126 | Wrapper.wrapper, Wrapper.tw_add_input |
| token_wrapper/src/token_wrapper.rs `update_wrappable` | 128-131 | Wrapper.wrapper, Wrapper.tw_update_wrappable |
| token_wrapper/src/token_wrapper.rs `get_inputs` | 133-140 | Wrapper.wrapper, Wrapper.tw_get_inputs |
| token_wrapper/src/token_wrapper.rs `wrap` | 142-156 | Wrapper.tw_wrap |
| token_wrapper/src/token_wrapper.rs `unwrap` | 158-165 | Wrapper.tw_unwrap |
| token_wrapper/src/token_wrapper.rs `flash_loan` | 167-174 | Wrapper.tw_flash_loan |
| token_wrapper/src/token_wrapper.rs `repay_flash_loan` | 176-194 | Wrapper.tw_repay, Wrapper.tw_op |
