{"id": "C01", "title": "The internal ledger is zero-sum", "statement": "In every reachable state the pool's virtual balance, plus the virtual balance of every margin account, plus the protocol and treasury fee balances, plus the fee delegator's virtual balance, plus the reward balance of every referral, minus the supply of outstanding fee oaths, is exactly zero; after any committed transaction no oath is outstanding, so the balances alone sum to zero. No call creates or destroys claims on the pool.", "quantifier": "every sequence of successful calls from deployment, with any arguments, callers, price messages and passage of time and every transaction built from them", "why_tests_cant": "The invariant couples six components through rounding arithmetic; a test checks a few traces, a leak of one atto in one rare branch (liquidation loss, negative fee, oath) would survive.", "anchors": ["exchange/src/exchange.rs: _settle_account, _settle_fees_basic, _settle_fees_referral, _settle_fee_oath, collect_treasury, collect_fee_delegator, collect_referral_rewards, swap_protocol_fee", "exchange/src/exchange/virtual_margin_pool.rs: add_virtual_balance", "fee_distributor/src/fee_distributor.rs: distribute", "fee_delegator/src/fee_delegator.rs: lock_fee"]}
{"id": "C02", "title": "Tokens are conserved", "statement": "For every resource the exchange does not mint or burn itself (everything except LP, keeper reward, fee oath, and the burnt protocol tokens), what the pool, account and referral vaults hold after a call plus what the call hands out equals what they held before plus what the caller handed in; LP and oath movements equal the change of their supply. From instantiation on, what the system holds is what it was ever handed less what it ever handed out (and, for XRD, the network fees it locked); no vault is ever overdrawn, so nobody gets out more than all users together put in.", "quantifier": "every call from every reachable state and every history since instantiation, every resource, every divisibility", "why_tests_cant": "Requires summing over all accounts and vaults for every method and every rounding of take_advanced.", "anchors": ["exchange/src/exchange.rs: add_collateral, _remove_collateral, liquidate, swap_debt, add_liquidity, remove_liquidity", "common/src/vaults.rs: take_advanced_batch", "account/src/margin_account.rs: deposit_collateral_batch, withdraw_collateral_batch", "pool/src/margin_pool.rs: deposit, withdraw"]}
{"id": "C03", "title": "The recorded collateral equals the vault contents", "statement": "For every margin account and resource the recorded collateral balance equals the balance of the account's vault for it, and is never negative.", "quantifier": "every sequence of successful calls from deployment, with any arguments, callers, price messages and passage of time, every account, every resource", "why_tests_cant": "Two separately maintained tables (vaults and the balance map, plus a cached copy) must agree after every interleaving of deposits, withdrawals and liquidations.", "anchors": ["account/src/margin_account.rs: collateral_balances, deposit_collateral_batch, withdraw_collateral_batch", "exchange/src/exchange/virtual_margin_account.rs: deposit_collateral_batch, withdraw_collateral_batch"]}
{"id": "C04", "title": "Request status only moves forward", "statement": "Once submitted, a keeper request's content, submission time, expiry and index never change, and its status changes only dormant->active, dormant->cancelled, dormant->expired, active->executed, active->cancelled, active->expired. Executed, cancelled and expired are final.", "quantifier": "every sequence of successful calls from deployment, with any arguments, callers, price messages and passage of time, every account and request index", "why_tests_cant": "A temporal property over unbounded histories of submissions, activations, cancellations, executions and liquidations.", "anchors": ["exchange/src/exchange/virtual_margin_account.rs: try_set_keeper_requests_status, cancel_requests, process_request, _status_phases", "account/src/margin_account.rs: update", "exchange/src/exchange/requests.rs"]}
{"id": "C05", "title": "A request is executed at most once", "statement": "In any history, at most one process_request call on a given account and index succeeds: after a success every later process_request, and every later cancellation, of that index fails.", "quantifier": "every sequence of successful calls from deployment, with any arguments, callers, price messages and passage of time, every account and index", "why_tests_cant": "Double execution would need a specific long history; only an invariant excludes all of them.", "anchors": ["exchange/src/exchange.rs: process_request", "exchange/src/exchange/virtual_margin_account.rs: process_request"]}
{"id": "C06", "title": "The active set is exactly the live pending requests", "statement": "In every reachable state, an account's active request set is exactly the set of indexes that are at or after the valid start and whose status is active or dormant; every index in it exists.", "quantifier": "every sequence of successful calls from deployment, with any arguments, callers, price messages and passage of time, every account", "why_tests_cant": "The set is maintained by incremental adds and removes in six places; drift appears only after particular orders of events.", "anchors": ["account/src/margin_account.rs: update", "exchange/src/exchange/virtual_margin_account.rs: _add_active_request, _remove_active_request"]}
{"id": "C07", "title": "Pending requests are bounded", "statement": "Every successful submission leaves the account with at most active_requests_max pending requests.", "quantifier": "every submission from every reachable state, every configuration", "why_tests_cant": "The limit is checked on a cached counter, not on the set; that both agree needs the invariant of C06.", "anchors": ["exchange/src/exchange.rs: _assert_active_requests_limit, remove_collateral_request, margin_order_request, margin_order_tp_sl_request", "exchange/src/exchange/virtual_margin_account.rs: active_requests_len"]}
{"id": "C08", "title": "Liquidation invalidates every earlier request", "statement": "After a successful liquidation of an account, no request submitted before it is ever executed or processed, whatever happens later.", "quantifier": "every liquidation in every history, every earlier index, every continuation", "why_tests_cant": "Quantifies over all futures of a state.", "anchors": ["exchange/src/exchange.rs: liquidate", "exchange/src/exchange/virtual_margin_account.rs: update_valid_requests_start, process_request"]}
{"id": "C09", "title": "Execution happens only inside the request's window", "statement": "process_request succeeds only on a pending request with submission time strictly before now; before expiry the request must be active and its effect is applied; at or after expiry nothing but the status (to expired), the active set and the keeper reward changes - no balance, position, price, pool value or fee moves.", "quantifier": "every process_request call from every reachable state", "why_tests_cant": "All states and times, including boundaries (now = submission, now = expiry).", "anchors": ["exchange/src/exchange/virtual_margin_account.rs: process_request", "exchange/src/exchange.rs: process_request"]}
{"id": "C10", "title": "Orders execute strictly after the instant they were submitted", "statement": "A margin order can only be executed at a time strictly later than its submission call (two-step execution, which prevents trading on a price already known). The full claim fails: delay_seconds >= 2^63 wraps to a negative delay, so an order can be submitted with a submission time in the past and executed at the instant it was submitted. It holds for every submission with delay_seconds < 2^63.", "quantifier": "every submission and every later processing in every history", "why_tests_cant": "Needs all 64-bit delays; no test picks the wrapping ones.", "anchors": ["exchange/src/exchange.rs: margin_order_request", "exchange/src/exchange/virtual_margin_account.rs: push_request"]}
{"id": "C11", "title": "Oracle prices never go back in time", "statement": "As long as a pair's price is not removed by the owner, the timestamp stored for it never decreases, and a price only changes together with a strictly larger timestamp.", "quantifier": "every sequence of successful calls from deployment, with any arguments, callers, price messages and passage of time, every pair; including messages with repeated pairs", "why_tests_cant": "Replayed or reordered signed messages form an unbounded space.", "anchors": ["oracle/src/oracle.rs: push_and_get_prices", "exchange/src/exchange/virtual_oracle.rs: new"]}
{"id": "C12", "title": "Only signed prices enter the oracle", "statement": "Every price stored in the oracle was carried by a message whose signature verifies under a key that was registered when it was pushed; no other call changes a price.", "quantifier": "every sequence of successful calls from deployment, with any arguments, callers, price messages and passage of time", "why_tests_cant": "A provenance property of whole histories.", "anchors": ["oracle/src/oracle.rs: push_and_get_prices, add_key, remove_key"]}
{"id": "C13", "title": "Only fresh positive prices are used", "statement": "Whenever a request executes, an account is liquidated or deleveraged, a debt swapped or pairs updated, every price used is strictly positive and strictly younger than the maximum age configured for each feed it serves (the smaller one when a pair is both traded and a collateral feed).", "quantifier": "every keeper call from every reachable state, with or without a price message", "why_tests_cant": "All combinations of feeds, ages and timestamps, including overflow of the age arithmetic.", "anchors": ["exchange/src/exchange/virtual_oracle.rs: new", "exchange/src/exchange.rs: _pair_feeds", "exchange/src/exchange/virtual_config.rs: collateral_feeds"]}
{"id": "C14", "title": "Initial margin holds after taking risk", "statement": "After a successful call that opened a position, withdrew collateral, or charged a fee oath, the account's value (virtual balance + discounted collateral + position profit after closing fees and funding) at the prices used is at least its initial margin requirement.", "quantifier": "every order execution with an opening part, every collateral removal, every oath-paid call, every account with any number of positions and collaterals", "why_tests_cant": "The valuation is a sum over unbounded maps with truncating arithmetic and is checked in the middle of the call; that the final state satisfies it must follow for all states.", "anchors": ["exchange/src/exchange.rs: _assert_account_integrity, _open_position, _remove_collateral, _settle_fee_oath, _value_positions, _value_collateral"]}
{"id": "C15", "title": "Liquidation only below maintenance margin", "statement": "liquidate succeeds only if the account's value at the prices used is strictly below its maintenance margin requirement (positions plus collateral), and an account at or above it can never be liquidated.", "quantifier": "every liquidate call, every account state and prices", "why_tests_cant": "The check is on sums computed while the state is being torn down.", "anchors": ["exchange/src/exchange.rs: liquidate, _liquidate_positions, _liquidate_collateral"]}
{"id": "C16", "title": "Liquidation leaves a clean account", "statement": "After a successful liquidation the account has no positions, a non-negative virtual balance, no collateral of any configured resource, its requests are invalidated, the liquidator paid at least the discounted collateral value, and the pool's open interest fell by exactly the account's position sizes.", "quantifier": "every liquidate call from every reachable state", "why_tests_cant": "Depends on every combination of positions and collaterals.", "anchors": ["exchange/src/exchange.rs: liquidate, _liquidate_positions", "account/src/margin_account.rs: update"]}
{"id": "C17", "title": "Open interest and cost are the sums over accounts", "statement": "In every reachable state, for each pair, the pool's long open interest is the sum of all accounts' long amounts, its short open interest the sum of the short amounts, and its cost the sum of the account costs; no account stores a position of amount zero.", "quantifier": "every sequence of successful calls from deployment, with any arguments, callers, price messages and passage of time, every pair", "why_tests_cant": "A global sum over all accounts preserved by partial closes with rounding, flips, liquidations and deleveraging.", "anchors": ["exchange/src/exchange.rs: _open_position, _close_position, _liquidate_positions, auto_deleverage"]}
{"id": "C18", "title": "The pool's aggregate skew and profit snapshots are the per-pair sums", "statement": "In every reachable state the pool's total skew equals the sum of the per-pair skew snapshots and its profit snapshot equals the sum of the per-pair profit snapshots.", "quantifier": "every sequence of successful calls from deployment, with any arguments, callers, price messages and passage of time", "why_tests_cant": "Aggregates are updated incrementally by deltas at several places per call.", "anchors": ["exchange/src/exchange.rs: _update_pair, _update_pair_snaps", "pool/src/margin_pool.rs: update"]}
{"id": "C19", "title": "Funding accrues only with two sides and elapsed time, and pays out what it collects", "statement": "Updating a pair changes the funding indexes only if time has passed and both sides have open interest, and then the pool's unrealised funding grows by what the longs and shorts are charged in total, up to a rounding error bounded by the open interest; a second update at the same time changes nothing. The new rate, indexes and pool income are exactly those of the documented formulas in every call that updates a pair (listed pairs, an executed order's pair, a liquidated account's pairs, a deleveraged pair); no call changes the record of any other pair; and unrealised funding changes by the pool's income less what the account settles.", "quantifier": "every pair state, configuration, price and elapsed time", "why_tests_cant": "Nonlinear truncating fixed-point arithmetic over all values.", "anchors": ["exchange/src/exchange.rs: _update_pair"]}
{"id": "C20", "title": "Trading fees are bounded", "statement": "For a referral-less or referral account, the fee of any trade lies between zero and fee_max times the trade value.", "quantifier": "every trade value, price, skew, configuration and rebate", "why_tests_cant": "All sign combinations and magnitudes of the quadratic price-impact fee.", "anchors": ["exchange/src/exchange.rs: _calculate_fee"]}
{"id": "C21", "title": "Fees are split exactly", "statement": "The four shares of a paid fee (pool, protocol, treasury, referral) add up to the fee exactly, each is non-negative when the configured shares are valid, and the amounts credited equal the amounts reported in the event.", "quantifier": "every fee and every valid configuration", "why_tests_cant": "Rounding: naive splitting leaks attos for particular values only.", "anchors": ["exchange/src/exchange.rs: _settle_fees_basic, _settle_fees_referral"]}
{"id": "C22", "title": "Liquidity providers cannot profit from a round trip", "statement": "Adding liquidity and immediately removing the received LP tokens returns at most the amount paid in, when LP tokens were outstanding before. (Refuted when the supply is zero while the pool still has value: the first depositor gets the whole pool.)", "quantifier": "every pool state, amount and fee configuration", "why_tests_cant": "Truncating divisions: an inflation or rounding attack needs particular large or tiny values.", "anchors": ["exchange/src/exchange.rs: add_liquidity, remove_liquidity"]}
{"id": "C23", "title": "Adding or removing liquidity does not dilute the other holders", "statement": "A successful add or remove of liquidity never lowers pool value per LP token beyond the rounding of the computed price (proved as an exact inequality between value and supply before and after; for adding, while LP tokens are outstanding and the configured fee is at most 100%).", "quantifier": "every pool state with positive value and supply", "why_tests_cant": "As C22.", "anchors": ["exchange/src/exchange.rs: add_liquidity, remove_liquidity"]}
{"id": "C24", "title": "Configured limits hold after every call that could exceed them", "statement": "A call that increases a pair's open interest on a side leaves it at most oi_max; a call that opens leaves the account with at most positions_max positions; a deposit of collateral leaves at most collaterals_max collaterals; an order or liquidity removal that does not lower the skew leaves the skew ratio below the cap.", "quantifier": "every call from every reachable state, every configuration", "why_tests_cant": "Boundaries and interplay of caches with the stored state.", "anchors": ["exchange/src/exchange.rs: _open_position, _assert_position_limit, _assert_collaterals_limit, _assert_pool_integrity"]}
{"id": "C25", "title": "Withdrawals are covered", "statement": "A collateral removal never takes more base tokens than the account's virtual balance nor more of a collateral than the account holds, whatever duplicate or odd claims the request lists, and what reaches the target is what the account lost.", "quantifier": "every claim list (duplicates, zero, negative amounts), every state", "why_tests_cant": "Adversarial claim lists.", "anchors": ["exchange/src/exchange.rs: _remove_collateral"]}
{"id": "C26", "title": "Orders change the position exactly as asked", "statement": "Executing a normal order changes the position by exactly the ordered amount; a reduce-only order never flips or enlarges a position and moves it toward zero by min(|amount|,|position|) when the sides oppose, and not at all otherwise.", "quantifier": "every order amount and position", "why_tests_cant": "Case analysis over signs and magnitudes; composition with settlement must not disturb it.", "anchors": ["exchange/src/exchange.rs: _margin_order"]}
{"id": "C27", "title": "Price and slippage limits are respected", "statement": "An order executes only if the oracle price satisfies its price limit and the fee paid does not exceed its slippage limit of the traded value.", "quantifier": "every order, price and state", "why_tests_cant": "All limits and prices.", "anchors": ["exchange/src/exchange.rs: _margin_order", "exchange/src/exchange/requests.rs: PriceLimit, SlippageLimit"]}
{"id": "C28", "title": "Auto-deleveraging is conditional and total", "statement": "auto_deleverage succeeds only if the skew ratio exceeds the cap and the position's profit ratio exceeds the threshold computed from the skew ratio; it closes the position completely and strictly lowers the skew ratio; the threshold decreases as the skew ratio grows.", "quantifier": "every auto_deleverage call, all valid configurations", "why_tests_cant": "A cubic threshold in fixed-point arithmetic over all skews.", "anchors": ["exchange/src/exchange.rs: auto_deleverage"]}
{"id": "C29", "title": "Auto-deleveraging targets profitable positions", "statement": "The profit ratio compared with the threshold is positive exactly when the position is in profit. This fails for short positions: their cost is negative, so the computed ratio has the opposite sign - losing shorts look profitable and profitable shorts cannot be deleveraged at a positive threshold. Proved for longs, refuted for shorts.", "quantifier": "every position, price and cost", "why_tests_cant": "Tests with long positions pass.", "anchors": ["exchange/src/exchange.rs: auto_deleverage (pnl_percent)"]}
{"id": "C30", "title": "Debt swaps are fair to the account", "statement": "swap_debt succeeds only for an account with a negative virtual balance, never raises it above zero, takes at most the collateral available, charges the collateral price with at most the configured discount (up to one rounding unit), and returns the unused payment.", "quantifier": "every state, payment and price", "why_tests_cant": "Rounding and clamping cases.", "anchors": ["exchange/src/exchange.rs: swap_debt"]}
{"id": "C31", "title": "Account actions need the right level", "statement": "A call that changes an account's access rules succeeds only if the caller satisfies the account's level 1 rule; a collateral removal request needs level 2; adding collateral, submitting or cancelling orders needs level 3. Keeper calls never change access rules.", "quantifier": "every call by every caller from every reachable state", "why_tests_cant": "Security property over all callers and rules (nested any/all).", "anchors": ["exchange/src/exchange.rs: create_recovery_key, add_auth_rule, set_level_1_auth, set_level_2_auth, set_level_3_auth, remove_collateral_request, margin_order_request, cancel_requests", "exchange/src/exchange/virtual_margin_account.rs: verify_level_1_auth, verify_level_2_auth, verify_level_3_auth"]}
{"id": "C32", "title": "Configuration and badges are under owner control", "statement": "Only calls by a caller satisfying the owner rule (or the configured admin role) change the configuration, oracle keys, roles or fee delegator parameters; and after withdraw_authority every user, keeper and admin method fails until the badge is returned.", "quantifier": "every call by every caller", "why_tests_cant": "All callers and all methods.", "anchors": ["exchange/src/exchange.rs: method auth, authorize, withdraw_authority", "fee_delegator/src/fee_delegator.rs: method auth", "oracle/src/oracle.rs: method auth"]}
{"id": "C33", "title": "The permission registry lists exactly the accounts a rule controls", "statement": "get_permissions(rule) lists an account at a level exactly when the account's current rule for that level is that rule or has it among the alternatives of its top-level any-of.", "quantifier": "every sequence of successful calls from deployment, with any arguments, callers, price messages and passage of time, every rule, account and level", "why_tests_cant": "Incremental index maintenance over rule changes with shared sub-rules.", "anchors": ["exchange/src/exchange.rs: create_account, set_level_1_auth, set_level_2_auth, set_level_3_auth, add_auth_rule", "permission_registry/src/permission_registry.rs"]}
{"id": "C34", "title": "Adding a rule or recovery key only widens access", "statement": "After create_recovery_key or add_auth_rule everyone who satisfied the old rule still satisfies the new one, and so does the holder of the new rule or key. Fails when the old rule was allow-all (access is narrowed to the new rule); proved otherwise.", "quantifier": "every rule and caller", "why_tests_cant": "All nested rules.", "anchors": ["exchange/src/exchange.rs: create_recovery_key, add_auth_rule"]}
{"id": "C35", "title": "The referral generator is solvent", "statement": "In every reachable state the referral generator's vault of each resource covers everything still claimable: the claims of all unused codes plus the claims of all unused allocation slots. Hence no valid code claim fails for lack of tokens.", "quantifier": "every sequence of successful calls from deployment, with any arguments, callers, price messages and passage of time, every resource", "why_tests_cant": "Sums over all codes and allocations with rounding up on entry and down on exit.", "anchors": ["referral_generator/src/referral_generator.rs: add_allocation, create_referral_codes, create_referral_codes_from_allocation, claim_referral_code"]}
{"id": "C36", "title": "Referral codes and quotas are never exceeded", "statement": "A code is claimed at most its maximum number of times; an allocation yields at most its maximum number of codes; issuing codes or allocations never raises a referral's count above its maximum; fee_referral and fee_rebate of every referral stay within 0..0.1; an account's referral is fixed at creation.", "quantifier": "every sequence of successful calls from deployment, with any arguments, callers, price messages and passage of time", "why_tests_cant": "Counters over unbounded histories.", "anchors": ["exchange/src/exchange.rs: mint_referral, update_referral, add_referral_allocation, create_referral_codes", "referral_generator/src/referral_generator.rs: claim_referral_code, create_referral_codes_from_allocation"]}
{"id": "C37", "title": "Wrapped base tokens are fully backed, except for foreign tokens burnt by unwrap", "statement": "wrap hands out exactly as many base tokens as child tokens it stores, unwrap pays out the amount handed in (less the child token's rounding) and burns it, and a wrap-unwrap round trip changes nothing. The vaults always hold the base supply less flash loans outstanding, plus base tokens burnt by holders and rounding kept back, less exactly the tokens other than base that unwrap was given (it never checks the token's resource). Full backing therefore holds whenever only base tokens are unwrapped and fails otherwise: anybody can drain any vault with a worthless burnable token, or with the oath of a flash loan he takes out himself.", "quantifier": "every history of wrapper calls", "why_tests_cant": "Missing-check bug: tests only unwrap the right token.", "anchors": ["token_wrapper/src/token_wrapper.rs: wrap, unwrap"]}
{"id": "C38", "title": "Flash loans are repaid in full, except for oaths burnt by unwrap", "statement": "Everything ever flash-loaned has been repaid in burnt base tokens, or its oath is still outstanding (and cannot be stored), or its oath was burnt by unwrap, which accepts any token; repay_flash_loan burns an oath only together with the same amount of base tokens and returns the surplus payment. So a history with no oath left has repaid everything exactly when no oath was given to unwrap; an unpaid loan is proved possible otherwise.", "quantifier": "every history of wrapper calls", "why_tests_cant": "History property.", "anchors": ["token_wrapper/src/token_wrapper.rs: flash_loan, repay_flash_loan"]}
{"id": "C39", "title": "Stored configuration values are rounded toward zero within one percent", "statement": "Storing any decimal that fits the 16-bit float keeps its sign, never increases its magnitude, is exact up to three significant digits, has a relative error of at most 1/100 and is idempotent; values that do not fit are rejected. Each configuration setter stores exactly the rounding of the fields it is given, field by field, and no other call changes the configuration. It is not monotone in general (1.024 is kept while 1.025 is stored as 1.02): the order is proved to be kept against values of at most three significant digits and otherwise up to the relative error.", "quantifier": "every decimal value", "why_tests_cant": "2^192 values; bit-length arithmetic with boundary cases at every power of ten.", "anchors": ["common/src/d_float.rs: from, into", "config/src/config/structs.rs: compress, decompress"]}
{"id": "C40", "title": "A validated configuration stays valid when read back", "statement": "Every exchange, pair or collateral configuration accepted by an update still satisfies the validation bounds when read back. Fails for price_age_max and update_period_seconds, which wrap modulo 65536 (65536 is accepted and reads back 0, so every price is too old, or every update is rewarded), and for the order of the two margins (maintenance 10.24% <= initial 10.25% is accepted and reads back 10.24% > 10.2%). Exactly: in every reachable state the exchange configuration is valid, every pair and collateral configuration read back is the recorded rounding of one that was validated, and it passes validation if and only if its durations did not wrap to zero and its margins kept their order (the initial margin never falls below 99/100 of the maintenance margin).", "quantifier": "every configuration accepted by validation", "why_tests_cant": "Needs all 64-bit ages.", "anchors": ["config/src/config/structs.rs: validate, compress, decompress", "config/src/config.rs: update_pair_configs"]}
{"id": "C41", "title": "Keeper rewards match the work", "statement": "A successful process_request, liquidate or auto_deleverage mints exactly reward_keeper; update_pairs mints one token per distinct pair that was due (period elapsed or price moved enough) - not multiplied by reward_keeper - and nothing for a pair updated again at the same time and price when the period is positive. No other call mints rewards.", "quantifier": "every sequence of successful calls from deployment, with any arguments, callers, price messages and passage of time", "why_tests_cant": "All pair lists (duplicates) and times.", "anchors": ["exchange/src/exchange.rs: process_request, liquidate, auto_deleverage, update_pairs"]}
{"id": "C42", "title": "Pending requests can always be cancelled", "statement": "cancel_requests of pending requests by an authorised caller succeeds. Fails for requests invalidated by a liquidation that are still marked active or dormant: cancelling one panics when no live request remains, and otherwise marks it cancelled. Proved for live requests.", "quantifier": "every state and index list", "why_tests_cant": "Needs a liquidation followed by cancellation of an older request.", "anchors": ["exchange/src/exchange/virtual_margin_account.rs: cancel_requests, _remove_active_request"]}
{"id": "C43", "title": "One-cancels-other orders never both execute", "statement": "If an order lists another request among those it cancels, then after it executes the other one is never executed; for take-profit/stop-loss pairs at most one of the two ever executes, and neither before an order listing it for activation has executed.", "quantifier": "every sequence of successful calls from deployment, with any arguments, callers, price messages and passage of time", "why_tests_cant": "Histories with arbitrary keeper orderings.", "anchors": ["exchange/src/exchange.rs: _margin_order, margin_order_tp_sl_request", "exchange/src/exchange/virtual_margin_account.rs: try_set_keeper_requests_status"]}
{"id": "C44", "title": "Take-profit and stop-loss orders are linked correctly", "statement": "margin_order_tp_sl_request appends one active order and, when requested, dormant reduce-only take-profit and stop-loss orders of the opposite amount with the right price direction; the parent activates exactly those, and they cancel each other; the returned indexes are theirs.", "quantifier": "all argument combinations and states", "why_tests_cant": "Index arithmetic with optional legs.", "anchors": ["exchange/src/exchange.rs: margin_order_tp_sl_request"]}
{"id": "C45", "title": "Lists and paginated getters are faithful", "statement": "The append-only list returns at each index the last value written there, its length is the number of pushes, a page [start, start+n) returns exactly the elements in that range in order, the tail page returns the newest first; the hash list keeps one entry per key in first-insertion order.", "quantifier": "every history of list operations and every page", "why_tests_cant": "Unbounded lists and 64-bit page arguments.", "anchors": ["common/src/list.rs", "common/src/hash_list.rs", "account/src/margin_account.rs: get_requests, get_requests_tail", "config/src/config.rs: get_pair_configs"]}
{"id": "C46", "title": "Fee oaths are bounded and temporary", "statement": "lock_fee leaves at most max_lock of oath value outstanding; an oath can only be settled against an account, increasing that account's debt by exactly its value; no committed transaction leaves an oath outstanding; the fee balances (protocol, treasury, fee delegator, referral) are never negative under valid configurations.", "quantifier": "every sequence of successful calls from deployment, with any arguments, callers, price messages and passage of time", "why_tests_cant": "Transaction-level property over all call sequences.", "anchors": ["fee_delegator/src/fee_delegator.rs: lock_fee", "exchange/src/exchange.rs: _settle_fee_oath", "fee_distributor/src/fee_distributor.rs"]}
{"id": "C47", "title": "Collecting fees pays exactly the balance", "statement": "collect_treasury, collect_fee_delegator, collect_referral_rewards and swap_protocol_fee pay out exactly the respective balance in base tokens and reset it to zero, leave all other balances and the pool's net value unchanged, and swap_protocol_fee burns exactly the configured amount of protocol tokens and returns the rest.", "quantifier": "every call from every reachable state", "why_tests_cant": "Exactness for every amount.", "anchors": ["exchange/src/exchange.rs: collect_treasury, collect_fee_delegator, collect_referral_rewards, swap_protocol_fee"]}
{"id": "C48", "title": "Trading moves value only by fees", "statement": "At the execution price, once the pair is up to date, closing or opening a position changes the combined value of the account and the pool only by the fee shares paid to protocol, treasury and referral (up to the stated rounding): a trade by itself transfers nothing between trader and pool except the fee.", "quantifier": "every trade in every state", "why_tests_cant": "Rounding in cost apportioning of partial closes over all amounts.", "anchors": ["exchange/src/exchange.rs: _open_position, _close_position, _update_pair_snaps"]}
{"id": "C49", "title": "Funding is settled before the position changes", "statement": "Before an order or deleveraging changes a position, the funding it owes at its old size is charged to the account and credited to the pool exactly once, and its funding index is set to the current one, so settling twice charges zero the second time.", "quantifier": "every order and deleveraging", "why_tests_cant": "Ordering property in all states.", "anchors": ["exchange/src/exchange.rs: _settle_funding, _margin_order, auto_deleverage"]}
{"id": "C50", "title": "Calls on one account do not touch the others", "statement": "A call that names a margin account leaves every other account's balances, collateral, positions, requests, rules and referral exactly unchanged; calls that name no account change none.", "quantifier": "every call from every reachable state, every other account", "why_tests_cant": "Frame property over all calls and accounts.", "anchors": ["exchange/src/exchange.rs: all methods", "exchange/src/exchange/virtual_margin_account.rs: realize"]}
{"id": "C51", "title": "Valuation does not depend on iteration order", "statement": "The value and margin computed for an account's positions and collaterals do not depend on the unspecified iteration order of the hash maps holding them.", "quantifier": "every permutation of every position and collateral map", "why_tests_cant": "Hash map order is arbitrary; a test sees one order.", "anchors": ["exchange/src/exchange.rs: _value_positions, _value_collateral"]}
{"id": "C52", "title": "Account details report the true state", "statement": "get_account_details reports every stored position once with its amount, cost and funding owed, every configured collateral with the vault's amount, exactly the live requests sorted newest first, the request history page, the balance and the referral.", "quantifier": "every reachable state and page", "why_tests_cant": "All accounts and pages.", "anchors": ["exchange/src/exchange.rs: get_account_details"]}
{"id": "C53", "title": "Price limits of collateral feeds gate every keeper action", "statement": "If the price of any configured collateral is missing or too old, no request of any account can be executed and no account liquidated, deleveraged or pair updated until it is refreshed or the collateral removed.", "quantifier": "every state and keeper call", "why_tests_cant": "Global liveness coupling not visible per account.", "anchors": ["exchange/src/exchange.rs: process_request, liquidate, update_pairs", "exchange/src/exchange/virtual_oracle.rs: new"]}
{"id": "C54", "title": "Relative request references resolve to the intended request", "statement": "A relative reference with an offset that stays within the list resolves to request index + offset. A reference reaching below zero wraps to a huge index, is accepted, and then the order can never execute (until such an index exists).", "quantifier": "every index and 64-bit offset", "why_tests_cant": "Wrap-around values.", "anchors": ["exchange/src/exchange/requests.rs: resolve", "exchange/src/exchange.rs: margin_order_request"]}
{"id": "C55", "title": "Time and pool data are monotone", "statement": "A pair's last-update time never decreases and never exceeds the current time; the request list of an account never shrinks and its valid start never decreases and never exceeds its length; a referral's lifetime reward never decreases.", "quantifier": "every sequence of successful calls from deployment, with any arguments, callers, price messages and passage of time", "why_tests_cant": "History property.", "anchors": ["exchange/src/exchange.rs: _update_pair", "account/src/margin_account.rs: update"]}
{"id": "C56", "title": "Faucet and environment registry behave as maps", "statement": "free_tokens mints exactly one bucket of the configured amount for each resource with a positive amount; get_variables returns for each requested key the last value set and not removed since, or the empty string.", "quantifier": "every history of calls", "why_tests_cant": "All key sequences.", "anchors": ["faucet/src/lib.rs: free_tokens, update_mint_amount", "env_registry/src/env_registry.rs: get_variables, set_variables, remove_variables"]}
{"id": "C57", "title": "Pool, pair, referral and request reports are true, and the quoted LP price is the one charged", "statement": "get_pool_details reports the stored amounts, the skew ratio, the supply and the LP price; adding liquidity mints exactly the payment less the fee at that price, removing pays it as long as the pool is worth at least 1 (and never more); get_pair_details answers for the requested pairs in order and fails exactly when one is not configured; get_referral_details, get_collaterals and the request getters report the stored data.", "quantifier": "every state, argument and amount", "why_tests_cant": "All states; quote and execution are computed by different code.", "anchors": ["exchange/src/exchange.rs: get_pool_details, get_pair_details, get_referral_details, get_collaterals, add_liquidity, remove_liquidity", "account/src/margin_account.rs: get_requests_by_indexes"]}
{"id": "C58", "title": "Every effect needs the role that grants it", "statement": "Whatever the call, the treasury balance falls only for a caller satisfying the treasury admin role, the protocol balance for the protocol swap role, the fee delegator's balance for its admin, LP supply changes only for the liquidity role, the delegator's vault rises only for its depositor and falls only for its withdrawer or user, oath supply rises only for the delegator's user; referrals are created and their terms changed only by the referral admin, their quota use only by the admin or a referral user showing the NFT, their balance falls only for a referral user showing the NFT, the code generator changes only for the referral or account creation roles; accounts appear only by account creation, rules change and recorded collateral rises only by account management, requests are appended only by the request roles, a stored request changes only by cancellation or a keeper, and positions, collateral withdrawals, request invalidation, pool positions and keeper rewards need the matching keeper role.", "quantifier": "every call from every reachable state, with any arguments and caller", "why_tests_cant": "Quantifies over all calls, callers and states; a test sees one missing check at a time.", "anchors": ["exchange/src/exchange.rs: enable_method_auth, all methods", "fee_delegator/src/fee_delegator.rs: lock_fee, deposit, withdraw"]}
{"id": "C59", "title": "Deposits are credited in full and touch nothing else", "statement": "add_collateral and create_margin_account credit the account with exactly what was deposited: base tokens (and the value minus the oath borrowed for the fee) to its balance, every other token to its recorded collateral, a referral code's claimed tokens included; only configured collaterals are accepted; the pool's base vault rises by the base tokens deposited and nothing else of the account changes.", "quantifier": "every call from every reachable state, with any set of deposited tokens", "why_tests_cant": "All deposits and configurations.", "anchors": ["exchange/src/exchange.rs: add_collateral, create_account", "account/src/margin_account.rs: deposit_collateral_batch"]}
{"id": "C60", "title": "The newest signed price takes effect; replays, old prices and bad messages do not", "statement": "After a keeper call that executes, or a direct push, the stored price of every pair of its message is at least as recent as the message's; a price newer than the stored one and than the message's others is the one stored; a price no newer than the stored one changes nothing, so any accepted message can be replayed at any later time without effect (unless the owner removed the price); a message that does not decode, names an unknown or removed key or is wrongly signed fails the whole call; the message of a call on an expired request is not read; the owner's key and price calls change exactly the named entry.", "quantifier": "every sequence of successful calls from deployment, with any arguments, callers, price messages and passage of time", "why_tests_cant": "All messages, replays and interleavings.", "anchors": ["oracle/src/oracle.rs: push_and_get_prices, add_key, remove_key, remove_price", "exchange/src/exchange/virtual_oracle.rs: new"]}
{"id": "C61", "title": "Submitting, cancelling and executing change exactly the named requests", "statement": "Submitting a withdrawal, an order or an order with take-profit and stop-loss appends exactly the requests asked for, with the window, status and references given, makes them live at the returned indexes, and changes nothing else of the account but its balance by the value of the fee oath. Cancelling turns exactly the listed pending requests to cancelled. Executing an order marks its request executed, cancels the pending ones it lists to cancel, activates the dormant ones it lists to activate, and leaves every other request as it was; executing a withdrawal or clearing an expired request changes that request alone.", "quantifier": "every call from every reachable state", "why_tests_cant": "All request lists, links and statuses.", "anchors": ["exchange/src/exchange.rs: remove_collateral_request, margin_order_request, margin_order_tp_sl_request, cancel_requests, process_request", "exchange/src/exchange/virtual_margin_account.rs: push_request, try_set_keeper_requests_status, cancel_requests, process_request"]}
{"id": "C62", "title": "Referral administration has exactly the stated effect", "statement": "Minting a referral stores the terms asked for under a fresh id handed out as a badge; updating one replaces exactly the fields given; adding an allocation or creating codes registers exactly the claims and uses asked for under fresh codes or the returned index, counts them against the referral's quota, keeps of the tokens handed over what the new entries promise and returns the rest; drawing codes from an allocation counts them against it and moves no token. No other state changes.", "quantifier": "every call from every state, with any terms, tokens, claims and hashes", "why_tests_cant": "All batches, claim lists and existing codes.", "anchors": ["exchange/src/exchange.rs: mint_referral, update_referral, mint_referral_with_allocation, add_referral_allocation, create_referral_codes, create_referral_codes_from_allocation", "referral_generator/src/referral_generator.rs: add_allocation, create_referral_codes"]}
{"id": "C63", "title": "The events of a call are enough to follow the exchange", "statement": "An observer who keeps the events of every call from the deployment on, and nothing else, knows at every moment the pool's record of every pair (open interest, funding indexes, prices), every request of every account with its status, which requests a liquidation invalidated, which accounts exist and with what referral, the size of every position, every collateral amount recorded, and the supply of LP tokens. The events also give every change of an account's balance, except the fee oaths paid from it (no event reports them) and, for a debt swap, up to the rounding of the collateral sold. Settings change only by a call that reports the values asked for, so the events fix the settings.", "quantifier": "every history of calls from the deployment on", "why_tests_cant": "All histories; a dropped or misattributed event shows up only in an observer's replay.", "anchors": ["exchange/src/exchange.rs: event_* emissions in every method, _settle_account", "exchange/src/exchange/virtual_margin_account.rs: realize", "exchange/src/exchange/virtual_margin_pool.rs: realize"]}
{"id": "C64", "title": "A call reads no account but the one it names", "statement": "Whatever the other accounts hold, a call on an account (and a call that names none) succeeds or fails the same way, returns and pays out the same, emits the same events and changes the named account and all shared state the same; so does a whole history of calls on one account. A request submitted or cancelled without a fee oath can be swapped with any following call that names another account and is not an administrative one: same outputs, same final state.", "quantifier": "every call and every history, from every pair of states that differ only in other accounts", "why_tests_cant": "All contents of all other accounts: a noninterference property over pairs of runs.", "anchors": ["exchange/src/exchange.rs: all methods", "exchange/src/exchange/virtual_margin_account.rs: new, realize"]}
{"id": "C65", "title": "A call is refused only for a stated reason", "statement": "When a call fails, its error names a condition that really holds, readable from the state, the caller and the message. Cancelling fails only for a caller who may not, an unknown account, a request that does not exist, is over or was invalidated. Submitting fails only for those, an unconfigured pair, a size below the minimum, too many claims, linked or live requests, a wrong status, or times and indexes out of range. Depositing fails only for an unconfigured token, too many kinds of collateral or an overflowing balance. A fee oath handed to any of these calls stops it only if it is no fee oath, a price of the account's pairs or of some collateral is missing, stale or not positive, or the account, without the amount of the oath, would be worth less than its initial margin. Opening an account fails only if the address is taken, the code is unknown or used up, or the deposit or the oath fails. Processing fails only if the request is not there, not waiting or not due, a needed price is missing, stale, not positive or its message bad, or, for a request still alive, its own limits, its links, the pair's interest limit, the number of positions, the margin, its slippage limit (only if even the highest fee would break it), the pool's skew (only if the order does not reduce the pair's imbalance), the balances or the target stop it. An order refused for the margin would leave the account, with the position asked for, the funding settled and a fee within the highest fee paid, worth less than its initial margin at the prices delivered. Liquidating succeeds exactly when the account's value at the current prices is below its maintenance margin and the payment in base tokens covers its discounted collateral (role, arithmetic range and minting aside). Adding and removing liquidity, bringing pairs up to date, swapping debt and deleveraging fail likewise only for the caller's role, the token handed over, prices, balances, the pool's tokens and skew, no debt, no position or too little profit. Collecting fees, swapping protocol fees, locking fees and changing settings fail only for the caller, the token, what is there to pay with, and values out of range; so do changing an account's rules, minting and updating referrals, drawing codes from an allocation and the oracle's own calls. Adding allocations and codes fails only for the caller, an unknown referral, no room left for more referrals, a claim that is not positive, claims on a code of several uses, a code that exists, or tokens that are unacceptable, do not cover the claims or overflow. The owner's calls fail only for a caller who is not the owner (or, setting a user role, not a user admin either), a configuration outside the stated limits or with a value too large to be stored. So every call of the system is covered.", "quantifier": "every failing call from every reachable state, with any arguments and caller", "why_tests_cant": "Absence of any other failure: no finite set of calls shows that nothing else stops a call.", "anchors": ["exchange/src/exchange.rs: cancel_requests, remove_collateral_request, margin_order_request, margin_order_tp_sl_request, add_collateral, process_request, liquidate, add_liquidity, remove_liquidity, swap_debt, auto_deleverage, update_pairs, collect_treasury, collect_fee_delegator, swap_protocol_fee, collect_referral_rewards", "fee_delegator/src/fee_delegator.rs: lock_fee, update_max_lock, update_price_multiplier", "exchange/src/exchange/virtual_margin_account.rs: process_request, try_set_keeper_requests_status", "exchange/src/exchange/virtual_oracle.rs: new", "exchange/src/exchange/errors.rs", "referral_generator/src/referral_generator.rs: add_allocation, create_referral_codes", "config/src/config.rs: update_exchange_config, update_pair_configs, update_collateral_configs"]}
{"id": "C66", "title": "The stored price is the newest one delivered, in whatever order messages arrive", "statement": "Every price the oracle stores was part of a correctly signed message delivered by some call, or stood there at deployment; as long as the owner removes none, it is at least as recent as every price of its pair ever delivered; and when the prices delivered for a pair carry different times, the price stored after a set of deliveries does not depend on the order in which they came.", "quantifier": "every history of calls from every state, and every reordering of deliveries", "why_tests_cant": "All orders of delivery and all replays.", "anchors": ["oracle/src/oracle.rs: push_and_get_prices, remove_price", "exchange/src/exchange/virtual_oracle.rs: new"]}
{"id": "C67", "title": "An account without positions and without debt can always withdraw what it holds", "statement": "A withdrawal request that is due and still waiting, of an account with no open positions and no debt, asking for positive amounts the account really holds, cannot be refused: processing it by an authorised keeper with good prices succeeds, whatever else is in the exchange, as long as the pool holds the base tokens asked for, the target account accepts the tokens, the keeper's reward can be minted and the amounts lie in the arithmetic's range. For an account with positions or debt the only further obstacle is the margin: a withdrawal refused for it would leave the account, at the prices delivered, worth less than its initial margin.", "quantifier": "every reachable state, account, request, set of claims and keeper", "why_tests_cant": "Absence of any obstacle: a liveness statement over all states.", "anchors": ["exchange/src/exchange.rs: process_request, _remove_collateral", "exchange/src/exchange/virtual_margin_account.rs: withdraw_collateral_batch"]}
{"id": "C68", "title": "Depositing never hurts the account", "statement": "Adding collateral raises the account's value by at least the base tokens handed over (less the fee oath the call carries), and no kind of token deposited lowers it; the value less the initial or the maintenance margin grows by the same amount, up to one atto of rounding for each other kind of token: a deposit can not make an account liquidatable or take its margin away.", "quantifier": "every successful deposit from every reachable state with non-negative collateral prices, any tokens and any fee oath", "why_tests_cant": "All prices, configured rates and amounts, including the rounding of the compressed configuration.", "anchors": ["exchange/src/exchange.rs: add_collateral, _value_collateral, _assert_account_integrity", "config/src/config.rs: CollateralConfig"]}
{"id": "C69", "title": "Nobody acts for you: every request was asked for by somebody the account's rules admit", "statement": "A request present in an account was put there by a call on that account that asked for exactly this withdrawal (target and claims) or this order (pair, amount, direction, limits and times; or the reduce-only take-profit or stop-loss that undoes it), made by a caller who satisfied the account's rule of the level needed at that moment. An account's position changes only by executing such an order, by a liquidation or by an auto-deleveraging; its collateral goes down only by executing such a withdrawal, by a debt swap or by a liquidation. Its base balance goes down only by executing such a request, by a fee oath (by at most its amount) handed over by a caller the account's rule of the needed level admits, by a liquidation or by an auto-deleveraging.", "quantifier": "every history since instantiation, every account, request, caller and interleaving", "why_tests_cant": "Ranges over whole histories: the submission, later rule changes, executions and liquidations may be arbitrarily far apart.", "anchors": ["exchange/src/exchange.rs: remove_collateral_request, margin_order_request, margin_order_tp_sl_request, process_request", "exchange/src/exchange/virtual_margin_account.rs: push_request, process_request"]}
{"id": "C70", "title": "Every stored request is well formed, and its pair stays configured", "statement": "In every reachable state every stored withdrawal claims at most ten resources, and every stored order names a pair that has a configuration, has an amount that can be negated, and links at most two requests to activate and two to cancel. Pair configurations are replaced but never removed, so processing a request never fails for want of its pair's configuration.", "quantifier": "every reachable state, account, request index, caller and price message", "why_tests_cant": "A test submits and processes one order; the claim is about every history in between, including any configuration changes.", "anchors": ["exchange/src/exchange.rs: margin_order_request, margin_order_tp_sl_request, remove_collateral_request, process_request", "config/src/config.rs: update_pair_configs"]}
{"id": "C71", "title": "Getting out is not stopped by the account's or the pool's state", "statement": "An order that only closes (reduce-only, or opposing the position and no larger) is never refused for the account's margin, the pair's open interest limit or the number of positions. An order that makes its pair's imbalance smaller is never refused for the pool's skew. An order whose slippage limit leaves room for the highest fee is never refused for slippage. So a closing order that rebalances its pair, with its own limits met, is executed once it is due and alive with good prices, however far below its margin the account is (arithmetic overflow aside).", "quantifier": "all reachable states, accounts, orders, prices and messages", "why_tests_cant": "a test shows one account that could close; it cannot show that no state of account and pool traps a position", "anchors": ["exchange/src/exchange.rs: _margin_order, _close_position, _open_position, _assert_account_integrity, _assert_pool_integrity", "exchange/src/exchange/requests.rs: SlippageLimit"]}
{"id": "C72", "title": "Trading back and forth at one price makes no money", "statement": "Orders executed one after the other on a pair, in one instant and at one price (the pair having been updated at that instant), leave no account and no group of accounts together worth more than before, up to 2 units of 10^-18 an order: balance, position at that price, less its cost and the funding owed. The pool does not lose either: its value as used for the LP price falls by at most 5 units of 10^-18 an order, when the pair was last marked at that price. Spreading the orders over several pairs, at one price for each pair, gains nothing either, for accounts or against the pool.", "quantifier": "all reachable states, numbers and sizes of orders, sets of pairs, accounts, directions and groups of accounts", "why_tests_cant": "A test trades one sequence; no set of sequences shows that no clever mix of accounts, sizes and signs gains from the fee curve or the bookkeeping", "anchors": ["exchange/src/exchange.rs: _margin_order, _close_position, _open_position, _calculate_fee", "exchange/src/exchange/virtual_margin_pool.rs: position_mut, add_virtual_balance"]}
{"id": "C73", "title": "The balance sheet balances", "statement": "In every reachable state every base token the pool holds is somebody's, and no more is promised than there is: the pool's value (what the liquidity tokens share), the worth of every account (base balance, positions at the price their pair was last marked at, less their cost and the funding they owe), the collected fees and the referral rewards add up to the pool's base tokens, apart from fee oaths outstanding inside a transaction, up to one unit of 10^-18 for each open position and the rounding of the funding updates made so far, which is bounded call by call. The pool's recorded profit on a pair is what the holders of that pair lose on it; the funding the pool is still to receive is what the positions owe, and a call that updates no pair does not move that balance at all.", "quantifier": "every reachable state, every history since instantiation, any number of accounts and pairs", "why_tests_cant": "The sum runs over all accounts, pairs and past updates; a test adds up one small state.", "anchors": ["exchange/src/exchange.rs: _update_pair, _update_pair_snaps, _settle_funding, _open_position, _close_position, _liquidate_positions, _pool_value, _settle_account", "exchange/src/exchange/virtual_margin_pool.rs: add_virtual_balance, add_unrealized_pool_funding, add_pnl_snap", "fee_distributor/src/fee_distributor.rs: distribute"]}
