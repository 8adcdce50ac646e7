#!/usr/bin/env python3
# Regenerates /verif/properties.jsonl
import json
X="exchange/src/exchange.rs"; VA="exchange/src/exchange/virtual_margin_account.rs"; VP="exchange/src/exchange/virtual_margin_pool.rs"
VO="exchange/src/exchange/virtual_oracle.rs"; RQ="exchange/src/exchange/requests.rs"; MA="account/src/margin_account.rs"
MP="pool/src/margin_pool.rs"; CF="config/src/config.rs"; CS="config/src/config/structs.rs"; OR="oracle/src/oracle.rs"
FD="fee_distributor/src/fee_distributor.rs"; DL="fee_delegator/src/fee_delegator.rs"; RG="referral_generator/src/referral_generator.rs"
PR="permission_registry/src/permission_registry.rs"; TW="token_wrapper/src/token_wrapper.rs"; LI="common/src/list.rs"; HL="common/src/hash_list.rs"
DF="common/src/d_float.rs"; VS="common/src/vaults.rs"; FA="faucet/src/lib.rs"; ER="env_registry/src/env_registry.rs"
P=[]
# Internal functions of the exchange carry an underscore in the source; other shorthands used below are spelled out.
PRIVATE={VA:["status_phases"],X:"pair_feeds account_details add_collateral_ assert_account_integrity assert_active_requests_limit assert_base_resource assert_collaterals_limit assert_pool_integrity assert_position_limit assert_valid_collateral calculate_fee close_position liquidate_collateral liquidate_positions margin_order open_position pair_details pool_value remove_collateral settle_account settle_fee_oath settle_fees_basic settle_fees_referral settle_funding skew_ratio update_pair update_pair_snaps value_collateral value_positions".split()}
SHORT={(X,"collect_*"):"collect_treasury, collect_fee_delegator, collect_referral_rewards",(X,"margin_order_internal"):"_margin_order",(X,"_process_remove_collateral"):"_remove_collateral",(X,"create_margin_account"):"create_account",
 (X,"create_referral_allocation"):"add_referral_allocation",(MA,"deposit_collateral"):"deposit_collateral_batch",(MA,"withdraw_collateral"):"withdraw_collateral_batch",(MA,"update (active_requests)"):"update",
 (VA,"verify_valid_effected_requests"):"try_set_keeper_requests_status",(VA,"remove_collateral"):"withdraw_collateral_batch",(VA,"verify_level_*_auth"):"verify_level_1_auth, verify_level_2_auth, verify_level_3_auth",
 (X,"set_level_*_auth"):"set_level_1_auth, set_level_2_auth, set_level_3_auth",(RG,"create_codes"):"create_referral_codes",(RG,"create_codes_from_allocation"):"create_referral_codes_from_allocation",(RG,"claim_code"):"claim_referral_code",
 (RG,"create_referral_allocation"):"add_allocation",(DF,"From<Decimal>"):"from",(DF,"Into<Decimal>"):"into",(RQ,"RequestIndexRef::resolve"):"resolve",(X,"_save_account"):"_settle_account",(X,"_save_pool"):"_settle_account",
 (X,"authorize!"):"authorize"}
def norm(a):
    if ": " not in a: return a
    f,l=a.split(": ",1)
    out=[]
    for t in l.split(", "):
        t=SHORT.get((f,t),t)
        if t in PRIVATE.get(f,[]): t="_"+t
        out+= [x for x in t.split(", ") if x not in out]
    return f+": "+", ".join(out)
def p(title, statement, quant, why, *anchors):
    P.append(dict(id="C%02d"%(len(P)+1), title=title, statement=statement, quantifier=quant, why_tests_cant=why, anchors=[norm(a) for a in anchors]))
ALLH="every sequence of successful calls from deployment, with any arguments, callers, price messages and passage of time"

p("The internal ledger is zero-sum",
  "In every reachable state the pool's virtual balance, plus the virtual balance of every margin account, plus the protocol and treasury fee balances, plus the fee delegator's virtual balance, plus the reward balance of every referral, minus the supply of outstanding fee oaths, is exactly zero; after any committed transaction no oath is outstanding, so the balances alone sum to zero. No call creates or destroys claims on the pool.",
  ALLH+" and every transaction built from them",
  "The invariant couples six components through rounding arithmetic; a test checks a few traces, a leak of one atto in one rare branch (liquidation loss, negative fee, oath) would survive.",
  X+": settle_account, settle_fees_basic, settle_fees_referral, settle_fee_oath, collect_*, swap_protocol_fee", VP+": add_virtual_balance", FD+": distribute", DL+": lock_fee")
p("Tokens are conserved",
  "For every resource the exchange does not mint or burn itself (everything except LP, keeper reward, fee oath, and the burnt protocol tokens), what the pool, account and referral vaults hold after a call plus what the call hands out equals what they held before plus what the caller handed in; LP and oath movements equal the change of their supply. From instantiation on, what the system holds is what it was ever handed less what it ever handed out (and, for XRD, the network fees it locked); no vault is ever overdrawn, so nobody gets out more than all users together put in.",
  "every call from every reachable state and every history since instantiation, every resource, every divisibility",
  "Requires summing over all accounts and vaults for every method and every rounding of take_advanced.",
  X+": add_collateral, remove_collateral, liquidate, swap_debt, add_liquidity, remove_liquidity", VS+": take_advanced_batch", MA+": deposit_collateral, withdraw_collateral", MP+": deposit, withdraw")
p("The recorded collateral equals the vault contents",
  "For every margin account and resource the recorded collateral balance equals the balance of the account's vault for it, and is never negative.",
  ALLH+", every account, every resource",
  "Two separately maintained tables (vaults and the balance map, plus a cached copy) must agree after every interleaving of deposits, withdrawals and liquidations.",
  MA+": collateral_balances, deposit_collateral, withdraw_collateral", VA+": deposit_collateral_batch, withdraw_collateral_batch")
p("Request status only moves forward",
  "Once submitted, a keeper request's content, submission time, expiry and index never change, and its status changes only dormant->active, dormant->cancelled, dormant->expired, active->executed, active->cancelled, active->expired. Executed, cancelled and expired are final.",
  ALLH+", every account and request index",
  "A temporal property over unbounded histories of submissions, activations, cancellations, executions and liquidations.",
  VA+": try_set_keeper_requests_status, cancel_requests, process_request, status_phases", MA+": update", RQ)
p("A request is executed at most once",
  "In any history, at most one process_request call on a given account and index succeeds: after a success every later process_request, and every later cancellation, of that index fails.",
  ALLH+", every account and index",
  "Double execution would need a specific long history; only an invariant excludes all of them.",
  X+": process_request", VA+": process_request")
p("The active set is exactly the live pending requests",
  "In every reachable state, an account's active request set is exactly the set of indexes that are at or after the valid start and whose status is active or dormant; every index in it exists.",
  ALLH+", every account",
  "The set is maintained by incremental adds and removes in six places; drift appears only after particular orders of events.",
  MA+": update (active_requests)", VA+": _add_active_request, _remove_active_request")
p("Pending requests are bounded",
  "Every successful submission leaves the account with at most active_requests_max pending requests.",
  "every submission from every reachable state, every configuration",
  "The limit is checked on a cached counter, not on the set; that both agree needs the invariant of C06.",
  X+": assert_active_requests_limit, remove_collateral_request, margin_order_request, margin_order_tp_sl_request", VA+": active_requests_len")
p("Liquidation invalidates every earlier request",
  "After a successful liquidation of an account, no request submitted before it is ever executed or processed, whatever happens later.",
  "every liquidation in every history, every earlier index, every continuation",
  "Quantifies over all futures of a state.",
  X+": liquidate", VA+": update_valid_requests_start, process_request")
p("Execution happens only inside the request's window",
  "process_request succeeds only on a pending request with submission time strictly before now; before expiry the request must be active and its effect is applied; at or after expiry nothing but the status (to expired), the active set and the keeper reward changes - no balance, position, price, pool value or fee moves.",
  "every process_request call from every reachable state",
  "All states and times, including boundaries (now = submission, now = expiry).",
  VA+": process_request", X+": process_request")
p("Orders execute strictly after the instant they were submitted",
  "A margin order can only be executed at a time strictly later than its submission call (two-step execution, which prevents trading on a price already known). The full claim fails: delay_seconds >= 2^63 wraps to a negative delay, so an order can be submitted with a submission time in the past and executed at the instant it was submitted. It holds for every submission with delay_seconds < 2^63.",
  "every submission and every later processing in every history",
  "Needs all 64-bit delays; no test picks the wrapping ones.",
  X+": margin_order_request", VA+": push_request")
p("Oracle prices never go back in time",
  "As long as a pair's price is not removed by the owner, the timestamp stored for it never decreases, and a price only changes together with a strictly larger timestamp.",
  ALLH+", every pair; including messages with repeated pairs",
  "Replayed or reordered signed messages form an unbounded space.",
  OR+": push_and_get_prices", VO+": new")
p("Only signed prices enter the oracle",
  "Every price stored in the oracle was carried by a message whose signature verifies under a key that was registered when it was pushed; no other call changes a price.",
  ALLH,
  "A provenance property of whole histories.",
  OR+": push_and_get_prices, add_key, remove_key")
p("Only fresh positive prices are used",
  "Whenever a request executes, an account is liquidated or deleveraged, a debt swapped or pairs updated, every price used is strictly positive and strictly younger than the maximum age configured for each feed it serves (the smaller one when a pair is both traded and a collateral feed).",
  "every keeper call from every reachable state, with or without a price message",
  "All combinations of feeds, ages and timestamps, including overflow of the age arithmetic.",
  VO+": new", X+": pair_feeds", "exchange/src/exchange/virtual_config.rs: collateral_feeds")
p("Initial margin holds after taking risk",
  "After a successful call that opened a position, withdrew collateral, or charged a fee oath, the account's value (virtual balance + discounted collateral + position profit after closing fees and funding) at the prices used is at least its initial margin requirement.",
  "every order execution with an opening part, every collateral removal, every oath-paid call, every account with any number of positions and collaterals",
  "The valuation is a sum over unbounded maps with truncating arithmetic and is checked in the middle of the call; that the final state satisfies it must follow for all states.",
  X+": assert_account_integrity, open_position, remove_collateral, settle_fee_oath, value_positions, value_collateral")
p("Liquidation only below maintenance margin",
  "liquidate succeeds only if the account's value at the prices used is strictly below its maintenance margin requirement (positions plus collateral), and an account at or above it can never be liquidated.",
  "every liquidate call, every account state and prices",
  "The check is on sums computed while the state is being torn down.",
  X+": liquidate, liquidate_positions, liquidate_collateral")
p("Liquidation leaves a clean account",
  "After a successful liquidation the account has no positions, a non-negative virtual balance, no collateral of any configured resource, its requests are invalidated, the liquidator paid at least the discounted collateral value, and the pool's open interest fell by exactly the account's position sizes.",
  "every liquidate call from every reachable state",
  "Depends on every combination of positions and collaterals.",
  X+": liquidate, liquidate_positions", MA+": update")
p("Open interest and cost are the sums over accounts",
  "In every reachable state, for each pair, the pool's long open interest is the sum of all accounts' long amounts, its short open interest the sum of the short amounts, and its cost the sum of the account costs; no account stores a position of amount zero.",
  ALLH+", every pair",
  "A global sum over all accounts preserved by partial closes with rounding, flips, liquidations and deleveraging.",
  X+": open_position, close_position, liquidate_positions, auto_deleverage")
p("The pool's aggregate skew and profit snapshots are the per-pair sums",
  "In every reachable state the pool's total skew equals the sum of the per-pair skew snapshots and its profit snapshot equals the sum of the per-pair profit snapshots.",
  ALLH,
  "Aggregates are updated incrementally by deltas at several places per call.",
  X+": update_pair, update_pair_snaps", MP+": update")
p("Funding accrues only with two sides and elapsed time, and pays out what it collects",
  "Updating a pair changes the funding indexes only if time has passed and both sides have open interest, and then the pool's unrealised funding grows by what the longs and shorts are charged in total, up to a rounding error bounded by the open interest; a second update at the same time changes nothing. The new rate, indexes and pool income are exactly those of the documented formulas in every call that updates a pair (listed pairs, an executed order's pair, a liquidated account's pairs, a deleveraged pair); no call changes the record of any other pair; and unrealised funding changes by the pool's income less what the account settles.",
  "every pair state, configuration, price and elapsed time",
  "Nonlinear truncating fixed-point arithmetic over all values.",
  X+": update_pair")
p("Trading fees are bounded",
  "For a referral-less or referral account, the fee of any trade lies between zero and fee_max times the trade value.",
  "every trade value, price, skew, configuration and rebate",
  "All sign combinations and magnitudes of the quadratic price-impact fee.",
  X+": calculate_fee")
p("Fees are split exactly",
  "The four shares of a paid fee (pool, protocol, treasury, referral) add up to the fee exactly, each is non-negative when the configured shares are valid, and the amounts credited equal the amounts reported in the event.",
  "every fee and every valid configuration",
  "Rounding: naive splitting leaks attos for particular values only.",
  X+": settle_fees_basic, settle_fees_referral")
p("Liquidity providers cannot profit from a round trip",
  "Adding liquidity and immediately removing the received LP tokens returns at most the amount paid in, when LP tokens were outstanding before. (Refuted when the supply is zero while the pool still has value: the first depositor gets the whole pool.)",
  "every pool state, amount and fee configuration",
  "Truncating divisions: an inflation or rounding attack needs particular large or tiny values.",
  X+": add_liquidity, remove_liquidity")
p("Adding or removing liquidity does not dilute the other holders",
  "A successful add or remove of liquidity never lowers pool value per LP token beyond the rounding of the computed price (proved as an exact inequality between value and supply before and after; for adding, while LP tokens are outstanding and the configured fee is at most 100%).",
  "every pool state with positive value and supply",
  "As C22.",
  X+": add_liquidity, remove_liquidity")
p("Configured limits hold after every call that could exceed them",
  "A call that increases a pair's open interest on a side leaves it at most oi_max; a call that opens leaves the account with at most positions_max positions; a deposit of collateral leaves at most collaterals_max collaterals; an order or liquidity removal that does not lower the skew leaves the skew ratio below the cap.",
  "every call from every reachable state, every configuration",
  "Boundaries and interplay of caches with the stored state.",
  X+": open_position, assert_position_limit, assert_collaterals_limit, assert_pool_integrity")
p("Withdrawals are covered",
  "A collateral removal never takes more base tokens than the account's virtual balance nor more of a collateral than the account holds, whatever duplicate or odd claims the request lists, and what reaches the target is what the account lost.",
  "every claim list (duplicates, zero, negative amounts), every state",
  "Adversarial claim lists.",
  X+": remove_collateral")
p("Orders change the position exactly as asked",
  "Executing a normal order changes the position by exactly the ordered amount; a reduce-only order never flips or enlarges a position and moves it toward zero by min(|amount|,|position|) when the sides oppose, and not at all otherwise.",
  "every order amount and position",
  "Case analysis over signs and magnitudes; composition with settlement must not disturb it.",
  X+": margin_order")
p("Price and slippage limits are respected",
  "An order executes only if the oracle price satisfies its price limit and the fee paid does not exceed its slippage limit of the traded value.",
  "every order, price and state",
  "All limits and prices.",
  X+": margin_order", RQ+": PriceLimit, SlippageLimit")
p("Auto-deleveraging is conditional and total",
  "auto_deleverage succeeds only if the skew ratio exceeds the cap and the position's profit ratio exceeds the threshold computed from the skew ratio; it closes the position completely and strictly lowers the skew ratio; the threshold decreases as the skew ratio grows.",
  "every auto_deleverage call, all valid configurations",
  "A cubic threshold in fixed-point arithmetic over all skews.",
  X+": auto_deleverage")
p("Auto-deleveraging targets profitable positions",
  "The profit ratio compared with the threshold is positive exactly when the position is in profit. This fails for short positions: their cost is negative, so the computed ratio has the opposite sign - losing shorts look profitable and profitable shorts cannot be deleveraged at a positive threshold. Proved for longs, refuted for shorts.",
  "every position, price and cost",
  "Tests with long positions pass.",
  X+": auto_deleverage (pnl_percent)")
p("Debt swaps are fair to the account",
  "swap_debt succeeds only for an account with a negative virtual balance, never raises it above zero, takes at most the collateral available, charges the collateral price with at most the configured discount (up to one rounding unit), and returns the unused payment.",
  "every state, payment and price",
  "Rounding and clamping cases.",
  X+": swap_debt")
p("Account actions need the right level",
  "A call that changes an account's access rules succeeds only if the caller satisfies the account's level 1 rule; a collateral removal request needs level 2; adding collateral, submitting or cancelling orders needs level 3. Keeper calls never change access rules.",
  "every call by every caller from every reachable state",
  "Security property over all callers and rules (nested any/all).",
  X+": create_recovery_key, add_auth_rule, set_level_*_auth, remove_collateral_request, margin_order_request, cancel_requests", VA+": verify_level_*_auth")
p("Configuration and badges are under owner control",
  "Only calls by a caller satisfying the owner rule (or the configured admin role) change the configuration, oracle keys, roles or fee delegator parameters; and after withdraw_authority every user, keeper and admin method fails until the badge is returned.",
  "every call by every caller",
  "All callers and all methods.",
  X+": method auth, authorize!, withdraw_authority", DL+": method auth", OR+": method auth")
p("The permission registry lists exactly the accounts a rule controls",
  "get_permissions(rule) lists an account at a level exactly when the account's current rule for that level is that rule or has it among the alternatives of its top-level any-of.",
  ALLH+", every rule, account and level",
  "Incremental index maintenance over rule changes with shared sub-rules.",
  X+": create_account, set_level_*_auth, add_auth_rule", PR)
p("Adding a rule or recovery key only widens access",
  "After create_recovery_key or add_auth_rule everyone who satisfied the old rule still satisfies the new one, and so does the holder of the new rule or key. Fails when the old rule was allow-all (access is narrowed to the new rule); proved otherwise.",
  "every rule and caller",
  "All nested rules.",
  X+": create_recovery_key, add_auth_rule")
p("The referral generator is solvent",
  "In every reachable state the referral generator's vault of each resource covers everything still claimable: the claims of all unused codes plus the claims of all unused allocation slots. Hence no valid code claim fails for lack of tokens.",
  ALLH+", every resource",
  "Sums over all codes and allocations with rounding up on entry and down on exit.",
  RG+": add_allocation, create_codes, create_codes_from_allocation, claim_code")
p("Referral codes and quotas are never exceeded",
  "A code is claimed at most its maximum number of times; an allocation yields at most its maximum number of codes; issuing codes or allocations never raises a referral's count above its maximum; fee_referral and fee_rebate of every referral stay within 0..0.1; an account's referral is fixed at creation.",
  ALLH,
  "Counters over unbounded histories.",
  X+": mint_referral, update_referral, add_referral_allocation, create_referral_codes", RG+": claim_code, create_codes_from_allocation")
p("Wrapped base tokens are fully backed, except for foreign tokens burnt by unwrap",
  "wrap hands out exactly as many base tokens as child tokens it stores, unwrap pays out the amount handed in (less the child token's rounding) and burns it, and a wrap-unwrap round trip changes nothing. The vaults always hold the base supply less flash loans outstanding, plus base tokens burnt by holders and rounding kept back, less exactly the tokens other than base that unwrap was given (it never checks the token's resource). Full backing therefore holds whenever only base tokens are unwrapped and fails otherwise: anybody can drain any vault with a worthless burnable token, or with the oath of a flash loan he takes out himself.",
  "every history of wrapper calls",
  "Missing-check bug: tests only unwrap the right token.",
  TW+": wrap, unwrap")
p("Flash loans are repaid in full, except for oaths burnt by unwrap",
  "Everything ever flash-loaned has been repaid in burnt base tokens, or its oath is still outstanding (and cannot be stored), or its oath was burnt by unwrap, which accepts any token; repay_flash_loan burns an oath only together with the same amount of base tokens and returns the surplus payment. So a history with no oath left has repaid everything exactly when no oath was given to unwrap; an unpaid loan is proved possible otherwise.",
  "every history of wrapper calls",
  "History property.",
  TW+": flash_loan, repay_flash_loan")
p("Stored configuration values are rounded toward zero within one percent",
  "Storing any decimal that fits the 16-bit float keeps its sign, never increases its magnitude, is exact up to three significant digits, has a relative error of at most 1/100 and is idempotent; values that do not fit are rejected. Each configuration setter stores exactly the rounding of the fields it is given, field by field, and no other call changes the configuration. It is not monotone in general (1.024 is kept while 1.025 is stored as 1.02): the order is proved to be kept against values of at most three significant digits and otherwise up to the relative error.",
  "every decimal value",
  "2^192 values; bit-length arithmetic with boundary cases at every power of ten.",
  DF+": From<Decimal>, Into<Decimal>", CS+": compress, decompress")
p("A validated configuration stays valid when read back",
  "Every exchange, pair or collateral configuration accepted by an update still satisfies the validation bounds when read back. Fails for price_age_max and update_period_seconds, which wrap modulo 65536 (65536 is accepted and reads back 0, so every price is too old, or every update is rewarded), and for the order of the two margins (maintenance 10.24% <= initial 10.25% is accepted and reads back 10.24% > 10.2%). Exactly: in every reachable state the exchange configuration is valid, every pair and collateral configuration read back is the recorded rounding of one that was validated, and it passes validation if and only if its durations did not wrap to zero and its margins kept their order (the initial margin never falls below 99/100 of the maintenance margin).",
  "every configuration accepted by validation",
  "Needs all 64-bit ages.",
  CS+": validate, compress, decompress", CF+": update_pair_configs")
p("Keeper rewards match the work",
  "A successful process_request, liquidate or auto_deleverage mints exactly reward_keeper; update_pairs mints one token per distinct pair that was due (period elapsed or price moved enough) - not multiplied by reward_keeper - and nothing for a pair updated again at the same time and price when the period is positive. No other call mints rewards.",
  ALLH,
  "All pair lists (duplicates) and times.",
  X+": process_request, liquidate, auto_deleverage, update_pairs")
p("Pending requests can always be cancelled",
  "cancel_requests of pending requests by an authorised caller succeeds. Fails for requests invalidated by a liquidation that are still marked active or dormant: cancelling one panics when no live request remains, and otherwise marks it cancelled. Proved for live requests.",
  "every state and index list",
  "Needs a liquidation followed by cancellation of an older request.",
  VA+": cancel_requests, _remove_active_request")
p("One-cancels-other orders never both execute",
  "If an order lists another request among those it cancels, then after it executes the other one is never executed; for take-profit/stop-loss pairs at most one of the two ever executes, and neither before an order listing it for activation has executed.",
  ALLH,
  "Histories with arbitrary keeper orderings.",
  X+": margin_order, margin_order_tp_sl_request", VA+": try_set_keeper_requests_status")
p("Take-profit and stop-loss orders are linked correctly",
  "margin_order_tp_sl_request appends one active order and, when requested, dormant reduce-only take-profit and stop-loss orders of the opposite amount with the right price direction; the parent activates exactly those, and they cancel each other; the returned indexes are theirs.",
  "all argument combinations and states",
  "Index arithmetic with optional legs.",
  X+": margin_order_tp_sl_request")
p("Lists and paginated getters are faithful",
  "The append-only list returns at each index the last value written there, its length is the number of pushes, a page [start, start+n) returns exactly the elements in that range in order, the tail page returns the newest first; the hash list keeps one entry per key in first-insertion order.",
  "every history of list operations and every page",
  "Unbounded lists and 64-bit page arguments.",
  LI, HL, MA+": get_requests, get_requests_tail", CF+": get_pair_configs")
p("Fee oaths are bounded and temporary",
  "lock_fee leaves at most max_lock of oath value outstanding; an oath can only be settled against an account, increasing that account's debt by exactly its value; no committed transaction leaves an oath outstanding; the fee balances (protocol, treasury, fee delegator, referral) are never negative under valid configurations.",
  ALLH,
  "Transaction-level property over all call sequences.",
  DL+": lock_fee", X+": settle_fee_oath", FD)
p("Collecting fees pays exactly the balance",
  "collect_treasury, collect_fee_delegator, collect_referral_rewards and swap_protocol_fee pay out exactly the respective balance in base tokens and reset it to zero, leave all other balances and the pool's net value unchanged, and swap_protocol_fee burns exactly the configured amount of protocol tokens and returns the rest.",
  "every call from every reachable state",
  "Exactness for every amount.",
  X+": collect_treasury, collect_fee_delegator, collect_referral_rewards, swap_protocol_fee")
p("Trading moves value only by fees",
  "At the execution price, once the pair is up to date, closing or opening a position changes the combined value of the account and the pool only by the fee shares paid to protocol, treasury and referral (up to the stated rounding): a trade by itself transfers nothing between trader and pool except the fee.",
  "every trade in every state",
  "Rounding in cost apportioning of partial closes over all amounts.",
  X+": open_position, close_position, update_pair_snaps")
p("Funding is settled before the position changes",
  "Before an order or deleveraging changes a position, the funding it owes at its old size is charged to the account and credited to the pool exactly once, and its funding index is set to the current one, so settling twice charges zero the second time.",
  "every order and deleveraging",
  "Ordering property in all states.",
  X+": settle_funding, margin_order, auto_deleverage")
p("Calls on one account do not touch the others",
  "A call that names a margin account leaves every other account's balances, collateral, positions, requests, rules and referral exactly unchanged; calls that name no account change none.",
  "every call from every reachable state, every other account",
  "Frame property over all calls and accounts.",
  X+": all methods", VA+": realize")
p("Valuation does not depend on iteration order",
  "The value and margin computed for an account's positions and collaterals do not depend on the unspecified iteration order of the hash maps holding them.",
  "every permutation of every position and collateral map",
  "Hash map order is arbitrary; a test sees one order.",
  X+": value_positions, value_collateral")
p("Account details report the true state",
  "get_account_details reports every stored position once with its amount, cost and funding owed, every configured collateral with the vault's amount, exactly the live requests sorted newest first, the request history page, the balance and the referral.",
  "every reachable state and page",
  "All accounts and pages.",
  X+": get_account_details")
p("Price limits of collateral feeds gate every keeper action",
  "If the price of any configured collateral is missing or too old, no request of any account can be executed and no account liquidated, deleveraged or pair updated until it is refreshed or the collateral removed.",
  "every state and keeper call",
  "Global liveness coupling not visible per account.",
  X+": process_request, liquidate, update_pairs", VO+": new")
p("Relative request references resolve to the intended request",
  "A relative reference with an offset that stays within the list resolves to request index + offset. A reference reaching below zero wraps to a huge index, is accepted, and then the order can never execute (until such an index exists).",
  "every index and 64-bit offset",
  "Wrap-around values.",
  RQ+": RequestIndexRef::resolve", X+": margin_order_request")
p("Time and pool data are monotone",
  "A pair's last-update time never decreases and never exceeds the current time; the request list of an account never shrinks and its valid start never decreases and never exceeds its length; a referral's lifetime reward never decreases.",
  ALLH,
  "History property.",
  X+": update_pair", MA+": update")
p("Faucet and environment registry behave as maps",
  "free_tokens mints exactly one bucket of the configured amount for each resource with a positive amount; get_variables returns for each requested key the last value set and not removed since, or the empty string.",
  "every history of calls",
  "All key sequences.",
  FA+": free_tokens, update_mint_amount", ER+": get_variables, set_variables, remove_variables")
p("Pool, pair, referral and request reports are true, and the quoted LP price is the one charged",
  "get_pool_details reports the stored amounts, the skew ratio, the supply and the LP price; adding liquidity mints exactly the payment less the fee at that price, removing pays it as long as the pool is worth at least 1 (and never more); get_pair_details answers for the requested pairs in order and fails exactly when one is not configured; get_referral_details, get_collaterals and the request getters report the stored data.",
  "every state, argument and amount",
  "All states; quote and execution are computed by different code.",
  X+": get_pool_details, get_pair_details, get_referral_details, get_collaterals, add_liquidity, remove_liquidity", MA+": get_requests_by_indexes")
p("Every effect needs the role that grants it",
  "Whatever the call, the treasury balance falls only for a caller satisfying the treasury admin role, the protocol balance for the protocol swap role, the fee delegator's balance for its admin, LP supply changes only for the liquidity role, the delegator's vault rises only for its depositor and falls only for its withdrawer or user, oath supply rises only for the delegator's user; referrals are created and their terms changed only by the referral admin, their quota use only by the admin or a referral user showing the NFT, their balance falls only for a referral user showing the NFT, the code generator changes only for the referral or account creation roles; accounts appear only by account creation, rules change and recorded collateral rises only by account management, requests are appended only by the request roles, a stored request changes only by cancellation or a keeper, and positions, collateral withdrawals, request invalidation, pool positions and keeper rewards need the matching keeper role.",
  ALLC if "ALLC" in globals() else "every call from every reachable state, with any arguments and caller",
  "Quantifies over all calls, callers and states; a test sees one missing check at a time.",
  X+": enable_method_auth, all methods", "fee_delegator/src/fee_delegator.rs: lock_fee, deposit, withdraw")
p("Deposits are credited in full and touch nothing else",
  "add_collateral and create_margin_account credit the account with exactly what was deposited: base tokens (and the value minus the oath borrowed for the fee) to its balance, every other token to its recorded collateral, a referral code's claimed tokens included; only configured collaterals are accepted; the pool's base vault rises by the base tokens deposited and nothing else of the account changes.",
  "every call from every reachable state, with any set of deposited tokens",
  "All deposits and configurations.",
  X+": add_collateral, create_margin_account", MA+": deposit_collateral_batch")
p("The newest signed price takes effect; replays, old prices and bad messages do not",
  "After a keeper call that executes, or a direct push, the stored price of every pair of its message is at least as recent as the message's; a price newer than the stored one and than the message's others is the one stored; a price no newer than the stored one changes nothing, so any accepted message can be replayed at any later time without effect (unless the owner removed the price); a message that does not decode, names an unknown or removed key or is wrongly signed fails the whole call; the message of a call on an expired request is not read; the owner's key and price calls change exactly the named entry.",
  ALLH if "ALLH" in globals() else "every history",
  "All messages, replays and interleavings.",
  "oracle/src/oracle.rs: push_and_get_prices, add_key, remove_key, remove_price", VO+": new")
p("Submitting, cancelling and executing change exactly the named requests",
  "Submitting a withdrawal, an order or an order with take-profit and stop-loss appends exactly the requests asked for, with the window, status and references given, makes them live at the returned indexes, and changes nothing else of the account but its balance by the value of the fee oath. Cancelling turns exactly the listed pending requests to cancelled. Executing an order marks its request executed, cancels the pending ones it lists to cancel, activates the dormant ones it lists to activate, and leaves every other request as it was; executing a withdrawal or clearing an expired request changes that request alone.",
  "every call from every reachable state",
  "All request lists, links and statuses.",
  X+": remove_collateral_request, margin_order_request, margin_order_tp_sl_request, cancel_requests, process_request", VA+": push_request, try_set_keeper_requests_status, cancel_requests, process_request")
p("Referral administration has exactly the stated effect",
  "Minting a referral stores the terms asked for under a fresh id handed out as a badge; updating one replaces exactly the fields given; adding an allocation or creating codes registers exactly the claims and uses asked for under fresh codes or the returned index, counts them against the referral's quota, keeps of the tokens handed over what the new entries promise and returns the rest; drawing codes from an allocation counts them against it and moves no token. No other state changes.",
  "every call from every state, with any terms, tokens, claims and hashes",
  "All batches, claim lists and existing codes.",
  X+": mint_referral, update_referral, mint_referral_with_allocation, add_referral_allocation, create_referral_codes, create_referral_codes_from_allocation", RG+": create_referral_allocation, create_referral_codes")
p("The events of a call are enough to follow the exchange",
  "An observer who keeps the events of every call from the deployment on, and nothing else, knows at every moment the pool's record of every pair (open interest, funding indexes, prices), every request of every account with its status, which requests a liquidation invalidated, which accounts exist and with what referral, the size of every position, every collateral amount recorded, and the supply of LP tokens. The events also give every change of an account's balance, except the fee oaths paid from it (no event reports them) and, for a debt swap, up to the rounding of the collateral sold. Settings change only by a call that reports the values asked for, so the events fix the settings.",
  "every history of calls from the deployment on",
  "All histories; a dropped or misattributed event shows up only in an observer's replay.",
  X+": event_* emissions in every method, _save_account, _save_pool", VA+": realize", VP+": realize")
p("A call reads no account but the one it names",
  "Whatever the other accounts hold, a call on an account (and a call that names none) succeeds or fails the same way, returns and pays out the same, emits the same events and changes the named account and all shared state the same; so does a whole history of calls on one account. A request submitted or cancelled without a fee oath can be swapped with any following call that names another account and is not an administrative one: same outputs, same final state.",
  "every call and every history, from every pair of states that differ only in other accounts",
  "All contents of all other accounts: a noninterference property over pairs of runs.",
  X+": all methods", VA+": new, realize")
p("A call is refused only for a stated reason",
  "When a call fails, its error names a condition that really holds, readable from the state, the caller and the message. Cancelling fails only for a caller who may not, an unknown account, a request that does not exist, is over or was invalidated. Submitting fails only for those, an unconfigured pair, a size below the minimum, too many claims, linked or live requests, a wrong status, or times and indexes out of range. Depositing fails only for an unconfigured token, too many kinds of collateral or an overflowing balance. A fee oath handed to any of these calls stops it only if it is no fee oath, a price of the account's pairs or of some collateral is missing, stale or not positive, or the account, without the amount of the oath, would be worth less than its initial margin. Opening an account fails only if the address is taken, the code is unknown or used up, or the deposit or the oath fails. Processing fails only if the request is not there, not waiting or not due, a needed price is missing, stale, not positive or its message bad, or, for a request still alive, its own limits, its links, the pair's interest limit, the number of positions, the margin, its slippage limit (only if even the highest fee would break it), the pool's skew (only if the order does not reduce the pair's imbalance), the balances or the target stop it. An order refused for the margin would leave the account, with the position asked for, the funding settled and a fee within the highest fee paid, worth less than its initial margin at the prices delivered. Liquidating succeeds exactly when the account's value at the current prices is below its maintenance margin and the payment in base tokens covers its discounted collateral (role, arithmetic range and minting aside). Adding and removing liquidity, bringing pairs up to date, swapping debt and deleveraging fail likewise only for the caller's role, the token handed over, prices, balances, the pool's tokens and skew, no debt, no position or too little profit. Collecting fees, swapping protocol fees, locking fees and changing settings fail only for the caller, the token, what is there to pay with, and values out of range; so do changing an account's rules, minting and updating referrals, drawing codes from an allocation and the oracle's own calls. Adding allocations and codes fails only for the caller, an unknown referral, no room left for more referrals, a claim that is not positive, claims on a code of several uses, a code that exists, or tokens that are unacceptable, do not cover the claims or overflow. The owner's calls fail only for a caller who is not the owner (or, setting a user role, not a user admin either), a configuration outside the stated limits or with a value too large to be stored. So every call of the system is covered.",
  "every failing call from every reachable state, with any arguments and caller",
  "Absence of any other failure: no finite set of calls shows that nothing else stops a call.",
  X+": cancel_requests, remove_collateral_request, margin_order_request, margin_order_tp_sl_request, add_collateral, process_request, liquidate, add_liquidity, remove_liquidity, swap_debt, auto_deleverage, update_pairs, collect_treasury, collect_fee_delegator, swap_protocol_fee, collect_referral_rewards", DL+": lock_fee, update_max_lock, update_price_multiplier", VA+": process_request, verify_valid_effected_requests", VO+": new", "exchange/src/exchange/errors.rs", "referral_generator/src/referral_generator.rs: add_allocation, create_codes", "config/src/config.rs: update_exchange_config, update_pair_configs, update_collateral_configs")
p("The stored price is the newest one delivered, in whatever order messages arrive",
  "Every price the oracle stores was part of a correctly signed message delivered by some call, or stood there at deployment; as long as the owner removes none, it is at least as recent as every price of its pair ever delivered; and when the prices delivered for a pair carry different times, the price stored after a set of deliveries does not depend on the order in which they came.",
  "every history of calls from every state, and every reordering of deliveries",
  "All orders of delivery and all replays.",
  "oracle/src/oracle.rs: push_and_get_prices, remove_price", VO+": new")
p("An account without positions and without debt can always withdraw what it holds",
  "A withdrawal request that is due and still waiting, of an account with no open positions and no debt, asking for positive amounts the account really holds, cannot be refused: processing it by an authorised keeper with good prices succeeds, whatever else is in the exchange, as long as the pool holds the base tokens asked for, the target account accepts the tokens, the keeper's reward can be minted and the amounts lie in the arithmetic's range. For an account with positions or debt the only further obstacle is the margin: a withdrawal refused for it would leave the account, at the prices delivered, worth less than its initial margin.",
  "every reachable state, account, request, set of claims and keeper",
  "Absence of any obstacle: a liveness statement over all states.",
  X+": process_request, _process_remove_collateral", VA+": remove_collateral")
p("Depositing never hurts the account",
  "Adding collateral raises the account's value by at least the base tokens handed over (less the fee oath the call carries), and no kind of token deposited lowers it; the value less the initial or the maintenance margin grows by the same amount, up to one atto of rounding for each other kind of token: a deposit can not make an account liquidatable or take its margin away.",
  "every successful deposit from every reachable state with non-negative collateral prices, any tokens and any fee oath",
  "All prices, configured rates and amounts, including the rounding of the compressed configuration.",
  X+": add_collateral, _value_collateral, _assert_account_integrity", CF+": CollateralConfig")
p("Nobody acts for you: every request was asked for by somebody the account's rules admit",
  "A request present in an account was put there by a call on that account that asked for exactly this withdrawal (target and claims) or this order (pair, amount, direction, limits and times; or the reduce-only take-profit or stop-loss that undoes it), made by a caller who satisfied the account's rule of the level needed at that moment. An account's position changes only by executing such an order, by a liquidation or by an auto-deleveraging; its collateral goes down only by executing such a withdrawal, by a debt swap or by a liquidation. Its base balance goes down only by executing such a request, by a fee oath (by at most its amount) handed over by a caller the account's rule of the needed level admits, by a liquidation or by an auto-deleveraging.",
  "every history since instantiation, every account, request, caller and interleaving",
  "Ranges over whole histories: the submission, later rule changes, executions and liquidations may be arbitrarily far apart.",
  X+": remove_collateral_request, margin_order_request, margin_order_tp_sl_request, process_request", VA+": push_request, process_request")
p("Every stored request is well formed, and its pair stays configured",
  "In every reachable state every stored withdrawal claims at most ten resources, and every stored order names a pair that has a configuration, has an amount that can be negated, and links at most two requests to activate and two to cancel. Pair configurations are replaced but never removed, so processing a request never fails for want of its pair's configuration.",
  "every reachable state, account, request index, caller and price message",
  "A test submits and processes one order; the claim is about every history in between, including any configuration changes.",
  X+": margin_order_request, margin_order_tp_sl_request, remove_collateral_request, process_request", CF+": update_pair_configs")

p("Getting out is not stopped by the account's or the pool's state",
  "An order that only closes (reduce-only, or opposing the position and no larger) is never refused for the account's margin, the pair's open interest limit or the number of positions. An order that makes its pair's imbalance smaller is never refused for the pool's skew. An order whose slippage limit leaves room for the highest fee is never refused for slippage. So a closing order that rebalances its pair, with its own limits met, is executed once it is due and alive with good prices, however far below its margin the account is (arithmetic overflow aside).",
  "all reachable states, accounts, orders, prices and messages",
  "a test shows one account that could close; it cannot show that no state of account and pool traps a position",
  X+": margin_order_internal, close_position, open_position, assert_account_integrity, assert_pool_integrity", RQ+": SlippageLimit")
p("Trading back and forth at one price makes no money",
  "Orders executed one after the other on a pair, in one instant and at one price (the pair having been updated at that instant), leave no account and no group of accounts together worth more than before, up to 2 units of 10^-18 an order: balance, position at that price, less its cost and the funding owed. The pool does not lose either: its value as used for the LP price falls by at most 5 units of 10^-18 an order, when the pair was last marked at that price. Spreading the orders over several pairs, at one price for each pair, gains nothing either, for accounts or against the pool.",
  "all reachable states, numbers and sizes of orders, sets of pairs, accounts, directions and groups of accounts",
  "A test trades one sequence; no set of sequences shows that no clever mix of accounts, sizes and signs gains from the fee curve or the bookkeeping",
  X+": margin_order_internal, close_position, open_position, calculate_fee", VP+": position_mut, add_virtual_balance")
p("The balance sheet balances",
  "In every reachable state every base token the pool holds is somebody's, and no more is promised than there is: the pool's value (what the liquidity tokens share), the worth of every account (base balance, positions at the price their pair was last marked at, less their cost and the funding they owe), the collected fees and the referral rewards add up to the pool's base tokens, apart from fee oaths outstanding inside a transaction, up to one unit of 10^-18 for each open position and the rounding of the funding updates made so far, which is bounded call by call. The pool's recorded profit on a pair is what the holders of that pair lose on it; the funding the pool is still to receive is what the positions owe, and a call that updates no pair does not move that balance at all.",
  "every reachable state, every history since instantiation, any number of accounts and pairs",
  "The sum runs over all accounts, pairs and past updates; a test adds up one small state.",
  X+": update_pair, update_pair_snaps, settle_funding, open_position, close_position, liquidate_positions, pool_value, settle_account", VP+": add_virtual_balance, add_unrealized_pool_funding, add_pnl_snap", FD+": distribute")

if __name__=="__main__":
    with open("/verif/properties.jsonl","w") as f:
        for q in P: f.write(json.dumps(q)+"\n")
    print(len(P))
    for q in P: print(q["id"], q["title"])
