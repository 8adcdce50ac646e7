# One entry per wrong program: an edit of the model, the way a realistic bug
# would change the Rust code, and the properties whose English claim it falsifies.
MUTANTS = []
def M(id, file, definition, old, new, edit, claim, targets, **k):
    MUTANTS.append(dict(id=id, file=file, definition=definition, old=old, new=new, edit=edit, claim=claim, targets=targets, **k))

# --- ledger -----------------------------------------------------------------
M('m01', 'ExInternal', 'x_settle_account', '  p ← vp_add_vb p n;\n  a ← va_add_vb a amount;', '  p ← vp_add_vb p amount;\n  a ← va_add_vb a amount;',
  'the pool is credited instead of debited when an account is credited', 'the ledger is zero-sum', ['C01'])
M('m02', 'ExInternal', 'x_settle_fees_referral', '  p ← vp_add_vb (s_pool s) d;', '  p ← vp_add_vb (s_pool s) d0;',
  "the pool is not debited by the referrer's share", 'fees are split exactly; the ledger is zero-sum', ['C01', 'C21'])
M('m03', 'ExInternal', 'x_settle_fees_basic', 'fd ← fd_distribute fd fee_protocol fee_treasury;\n  a ← dneg', 'fd ← fd_distribute fd fee_treasury fee_protocol;\n  a ← dneg',
  'protocol and treasury shares swapped when liquidity fees are distributed', 'each recipient gets its own share', ['C21'])
M('m04', 'ExInternal', 'x_settle_fees_referral', '  t0 ← dmul fee_paid (ec_fee_share_referral ec);', '  t0 ← dmul fee_paid (ec_fee_share_treasury ec);',
  "the referrer's share is computed from the treasury's rate", 'fees are split by the configured shares', ['C21'])
M('m05', 'Pool', 'vp_withdraw', 'Ok (v <| vp_base := b |> <| vp_comp := p |>, a).', 'Ok (v <| vp_base := b |>, a).',
  'the withdrawal is not made on the pool component', 'tokens are conserved', ['C02'])
M('m06', 'Account', 'coll_sub', 'Ok (if y =? 0 then delete (b_res b) m else <[b_res b := y]> m).', 'Ok (delete (b_res b) m).',
  'withdrawing any part of a collateral forgets the rest', 'recorded collateral equals vault contents', ['C03'])
M('m07', 'Account', 'acc_deposit', '  Ok (a <| ac_coll := c |> <| ac_vaults := v |>).', '  Ok (a <| ac_vaults := v |>).', 
  'a deposit is not recorded in the balance table', 'recorded collateral equals vault contents', ['C03'])
# --- requests ---------------------------------------------------------------
M('m08', 'Account', 'va_process_request', "  v ← va_remove_active v i;\n  Ok (v <| va_req_upd := <[i := r <| kr_status := st |>]> (va_req_upd v) |>, kr_request r, expired).", "  v ← va_remove_active v i;\n  Ok (v, kr_request r, expired).",
  'the status of a processed request is not written', 'a request is executed at most once', ['C05'])
M('m09', 'Account', 'va_process_request', 'guard_ (kr_submission r <? now)', 'guard_ (kr_submission r <=? now)',
  'a request may be processed in the second it was submitted', 'orders execute strictly after their submission', ['C09', 'C10'])
M('m10', 'Account', 'va_process_request', 'let expired := kr_expiry r <=? now in', 'let expired := kr_expiry r <? now in',
  'a request still executes at its expiry instant', 'execution happens only inside the window', ['C09'])
M('m11', 'Account', 'va_process_request', 'guard_ (va_vstart v <=? i)%N', 'guard_ (0 <=? i)%N',
  'the valid start is not checked', 'liquidation invalidates earlier requests', ['C08'])
M('m12', 'Account', 'status_phases', 'else if (s =? STATUS_CANCELLED)%N then Ok [STATUS_ACTIVE; STATUS_DORMANT]', 'else if (s =? STATUS_CANCELLED)%N then Ok [STATUS_ACTIVE; STATUS_DORMANT; STATUS_EXECUTED]',
  'executed requests can be cancelled', 'request status only moves forward', ['C04'])
M('m13', 'Account', 'status_phases', 'if (s =? STATUS_ACTIVE)%N then Ok [STATUS_DORMANT]', 'if (s =? STATUS_ACTIVE)%N then Ok [STATUS_DORMANT; STATUS_CANCELLED]',
  'cancelled requests can be reactivated', 'request status only moves forward; one-cancels-other', ['C04', 'C43'])
M('m14', 'Account', 'acc_update', '(active0 ∪ list_to_set (au_act_add u)) ∖ list_to_set (au_act_rem u)', 'active0 ∪ list_to_set (au_act_add u)',
  'indexes are never removed from the active set', 'the active set is exactly the live pending requests', ['C06'])
M('m15', 'Account', 'acc_update', 'let active0 := if adv then filter (fun i => (vstart <= i)%N) (ac_active a) else ac_active a in', 'let active0 := ac_active a in',
  'liquidation does not clear the active set', 'the active set is exactly the live pending requests', ['C06'])
M('m16', 'ExInternal', 'x_assert_active_requests_limit', '(va_alen a <=? ec_active_requests_max (vc_exchange c))%N', '(va_alen a <=? ec_active_requests_max (vc_exchange c) + 1)%N',
  'one more request than configured is accepted', 'pending requests are bounded', ['C07'])
M('m17', 'Account', 'va_update_valid_start', 'v <| va_vstart := va_rlen v |>', 'v <| va_vstart := va_vstart v |>',
  'liquidation leaves the valid start where it was', 'liquidation invalidates every earlier request', ['C08'])
M('m18', 'Exchange', 'm_margin_order_tp_sl_request', '  let can_tp := option_list index_sl in\n  let can_sl := option_list index_tp in', '  let can_tp := option_list index_tp in\n  let can_sl := option_list index_sl in',
  'each leg cancels itself instead of the other', 'take-profit and stop-loss are linked correctly', ['C44'])
M('m19', 'Exchange', 'm_margin_order_tp_sl_request', '(if 0 <? amount then PLLte price else PLGte price)', '(if 0 <? amount then PLGte price else PLLte price)',
  'the stop-loss triggers on the wrong side', 'take-profit and stop-loss are linked correctly', ['C44'])
M('m21', 'Exchange', 'm_margin_order_request', 'act can)) delay expiry status [];', 'can act)) delay expiry status [];',
  'activate and cancel lists swapped when the request is stored', 'relative references resolve to the intended request', ['C54'])
# --- oracle -----------------------------------------------------------------
M('m22', 'Oracle', 'oracle_push1', 'if t <? pr_time p then', 'if pr_time p <? t then',
  'older prices replace newer ones', 'oracle prices never go back in time', ['C11'])
M('m23', 'Oracle', 'oracle_push', '_ ← guard_ (e_verify E key data sig) EInvalidSignature;', '_ ← guard_ (e_verify E key data sig || true) EInvalidSignature;',
  'the signature is ignored', 'only signed prices enter the oracle', ['C12'])
M('m24', 'Oracle', 'vo_price1', '_ ← guard_ (min_ts <? ts) EPriceTooOld;', '_ ← guard_ (min_ts <=? ts) EPriceTooOld;',
  'a price exactly at its maximum age is accepted', 'only fresh prices are used', ['C13'])
M('m25', 'Oracle', 'vo_price1', '_ ← guard_ (0 <? price) EInvalidPrice;', '_ ← guard_ (0 <=? price) EInvalidPrice;',
  'a zero price is accepted', 'only positive prices are used', ['C13'])
M('m26', 'Oracle', 'vo_feed1', '| Some a => if age <? a then <[p := age]> m else m', '| Some a => if a <? age then <[p := age]> m else m',
  'the larger of two maximum ages wins', "a collateral feed's age limit gates keeper actions", ['C13', 'C53'])
# --- margin and limits ------------------------------------------------------
M('m27', 'ExInternal', 'x_assert_account_integrity', 'guard_ (margin <=? account_value) EInsufficientMargin', 'guard_ (mp <=? account_value) EInsufficientMargin',
  'the collateral margin is left out of the requirement', 'initial margin holds after taking risk', ['C14'])
M('m28', 'ExInternal', 'x_open_position', '  _ ← x_assert_position_limit c a;\n  _ ← x_assert_account_integrity c p a o;\n  Ok (p, a, fee).', '  _ ← x_assert_position_limit c a;\n  Ok (p, a, fee).',
  'opening a position does not check the margin', 'initial margin holds after taking risk', ['C14'])
M('m29', 'ExInternal', 'x_remove_collateral', "  _ ← x_assert_account_integrity c p a o;\n  Ok (p, a, tokens, EvRemove", "  Ok (p, a, tokens, EvRemove",
  'withdrawing collateral does not check the margin', 'initial margin holds after withdrawals', ['C14'])
M('m30', 'ExInternal', 'x_liq_position1', 'margin ← dmul value_abs (pc_margin_maintenance pc);', 'margin ← dmul value_abs (pc_margin_initial pc);',
  'liquidation uses the initial margin', 'liquidation only below maintenance margin', ['C15'])
M('m31', 'ExInternal', 'x_liquidate', 'guard_ (account_value <? margin) ELiquidationSufficientMargin', 'guard_ (account_value <=? margin) ELiquidationSufficientMargin',
  'an account exactly at its margin is liquidated', 'liquidation only below maintenance margin', ['C15'])
M('m32', 'ExInternal', 'x_liquidate', '     then let pl := va_vb a in\n          n ← dneg pl;', "     then let pl := va_vb a in\n          n ← dneg 0;",
  'the shortfall is not taken over by the pool', 'liquidation leaves a clean account', ['C16'])
M('m33', 'ExInternal', 'x_open_position', '_ ← guard_ (x <=? pc_oi_max pc) EPairOiTooHigh;\n          Ok (pp <| pp_oi_short := x |>));', '_ ← guard_ (- x <=? pc_oi_max pc) EPairOiTooHigh;\n          Ok (pp <| pp_oi_short := x |>));',
  'the open interest cap is not enforced on the short side', 'configured limits hold', ['C24'])
M('m34', 'ExInternal', 'x_assert_collaterals_limit', '(N.of_nat (size (va_coll a)) <=?', '(N.of_nat (size (va_positions a)) <=?',
  'the collateral limit counts positions', 'configured limits hold', ['C24'])
M('m35', 'ExInternal', 'x_close_position', '  pcost ← dsub (pp_cost pp) cost;\n  let pp := pp <| pp_cost := pcost |> in\n  amt\' ← dadd (ap_amount pos) amount;\n  cost\' ← dsub', '  pcost ← dadd (pp_cost pp) cost;\n  let pp := pp <| pp_cost := pcost |> in\n  amt\' ← dadd (ap_amount pos) amount;\n  cost\' ← dsub',
  "closing adds the cost to the pool's total", 'open interest and cost are the sums over accounts', ['C17'])
M('m36', 'ExInternal', 'x_close_position', '  p ← x_update_pair_snaps o p pid;\n  Ok (p, a, (pnl, fee)).', '  Ok (p, a, (pnl, fee)).',
  'closing does not refresh the snapshots', 'snapshots are fresh after trading', ['C18'])
M('m37', 'ExInternal', 'x_update_pair', '  p ← vp_add_skew p skew_delta;\n  p ← vp_add_pnl p pnl_delta;\n  p ← vp_add_upf', '  p ← vp_add_skew p skew_abs;\n  p ← vp_add_pnl p pnl_delta;\n  p ← vp_add_upf',
  "the pair's whole skew is added instead of its change", 'the aggregate skew is the per-pair sum', ['C18'])
# --- funding and fees -------------------------------------------------------
M('m38', 'ExInternal', 'x_funding_due', 'd ← dsub (pp_funding_short_index pp) (ap_funding pos); dmul n d', 'd ← dsub (pp_funding_long_index pp) (ap_funding pos); dmul n d',
  'shorts pay by the long index', 'funding is settled at the right index', ['C49'])
M('m39', 'ExInternal', 'x_settle_funding', 'Ok (<[pid := pos <| ap_funding := idx |>]> (va_positions a), f)', 'Ok (<[pid := pos]> (va_positions a), f)',
  'the funding index of the position is not moved', 'funding is settled once', ['C49'])
M('m40', 'ExInternal', 'x_funding_indexes', '  ds ← dadd si pi;', '  ds ← dadd si 0;',
  "shorts do not pay the pool's funding", 'funding pays out what it collects', ['C19'])
M('m42', 'ExInternal', 'x_calculate_fee', 'dclamp sr 0 fee_max.', 'dclamp sr (- fee_max) fee_max.',
  'fees may be negative', 'trading fees are bounded', ['C20'])
M('m43', 'ExInternal', 'x_calculate_fee', 'fee_max ← dmul value_abs (ec_fee_max ec);', 'fee_max ← dmul value_abs (dec 1);',
  'the fee cap is 100%', 'trading fees are bounded by fee_max', ['C20'])
# --- liquidity --------------------------------------------------------------
M('m44', 'ExInternal', 'x_add_liquidity', 'lp_amount ← ddiv x lp_price;', 'lp_amount ← ddiv value lp_price;',
  'LP tokens are minted for the fee too', 'others are not diluted; quotes are honoured', ['C23', 'C57'])
M('m45', 'ExInternal', 'x_remove_liquidity', 'let pool_value := Z.max pv 0 in\n  lp_price', 'let pool_value := Z.max pv (vp_base p) in\n  lp_price',
  'LP tokens are redeemed at the larger of pool value and pool tokens', 'removing liquidity does not dilute the others', ['C23'])
M('m46', 'ExInternal', 'x_remove_liquidity', '  _ ← x_assert_pool_integrity c p 0;', '  _ ← x_assert_pool_integrity c p (-1);',
  'the skew cap is not enforced on removal', 'configured limits hold', ['C24'])
# --- orders -----------------------------------------------------------------
M('m47', 'ExInternal', 'x_split', 'n ← dneg position_amount; Ok (Z.min amount n)', 'n ← dneg position_amount; Ok (Z.max amount n)',
  'reducing a short closes too much', 'orders change the position exactly as asked', ['C26'])
M('m48', 'ExInternal', 'x_margin_order', '_ ← guard_ ok ESlippageLimit;', '_ ← guard_ (ok || true) ESlippageLimit;',
  'the slippage limit is ignored', 'price and slippage limits are respected', ['C27'])
M('m49', 'ExInternal', 'x_claim1', '_ ← guard_ (amount <=? va_vb a) EWithdrawalInsufficientBalance;', '_ ← guard_ (amount <=? vp_base p) EWithdrawalInsufficientBalance;',
  'more base than the balance can be withdrawn', 'withdrawals are covered', ['C25'])
M('m50', 'ExInternal', 'x_auto_deleverage', 'guard_ (threshold <? pnl_percent) EAdlPnlBelowThreshold', 'guard_ (pnl_percent <? threshold) EAdlPnlBelowThreshold',
  'deleveraging targets the positions below the threshold', 'deleveraging is conditional; it targets profitable positions', ['C28', 'C29'])
M('m51', 'ExInternal', 'x_auto_deleverage', '_ ← guard_ (skew_ratio_1 <? skew_ratio_0) EAdlSkewNotReduced;', '_ ← guard_ (skew_ratio_1 <=? skew_ratio_0) EAdlSkewNotReduced;',
  'deleveraging may leave the skew as it was', 'deleveraging reduces the skew', ['C28'])
M('m52', 'ExInternal', 'x_swap_debt', 'let value := Z.min (b_amt payment) debt in', 'let value := Z.max (b_amt payment) debt in',
  'the swap may pay more than the debt', 'debt swaps are fair', ['C30'])
M('m53', 'ExInternal', 'x_swap_debt', 'd0 ← dmul (cc_discount cc) 100000000000000000;\n  discount ← dadd d0 900000000000000000;', 'd0 ← dmul (cc_discount cc) 900000000000000000;\n  discount ← dadd d0 100000000000000000;',
  'the weights of the discount are swapped', 'debt swaps are fair', ['C30'])
# --- access -----------------------------------------------------------------
M('m54', 'Exchange', 'm_remove_collateral_request', '_ ← level_auth cx 2 v;', '_ ← level_auth cx 3 v;',
  'withdrawals need only level 3', 'account actions need the right level', ['C31'])
M('m55', 'Exchange', 'm_set_level_auth', '_ ← level_auth cx 1 v;', '_ ← level_auth cx lvl v;', 
  'a level can be changed by its own holder', 'account actions need the right level', ['C31'], nth=3)
M('m56', 'System', 'op_access', '| OCollectTreasury => ARole RTreasuryAdmin', '| OCollectTreasury => ARole RLiquidity',
  'holders of the liquidity role may collect the treasury', 'every effect needs its role', ['C58'], tightened=['C58_funds'])
M('m57', 'ExInternal', 'x_set_level_auth', 'let g1 := foldl (reg_remove lvl (va_addr a)) g (old :: sub_rules old) in', 'let g1 := foldl (reg_remove lvl (va_addr a)) g [old] in',
  'sub-rules of the old rule stay registered', 'the registry lists exactly the accounts', ['C33'])
M('m58', 'Exchange', 'extend_rule', '| Protected m => Protected (node_or m n)', '| Protected m => Protected n',
  'adding a rule replaces the old one', 'adding a rule only widens access', ['C34'])
# --- referral ---------------------------------------------------------------
M('m59', 'Referral', 'gn_claim', '<[h := c <| rc_count := n |>]> (gn_codes g)', '<[h := c]> (gn_codes g)',
  'the use of a code is not counted', 'codes are never used more often than allowed', ['C35', 'C36'])
M('m60', 'Referral', 'add_claim', 'y ← dadd (default 0 (m !! fst c)) x;', 'y ← dadd 0 x;',
  'repeated claims of one resource overwrite each other', 'the generator is solvent', ['C35'])
M('m61', 'Referral', 'gn_create_from_alloc', '(c <=? ra_max a)%N', '(ra_count a <=? ra_max a)%N',
  'the old count is compared with the limit', 'quotas are never exceeded', ['C35', 'C36'])
M('m62', 'Exchange', 'add_referral_allocation', '(n <=? rf_max_referrals d)%N EReferralLimitReached;\n  \'(g, rest, i)', '(count <=? rf_max_referrals d)%N EReferralLimitReached;\n  \'(g, rest, i)',
  'only the new codes are compared with the quota', 'quotas are never exceeded', ['C36'])
# --- wrapper, lists, config -------------------------------------------------
M('m63', 'Wrapper', 'tw_wrap', '(BASE, b_amt b)).\n', '(BASE, b_amt b + 1)).\n',
  'wrapping returns one atto too many', 'wrapped tokens are backed', ['C37'], tightened=['C37_wrap_exact'])
M('m64', 'Wrapper', 'tw_repay', '(b_amt oath <=? b_amt token) EInsufficientFlashPayment;\n  a ← take_adv E BASE ToInfinity (b_amt token) (b_amt oath);', '(b_amt oath <=? b_amt token) EInsufficientFlashPayment;\n  a ← take_adv E BASE ToInfinity (b_amt token) 0;',
  'the loan is not burnt when repaid', 'flash loans are repaid in full', ['C38'])
M('m65', 'Lists', 'hl_insert', '| Some _ => Ok (mkHlist (hl_list h) (<[k := v]> (hl_kvs h)))', '| Some _ => l ← kl_push (hl_list h) k; Ok (mkHlist l (<[k := v]> (hl_kvs h)))',
  'updating an entry lists it twice', 'lists are faithful', ['C45'])
M('m66', 'Lists', 'kl_update', '(<[i := x]> (kl_kvs l))', '(<[(i + 1)%N := x]> (kl_kvs l))',
  'an update writes to the next index', 'request updates hit the right request', ['C45'])
M('m67', 'Account', 'acc_get_requests_tail', 's ← usub e (N.min n e);', 's ← usub e (N.min (n + 1) e);',
  'one request too many is returned', 'pages are faithful', ['C45', 'C52'])
M('m68', 'Config', 'pc_validate', '&& (pc_margin_maintenance c <=? pc_margin_initial c)', '&& (0 <=? pc_margin_initial c)',
  'maintenance above initial margin is accepted', 'a validated configuration stays valid', ['C40'])
M('m69', 'Config', 'ec_decompress', '(dfloat_to (ec_fee_share_protocol c)) (dfloat_to (ec_fee_share_treasury c))', '(dfloat_to (ec_fee_share_treasury c)) (dfloat_to (ec_fee_share_protocol c))',
  'two shares swapped when the configuration is read', 'stored values are read back', ['C39'])
# --- keeper, delegator ------------------------------------------------------
M('m70', 'Exchange', 'm_update_pairs', "n ← dec_of_int (Z.of_nat (length (List.filter (fun b => b) rewarded)));", "n ← dec_of_int (Z.of_nat (length rewarded));",
  'every updated pair is rewarded', 'keeper rewards match the work', ['C41'])
M('m71', 'Fees', 'dl_lock_fee', '(s <=? dl_max_lock d)', '(value <=? dl_max_lock d)',
  'only the new oath is compared with the limit', 'fee oaths are bounded', ['C46'])
M('m72', 'ExInternal', 'x_settle_fee_oath', '  Ok (a, supply - b_amt oath).', '  Ok (a, supply).',
  'the oath is not burnt', 'fee oaths are temporary', ['C46'])
M('m73', 'Exchange', 'm_collect_treasury', 'fd ← fd_update_treasury (w_fd w) 0;', 'fd ← fd_update_treasury (w_fd w) amount;',
  'collecting does not clear the balance', 'collecting pays exactly the balance', ['C47', 'C01'])
M('m74', 'Exchange', 'm_collect_fee_delegator', 'let amount := dl_vb (w_dl w) in', 'let amount := fd_treasury (w_fd w) in',
  "the treasury's balance is paid instead of the delegator's", 'collecting pays exactly the balance', ['C47'])
M('m75', 'Exchange', 'position_details1', 'mi ← dmul ab (pc_margin_initial pc);\n  mm ← dmul ab (pc_margin_maintenance pc);', 'mm ← dmul ab (pc_margin_initial pc);\n  mi ← dmul ab (pc_margin_maintenance pc);',
  'the two margins are swapped in the report', 'account details report the true state', ['C52'])
M('m76', 'Exchange', 'g_pool_details', 'let pool_value := Z.max pv (dec 1) in\n  lp_price ← (if w_lp w', 'let pool_value := pv in\n  lp_price ← (if w_lp w',
  'the quoted price forgets the lower bound of the pool value', 'the quoted LP price is the one charged', ['C57'])
M('m77', 'Wrapper', 'er_remove', 'foldl (fun (m : env_reg) k => delete k m) g keys', 'foldl (fun (m : env_reg) k => m) g keys',
  'removing does nothing', 'the environment registry behaves as a map', ['C56'])
M('m78', 'Wrapper', 'fc_free1', 'if 0 <? snd x then', 'if 0 <=? snd x then',
  'resources switched off are minted too (amount 0)', 'free tokens are the positive amounts', ['C56'])
M('m79', 'System', 'exec', '(w_now w <=? t)', '(t <=? t)',
  'time may go back', 'time is monotone', ['C55'])
M('m80', 'ExInternal', 'x_open_position', 'cost ← dadd value fee;', 'cost ← dsub value fee;',
  'the opening fee lowers the cost', 'trading moves value only by fees', ['C48'], tightened=['C48_trader_pays_only_the_fee'])
M('m81', 'ExInternal', 'x_add_base', '  x_settle_account p a (b_amt b).\nDefinition is_base', '  Ok (p, a).\nDefinition is_base',
  'deposited base tokens are kept by the pool and not credited to the account', 'deposits are credited in full', ['C59', 'C01'])
M('m82', 'Oracle', 'oracle_push1', 'if t <? pr_time p then <[pr_pair p := (pr_quote p, pr_time p)]> m else m', 'm',
  'a stored price is never replaced', 'the newest signed price takes effect', ['C60'])
M('m83', 'Exchange', 'm_remove_collateral_request', '(RRemove (mkReqRemove target cs)) 0 expiry', '(RRemove (mkReqRemove a cs)) 0 expiry',
  'the withdrawal is sent to the margin account instead of the target', 'a submitted request is stored as asked', ['C61'])
M('m84', 'Account', 'va_try_set1', '<[i := r <| kr_status := status |>]> (va_req_upd v) |>, updated ++ [i])', '<[i := r]> (va_req_upd v) |>, updated ++ [i])',
  'the new status is not written', 'requests listed as cancelled are cancelled', ['C43'])
M('m87', 'ExInternal', 'x_settle_fees_referral', 'fee_referral ← dmul t0 (va_fee_share_referral (s_acc s));', 'fee_referral ← dmul t0 (dec 1);',
  "the referrer's own share is ignored", 'fees are split exactly', ['C21'])
M('m88', 'ExInternal', 'x_settle_fees_basic', 'fee_treasury ← dmul fee_paid (ec_fee_share_treasury ec);\n  t ←', 'fee_treasury ← dmul fee_paid (ec_fee_share_protocol ec);\n  t ←',
  'the treasury receives the share of the protocol', 'fees are split exactly', ['C21'])
M('m90', 'Wrapper', 'tw_wrap', '  v ← dadd (ti_vault i) (b_amt b);\n  Ok (t <| tw_base := s |>', '  v ← dadd (ti_vault i) 0;\n  Ok (t <| tw_base := s |>',
  'the wrapped tokens are lost', 'wrapped tokens are backed', ['C37'])
M('m91', 'Account', 'va_push_request', 'sub ← iadd now (u64_as_i64 delay);', 'sub ← iadd now 0;',
  'the delay of an order is ignored', 'orders execute only after their delay', ['C61'])
M('m92', 'Oracle', 'oracle_remove_key', 'o <| or_keys := delete id (or_keys o) |>', 'o',
  'a revoked key stays valid', 'a revoked key signs no further price', ['C60'])
M('m93', 'Oracle', 'oracle_add_key', '  _ ← guard_ (bool_decide (or_keys o !! id = None)) EKeyIdAlreadyExists;\n', '',
  'an existing key can be overwritten', 'adding a key replaces none', ['C60'])
M('m94', 'Account', 'va_cancel1', '  _ ← guard_ (in_list (kr_status r) phases) ECancelNotActiveOrDormant;\n', '',
  'executed requests can be cancelled', 'request status only moves forward', ['C04', 'C61'])
M('m89', 'System', 'op_access', '| OLiquidate _ _ _ => ARole RKeeperLiquidate', '| OLiquidate _ _ _ => ARole RKeeperUpdatePairs',
  'any keeper of pairs may liquidate', 'every effect needs its role', ['C58'])
M('m95', 'Fees', 'dl_update_vb', 'Definition dl_update_vb (d : delegator) (x : Z) : res delegator :=\n  _ ← guard_ (0 <=? x)', 'Definition dl_update_vb (d : delegator) (x : Z) : res delegator :=\n  _ ← guard_ (0 <? x)',
  'the last fees of the delegator cannot be collected', 'collecting never fails', ['C65'], tightened=['C65_collect_fee_delegator'])
M('m96', 'Fees', 'dl_update_mult', 'Definition dl_update_mult (d : delegator) (x : Z) : res delegator :=\n  _ ← guard_ (0 <=? x)', 'Definition dl_update_mult (d : delegator) (x : Z) : res delegator :=\n  _ ← guard_ (0 <? x)',
  'the price multiplier cannot be set to zero', 'settings are refused only for the stated reasons', ['C65'], tightened=['C65_delegator_settings'])
M('m97', 'Fees', 'fd_update_protocol', '  _ ← guard_ (0 <=? x) EEngine; Ok (d <| fd_protocol := x |>)', '  _ ← guard_ (1 <=? x) EEngine; Ok (d <| fd_protocol := x |>)',
  'the whole protocol fee cannot be swapped', 'swapping is refused only for the stated reasons', ['C65'], tightened=['C65_swap_protocol_fee'])
M('m98', 'Types', 'PROTOCOL', 'Definition PROTOCOL : resource := 2%N.', 'Definition PROTOCOL : resource := 3%N.',
  'two resources coincide', 'tokens are accounted for per resource', ['C02'], tightened=['C02_resources_distinct'])
M('m99', 'Pool', 'pool_new', 'mkPool ∅ 0 0 0 0 0', 'mkPool ∅ 1 0 0 0 0',
  'the pool starts with tokens nobody deposited', 'no tokens from nothing', ['C02'], tightened=['C02_over_history'])
M('m100', 'Fees', 'dl_lock_fee', 'price ← dmul usd_price (dl_mult d);', 'price ← dmul usd_price (dec 1);',
  'the price multiplier is ignored when a fee is locked', 'the fee oath is minted at the marked-up price', ['C46'])
M('m101', 'Referral', 'gn_add_allocation', '[mkRA cs 0 count]', '[mkRA cs count count]',
  'a new allocation is already used up', 'allocations hold exactly what was paid in', ['C62'])
M('m102', 'Referral', 'gn_create_codes', '(mkRC ref (fst (snd x)) 0 (snd (snd x)))', '(mkRC ref (fst (snd x)) 0 1)',
  'codes for several uses can be used once', 'codes are created as asked', ['C62'])
M('m103', 'Exchange', 'm_update_referral', '<[id := d <| rf_fee_rebate := x |>]>', '<[id := d <| rf_fee_referral := x |>]>',
  'the rebate is written into the referral share', 'a referral is updated as asked', ['C62'])
M('m104', 'ExInternal', 'x_add_collateral', 'EvAddCollateral (va_addr a) tokens', 'EvAddCollateral (va_addr a) others',
  'base tokens are missing from the event', 'events report what happened', ['C63'])
M('m105', 'ExInternal', 'x_remove_liquidity', 'EvLiquidity lp_price nl na fee_pool', 'EvLiquidity lp_price lp_amount na fee_pool',
  'the event reports burned LP tokens as minted', 'events report what happened', ['C63'])
M('m106', 'Exchange', 'm_remove_collateral_request', '(N.of_nat (length cs) <=? 10)%N', '(N.of_nat (length cs) <=? 9)%N',
  'ten claims are refused', 'requests are refused only for the stated reasons', ['C65'])
M('m107', 'ExInternal', 'x_assert_collaterals_limit', '<=? ec_collaterals_max (vc_exchange c))%N', '<? ec_collaterals_max (vc_exchange c))%N',
  'the last allowed collateral is refused', 'deposits are refused only for the stated reasons', ['C65'])
M('m108', 'ExInternal', 'x_claim1', 'guard_ (amount <=? va_vb a) EWithdrawalInsufficientBalance', 'guard_ (amount <? va_vb a) EWithdrawalInsufficientBalance',
  'the last base token cannot be withdrawn', 'withdrawals are refused only for the stated reasons', ['C65', 'C67'])
M('m109', 'ExInternal', 'x_assert_account_integrity', 'guard_ (margin <=? account_value) EInsufficientMargin', 'guard_ (margin <? account_value) EInsufficientMargin',
  'an account exactly at its margin is refused', 'only the margin stands in the way', ['C67'])
M('m110', 'Oracle', 'oracle_push1', 'if t <? pr_time p then', 'if t <=? pr_time p then',
  'a price of the same time replaces the stored one', 'a stored price is replaced only by a newer one', ['C60', 'C66'])
M('m111', 'Exchange', 'm_margin_order_tp_sl_request', '(if 0 <? amount then PLGte price else PLLte price) sl [] can_tp', '(if 0 <? amount then PLLte price else PLGte price) sl [] can_tp',
  'the take-profit order triggers on the wrong side', 'take-profit and stop-loss are stored as asked', ['C44', 'C61'])
M('m112', 'Exchange', 'm_remove_collateral_request', '_ ← level_auth cx 2 v;', '_ ← level_auth cx 3 v;',
  'a level 3 (trading) key can request withdrawals', 'collateral leaves only when level 1 or 2 asks', ['C31', 'C69'])
M('m113', 'ExInternal', 'x_funding_2', 's ← dadd r1 delta; Ok (if mx <? s then mx else s)', 's ← dadd r1 delta; Ok (if mn <? s then mn else s)',
  'a recovering funding rate is capped at the wrong bound', 'the funding rate stays within its bounds', ['C19'])
M('m114', 'ExInternal', 'x_funding_indexes', 'f2 ← dmul cl (pc_funding_2 pc);', 'f2 ← dmul rate2 (pc_funding_2 pc);',
  'the funding rate is not clamped', 'funding accrues at the documented rate', ['C19'])
M('m115', 'Config', 'cc_validate', '(800000000000000000 <=? cc_discount c)', '(0 <=? cc_discount c)',
  'any discount is accepted', 'only valid settings are stored', ['C40'])
M('m116', 'Exchange', 'm_margin_order_tp_sl_request', '(if 0 <? amount then PLLte price else PLGte price) sl [] can_sl', '(if 0 <? amount then PLLte price else PLLte price) sl [] can_sl',
  'the stop-loss of a short triggers below the price', 'take-profit and stop-loss are stored as asked', ['C44', 'C61'])
M('m117', 'Exchange', 'add_referral_allocation', "guard_ (n <=? rf_max_referrals d)%N EReferralLimitReached;\n  '(g, rest, i)", "guard_ (n <? rf_max_referrals d)%N EReferralLimitReached;\n  '(g, rest, i)",
  'the last referral an allocation has room for is refused', 'allocations are refused only for the stated reasons', ['C65'])
M('m118', 'Exchange', 'm_create_referral_codes', "guard_ (n <=? rf_max_referrals d)%N EReferralLimitReached;\n  '(g, rest) ", "guard_ (n <? rf_max_referrals d)%N EReferralLimitReached;\n  '(g, rest) ",
  'the last code a referral has room for is refused', 'codes are refused only for the stated reasons', ['C65'])
M('m119', 'Referral', 'take_claim', 'guard_ (snd c <=? have) EInsufficientToken', 'guard_ (snd c <? have) EInsufficientToken',
  'tokens that exactly cover the claims are refused', 'allocations are refused only for the stated reasons', ['C65'])
M('m120', 'Referral', 'add_claim', 'guard_ (0 <? snd c) EInvalidClaimAmount', 'guard_ (1 <? snd c) EInvalidClaimAmount',
  'the smallest claim is refused', 'allocations are refused only for the stated reasons', ['C65'])
M('m121', 'Config', 'ec_validate', '(dec 1000 <=? ec_protocol_burn_amount c)', '(dec 2000 <=? ec_protocol_burn_amount c)',
  'valid settings are refused', 'settings are refused only outside the stated limits', ['C65'])
M('m122', 'Config', 'pc_validate', '(pc_margin_maintenance c <=? pc_margin_initial c)', '(pc_margin_maintenance c <? pc_margin_initial c)',
  'equal margins are refused', 'settings are refused only outside the stated limits', ['C65'])
M('m123', 'ExInternal', 'x_assert_pool_integrity', '|| (skew_delta <? 0)', '|| (skew_delta <? - dec 1)',
  'an order that reduces the skew slightly is refused', 'getting out is not stopped by the skew', ['C65', 'C71'])
M('m124', 'ExInternal', 'x_settle_fee_oath', '_ ← guard_ (b_res oath =? FEE_OATH)%N EInvalidFeeOath;', '',
  'any token is taken for a fee oath', 'fee oaths are spent, nothing else', ['C46'])
M('m125', 'ExInternal', 'x_settle_fee_oath', '_ ← x_assert_account_integrity c p a o;\n  Ok (a, supply', 'Ok (a, supply',
  'a fee oath may leave the account below its margin', 'initial margin holds after taking risk', ['C14'])
M('m126', 'ExInternal', 'x_margin_order', 'trade_value ← dmul price tot_abs;', 'trade_value ← dmul price amount;',
  'the slippage limit is measured against the amount asked for', 'slippage limits are respected', ['C27'])
M('m127', 'Referral', 'gn_create_codes', 'total ← rfold add_code_claims ∅ (map_to_list hashes);', 'total ← Ok (∅ : gmap resource Z);',
  'codes are created without tokens behind them', 'the referral generator is solvent', ['C35', 'C62'])
M('m128', 'Account', 'va_push_request', 'guard_ (is_pending status) EInvalidRequestStatus', 'guard_ (is_pending status || (status =? STATUS_EXECUTED)%N) EInvalidRequestStatus',
  'a request can be stored as executed', 'every stored request starts pending', ['C61', 'C70'])
M('m129', 'Exchange', 'm_margin_order_request', 'guard_ (N.of_nat (length cancel) <=? 2)%N EEffectedRequestsTooMany', 'guard_ (N.of_nat (length cancel) <=? 3)%N EEffectedRequestsTooMany',
  'an order may cancel three requests', 'every stored request is well formed', ['C70'])
M('m130', 'Exchange', 'm_margin_order_tp_sl_request', 'guard_ (pc_trade_size_min pc <=? amount_abs) ETradeSizeMinNotMet', 'guard_ (pc_trade_size_min pc <=? amount) ETradeSizeMinNotMet',
  'shorts with take-profit are refused', 'submitting is refused only for the stated reasons', ['C65'])
M('m131', 'ExInternal', 'x_assert_active_requests_limit', '(va_alen a <=? ec_active_requests_max (vc_exchange c))%N', '(va_alen a <? ec_active_requests_max (vc_exchange c))%N',
  'the last live request is refused', 'submitting is refused only for the stated reasons', ['C65'])
M('m132', 'Fees', 'dl_lock_fee', 'guard_ (s <=? dl_max_lock d) EMaxLockExceeded', 'guard_ (s <? dl_max_lock d) EMaxLockExceeded',
  'the lock limit itself is refused', 'locking is refused only for the stated reasons', ['C65'])
M('m133', 'Exchange', 'm_create_account', '_ ← guard_ (bool_decide (w_accounts w !! a = None)) EEngine;', '',
  'an existing account is overwritten', 'a deposit never loses an account', ['C01'])
M('m134', 'Referral', 'gn_claim', "_ ← guard_ (rc_count c <? rc_max c)%N EReferralCodeClaimed;", "_ ← guard_ (rc_count c <=? rc_max c)%N EReferralCodeClaimed;",
  'a code can be used once too often', 'codes are never exceeded', ['C36'])
M('m135', 'ExInternal', 'x_split', 'else if (position_amount <? 0) && (0 <? amount) then n ← dneg position_amount; Ok (Z.min amount n)', 'else if (position_amount <? 0) && (0 <? amount) then n ← dneg position_amount; Ok (Z.max amount n)',
  'a buy closes more than the short', 'orders change the position exactly as asked', ['C26', 'C71'])
M('m136', 'ExInternal', 'x_settle_funding', "let a := va_set_positions a ps in\n  nf ← dneg funding;\n  p ← vp_add_upf p nf;\n", "let a := va_set_positions a ps in\n  nf ← dneg funding;\n",
  'settled funding stays on the list of funding to come', 'the balance sheet balances', ['C73'])
M('m137', 'ExInternal', 'x_calculate_fee', 'dclamp sr 0 fee_max', 'nm ← dneg fee_max; dclamp sr nm fee_max',
  'an order that improves the skew is paid for', 'one price makes no money', ['C72'])
M('m138', 'ExInternal', 'x_update_pair_snaps', 'pnl ← dsub (pp_cost pp) skew;\n  pnl_delta ← dsub pnl (pp_pnl_snap pp);\n  let p := ', 'pnl ← dsub skew (pp_cost pp);\n  pnl_delta ← dsub pnl (pp_pnl_snap pp);\n  let p := ',
  'the pool books the loss of the traders as its own', 'the balance sheet balances', ['C73', 'C17'])
M('m139', 'ExInternal', 'x_funding_indexes', 'ds ← dadd si pi;', 'ds ← Ok si;',
  'shorts do not pay the pool share of the funding', 'the balance sheet balances', ['C73', 'C18'])
M('m140', 'ExInternal', 'x_funding_indexes', 'total ← dadd fp share;', 'total ← Ok fp;',
  'the pool does not book its share of the traded funding', 'the balance sheet balances', ['C73', 'C18'])
M('m141', 'ExInternal', 'x_close_position', 'pnl ← dsub t fee;', 'pnl ← Ok t;',
  'closing is free of charge but the fee is handed out', 'fees come out of the traders account', ['C72'])
M('m142', 'ExInternal', 'x_close_position', "let a := va_set_position a pid (pos <| ap_amount := amt' |> <| ap_cost := cost' |>) in", "let a := va_set_position a pid (pos <| ap_amount := amt' |>) in",
  'a partial close keeps the whole cost', 'the balance sheet balances', ['C73', 'C17'])
M('m143', 'ExInternal', 'x_open_position', "cost ← dadd value fee;", "cost ← dsub value fee;",
  'the opening fee is credited', 'one price makes no money', ['C72'])
M('m144', 'ExInternal', 'x_settle_account', 'n ← dneg amount;', 'n ← Ok amount;',
  'the pool gains what the account gains', 'the balance sheet balances', ['C73', 'C01', 'C72'])
M('m145', 'ExInternal', 'x_settle_fees_referral', 'd ← dsub d0 fee_referral;', 'd ← Ok d0;',
  'the referrer is paid out of nothing', 'the balance sheet balances', ['C73', 'C01'])
M('m146', 'ExInternal', 'x_update_pair', 'p ← vp_add_pnl p pnl_delta;', '',
  'a price move does not reach the total profit of the pool', 'the balance sheet balances', ['C73', 'C17'])
M('m147', 'ExInternal', 'x_funding_due', 'n ← dneg (ap_amount pos);', 'n ← Ok (ap_amount pos);',
  'shorts are paid the funding they owe', 'the balance sheet balances', ['C73', 'C18'])
M('m148', 'ExInternal', 'x_settle_fees_referral', 't0 ← dmul fee_paid (ec_fee_share_referral ec);', 't0 ← Ok fee_paid;',
  'the referrer gets a share of the whole fee', 'fees are split as configured', ['C20'])
M('m149', 'ExInternal', 'x_close_position', 'ratio ← ddiv na (ap_amount pos);', 'ratio ← Ok (dec 1);',
  'a partial close realises the whole cost', 'one price makes no money', ['C72', 'C26'])
MUTANTS = [m for m in MUTANTS if m]
