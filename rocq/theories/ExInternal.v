(** * Internal methods of the exchange.
    Models exchange/src/exchange.rs:1541-2874 (the INTERNAL METHODS section).
    [&mut] arguments become results. HashMap iteration order is unspecified in
    Rust; the model iterates in the map's canonical order (see P_Order for what
    depends on it). *)
From Verif Require Import Base DFloat Lists Types Config Oracle Pool Account Fees Referral.

(** The caches a call works on (exchange.rs passes them one by one as [&mut pool],
    [&mut account]) and the fee distributor component, which the code calls
    directly. *)
Record sess := mkS { s_pool : vpool; s_acc : vacc; s_fd : distributor }.
Global Instance eta_sess : Settable sess := settable! mkS <s_pool; s_acc; s_fd>.

(** ** Events (exchange/src/exchange/events.rs) *)
Record ev_order := mkEvOrder {
  eo_account : addr; eo_pair : pair_id; eo_price : Z; eo_price_limit : price_limit;
  eo_close : Z; eo_open : Z; eo_pnl : Z; eo_funding : Z;
  eo_fee_pool : Z; eo_fee_protocol : Z; eo_fee_treasury : Z; eo_fee_referral : Z;
  eo_activated : list N; eo_cancelled : list N }.
Record ev_liquidate := mkEvLiq {
  el_account : addr; el_position_prices : list (pair_id * Z); el_collateral_prices : list (resource * Z);
  el_account_value : Z; el_margin : Z; el_vb : Z; el_position_amounts : list (pair_id * Z);
  el_positions_pnl : Z; el_collateral_amounts : list (resource * Z);
  el_collateral_value : Z; el_collateral_value_discounted : Z; el_funding : Z;
  el_fee_pool : Z; el_fee_protocol : Z; el_fee_treasury : Z; el_fee_referral : Z; el_pool_loss : Z }.
Record ev_adl := mkEvAdl {
  ea_account : addr; ea_pair : pair_id; ea_price : Z; ea_close : Z; ea_pnl : Z; ea_funding : Z;
  ea_fee_pool : Z; ea_fee_protocol : Z; ea_fee_treasury : Z; ea_fee_referral : Z;
  ea_pnl_percent : Z; ea_threshold : Z }.
Inductive event :=
| EvSignalUpgrade (a : addr)
| EvExchangeConfig (c : exchange_config)
| EvPairConfigs (c : list pair_config)
| EvCollateralConfigs (c : list (resource * collateral_config))
| EvCollateralRemoval (r : resource)
| EvPairUpdates (l : list (pair_id * pool_position))
| EvAccountCreation (a : addr) (r : option N)
| EvRequests (a : addr) (l : list (N * keeper_request))
| EvValidStart (a : addr) (n : N)
| EvLiquidity (lp_price lp_amount amount fee_pool fee_protocol fee_treasury : Z)
| EvAddCollateral (a : addr) (l : list (resource * Z))
| EvRemoveCollateral (a target : addr) (l : list (resource * Z))
| EvMarginOrder (e : ev_order)
| EvSwapDebt (a : addr) (r : resource) (amount price : Z)
| EvLiquidate (e : ev_liquidate)
| EvAutoDeleverage (e : ev_adl).

(** exchange.rs:1543-1552 *)
Definition x_pair_feeds (c : vconfig) (ids : gset pair_id) : res (gmap pair_id Z) :=
  rfold (fun (m : gmap pair_id Z) p => pc ← vc_pair c p; Ok (<[p := pc_price_age_max pc]> m)) ∅ (elements ids).
(** exchange.rs:1554-1561 *)
Definition x_pair_feeds_no_max_age (ids : gset pair_id) : gmap pair_id Z :=
  set_to_map (fun p => (p, I64MAX)) ids.
(** exchange.rs:1563-1571 *)
Definition x_pool_value (p : vpool) : res Z :=
  a ← dadd (vp_base p) (vp_vb p);
  b ← dadd a (vp_upf p);
  dadd b (vp_pnl p).
(** exchange.rs:1573-1578 *)
Definition x_skew_ratio (p : vpool) : res Z :=
  v ← x_pool_value p;
  ddiv (vp_skew p) (Z.max v (dec 1)).
(** exchange.rs:1600-1613 *)
Definition x_assert_pool_integrity (c : vconfig) (p : vpool) (skew_delta : Z) : res unit :=
  r ← x_skew_ratio p;
  guard_ ((r <? ec_skew_ratio_cap (vc_exchange c)) || (skew_delta <? 0)) ESkewTooHigh.
(** exchange.rs:1683-1701 *)
Definition x_calculate_fee (ec : exchange_config) (pc : pair_config) (pp : pool_position)
    (fee_rebate price value : Z) : res Z :=
  value_abs ← dabs value;
  d ← dsub (pp_oi_long pp) (pp_oi_short pp);
  skew ← dmul d price;
  fee_0 ← dmul value_abs (pc_fee_0 pc);
  t0 ← dmul (dec 2) skew;
  t1 ← dadd t0 value;
  t2 ← dmul value t1;
  fee_1 ← dmul t2 (pc_fee_1 pc);
  fee_max ← dmul value_abs (ec_fee_max ec);
  s ← dadd fee_0 fee_1;
  sr ← dmul s fee_rebate;
  dclamp sr 0 fee_max.

(** The funding formula shared by exchange.rs:1716-1720, 2646-2650, 2705-2711 and
    2819-2827: what a position owes since its funding index *)
Definition x_funding_due (pp : pool_position) (pos : account_position) : res Z :=
  if 0 <? ap_amount pos then
    d ← dsub (pp_funding_long_index pp) (ap_funding pos); dmul (ap_amount pos) d
  else
    n ← dneg (ap_amount pos);
    d ← dsub (pp_funding_short_index pp) (ap_funding pos); dmul n d.

(** exchange.rs:2641-2662: the body of the valuation loop *)
Definition x_value_position1 (c : vconfig) (p : vpool) (fee_rebate : Z) (o : voracle)
    (acc : Z * Z) (x : pair_id * account_position) : res (Z * Z) :=
  let '(total_pnl, total_margin) := acc in
  let '(pid, pos) := x in
  pc ← vc_pair c pid;
  price ← vo_price o pid;
  namt ← dneg (ap_amount pos);
  value ← dmul namt price;
  value_abs ← dabs value;
  pp ← vp_position p pid;
  fee ← x_calculate_fee (vc_exchange c) pc pp fee_rebate price value;
  funding ← x_funding_due pp pos;
  nv ← dneg value;
  a ← dsub nv (ap_cost pos);
  b ← dsub a fee;
  pnl ← dsub b funding;
  margin ← dmul value_abs (pc_margin_initial pc);
  tp ← dadd total_pnl pnl;
  tm ← dadd total_margin margin;
  Ok (tp, tm).
(** exchange.rs:2630-2669 *)
Definition x_value_positions (c : vconfig) (p : vpool) (a : vacc) (o : voracle) : res (Z * Z) :=
  fee_rebate ← va_fee_rebate a;
  rfold (x_value_position1 c p fee_rebate o) (0, 0) (map_to_list (va_positions a)).
(** exchange.rs:2747-2757: only configured collateral counts *)
Definition x_value_collateral1 (c : vconfig) (o : voracle) (acc : Z * Z) (x : resource * Z) : res (Z * Z) :=
  let '(total_disc, total_margin) := acc in
  match vc_collaterals c !! fst x with
  | None => Ok acc
  | Some cc =>
      price ← vo_price_resource o (fst x);
      value ← dmul (snd x) price;
      disc ← dmul value (cc_discount cc);
      margin ← dmul value (cc_margin cc);
      td ← dadd total_disc disc;
      tm ← dadd total_margin margin;
      Ok (td, tm)
  end.
(** exchange.rs:2739-2763 *)
Definition x_value_collateral (c : vconfig) (a : vacc) (o : voracle) : res (Z * Z) :=
  rfold (x_value_collateral1 c o) (0, 0) (map_to_list (va_coll a)).
(** exchange.rs:1615-1632 *)
Definition x_assert_account_integrity (c : vconfig) (p : vpool) (a : vacc) (o : voracle) : res unit :=
  '(pnl, mp) ← x_value_positions c p a o;
  '(disc, mc) ← x_value_collateral c a o;
  t ← dadd pnl disc;
  account_value ← dadd t (va_vb a);
  margin ← dadd mp mc;
  guard_ (margin <=? account_value) EInsufficientMargin.
(** exchange.rs:1634-1644 *)
Definition x_assert_valid_collateral (c : vconfig) (r : resource) : res unit :=
  guard_ (bool_decide (is_Some (vc_collaterals c !! r))) EInvalidCollateral.
(** exchange.rs:1646-1657 *)
Definition x_assert_position_limit (c : vconfig) (a : vacc) : res unit :=
  guard_ (N.of_nat (size (va_positions a)) <=? ec_positions_max (vc_exchange c))%N EPositionsTooMany.
(** exchange.rs:1659-1669 *)
Definition x_assert_collaterals_limit (c : vconfig) (a : vacc) : res unit :=
  guard_ (N.of_nat (size (va_coll a)) <=? ec_collaterals_max (vc_exchange c))%N ECollateralsTooMany.
(** exchange.rs:1671-1681 *)
Definition x_assert_active_requests_limit (c : vconfig) (a : vacc) : res unit :=
  guard_ (va_alen a <=? ec_active_requests_max (vc_exchange c))%N EActiveRequestsTooMany.

(** exchange.rs:2800-2808 *)
Definition x_settle_account (p : vpool) (a : vacc) (amount : Z) : res (vpool * vacc) :=
  n ← dneg amount;
  p ← vp_add_vb p n;
  a ← va_add_vb a amount;
  Ok (p, a).

(** exchange.rs:1826-1845. [supply] is the fee oath supply; burning more than
    exists is impossible *)
Definition x_settle_fee_oath (c : vconfig) (p : vpool) (a : vacc) (o : voracle) (supply : Z) (oath : bucket)
    : res (vacc * Z) :=
  _ ← guard_ (b_res oath =? FEE_OATH)%N EInvalidFeeOath;
  n ← dneg (b_amt oath);
  a ← va_add_vb a n;
  _ ← guard_ (b_amt oath <=? supply) EEngine;
  _ ← x_assert_account_integrity c p a o;
  Ok (a, supply - b_amt oath).

(** exchange.rs:2837-2852; returns the negated shares as the code does *)
Definition x_settle_fees_basic (c : vconfig) (p : vpool) (fd : distributor) (fee_paid : Z)
    : res (vpool * distributor * (Z * Z * Z)) :=
  let ec := vc_exchange c in
  fee_protocol ← dmul fee_paid (ec_fee_share_protocol ec);
  fee_treasury ← dmul fee_paid (ec_fee_share_treasury ec);
  t ← dsub fee_paid fee_protocol;
  fee_pool ← dsub t fee_treasury;
  np ← dneg fee_protocol;
  d ← dsub np fee_treasury;
  p ← vp_add_vb p d;
  fd ← fd_distribute fd fee_protocol fee_treasury;
  a ← dneg fee_pool; b ← dneg fee_protocol; e ← dneg fee_treasury;
  Ok (p, fd, (a, b, e)).
(** exchange.rs:2854-2872 *)
Definition x_settle_fees_referral (c : vconfig) (s : sess) (fee_paid : Z)
    : res (sess * (Z * Z * Z * Z)) :=
  let ec := vc_exchange c in
  fee_protocol ← dmul fee_paid (ec_fee_share_protocol ec);
  fee_treasury ← dmul fee_paid (ec_fee_share_treasury ec);
  t0 ← dmul fee_paid (ec_fee_share_referral ec);
  fee_referral ← dmul t0 (va_fee_share_referral (s_acc s));
  t1 ← dsub fee_paid fee_protocol;
  t2 ← dsub t1 fee_treasury;
  fee_pool ← dsub t2 fee_referral;
  np ← dneg fee_protocol;
  d0 ← dsub np fee_treasury;
  d ← dsub d0 fee_referral;
  p ← vp_add_vb (s_pool s) d;
  fd ← fd_distribute (s_fd s) fee_protocol fee_treasury;
  a ← va_reward_referral (s_acc s) fee_referral;
  q0 ← dneg fee_pool; q1 ← dneg fee_protocol; q2 ← dneg fee_treasury; q3 ← dneg fee_referral;
  Ok (mkS p a fd, (q0, q1, q2, q3)).

(** exchange.rs:1847-1883. [supply] is the LP supply. Returns the pool, the fee
    distributor, the new supply, the LP token and the event. *)
Definition x_add_liquidity (E : env) (c : vconfig) (p : vpool) (fd : distributor) (supply : Z) (payment : bucket)
    : res (vpool * distributor * Z * bucket * event) :=
  _ ← guard_ (b_res payment =? BASE)%N EInvalidPaymentToken;
  let value := b_amt payment in
  fee ← dmul value (ec_fee_liquidity_add (vc_exchange c));
  pv ← x_pool_value p;
  let pool_value := Z.max pv (dec 1) in
  '(lp_amount, lp_price) ←
    (if supply =? 0
     then x ← dsub value fee; Ok (x, dec 1)
     else lp_price ← ddiv pool_value supply;
          x ← dsub value fee;
          lp_amount ← ddiv x lp_price;
          Ok (lp_amount, lp_price));
  p ← vp_deposit p value;
  _ ← guard_ (mint_ok E LP lp_amount) EEngine;
  supply' ← dadd supply lp_amount;
  '(p, fd, (fee_pool, fee_protocol, fee_treasury)) ← x_settle_fees_basic c p fd fee;
  Ok (p, fd, supply', (LP, lp_amount), EvLiquidity lp_price lp_amount value fee_pool fee_protocol fee_treasury).
(** exchange.rs:1885-1924 *)
Definition x_remove_liquidity (E : env) (c : vconfig) (p : vpool) (fd : distributor) (supply : Z) (lp_token : bucket)
    : res (vpool * distributor * Z * bucket * event) :=
  _ ← guard_ (b_res lp_token =? LP)%N EInvalidLpToken;
  let lp_amount := b_amt lp_token in
  pv ← x_pool_value p;
  let pool_value := Z.max pv 0 in
  lp_price ← ddiv pool_value supply;
  value ← dmul lp_amount lp_price;
  fee ← dmul value (ec_fee_liquidity_remove (vc_exchange c));
  withdraw_amount ← dsub value fee;
  _ ← guard_ (withdraw_amount <=? vp_base p) EWithdrawalInsufficientPoolTokens;
  _ ← guard_ (lp_amount <=? supply) EEngine;
  '(p, amt) ← vp_withdraw E p withdraw_amount ToZero;
  '(p, fd, (fee_pool, fee_protocol, fee_treasury)) ← x_settle_fees_basic c p fd fee;
  _ ← x_assert_pool_integrity c p 0;
  nl ← dneg lp_amount;
  na ← dneg amt;
  Ok (p, fd, supply - lp_amount, (BASE, amt), EvLiquidity lp_price nl na fee_pool fee_protocol fee_treasury).

(** ** Permissions: exchange.rs:1926-2029. The three methods differ only in the
    level; [lvl] is 1, 2 or 3. *)
Definition pm_get (lvl : N) (p : perms) : gset addr :=
  if (lvl =? 1)%N then pm_1 p else if (lvl =? 2)%N then pm_2 p else pm_3 p.
Definition pm_set (lvl : N) (p : perms) (s : gset addr) : perms :=
  if (lvl =? 1)%N then p <| pm_1 := s |> else if (lvl =? 2)%N then p <| pm_2 := s |> else p <| pm_3 := s |>.
Definition ac_level (lvl : N) (a : account) : access_rule :=
  if (lvl =? 1)%N then ac_l1 a else if (lvl =? 2)%N then ac_l2 a else ac_l3 a.
Definition ac_set_level (lvl : N) (a : account) (r : access_rule) : account :=
  if (lvl =? 1)%N then a <| ac_l1 := r |> else if (lvl =? 2)%N then a <| ac_l2 := r |> else a <| ac_l3 := r |>.
Definition reg_remove (lvl : N) (a : addr) (g : registry) (r : access_rule) : registry :=
  let p := reg_get g r in reg_set g r (pm_set lvl p (pm_get lvl p ∖ {[a]})).
Definition reg_insert (lvl : N) (a : addr) (g : registry) (r : access_rule) : registry :=
  let p := reg_get g r in reg_set g r (pm_set lvl p ({[a]} ∪ pm_get lvl p)).
Definition x_set_level_auth (lvl : N) (g : registry) (a : vacc) (rule : access_rule) : registry * vacc :=
  let old := ac_level lvl (va_comp a) in
  let g1 := foldl (reg_remove lvl (va_addr a)) g (old :: sub_rules old) in
  let a' := a <| va_comp := ac_set_level lvl (va_comp a) rule |> in
  let g2 := foldl (reg_insert lvl (va_addr a)) g1 (rule :: sub_rules rule) in
  (g2, a').

(** exchange.rs:2039-2047: base tokens go to the pool and are credited to the
    account's virtual balance, in order *)
Definition x_add_base (s : vpool * vacc) (b : bucket) : res (vpool * vacc) :=
  let '(p, a) := s in
  p ← vp_deposit p (b_amt b);
  x_settle_account p a (b_amt b).
Definition is_base (b : bucket) : bool := (b_res b =? BASE)%N.
(** exchange.rs:2031-2058 *)
Definition x_add_collateral (c : vconfig) (p : vpool) (a : vacc) (tokens : list bucket)
    : res (vpool * vacc * event) :=
  '(p, a) ← rfold x_add_base (p, a) (List.filter is_base tokens);
  let others := List.filter (fun b => negb (is_base b)) tokens in
  _ ← rmap (fun b => x_assert_valid_collateral c (b_res b)) others;
  a ← va_deposit a others;
  _ ← x_assert_collaterals_limit c a;
  Ok (p, a, EvAddCollateral (va_addr a) tokens).

(** exchange.rs:2069-2073: claims merged per resource *)
Definition x_merge_claims (cs : list (resource * Z)) : res (gmap resource Z) :=
  rfold (fun (m : gmap resource Z) c =>
           match m !! fst c with
           | Some x => y ← dadd x (snd c); Ok (<[fst c := y]> m)
           | None => Ok (<[fst c := snd c]> m)
           end) ∅ cs.
(** exchange.rs:2076-2101: one merged claim; state = (pool, account, base tokens
    taken, remaining claims) *)
Definition x_claim1 (E : env) (s : vpool * vacc * list bucket * list (resource * Z)) (c : resource * Z)
    : res (vpool * vacc * list bucket * list (resource * Z)) :=
  let '(p, a, toks, rest) := s in
  let '(r, amount) := c in
  if (r =? BASE)%N then
    _ ← guard_ (amount <=? va_vb a) EWithdrawalInsufficientBalance;
    _ ← guard_ (amount <=? vp_base p) EWithdrawalInsufficientPoolTokens;
    '(p, value) ← vp_withdraw E p amount ToZero;
    nv ← dneg value;
    '(p, a) ← x_settle_account p a nv;
    Ok (p, a, toks ++ [(BASE, value)], rest)
  else
    _ ← guard_ (amount <=? va_collateral_amount a r) EWithdrawalInsufficientBalance;
    Ok (p, a, toks, rest ++ [(r, amount)]).
(** exchange.rs:2060-2114; returns the tokens delivered to the target account *)
Definition x_remove_collateral (E : env) (cx : ctx) (c : vconfig) (p : vpool) (a : vacc) (o : voracle) (rq : req_remove)
    : res (vpool * vacc * list bucket * event) :=
  m ← x_merge_claims (rr_claims rq);
  '(p, a, toks, rest) ← rfold (x_claim1 E) (p, a, [], []) (map_to_list m);
  '(a, more) ← va_withdraw E a rest ToZero;
  let tokens := toks ++ more in
  _ ← guard_ (cx_accepts cx (rr_target rq) tokens) EInvalidAccount;
  _ ← x_assert_account_integrity c p a o;
  Ok (p, a, tokens, EvRemoveCollateral (va_addr a) (rr_target rq) tokens).

(** ** Funding and pair updates *)
(** exchange.rs:2518-2556: the new funding_2 rate. [mx] = funding_2_max,
    [mn] = funding_2_min, [delta] = funding_2_rate_delta *)
Definition x_funding_2_decay (pc : pair_config) (rate bound period : Z) : res Z :=
  excess ← dsub rate bound;
  t ← dmul (pc_funding_2_decay pc) period;
  decay ← dmul excess (Z.min t (dec 1));
  dsub rate decay.
Definition x_funding_2 (pc : pair_config) (rate mx mn delta period : Z) : res Z :=
  if mx <? rate then
    r1 ← x_funding_2_decay pc rate mx period;
    if delta <? 0 then
      s ← dadd r1 delta; Ok (if s <? mn then mn else s)
    else Ok r1
  else if rate <? mn then
    r1 ← x_funding_2_decay pc rate mn period;
    if 0 <? delta then
      s ← dadd r1 delta; Ok (if mx <? s then mx else s)
    else Ok r1
  else
    s ← dadd rate delta;
    Ok (if mx <? s then mx else if s <? mn then mn else s).
(** exchange.rs:2558-2592: the index increments and the pool's funding *)
Definition x_funding_indexes (pc : pair_config) (oi_long oi_short skew skew_abs price rate2 mn mx period : Z)
    : res (Z * Z * Z) :=
  f1 ← dmul skew (pc_funding_1 pc);
  cl ← dclamp rate2 mn mx;
  f2 ← dmul cl (pc_funding_2 pc);
  rate ← dadd f1 f2;
  '(li, si, share) ←
    (if 0 <? rate then
       fl ← dmul rate period;
       li ← ddiv fl oi_long;
       sh ← dmul fl (pc_funding_share pc);
       d ← dsub fl sh;
       nd ← dneg d;
       si ← ddiv nd oi_short;
       Ok (li, si, sh)
     else
       nr ← dneg rate;
       fs ← dmul nr period;
       si ← ddiv fs oi_short;
       sh ← dmul fs (pc_funding_share pc);
       d ← dsub fs sh;
       nd ← dneg d;
       li ← ddiv nd oi_long;
       Ok (li, si, sh));
  t0 ← dadd oi_long oi_short;
  t1 ← dmul t0 price;
  p0 ← dmul t1 (pc_funding_pool_0 pc);
  p1 ← dmul skew_abs (pc_funding_pool_1 pc);
  pr ← dadd p0 p1;
  fp ← dmul pr period;
  pi ← ddiv fp t0;
  dl ← dadd li pi;
  ds ← dadd si pi;
  total ← dadd fp share;
  Ok (dl, ds, total).

(** The [period != 0] branch of exchange.rs:2512-2595: updated position and the
    pool's funding *)
Definition x_funding_step (pc : pair_config) (pp : pool_position) (skew skew_abs price period : Z)
    : res (pool_position * Z) :=
  let oi_long := pp_oi_long pp in
  let oi_short := pp_oi_short pp in
  mx ← dmul oi_long price;
  ns ← dneg oi_short;
  mn ← dmul ns price;
  t0 ← dmul skew (pc_funding_2_delta pc);
  delta ← dmul t0 period;
  rate2 ← x_funding_2 pc (pp_funding_2_rate pp) mx mn delta period;
  let pp := pp <| pp_funding_2_rate := rate2 |> in
  if negb (oi_long =? 0) && negb (oi_short =? 0) then
    '(dl, ds, total) ← x_funding_indexes pc oi_long oi_short skew skew_abs price rate2 mn mx period;
    li ← dadd (pp_funding_long_index pp) dl;
    si ← dadd (pp_funding_short_index pp) ds;
    Ok (pp <| pp_funding_long_index := li |> <| pp_funding_short_index := si |>, total)
  else Ok (pp, 0).

(** exchange.rs:2483-2603 *)
Definition x_update_pair (now : Z) (c : vconfig) (o : voracle) (p : vpool) (pid : pair_id) : res (vpool * bool) :=
  pc ← vc_pair c pid;
  price ← vo_price o pid;
  pp ← vp_position p pid;
  let oi_long := pp_oi_long pp in
  let oi_short := pp_oi_short pp in
  d ← dsub oi_long oi_short;
  skew ← dmul d price;
  skew_abs ← dabs skew;
  skew_delta ← dsub skew_abs (pp_skew_abs_snap pp);
  pnl ← dsub (pp_cost pp) skew;
  pnl_delta ← dsub pnl (pp_pnl_snap pp);
  period_seconds ← isub now (pp_last_update pp);
  ps ← dec_of_int period_seconds;
  period ← ddiv ps (dec 31536000);
  pd ← dsub price (pp_last_price pp);
  pda ← dabs pd;
  price_delta_ratio ← ddiv pda (pp_last_price pp);
  let pp1 := pp <| pp_skew_abs_snap := skew_abs |> <| pp_pnl_snap := pnl |>
                <| pp_last_price := price |> <| pp_last_update := now |> in
  '(pp2, funding_pool_delta) ←
    (if negb (period =? 0) then x_funding_step pc pp1 skew skew_abs price period else Ok (pp1, 0));
  let p := vp_set_position p pid pp2 in
  p ← vp_add_skew p skew_delta;
  p ← vp_add_pnl p pnl_delta;
  p ← vp_add_upf p funding_pool_delta;
  Ok (p, (pc_update_period_seconds pc <=? period_seconds) || (pc_update_price_delta_ratio pc <=? price_delta_ratio)).

(** exchange.rs:2605-2628 *)
Definition x_update_pair_snaps (o : voracle) (p : vpool) (pid : pair_id) : res vpool :=
  price ← vo_price o pid;
  pp ← vp_position p pid;
  d ← dsub (pp_oi_long pp) (pp_oi_short pp);
  skew ← dmul d price;
  skew_abs ← dabs skew;
  skew_delta ← dsub skew_abs (pp_skew_abs_snap pp);
  pnl ← dsub (pp_cost pp) skew;
  pnl_delta ← dsub pnl (pp_pnl_snap pp);
  let p := vp_set_position p pid (pp <| pp_skew_abs_snap := skew_abs |> <| pp_pnl_snap := pnl |>) in
  p ← vp_add_skew p skew_delta;
  vp_add_pnl p pnl_delta.

(** exchange.rs:2810-2835; [positions_mut] marks every position as updated *)
Definition x_settle_funding (p : vpool) (a : vacc) (pid : pair_id) : res (vpool * vacc * Z) :=
  pp ← vp_position p pid;
  '(ps, funding) ←
    (match va_positions a !! pid with
     | Some pos =>
         f ← x_funding_due pp pos;
         let idx := if 0 <? ap_amount pos then pp_funding_long_index pp else pp_funding_short_index pp in
         Ok (<[pid := pos <| ap_funding := idx |>]> (va_positions a), f)
     | None => Ok (va_positions a, 0)
     end);
  let a := va_set_positions a ps in
  nf ← dneg funding;
  p ← vp_add_upf p nf;
  '(p, a) ← x_settle_account p a nf;
  Ok (p, a, nf).

(** ** Opening and closing *)
(** exchange.rs:2386-2439 *)
Definition x_open_position (c : vconfig) (o : voracle) (p : vpool) (a : vacc) (pid : pair_id) (amount : Z)
    : res (vpool * vacc * Z) :=
  pc ← vc_pair c pid;
  fee_rebate ← va_fee_rebate a;
  price ← vo_price o pid;
  value ← dmul amount price;
  pp ← vp_position p pid;
  let pos := default apos_zero (va_positions a !! pid) in
  _ ← guard_ (0 <=? Z.sgn (ap_amount pos) * Z.sgn amount) EEngine;
  fee ← x_calculate_fee (vc_exchange c) pc pp fee_rebate price value;
  cost ← dadd value fee;
  pp ← (if 0 <? amount then
          x ← dadd (pp_oi_long pp) amount;
          _ ← guard_ (x <=? pc_oi_max pc) EPairOiTooHigh;
          Ok (pp <| pp_oi_long := x |>)
        else
          x ← dsub (pp_oi_short pp) amount;
          _ ← guard_ (x <=? pc_oi_max pc) EPairOiTooHigh;
          Ok (pp <| pp_oi_short := x |>));
  pcost ← dadd (pp_cost pp) cost;
  let pp := pp <| pp_cost := pcost |> in
  amt' ← dadd (ap_amount pos) amount;
  cost' ← dadd (ap_cost pos) cost;
  let idx := if 0 <? amt' then pp_funding_long_index pp else pp_funding_short_index pp in
  let p := vp_set_position p pid pp in
  let a := va_set_position a pid (mkAP amt' cost' idx) in
  p ← x_update_pair_snaps o p pid;
  _ ← x_assert_position_limit c a;
  _ ← x_assert_account_integrity c p a o;
  Ok (p, a, fee).

(** exchange.rs:2441-2481 *)
Definition x_close_position (c : vconfig) (o : voracle) (p : vpool) (a : vacc) (pid : pair_id) (amount : Z)
    : res (vpool * vacc * (Z * Z)) :=
  pc ← vc_pair c pid;
  fee_rebate ← va_fee_rebate a;
  price ← vo_price o pid;
  value ← dmul amount price;
  pp ← vp_position p pid;
  let pos := default apos_zero (va_positions a !! pid) in
  _ ← guard_ (Z.sgn (ap_amount pos) * Z.sgn amount <=? 0) EEngine;
  _ ← guard_ (Z.abs amount <=? Z.abs (ap_amount pos)) EEngine;
  fee ← x_calculate_fee (vc_exchange c) pc pp fee_rebate price value;
  na ← dneg amount;
  ratio ← ddiv na (ap_amount pos);
  cost ← dmul ratio (ap_cost pos);
  nv ← dneg value;
  t ← dsub nv cost;
  pnl ← dsub t fee;
  pp ← (if amount <? 0 then x ← dadd (pp_oi_long pp) amount; Ok (pp <| pp_oi_long := x |>)
        else x ← dsub (pp_oi_short pp) amount; Ok (pp <| pp_oi_short := x |>));
  pcost ← dsub (pp_cost pp) cost;
  let pp := pp <| pp_cost := pcost |> in
  amt' ← dadd (ap_amount pos) amount;
  cost' ← dsub (ap_cost pos) cost;
  let p := vp_set_position p pid pp in
  let a := va_set_position a pid (pos <| ap_amount := amt' |> <| ap_cost := cost' |>) in
  '(p, a) ← x_settle_account p a pnl;
  p ← x_update_pair_snaps o p pid;
  Ok (p, a, (pnl, fee)).

(** exchange.rs:2141-2160: how an order splits into a closing and an opening part *)
Definition x_split (position_amount amount : Z) (reduce_only : bool) : res (Z * Z) :=
  amount_close ←
    (if (0 <? position_amount) && (amount <? 0) then n ← dneg position_amount; Ok (Z.max amount n)
     else if (position_amount <? 0) && (0 <? amount) then n ← dneg position_amount; Ok (Z.min amount n)
     else Ok 0);
  amount_open ← (if negb reduce_only then dsub amount amount_close else Ok 0);
  Ok (amount_close, amount_open).

(** exchange.rs:2116-2205 *)
Definition x_margin_order (now : Z) (c : vconfig) (o : voracle) (s : sess) (rq : req_order) : res (sess * event) :=
  let pid := ro_pair rq in
  let amount := ro_amount rq in
  price ← vo_price o pid;
  _ ← guard_ (pl_compare (ro_price_limit rq) price) EPriceLimit;
  '(p, _) ← x_update_pair now c o (s_pool s) pid;
  '(p, a, funding) ← x_settle_funding p (s_acc s) pid;
  let position_amount := match va_positions a !! pid with Some x => ap_amount x | None => 0 end in
  '(amount_close, amount_open) ← x_split position_amount amount (ro_reduce_only rq);
  let skew_0 := vp_skew p in
  '(p, a, pnl, fee0) ←
    (if negb (amount_close =? 0)
     then '(p, a, (pnl, fee)) ← x_close_position c o p a pid amount_close; Ok (p, a, pnl, fee)
     else Ok (p, a, 0, 0));
  '(p, a, fee_paid) ←
    (if negb (amount_open =? 0)
     then '(p, a, fee) ← x_open_position c o p a pid amount_open; f ← dadd fee0 fee; Ok (p, a, f)
     else Ok (p, a, fee0));
  tot ← dadd amount_open amount_close;
  tot_abs ← dabs tot;
  trade_value ← dmul price tot_abs;
  ok ← sl_compare (ro_slippage rq) fee_paid trade_value;
  _ ← guard_ ok ESlippageLimit;
  '(s1, (fee_pool, fee_protocol, fee_treasury, fee_referral)) ← x_settle_fees_referral c (mkS p a (s_fd s)) fee_paid;
  '(a, activated) ← va_try_set_status (s_acc s1) (ro_activate rq) STATUS_ACTIVE;
  '(a, cancelled) ← va_try_set_status a (ro_cancel rq) STATUS_CANCELLED;
  let s2 := s1 <| s_acc := a |> in
  let skew_1 := vp_skew (s_pool s2) in
  dsk ← dsub skew_1 skew_0;
  _ ← x_assert_pool_integrity c (s_pool s2) dsk;
  tp ← dadd pnl funding;
  Ok (s2, EvMarginOrder (mkEvOrder (va_addr a) pid price (ro_price_limit rq) amount_close amount_open
        tp funding fee_pool fee_protocol fee_treasury fee_referral activated cancelled)).

(** exchange.rs:2207-2250; returns (pool, account, collateral token, remainder) *)
Definition x_swap_debt (E : env) (c : vconfig) (o : voracle) (p : vpool) (a : vacc) (r : resource) (payment : bucket)
    : res (vpool * vacc * bucket * bucket * event) :=
  _ ← guard_ (b_res payment =? BASE)%N EInvalidPaymentToken;
  _ ← x_assert_valid_collateral c r;
  _ ← guard_ (va_vb a <? 0) ESwapNoDebt;
  cc ← expect (vc_collaterals c !! r) EInvalidCollateral;
  d0 ← dmul (cc_discount cc) 100000000000000000;
  discount ← dadd d0 900000000000000000;
  debt ← dneg (va_vb a);
  let value := Z.min (b_amt payment) debt in
  pr ← vo_price_resource o r;
  price_resource ← dmul pr discount;
  amount ← ddiv value price_resource;
  let available := va_collateral_amount a r in
  '(amount, value) ←
    (if available <? amount
     then v ← dmul available price_resource; Ok (available, v)
     else Ok (amount, value));
  paid ← take_adv E BASE ToInfinity (b_amt payment) value;
  p ← vp_deposit p paid;
  '(p, a) ← x_settle_account p a value;
  '(a, toks) ← va_withdraw E a [(r, amount)] ToZero;
  token ← expect (last toks) EEngine;
  Ok (p, a, token, (BASE, b_amt payment - paid), EvSwapDebt (va_addr a) r (b_amt token) price_resource).

(** ** Liquidation *)
(** exchange.rs:2687-2727, one position; totals = (pnl, margin, funding, fee) *)
Definition x_liq_position1 (c : vconfig) (fee_rebate : Z) (o : voracle)
    (s : vpool * (Z * Z * Z * Z)) (x : pair_id * account_position) : res (vpool * (Z * Z * Z * Z)) :=
  let '(p, (total_pnl, total_margin, total_funding, total_fee)) := s in
  let '(pid, pos) := x in
  pc ← vc_pair c pid;
  price ← vo_price o pid;
  let amount := ap_amount pos in
  namt ← dneg amount;
  value ← dmul namt price;
  value_abs ← dabs value;
  pp ← vp_position p pid;
  fee ← x_calculate_fee (vc_exchange c) pc pp fee_rebate price value;
  let cost := ap_cost pos in
  pp1 ← (if 0 <? amount then y ← dsub (pp_oi_long pp) amount; Ok (pp <| pp_oi_long := y |>)
         else y ← dadd (pp_oi_short pp) amount; Ok (pp <| pp_oi_short := y |>));
  funding ← x_funding_due pp pos;
  pcost ← dsub (pp_cost pp1) cost;
  let pp2 := pp1 <| pp_cost := pcost |> in
  nv ← dneg value;
  t0 ← dsub nv cost;
  t1 ← dsub t0 fee;
  pnl ← dsub t1 funding;
  margin ← dmul value_abs (pc_margin_maintenance pc);
  tf ← dadd total_funding funding;
  tp ← dadd total_pnl pnl;
  tm ← dadd total_margin margin;
  tfe ← dadd total_fee fee;
  Ok (vp_set_position p pid pp2, (tp, tm, tf, tfe)).
Record res_liq_pos := mkRLP {
  lp_pnl : Z; lp_margin : Z; lp_funding_paid : Z; lp_fee : Z;
  lp_amounts : list (pair_id * Z); lp_prices : list (pair_id * Z) }.
(** exchange.rs:2671-2737 *)
Definition x_liquidate_positions (now : Z) (c : vconfig) (o : voracle) (p : vpool) (a : vacc)
    : res (vpool * vacc * res_liq_pos) :=
  fee_rebate ← va_fee_rebate a;
  let l := map_to_list (va_positions a) in
  p ← rfold (fun p k => '(p, _) ← x_update_pair now c o p k; Ok p) p (map fst l);
  '(p, (tp, tm, tf, tfe)) ← rfold (x_liq_position1 c fee_rebate o) (p, (0, 0, 0, 0)) l;
  prices ← rmap (fun x => pr ← vo_price o (fst x); Ok (fst x, pr)) l;
  let a := va_set_positions a ((fun _ => apos_zero) <$> va_positions a) in
  nf ← dneg tf;
  p ← vp_add_upf p nf;
  p ← rfold (x_update_pair_snaps o) p (map fst l);
  Ok (p, a, mkRLP tp tm nf tfe (map (fun x => (fst x, ap_amount (snd x))) l) prices).
Record res_liq_coll := mkRLC {
  lc_value : Z; lc_disc : Z; lc_margin : Z;
  lc_amounts : list (resource * Z); lc_prices : list (resource * Z) }.
(** exchange.rs:2776-2789, one collateral *)
Definition x_liq_collateral1 (c : vconfig) (o : voracle) (s : res_liq_coll) (x : resource * Z) : res res_liq_coll :=
  match vc_collaterals c !! fst x with
  | None => Ok s
  | Some cc =>
      price ← vo_price_resource o (fst x);
      value ← dmul (snd x) price;
      disc ← dmul value (cc_discount cc);
      margin ← dmul value (cc_margin cc);
      tv ← dadd (lc_value s) value;
      td ← dadd (lc_disc s) disc;
      tm ← dadd (lc_margin s) margin;
      Ok (mkRLC tv td tm (lc_amounts s ++ [x]) (lc_prices s ++ [(fst x, price)]))
  end.
(** exchange.rs:2765-2798 *)
Definition x_liquidate_collateral (c : vconfig) (o : voracle) (a : vacc) : res res_liq_coll :=
  rfold (x_liq_collateral1 c o) (mkRLC 0 0 0 [] []) (map_to_list (va_coll a)).
(** exchange.rs:2252-2318; returns the tokens handed to the liquidator *)
Definition x_liquidate (E : env) (now : Z) (c : vconfig) (o : voracle) (s : sess) (payment : bucket)
    : res (sess * list bucket * list event) :=
  _ ← guard_ (b_res payment =? BASE)%N EInvalidPaymentToken;
  '(p, a, rp) ← x_liquidate_positions now c o (s_pool s) (s_acc s);
  rc ← x_liquidate_collateral c o a;
  let virtual_balance := va_vb a in
  t ← dadd (lp_pnl rp) (lc_disc rc);
  account_value ← dadd t virtual_balance;
  margin ← dadd (lp_margin rp) (lc_margin rc);
  _ ← guard_ (account_value <? margin) ELiquidationSufficientMargin;
  value ← round_amount E BASE ToInfinity (lc_disc rc);
  _ ← guard_ (value <=? b_amt payment) EInsufficientPayment;
  '(a, tokens) ← va_withdraw E a (lc_amounts rc) ToZero;
  paid ← take_exact E BASE (b_amt payment) value;
  p ← vp_deposit p paid;
  settlement ← dadd (lp_pnl rp) value;
  '(p, a) ← x_settle_account p a settlement;
  '(p, a, pool_loss) ←
    (if va_vb a <? 0
     then let pl := va_vb a in
          n ← dneg pl;
          '(p, a) ← x_settle_account p a n;
          Ok (p, a, pl)
     else Ok (p, a, 0));
  '(s1, (fee_pool, fee_protocol, fee_treasury, fee_referral)) ←
    x_settle_fees_referral c (mkS p a (s_fd s)) (lp_fee rp);
  let a := va_update_valid_start (s_acc s1) in
  Ok (s1 <| s_acc := a |>, tokens ++ [(BASE, b_amt payment - paid)],
      [EvValidStart (va_addr a) (va_vstart a);
       EvLiquidate (mkEvLiq (va_addr a) (lp_prices rp) (lc_prices rc) account_value margin virtual_balance
         (lp_amounts rp) (lp_pnl rp) (lc_amounts rc) (lc_value rc) (lc_disc rc) (lp_funding_paid rp)
         fee_pool fee_protocol fee_treasury fee_referral pool_loss)]).

(** exchange.rs:2355-2357: the threshold on the position's profit ratio *)
Definition x_adl_threshold (ec : exchange_config) (skew_ratio : Z) : res Z :=
  u0 ← ddiv skew_ratio (ec_adl_a ec);
  u1 ← ddiv (ec_adl_offset ec) (ec_adl_a ec);
  u ← dsub u0 u1;
  uu ← dmul u u;
  uuu ← dmul uu u;
  n ← dneg uuu;
  bu ← dmul (ec_adl_b ec) u;
  dsub n bu.
(** exchange.rs:2320-2384 *)
Definition x_auto_deleverage (now : Z) (c : vconfig) (o : voracle) (s : sess) (pid : pair_id) : res (sess * event) :=
  let ec := vc_exchange c in
  '(p, _) ← x_update_pair now c o (s_pool s) pid;
  '(p, a, funding) ← x_settle_funding p (s_acc s) pid;
  skew_ratio_0 ← x_skew_ratio p;
  _ ← guard_ (ec_skew_ratio_cap ec <? skew_ratio_0) EAdlSkewTooLow;
  let '(a, pos) := va_position a pid in
  price ← vo_price o pid;
  let amount := ap_amount pos in
  _ ← guard_ (negb (amount =? 0)) EAdlNoPosition;
  value ← dmul amount price;
  let cost := ap_cost pos in
  t ← dsub value cost;
  pnl_percent ← ddiv t cost;
  threshold ← x_adl_threshold ec skew_ratio_0;
  _ ← guard_ (threshold <? pnl_percent) EAdlPnlBelowThreshold;
  amount_close ← dneg amount;
  '(p, a, (pnl, fee_paid)) ← x_close_position c o p a pid amount_close;
  '(s1, (fee_pool, fee_protocol, fee_treasury, fee_referral)) ← x_settle_fees_referral c (mkS p a (s_fd s)) fee_paid;
  skew_ratio_1 ← x_skew_ratio (s_pool s1);
  _ ← guard_ (skew_ratio_1 <? skew_ratio_0) EAdlSkewNotReduced;
  tp ← dadd pnl funding;
  Ok (s1, EvAutoDeleverage (mkEvAdl (va_addr a) pid price amount_close tp funding
        fee_pool fee_protocol fee_treasury fee_referral pnl_percent threshold)).
