(** * Public methods of the exchange.
    Models exchange/src/exchange.rs:359-1539. [authorize!] and the method roles are
    checked in System.v; here a method is its body. *)
From Verif Require Import Base DFloat Lists Types Config Oracle Pool Account Fees Referral ExInternal.

(** Roles of the exchange (exchange.rs:211-231) and of the fee delegator
    (fee_delegator.rs:13-18). *)
Inductive role :=
| RFeeDelegatorAdmin | RTreasuryAdmin | RReferralAdmin | RUserAdmin
| RProtocolSwap | RLiquidity | RReferralUser | RAccountCreation | RAccountManagement
| RRemoveCollateralRequest | RMarginOrderRequest | RCancelRequest
| RKeeperProcess | RKeeperSwapDebt | RKeeperLiquidate | RKeeperAdl | RKeeperUpdatePairs
| RDlAdmin | RDlDepositor | RDlWithdrawer | RDlUser.
Global Instance role_eq_dec : EqDecision role.
Proof. solve_decision. Defined.

(** The global state: every component the exchange talks to, and the supplies of
    the resources it mints and burns. [w_roles r = None] means the role follows
    the owner role. One owner rule stands for the owner roles of all components
    (the deployment gives them the same badge). *)
Record world := mkW {
  w_now : Z;
  w_auth : Z;                    (* exchange.authority_token vault *)
  w_owner : access_rule;
  w_roles : role -> option access_rule;
  w_config : config;
  w_oracle : oracle;
  w_pool : pool;
  w_accounts : gmap addr account;
  w_fd : distributor;
  w_dl : delegator;
  w_refs : gmap N referral;
  w_gen : generator;
  w_perms : registry;
  w_lp : Z;                      (* LP token supply *)
  w_oath : Z;                    (* fee oath supply *)
  w_rewards : Z;                 (* keeper reward tokens minted so far *)
  w_burnt : Z;                   (* protocol tokens burnt so far *)
  w_next : N }.                  (* source of fresh non-fungible ids (RUIDs) *)
Global Instance eta_world : Settable world := settable! mkW
  <w_now; w_auth; w_owner; w_roles; w_config; w_oracle; w_pool; w_accounts; w_fd; w_dl;
   w_refs; w_gen; w_perms; w_lp; w_oath; w_rewards; w_burnt; w_next>.

(** What a call returns to its caller and what it does outside the system. *)
Record outp := mkOut {
  o_tokens : list bucket;                  (* fungible buckets returned *)
  o_nfts : list (resource * N);            (* non-fungibles returned *)
  o_payouts : list (addr * list bucket);   (* tokens deposited in outside accounts *)
  o_indexes : list (option N);
  o_flags : list bool;
  o_events : list event }.
Global Instance eta_outp : Settable outp := settable! mkOut
  <o_tokens; o_nfts; o_payouts; o_indexes; o_flags; o_events>.
Definition out0 : outp := mkOut [] [] [] [] [] [].

(** ** Writing the caches back *)
Definition realize_pool (w : world) (p : vpool) : world := w <| w_pool := vp_realize p |>.
Definition realize_acc (w : world) (v : vacc) : res world :=
  '(a, refs) ← va_realize v (w_refs w);
  Ok (w <| w_accounts := <[va_addr v := a]> (w_accounts w) |> <| w_refs := refs |>).
(** virtual_margin_pool.rs:44-52 *)
Definition pool_events (p : vpool) : list event :=
  let u := map_to_list (filter (fun kv => fst kv ∈ vp_updates p) (vp_positions p)) in
  match u with [] => [] | _ => [EvPairUpdates u] end.
(** virtual_margin_account.rs:78-90 *)
Definition acc_events (v : vacc) : list event :=
  match va_event_requests v with [] => [] | l => [EvRequests (va_addr v) l] end.

Definition get_acc (w : world) (a : addr) : res vacc := va_new (w_accounts w) (w_refs w) a.
Definition get_pool (w : world) (ids : gset pair_id) : vpool := vp_new (w_now w) (w_pool w) ids.
Definition get_config (w : world) (ids : gset pair_id) : res vconfig := vc_new (w_config w) ids.
Definition get_oracle (E : env) (w : world) (c : vconfig) (feeds : gmap pair_id Z) (upd : option price_msg)
    : res (oracle * voracle) :=
  vo_new E (w_now w) (w_oracle w) (vc_feeds c) feeds upd.
(** minting keeper rewards: exchange.rs:1439, 1484, 1510, 1535 *)
Definition mint_reward (E : env) (w : world) (amt : Z) : res (world * bucket) :=
  _ ← guard_ (mint_ok E KEEPER_REWARD amt) EEngine;
  s ← dadd (w_rewards w) amt;
  Ok (w <| w_rewards := s |>, (KEEPER_REWARD, amt)).

(** ** Owner methods *)
(** exchange.rs:361-366 *)
Definition m_deposit_authority (w : world) (b : bucket) : res (world * outp) :=
  _ ← guard_ (b_res b =? AUTHORITY)%N EEngine;
  x ← dadd (w_auth w) (b_amt b);
  Ok (w <| w_auth := x |>, out0).
(** exchange.rs:368-372 *)
Definition m_withdraw_authority (w : world) : res (world * outp) :=
  Ok (w <| w_auth := 0 |>, out0 <| o_tokens := [(AUTHORITY, w_auth w)] |>).
(** exchange.rs:374-381 *)
Definition m_signal_upgrade (w : world) (a : addr) : res (world * outp) :=
  Ok (w, out0 <| o_events := [EvSignalUpgrade a] |>).
(** exchange.rs:383-394 *)
Definition m_update_exchange_config (w : world) (c : exchange_config) : res (world * outp) :=
  cf ← config_update_exchange (w_config w) c;
  Ok (w <| w_config := cf |>, out0 <| o_events := [EvExchangeConfig c] |>).
(** exchange.rs:396-407 *)
Definition m_update_pair_configs (w : world) (cs : list pair_config) : res (world * outp) :=
  cf ← config_update_pairs (w_config w) cs;
  Ok (w <| w_config := cf |>, out0 <| o_events := [EvPairConfigs cs] |>).
(** exchange.rs:409-420 *)
Definition m_update_collateral_configs (w : world) (cs : list (resource * collateral_config)) : res (world * outp) :=
  cf ← config_update_collaterals (w_config w) cs;
  Ok (w <| w_config := cf |>, out0 <| o_events := [EvCollateralConfigs cs] |>).
(** exchange.rs:422-433 *)
Definition m_remove_collateral_config (w : world) (r : resource) : res (world * outp) :=
  Ok (w <| w_config := config_remove_collateral (w_config w) r |>,
      out0 <| o_events := [EvCollateralRemoval r] |>).

(** ** Admin methods *)
(** The common tail of collect_treasury, collect_fee_delegator, swap_protocol_fee
    and collect_referral_rewards (exchange.rs:445-455, 468-478, 731-743, 840-850):
    the pool takes the claim over and pays it in base tokens *)
Definition pool_pay_out (E : env) (w : world) (amount : Z) : res (world * bucket) :=
  let p := get_pool w ∅ in
  _ ← guard_ (amount <=? vp_base p) EWithdrawalInsufficientPoolTokens;
  p ← vp_add_vb p amount;
  '(p, a) ← vp_withdraw E p amount ToZero;
  Ok (realize_pool w p, (BASE, a)).
(** exchange.rs:437-458 *)
Definition m_collect_treasury (E : env) (w : world) : res (world * outp) :=
  let amount := fd_treasury (w_fd w) in
  fd ← fd_update_treasury (w_fd w) 0;
  '(w1, b) ← pool_pay_out E (w <| w_fd := fd |>) amount;
  Ok (w1, out0 <| o_tokens := [b] |>).
(** exchange.rs:460-481 *)
Definition m_collect_fee_delegator (E : env) (w : world) : res (world * outp) :=
  let amount := dl_vb (w_dl w) in
  dl ← dl_update_vb (w_dl w) 0;
  '(w1, b) ← pool_pay_out E (w <| w_dl := dl |>) amount;
  Ok (w1, out0 <| o_tokens := [b] |>).
Definition FEE_REF_MAX : Z := 100000000000000000.
Definition ref_fee_ok (x : Z) : bool := (0 <=? x) && (x <=? FEE_REF_MAX).
(** exchange.rs:483-518; returns the new referral id *)
Definition mint_referral_nft (w : world) (fee_referral fee_rebate : Z) (max_referrals : N) : res (world * N) :=
  _ ← guard_ (ref_fee_ok fee_referral) EInvalidReferralData;
  _ ← guard_ (ref_fee_ok fee_rebate) EInvalidReferralData;
  let id := w_next w in
  _ ← guard_ (bool_decide (w_refs w !! id = None)) EEngine;
  Ok (w <| w_refs := <[id := mkRef fee_referral fee_rebate 0 max_referrals 0 0]> (w_refs w) |>
        <| w_next := (id + 1)%N |>, id).
Definition m_mint_referral (w : world) (fee_referral fee_rebate : Z) (max_referrals : N) : res (world * outp) :=
  '(w, id) ← mint_referral_nft w fee_referral fee_rebate max_referrals;
  Ok (w, out0 <| o_nfts := [(REFERRAL, id)] |>).
(** exchange.rs:582-587 and 792-797 *)
Definition assert_ref_tokens (c : vconfig) (ts : list bucket) : res unit :=
  rfold (fun _ b => if is_base b then Ok tt else x_assert_valid_collateral c (b_res b)) tt ts.
(** exchange.rs:570-600 *)
Definition add_referral_allocation (E : env) (w : world) (id : N) (ts : list bucket) (cs : claims) (count : N)
    : res (world * list bucket * N) :=
  c ← get_config w ∅;
  d ← expect (w_refs w !! id) EEngine;
  _ ← assert_ref_tokens c ts;
  n ← uadd (rf_referrals d) count;
  _ ← guard_ (n <=? rf_max_referrals d)%N EReferralLimitReached;
  '(g, rest, i) ← gn_add_allocation E (w_gen w) ts id cs count;
  Ok (w <| w_refs := <[id := d <| rf_referrals := n |>]> (w_refs w) |> <| w_gen := g |>, rest, i).
Definition m_add_referral_allocation (E : env) (w : world) (id : N) (ts : list bucket) (cs : claims) (count : N) : res (world * outp) :=
  '(w, rest, i) ← add_referral_allocation E w id ts cs count;
  Ok (w, out0 <| o_tokens := rest |> <| o_indexes := [Some i] |>).
(** exchange.rs:520-538 *)
Definition m_mint_referral_with_allocation (E : env) (w : world) (fee_referral fee_rebate : Z) (max_referrals : N)
    (ts : list bucket) (cs : claims) (count : N) : res (world * outp) :=
  '(w, id) ← mint_referral_nft w fee_referral fee_rebate max_referrals;
  '(w, rest, i) ← add_referral_allocation E w id ts cs count;
  Ok (w, out0 <| o_tokens := rest |> <| o_nfts := [(REFERRAL, id)] |> <| o_indexes := [Some i] |>).
(** exchange.rs:540-568; updating a non-fungible that does not exist panics (only
    when some field is given) *)
Definition m_update_referral (w : world) (id : N) (fr fb : option Z) (mr : option N) : res (world * outp) :=
  w ← match fr with
      | Some x => _ ← guard_ (ref_fee_ok x) EInvalidReferralData;
                  d ← expect (w_refs w !! id) EEngine;
                  Ok (w <| w_refs := <[id := d <| rf_fee_referral := x |>]> (w_refs w) |>)
      | None => Ok w
      end;
  w ← match fb with
      | Some x => _ ← guard_ (ref_fee_ok x) EInvalidReferralData;
                  d ← expect (w_refs w !! id) EEngine;
                  Ok (w <| w_refs := <[id := d <| rf_fee_rebate := x |>]> (w_refs w) |>)
      | None => Ok w
      end;
  w ← match mr with
      | Some x => d ← expect (w_refs w !! id) EEngine;
                  Ok (w <| w_refs := <[id := d <| rf_max_referrals := x |>]> (w_refs w) |>)
      | None => Ok w
      end;
  Ok (w, out0).

(** ** User methods *)
(** exchange.rs:714-746 *)
Definition m_swap_protocol_fee (E : env) (w : world) (payment : bucket) : res (world * outp) :=
  c ← get_config w ∅;
  _ ← guard_ (b_res payment =? PROTOCOL)%N EInvalidProtocolToken;
  let burn := ec_protocol_burn_amount (vc_exchange c) in
  _ ← guard_ (burn <=? b_amt payment) EInsufficientPayment;
  burnt ← take_adv E PROTOCOL ToInfinity (b_amt payment) burn;
  let amount := fd_protocol (w_fd w) in
  fd ← fd_update_protocol (w_fd w) 0;
  '(w1, b) ← pool_pay_out E (w <| w_fd := fd |>) amount;
  Ok (w1 <| w_burnt := w_burnt w + burnt |>,
      out0 <| o_tokens := [b; (PROTOCOL, b_amt payment - burnt)] |>).
(** exchange.rs:748-760 *)
Definition m_add_liquidity (E : env) (w : world) (payment : bucket) : res (world * outp) :=
  c ← get_config w ∅;
  '(p, fd, supply, lp, ev) ← x_add_liquidity E c (get_pool w ∅) (w_fd w) (w_lp w) payment;
  Ok (realize_pool w p <| w_fd := fd |> <| w_lp := supply |>,
      out0 <| o_tokens := [lp] |> <| o_events := ev :: pool_events p |>).
(** exchange.rs:762-774 *)
Definition m_remove_liquidity (E : env) (w : world) (lp_token : bucket) : res (world * outp) :=
  c ← get_config w ∅;
  '(p, fd, supply, b, ev) ← x_remove_liquidity E c (get_pool w ∅) (w_fd w) (w_lp w) lp_token;
  Ok (realize_pool w p <| w_fd := fd |> <| w_lp := supply |>,
      out0 <| o_tokens := [b] |> <| o_events := ev :: pool_events p |>).
(** [referral_proof.check_with_message(REFERRAL_RESOURCE)]: the caller presents a
    proof of one non-fungible (exchange.rs:783, 817, 831) *)
Definition check_ref_proof (cx : ctx) (w : world) (proof : resource * N) : res referral :=
  _ ← guard_ (cx_proves cx (fst proof) (snd proof)) EEngine;
  _ ← guard_ (fst proof =? REFERRAL)%N EInvalidReferral;
  expect (w_refs w !! snd proof) EEngine.
(** exchange.rs:776-808 *)
Definition m_create_referral_codes (E : env) (cx : ctx) (w : world) (proof : resource * N) (ts : list bucket)
    (hashes : gmap N (claims * N)) : res (world * outp) :=
  d ← check_ref_proof cx w proof;
  let id := snd proof in
  c ← get_config w ∅;
  count ← rfold (fun n x => uadd n (snd (snd x))) 0%N (map_to_list hashes);
  _ ← assert_ref_tokens c ts;
  n ← uadd (rf_referrals d) count;
  _ ← guard_ (n <=? rf_max_referrals d)%N EReferralLimitReached;
  '(g, rest) ← gn_create_codes E (w_gen w) ts id hashes;
  Ok (w <| w_refs := <[id := d <| rf_referrals := n |>]> (w_refs w) |> <| w_gen := g |>,
      out0 <| o_tokens := rest |>).
(** exchange.rs:810-824 *)
Definition m_create_referral_codes_from_allocation (cx : ctx) (w : world) (proof : resource * N) (i : N) (hashes : gset N)
    : res (world * outp) :=
  _ ← check_ref_proof cx w proof;
  g ← gn_create_from_alloc (w_gen w) (snd proof) i hashes;
  Ok (w <| w_gen := g |>, out0).
(** exchange.rs:826-853 *)
Definition m_collect_referral_rewards (E : env) (cx : ctx) (w : world) (proof : resource * N) : res (world * outp) :=
  d ← check_ref_proof cx w proof;
  let amount := rf_balance d in
  '(w1, b) ← pool_pay_out E (w <| w_refs := <[snd proof := d <| rf_balance := 0 |>]> (w_refs w) |>) amount;
  Ok (w1, out0 <| o_tokens := [b] |>).

(** The fee oath block repeated in every account method (e.g. exchange.rs:945-951):
    config, pool and oracle of the account's pairs plus [extra], prices without a
    maximum age except the collateral feeds' *)
Definition settle_oath (E : env) (w : world) (v : vacc) (extra : gset pair_id) (oath : bucket)
    : res (world * vacc * vconfig) :=
  let ids := dom (va_positions v) ∪ extra in
  c ← get_config w ids;
  let p := get_pool w ids in
  '(_, o) ← get_oracle E w c (x_pair_feeds_no_max_age ids) None;
  '(v, s) ← x_settle_fee_oath c p v o (w_oath w) oath;
  Ok (w <| w_oath := s |>, v, c).
(** ... and the optional form, where [extra] is also the config the method needs *)
Definition settle_oath_opt (E : env) (w : world) (v : vacc) (extra : gset pair_id) (oath : option bucket)
    : res (world * vacc * vconfig) :=
  match oath with
  | Some b => settle_oath E w v extra b
  | None => c ← get_config w extra; Ok (w, v, c)
  end.
(** Same without a config in the absent case (exchange.rs:945, 993, 1047, ...) *)
Definition settle_oath_opt' (E : env) (w : world) (v : vacc) (oath : option bucket) : res (world * vacc) :=
  match oath with
  | Some b => '(w, v, _) ← settle_oath E w v ∅ b; Ok (w, v)
  | None => Ok (w, v)
  end.
(** exchange.rs:898-919 and 1122-1140: collateral, then the oath on the same caches *)
Definition add_collateral_oath (E : env) (w : world) (v : vacc) (oath : option bucket) (ts : list bucket)
    : res (world * vacc * list event) :=
  match oath with
  | Some b =>
      let ids := dom (va_positions v) in
      c ← get_config w ids;
      let p := get_pool w ids in
      '(_, o) ← get_oracle E w c (x_pair_feeds_no_max_age ids) None;
      '(p, v, ev) ← x_add_collateral c p v ts;
      '(v, s) ← x_settle_fee_oath c p v o (w_oath w) b;
      Ok (realize_pool w p <| w_oath := s |>, v, ev :: pool_events p)
  | None =>
      c ← get_config w ∅;
      '(p, v, ev) ← x_add_collateral c (get_pool w ∅) v ts;
      Ok (realize_pool w p, v, ev :: pool_events p)
  end.
(** exchange.rs:883-896: the new account in the permission registry *)
Definition reg_insert_all (a : addr) (g : registry) (r : access_rule) : registry :=
  reg_insert 3 a (reg_insert 2 a (reg_insert 1 a g r) r) r.
(** exchange.rs:855-931. [a] is the address of the new component: the engine never
    reuses one. The dapp_definition metadata is assumed set. *)
Definition m_create_account (E : env) (w : world) (oath : option bucket) (rule : access_rule) (ts : list bucket)
    (code : option N) (a : addr) : res (world * outp) :=
  _ ← guard_ (bool_decide (w_accounts w !! a = None)) EEngine;
  '(w, ref, ts) ←
    (match code with
     | Some s => '(g, id, more) ← gn_claim E (w_gen w) (e_hash E s);
                 Ok (w <| w_gen := g |>, Some id, ts ++ more)
     | None => Ok (w, None, ts)
     end);
  let w := w <| w_accounts := <[a := acc_new rule rule rule ref]> (w_accounts w) |>
             <| w_perms := foldl (reg_insert_all a) (w_perms w) (rule :: sub_rules rule) |> in
  v ← get_acc w a;
  '(w, v, evs) ← add_collateral_oath E w v oath ts;
  w ← realize_acc w v;
  Ok (w, out0 <| o_events := evs ++ acc_events v ++ [EvAccountCreation a ref] |>).

Definition level_auth (cx : ctx) (lvl : N) (v : vacc) : res unit :=
  guard_ (rule_sat (cx_sat cx) (ac_level lvl (va_comp v))) EAuth.
(** exchange.rs:963-974 and 1012-1023: how a rule is extended *)
Definition extend_rule (r : access_rule) (n : rule_node) : access_rule :=
  match r with
  | AllowAll => Protected n
  | DenyAll => Protected n
  | Protected m => Protected (node_or m n)
  end.
(** exchange.rs:933-979 *)
Definition m_create_recovery_key (E : env) (cx : ctx) (w : world) (oath : option bucket) (a : addr) : res (world * outp) :=
  v ← get_acc w a;
  _ ← level_auth cx 1 v;
  '(w, v) ← settle_oath_opt' E w v oath;
  let id := w_next w in
  let w := w <| w_next := (id + 1)%N |> in
  let '(g, v) := x_set_level_auth 1 (w_perms w) v (extend_rule (ac_level 1 (va_comp v)) (NLeaf (LKey id))) in
  w ← realize_acc (w <| w_perms := g |>) v;
  Ok (w, out0 <| o_nfts := [(RECOVERY_KEY, id)] |> <| o_events := acc_events v |>).
(** exchange.rs:981-1034 *)
Definition m_add_auth_rule (E : env) (cx : ctx) (w : world) (oath : option bucket) (a : addr) (lvl : N) (n : rule_node)
    : res (world * outp) :=
  v ← get_acc w a;
  _ ← level_auth cx 1 v;
  '(w, v) ← settle_oath_opt' E w v oath;
  _ ← guard_ ((1 <=? lvl) && (lvl <=? 3))%N EInvalidAuthLevel;
  let '(g, v) := x_set_level_auth lvl (w_perms w) v (extend_rule (ac_level lvl (va_comp v)) n) in
  w ← realize_acc (w <| w_perms := g |>) v;
  Ok (w, out0 <| o_events := acc_events v |>).
(** exchange.rs:1036-1109; set_level_1_auth, set_level_2_auth, set_level_3_auth *)
Definition m_set_level_auth (lvl : N) (E : env) (cx : ctx) (w : world) (oath : option bucket) (a : addr) (rule : access_rule)
    : res (world * outp) :=
  v ← get_acc w a;
  _ ← level_auth cx 1 v;
  '(w, v) ← settle_oath_opt' E w v oath;
  let '(g, v) := x_set_level_auth lvl (w_perms w) v rule in
  w ← realize_acc (w <| w_perms := g |>) v;
  Ok (w, out0 <| o_events := acc_events v |>).
(** exchange.rs:1111-1142 *)
Definition m_add_collateral (E : env) (cx : ctx) (w : world) (oath : option bucket) (a : addr) (ts : list bucket) : res (world * outp) :=
  v ← get_acc w a;
  _ ← level_auth cx 3 v;
  '(w, v, evs) ← add_collateral_oath E w v oath ts;
  w ← realize_acc w v;
  Ok (w, out0 <| o_events := evs ++ acc_events v |>).
(** exchange.rs:1144-1186 *)
Definition m_remove_collateral_request (E : env) (cx : ctx) (w : world) (oath : option bucket) (expiry : N) (a target : addr)
    (cs : claims) : res (world * outp) :=
  v ← get_acc w a;
  _ ← level_auth cx 2 v;
  '(w, v, c) ← settle_oath_opt E w v ∅ oath;
  _ ← guard_ (N.of_nat (length cs) <=? 10)%N EClaimsTooMany;
  let i := va_rlen v in
  v ← va_push_request (w_now w) v (RRemove (mkReqRemove target cs)) 0 expiry STATUS_ACTIVE [target];
  _ ← x_assert_active_requests_limit c v;
  w ← realize_acc w v;
  Ok (w, out0 <| o_indexes := [Some i] |> <| o_events := acc_events v |>).
(** exchange.rs:1188-1256 *)
Definition m_margin_order_request (E : env) (cx : ctx) (w : world) (oath : option bucket) (delay expiry : N) (a : addr)
    (pid : pair_id) (amount : Z) (reduce_only : bool) (pl : price_limit) (sl : slippage_limit)
    (activate cancel : list index_ref) (status : N) : res (world * outp) :=
  v ← get_acc w a;
  _ ← level_auth cx 3 v;
  '(w, v, c) ← settle_oath_opt E w v {[pid]} oath;
  pc ← vc_pair c pid;
  amount_abs ← dabs amount;
  _ ← guard_ (pc_trade_size_min pc <=? amount_abs) ETradeSizeMinNotMet;
  _ ← guard_ (N.of_nat (length activate) <=? 2)%N EEffectedRequestsTooMany;
  _ ← guard_ (N.of_nat (length cancel) <=? 2)%N EEffectedRequestsTooMany;
  let i := va_rlen v in
  act ← rmap (fun r => ir_resolve r i) activate;
  can ← rmap (fun r => ir_resolve r i) cancel;
  v ← va_push_request (w_now w) v (ROrder (mkReqOrder pid amount reduce_only pl sl act can)) delay expiry status [];
  _ ← x_assert_active_requests_limit c v;
  w ← realize_acc w v;
  Ok (w, out0 <| o_indexes := [Some i] |> <| o_events := acc_events v |>).
(** exchange.rs:1258-1377 *)
Definition m_margin_order_tp_sl_request (E : env) (cx : ctx) (w : world) (oath : option bucket) (delay expiry : N) (a : addr)
    (pid : pair_id) (amount : Z) (reduce_only : bool) (pl : price_limit) (sl : slippage_limit)
    (price_tp price_sl : option Z) : res (world * outp) :=
  v ← get_acc w a;
  _ ← level_auth cx 3 v;
  '(w, v, c) ← settle_oath_opt E w v {[pid]} oath;
  pc ← vc_pair c pid;
  amount_abs ← dabs amount;
  _ ← guard_ (pc_trade_size_min pc <=? amount_abs) ETradeSizeMinNotMet;
  let i0 := va_rlen v in
  '(i1, index_tp) ← (match price_tp with
                     | Some _ => i ← uadd i0 1; Ok (i, Some i)
                     | None => Ok (i0, None)
                     end);
  index_sl ← (match price_sl with
              | Some _ => i ← uadd i1 1; Ok (Some i)
              | None => Ok None
              end);
  let act := option_list index_tp ++ option_list index_sl in
  let can_tp := option_list index_sl in
  let can_sl := option_list index_tp in
  v ← va_push_request (w_now w) v (ROrder (mkReqOrder pid amount reduce_only pl sl act [])) delay expiry STATUS_ACTIVE [];
  v ← (match price_tp with
       | Some price =>
           n ← dneg amount;
           va_push_request (w_now w) v
             (ROrder (mkReqOrder pid n true (if 0 <? amount then PLGte price else PLLte price) sl [] can_tp))
             delay expiry STATUS_DORMANT []
       | None => Ok v
       end);
  v ← (match price_sl with
       | Some price =>
           n ← dneg amount;
           va_push_request (w_now w) v
             (ROrder (mkReqOrder pid n true (if 0 <? amount then PLLte price else PLGte price) sl [] can_sl))
             delay expiry STATUS_DORMANT []
       | None => Ok v
       end);
  _ ← x_assert_active_requests_limit c v;
  w ← realize_acc w v;
  Ok (w, out0 <| o_indexes := [Some i0; index_tp; index_sl] |> <| o_events := acc_events v |>).
(** exchange.rs:1379-1401 *)
Definition m_cancel_requests (E : env) (cx : ctx) (w : world) (oath : option bucket) (a : addr) (is_ : list N) : res (world * outp) :=
  v ← get_acc w a;
  _ ← level_auth cx 3 v;
  '(w, v) ← settle_oath_opt' E w v oath;
  v ← va_cancel_requests v is_;
  w ← realize_acc w v;
  Ok (w, out0 <| o_events := acc_events v |>).

(** ** Keeper methods *)
(** exchange.rs:1405-1442 *)
Definition m_process_request (E : env) (cx : ctx) (w : world) (a : addr) (i : N) (upd : option price_msg) : res (world * outp) :=
  v ← get_acc w a;
  '(v, rq, expired) ← va_process_request (w_now w) v i;
  let ids := dom (va_positions v) ∪ (match rq with ROrder r => {[ro_pair r]} | RRemove _ => ∅ end) in
  c ← get_config w ids;
  '(w, v, pay, evs) ←
    (if negb expired then
       let p := get_pool w ids in
       feeds ← x_pair_feeds c ids;
       '(orc, o) ← get_oracle E w c feeds upd;
       let w := w <| w_oracle := orc |> in
       match rq with
       | RRemove r =>
           '(p, v, toks, ev) ← x_remove_collateral E cx c p v o r;
           Ok (realize_pool w p, v, [(rr_target r, toks)], ev :: pool_events p)
       | ROrder r =>
           '(s, ev) ← x_margin_order (w_now w) c o (mkS p v (w_fd w)) r;
           Ok (realize_pool w (s_pool s) <| w_fd := s_fd s |>, s_acc s, [], ev :: pool_events (s_pool s))
       end
     else Ok (w, v, [], []));
  w ← realize_acc w v;
  '(w, reward) ← mint_reward E w (ec_reward_keeper (vc_exchange c));
  Ok (w, out0 <| o_tokens := [reward] |> <| o_payouts := pay |> <| o_events := evs ++ acc_events v |>).
(** exchange.rs:1444-1464 *)
Definition m_swap_debt (E : env) (w : world) (a : addr) (r : resource) (payment : bucket) (upd : option price_msg) : res (world * outp) :=
  v ← get_acc w a;
  c ← get_config w ∅;
  let p := get_pool w ∅ in
  '(orc, o) ← get_oracle E w c ∅ upd;
  '(p, v, token, rest, ev) ← x_swap_debt E c o p v r payment;
  w ← realize_acc (w <| w_oracle := orc |>) v;
  Ok (realize_pool w p, out0 <| o_tokens := [token; rest] |> <| o_events := ev :: acc_events v ++ pool_events p |>).
(** exchange.rs:1466-1487 *)
Definition m_liquidate (E : env) (w : world) (a : addr) (payment : bucket) (upd : option price_msg) : res (world * outp) :=
  v ← get_acc w a;
  let ids := dom (va_positions v) in
  c ← get_config w ids;
  let p := get_pool w ids in
  feeds ← x_pair_feeds c ids;
  '(orc, o) ← get_oracle E w c feeds upd;
  '(s, toks, evs) ← x_liquidate E (w_now w) c o (mkS p v (w_fd w)) payment;
  w ← realize_acc (w <| w_oracle := orc |> <| w_fd := s_fd s |>) (s_acc s);
  let w := realize_pool w (s_pool s) in
  '(w, reward) ← mint_reward E w (ec_reward_keeper (vc_exchange c));
  Ok (w, out0 <| o_tokens := toks ++ [reward] |>
              <| o_events := evs ++ acc_events (s_acc s) ++ pool_events (s_pool s) |>).
(** exchange.rs:1489-1513 *)
Definition m_auto_deleverage (E : env) (w : world) (a : addr) (pid : pair_id) (upd : option price_msg) : res (world * outp) :=
  v ← get_acc w a;
  let ids := dom (va_positions v) ∪ {[pid]} in
  c ← get_config w ids;
  let p := get_pool w ids in
  feeds ← x_pair_feeds c ids;
  '(orc, o) ← get_oracle E w c feeds upd;
  '(s, ev) ← x_auto_deleverage (w_now w) c o (mkS p v (w_fd w)) pid;
  w ← realize_acc (w <| w_oracle := orc |> <| w_fd := s_fd s |>) (s_acc s);
  let w := realize_pool w (s_pool s) in
  '(w, reward) ← mint_reward E w (ec_reward_keeper (vc_exchange c));
  Ok (w, out0 <| o_tokens := [reward] |>
              <| o_events := ev :: acc_events (s_acc s) ++ pool_events (s_pool s) |>).
(** exchange.rs:1515-1539; repeated pair ids collapse in the HashSet, the reward
    is the number of rewarded pairs (not multiplied by reward_keeper) *)
Definition upd_pair1 (now : Z) (c : vconfig) (o : voracle) (s : vpool * list bool) (k : pair_id) : res (vpool * list bool) :=
  let '(p, l) := s in
  '(p, b) ← x_update_pair now c o p k; Ok (p, l ++ [b]).
Definition m_update_pairs (E : env) (w : world) (pids : list pair_id) (upd : option price_msg) : res (world * outp) :=
  let ids : gset pair_id := list_to_set pids in
  c ← get_config w ids;
  let p := get_pool w ids in
  feeds ← x_pair_feeds c ids;
  '(orc, o) ← get_oracle E w c feeds upd;
  '(p, rewarded) ← rfold (upd_pair1 (w_now w) c o) (p, []) (elements ids);
  let w := realize_pool (w <| w_oracle := orc |>) p in
  n ← dec_of_int (Z.of_nat (length (List.filter (fun b => b) rewarded)));
  '(w, reward) ← mint_reward E w n;
  Ok (w, out0 <| o_tokens := [reward] |> <| o_flags := rewarded |> <| o_events := pool_events p |>).

(** ** Get methods *)
(** exchange.rs:604-610 *)
Definition g_pairs (w : world) (n : N) (start : option N) : res (list pair_id) :=
  l ← config_get_pair_configs (w_config w) n start; Ok (map pc_pair_id l).
(** exchange.rs:612-617 *)
Definition g_permissions (w : world) (r : access_rule) : perms := reg_get (w_perms w) r.
(** exchange.rs:665-669 *)
Definition g_exchange_config (w : world) : exchange_config := ec_decompress (cf_exchange (w_config w)).
(** exchange.rs:671-677 *)
Definition g_pair_configs (w : world) (n : N) (start : option N) : res (list pair_config) :=
  l ← config_get_pair_configs (w_config w) n start; Ok (map pc_decompress l).
(** exchange.rs:679-683 *)
Definition g_pair_configs_len (w : world) : N := hl_len (cf_pairs (w_config w)).
(** exchange.rs:685-696 *)
Definition g_collateral_configs (w : world) : gmap resource collateral_config :=
  cc_decompress <$> cf_collaterals (w_config w).
(** exchange.rs:698-708 *)
Definition g_protocol_balance (w : world) : Z := fd_protocol (w_fd w).
Definition g_treasury_balance (w : world) : Z := fd_treasury (w_fd w).
(** exchange/structs.rs:57-67 *)
Record pool_details := mkPD {
  pd_base : Z; pd_vb : Z; pd_upf : Z; pd_pnl_snap : Z; pd_skew_ratio : Z; pd_skew_ratio_cap : Z;
  pd_lp_supply : Z; pd_lp_price : Z }.
(** exchange.rs:633-641 and 1784-1808 *)
Definition g_pool_details (w : world) : res pool_details :=
  c ← get_config w ∅;
  let p := get_pool w ∅ in
  pv ← x_pool_value p;
  let pool_value := Z.max pv (dec 1) in
  lp_price ← (if w_lp w =? 0 then Ok (dec 1) else ddiv pool_value (w_lp w));
  sr ← x_skew_ratio p;
  Ok (mkPD (vp_base p) (vp_vb p) (vp_upf p) (vp_pnl p) sr (ec_skew_ratio_cap (vc_exchange c)) (w_lp w) lp_price).
(** exchange/structs.rs:17-25, 27-34, 36-43, 45-55 *)
Record position_details := mkPsD {
  ps_pair : pair_id; ps_amount : Z; ps_margin_initial : Z; ps_margin_maintenance : Z; ps_cost : Z; ps_funding : Z }.
Record collateral_details := mkCD { cd_pair : pair_id; cd_resource : resource; cd_amount : Z; cd_discount : Z; cd_margin : Z }.
Record account_details := mkAD {
  ad_vb : Z; ad_positions : list position_details; ad_collaterals : list collateral_details;
  ad_vstart : N; ad_active : list (N * keeper_request); ad_history : list (N * keeper_request);
  ad_rlen : N; ad_referral : option (N * referral) }.
(** exchange.rs:1711-1730 *)
Definition position_details1 (c : vconfig) (p : vpool) (x : pair_id * account_position) : res position_details :=
  let '(pid, pos) := x in
  pc ← vc_pair c pid;
  pp ← vp_position p pid;
  f ← x_funding_due pp pos;
  ab ← dabs (ap_amount pos);
  mi ← dmul ab (pc_margin_initial pc);
  mm ← dmul ab (pc_margin_maintenance pc);
  Ok (mkPsD pid (ap_amount pos) mi mm (ap_cost pos) f).
(** exchange.rs:1732-1746 *)
Definition collateral_details1 (v : vacc) (x : resource * collateral_config) : res collateral_details :=
  let '(r, cc) := x in
  let amt := va_collateral_amount v r in
  m ← dmul amt (cc_margin cc);
  Ok (mkCD (cc_pair_id cc) r amt (cc_discount cc) m).
(** virtual_margin_account.rs:186-191: newest first *)
Definition newer (x y : N * keeper_request) : Prop := (fst y <= fst x)%N.
Global Instance newer_dec : RelDecision newer.
Proof. intros x y. unfold newer. apply _. Defined.
Definition sort_desc (l : list (N * keeper_request)) : list (N * keeper_request) :=
  merge_sort newer l.
(** exchange.rs:619-631 and 1703-1782 *)
Definition g_account_details (w : world) (a : addr) (n : N) (start : option N) : res account_details :=
  v ← get_acc w a;
  let ids := dom (va_positions v) in
  c ← get_config w ids;
  let p := get_pool w ids in
  ps ← rmap (position_details1 c p) (map_to_list (va_positions v));
  cs ← rmap (collateral_details1 v) (map_to_list (vc_collaterals c));
  act ← acc_get_active (va_comp v);
  hist ← acc_get_requests_tail (va_comp v) n start;
  Ok (mkAD (va_vb v) ps cs (va_vstart v) (sort_desc act) hist (va_rlen v)
        (match va_ref_id v with
         | Some id => match va_ref v with Some d => Some (id, d) | None => None end
         | None => None
         end)).
(** exchange.rs:643-651 and 1810-1824 *)
Definition g_pair_details (w : world) (pids : list pair_id) : res (list (pair_id * pool_position * pair_config)) :=
  let ids : gset pair_id := list_to_set pids in
  c ← get_config w ids;
  let p := get_pool w ids in
  rmap (fun k => pc ← vc_pair c k; pp ← vp_position p k; Ok (k, pp, pc)) pids.
