(** * The whole system: calls, authorisation, transactions, reachable states. *)
From Verif Require Import Base DFloat Lists Types Config Oracle Pool Account Fees Referral ExInternal Exchange.

(** Every state-changing call of the modelled components that a transaction can
    make, plus the passing of time. Methods restricted to holders of the
    AUTHORITY badge (config, pool, account, distributor, ... updates) are not
    callable from outside as long as the exchange's vault holds the badges, and
    are reached only through the exchange's methods. *)
Inductive op :=
| OAdvance (t : Z)
| OSetRole (r : role) (rule : access_rule)
(* owner *)
| ODepositAuthority (b : bucket)
| OWithdrawAuthority
| OSignalUpgrade (a : addr)
| OUpdateExchangeConfig (c : exchange_config)
| OUpdatePairConfigs (cs : list pair_config)
| OUpdateCollateralConfigs (cs : list (resource * collateral_config))
| ORemoveCollateralConfig (r : resource)
(* admin *)
| OCollectTreasury
| OCollectFeeDelegator
| OMintReferral (fee_referral fee_rebate : Z) (max_referrals : N)
| OMintReferralWithAllocation (fee_referral fee_rebate : Z) (max_referrals : N) (ts : list bucket) (cs : claims) (count : N)
| OUpdateReferral (id : N) (fr fb : option Z) (mr : option N)
| OAddReferralAllocation (id : N) (ts : list bucket) (cs : claims) (count : N)
(* users *)
| OSwapProtocolFee (b : bucket)
| OAddLiquidity (b : bucket)
| ORemoveLiquidity (b : bucket)
| OCreateReferralCodes (proof : resource * N) (ts : list bucket) (hashes : gmap N (claims * N))
| OCreateReferralCodesFromAllocation (proof : resource * N) (i : N) (hashes : gset N)
| OCollectReferralRewards (proof : resource * N)
| OCreateAccount (oath : option bucket) (rule : access_rule) (ts : list bucket) (code : option N) (a : addr)
| OCreateRecoveryKey (oath : option bucket) (a : addr)
| OAddAuthRule (oath : option bucket) (a : addr) (lvl : N) (n : rule_node)
| OSetLevel1Auth (oath : option bucket) (a : addr) (rule : access_rule)
| OSetLevel2Auth (oath : option bucket) (a : addr) (rule : access_rule)
| OSetLevel3Auth (oath : option bucket) (a : addr) (rule : access_rule)
| OAddCollateral (oath : option bucket) (a : addr) (ts : list bucket)
| ORemoveCollateralRequest (oath : option bucket) (expiry : N) (a target : addr) (cs : claims)
| OMarginOrderRequest (oath : option bucket) (delay expiry : N) (a : addr) (pid : pair_id) (amount : Z)
    (reduce_only : bool) (pl : price_limit) (sl : slippage_limit) (activate cancel : list index_ref) (status : N)
| OMarginOrderTpSlRequest (oath : option bucket) (delay expiry : N) (a : addr) (pid : pair_id) (amount : Z)
    (reduce_only : bool) (pl : price_limit) (sl : slippage_limit) (price_tp price_sl : option Z)
| OCancelRequests (oath : option bucket) (a : addr) (is_ : list N)
(* keepers *)
| OProcessRequest (a : addr) (i : N) (upd : option price_msg)
| OSwapDebt (a : addr) (r : resource) (payment : bucket) (upd : option price_msg)
| OLiquidate (a : addr) (payment : bucket) (upd : option price_msg)
| OAutoDeleverage (a : addr) (pid : pair_id) (upd : option price_msg)
| OUpdatePairs (pids : list pair_id) (upd : option price_msg)
(* fee delegator, called directly *)
| OLockFee (amt : Z)
| ODlDeposit (b : bucket)
| ODlWithdraw (amt : Z)
| ODlMaxLock (x : Z)
| ODlMultiplier (x : Z)
| ODlContingent (b : bool)
(* oracle, called directly *)
| OOracleAddKey (id key : N)
| OOracleRemoveKey (id : N)
| OOracleRemovePrice (p : pair_id)
| OOraclePush (ids : gset pair_id) (msg : price_msg).

(** Who may call: exchange.rs:232-290 [restrict_to], fee_delegator.rs:19-31,
    oracle.rs:19-27. *)
Inductive access := APublic | AOwner | ARole (r : role) | AOwnerOr (r : role).
Definition op_access (o : op) : access :=
  match o with
  | OAdvance _ => APublic
  | OSetRole r _ =>
      match r with
      | RProtocolSwap | RLiquidity | RReferralUser | RAccountCreation | RAccountManagement
      | RRemoveCollateralRequest | RMarginOrderRequest | RCancelRequest => AOwnerOr RUserAdmin
      | _ => AOwner
      end
  | ODepositAuthority _ | OWithdrawAuthority | OSignalUpgrade _ | OUpdateExchangeConfig _
  | OUpdatePairConfigs _ | OUpdateCollateralConfigs _ | ORemoveCollateralConfig _ => AOwner
  | OCollectTreasury => ARole RTreasuryAdmin
  | OCollectFeeDelegator => ARole RFeeDelegatorAdmin
  | OMintReferral _ _ _ | OMintReferralWithAllocation _ _ _ _ _ _ | OUpdateReferral _ _ _ _
  | OAddReferralAllocation _ _ _ _ => ARole RReferralAdmin
  | OSwapProtocolFee _ => ARole RProtocolSwap
  | OAddLiquidity _ | ORemoveLiquidity _ => ARole RLiquidity
  | OCreateReferralCodes _ _ _ | OCreateReferralCodesFromAllocation _ _ _
  | OCollectReferralRewards _ => ARole RReferralUser
  | OCreateAccount _ _ _ _ _ => ARole RAccountCreation
  | OCreateRecoveryKey _ _ | OAddAuthRule _ _ _ _ | OSetLevel1Auth _ _ _ | OSetLevel2Auth _ _ _
  | OSetLevel3Auth _ _ _ | OAddCollateral _ _ _ => ARole RAccountManagement
  | ORemoveCollateralRequest _ _ _ _ _ => ARole RRemoveCollateralRequest
  | OMarginOrderRequest _ _ _ _ _ _ _ _ _ _ _ _ | OMarginOrderTpSlRequest _ _ _ _ _ _ _ _ _ _ _ =>
      ARole RMarginOrderRequest
  | OCancelRequests _ _ _ => ARole RCancelRequest
  | OProcessRequest _ _ _ => ARole RKeeperProcess
  | OSwapDebt _ _ _ _ => ARole RKeeperSwapDebt
  | OLiquidate _ _ _ => ARole RKeeperLiquidate
  | OAutoDeleverage _ _ _ => ARole RKeeperAdl
  | OUpdatePairs _ _ => ARole RKeeperUpdatePairs
  | OLockFee _ => ARole RDlUser
  | ODlDeposit _ => ARole RDlDepositor
  | ODlWithdraw _ => ARole RDlWithdrawer
  | ODlMaxLock _ | ODlMultiplier _ | ODlContingent _ => AOwnerOr RDlAdmin
  | OOracleAddKey _ _ | OOracleRemoveKey _ | OOracleRemovePrice _ => AOwner
  | OOraclePush _ _ => APublic
  end.
(** A role given [OWNER] at instantiation follows the owner rule. *)
Definition role_rule (w : world) (r : role) : access_rule := default (w_owner w) (w_roles w r).
Definition access_ok (cx : ctx) (w : world) (a : access) : bool :=
  match a with
  | APublic => true
  | AOwner => rule_sat (cx_sat cx) (w_owner w)
  | ARole r => rule_sat (cx_sat cx) (role_rule w r)
  | AOwnerOr r => rule_sat (cx_sat cx) (w_owner w) || rule_sat (cx_sat cx) (role_rule w r)
  end.
(** The methods wrapped in [authorize!] (exchange.rs:293-299): they need at least
    one atto of the authority badge in the exchange's vault. *)
Definition needs_authority (o : op) : bool :=
  match o with
  | OAdvance _ | OSetRole _ _ | ODepositAuthority _ | OWithdrawAuthority | OSignalUpgrade _
  | OLockFee _ | ODlDeposit _ | ODlWithdraw _ | ODlMaxLock _ | ODlMultiplier _ | ODlContingent _
  | OOracleAddKey _ _ | OOracleRemoveKey _ | OOracleRemovePrice _ | OOraclePush _ _ => false
  | _ => true
  end.

(** The buckets a call hands over. *)
Definition op_buckets (o : op) : list bucket :=
  match o with
  | ODepositAuthority b | OSwapProtocolFee b | OAddLiquidity b | ORemoveLiquidity b
  | OSwapDebt _ _ b _ | OLiquidate _ b _ | ODlDeposit b => [b]
  | OMintReferralWithAllocation _ _ _ ts _ _ | OAddReferralAllocation _ ts _ _
  | OCreateReferralCodes _ ts _ => ts
  | OCreateAccount oath _ ts _ _ | OAddCollateral oath _ ts => option_list oath ++ ts
  | OCreateRecoveryKey oath _ | OAddAuthRule oath _ _ _ | OSetLevel1Auth oath _ _
  | OSetLevel2Auth oath _ _ | OSetLevel3Auth oath _ _ | ORemoveCollateralRequest oath _ _ _ _
  | OMarginOrderRequest oath _ _ _ _ _ _ _ _ _ _ _ | OMarginOrderTpSlRequest oath _ _ _ _ _ _ _ _ _ _
  | OCancelRequests oath _ _ => option_list oath
  | _ => []
  end.

Definition set_role (w : world) (r : role) (rule : access_rule) : world :=
  w <| w_roles := fun r' => if bool_decide (r' = r) then Some rule else w_roles w r' |>.

(** The body of a call. *)
Definition exec (E : env) (cx : ctx) (w : world) (o : op) : res (world * outp) :=
  match o with
  | OAdvance t => _ ← guard_ ((w_now w <=? t) && in_i64 t) EEngine; Ok (w <| w_now := t |>, out0)
  | OSetRole r rule => Ok (set_role w r rule, out0)
  | ODepositAuthority b => m_deposit_authority w b
  | OWithdrawAuthority => m_withdraw_authority w
  | OSignalUpgrade a => m_signal_upgrade w a
  | OUpdateExchangeConfig c => m_update_exchange_config w c
  | OUpdatePairConfigs cs => m_update_pair_configs w cs
  | OUpdateCollateralConfigs cs => m_update_collateral_configs w cs
  | ORemoveCollateralConfig r => m_remove_collateral_config w r
  | OCollectTreasury => m_collect_treasury E w
  | OCollectFeeDelegator => m_collect_fee_delegator E w
  | OMintReferral fr fb mr => m_mint_referral w fr fb mr
  | OMintReferralWithAllocation fr fb mr ts cs n => m_mint_referral_with_allocation E w fr fb mr ts cs n
  | OUpdateReferral id fr fb mr => m_update_referral w id fr fb mr
  | OAddReferralAllocation id ts cs n => m_add_referral_allocation E w id ts cs n
  | OSwapProtocolFee b => m_swap_protocol_fee E w b
  | OAddLiquidity b => m_add_liquidity E w b
  | ORemoveLiquidity b => m_remove_liquidity E w b
  | OCreateReferralCodes pr ts hs => m_create_referral_codes E cx w pr ts hs
  | OCreateReferralCodesFromAllocation pr i hs => m_create_referral_codes_from_allocation cx w pr i hs
  | OCollectReferralRewards pr => m_collect_referral_rewards E cx w pr
  | OCreateAccount oath rule ts code a => m_create_account E w oath rule ts code a
  | OCreateRecoveryKey oath a => m_create_recovery_key E cx w oath a
  | OAddAuthRule oath a lvl n => m_add_auth_rule E cx w oath a lvl n
  | OSetLevel1Auth oath a rule => m_set_level_auth 1 E cx w oath a rule
  | OSetLevel2Auth oath a rule => m_set_level_auth 2 E cx w oath a rule
  | OSetLevel3Auth oath a rule => m_set_level_auth 3 E cx w oath a rule
  | OAddCollateral oath a ts => m_add_collateral E cx w oath a ts
  | ORemoveCollateralRequest oath ex a t cs => m_remove_collateral_request E cx w oath ex a t cs
  | OMarginOrderRequest oath d ex a p amt ro pl sl act can st =>
      m_margin_order_request E cx w oath d ex a p amt ro pl sl act can st
  | OMarginOrderTpSlRequest oath d ex a p amt ro pl sl tp sl' =>
      m_margin_order_tp_sl_request E cx w oath d ex a p amt ro pl sl tp sl'
  | OCancelRequests oath a is_ => m_cancel_requests E cx w oath a is_
  | OProcessRequest a i upd => m_process_request E cx w a i upd
  | OSwapDebt a r b upd => m_swap_debt E w a r b upd
  | OLiquidate a b upd => m_liquidate E w a b upd
  | OAutoDeleverage a p upd => m_auto_deleverage E w a p upd
  | OUpdatePairs ps upd => m_update_pairs E w ps upd
  | OLockFee amt =>
      '(d, s, b) ← dl_lock_fee E (cx_usd_price cx) (w_dl w) (w_oath w) amt;
      Ok (w <| w_dl := d |> <| w_oath := s |>, out0 <| o_tokens := [b] |>)
  | ODlDeposit b => d ← dl_deposit (w_dl w) b; Ok (w <| w_dl := d |>, out0)
  | ODlWithdraw amt => '(d, b) ← dl_withdraw E (w_dl w) amt; Ok (w <| w_dl := d |>, out0 <| o_tokens := [b] |>)
  | ODlMaxLock x => d ← dl_update_max_lock (w_dl w) x; Ok (w <| w_dl := d |>, out0)
  | ODlMultiplier x => d ← dl_update_mult (w_dl w) x; Ok (w <| w_dl := d |>, out0)
  | ODlContingent b => Ok (w <| w_dl := dl_update_contingent (w_dl w) b |>, out0)
  | OOracleAddKey id k => x ← oracle_add_key (w_oracle w) id k; Ok (w <| w_oracle := x |>, out0)
  | OOracleRemoveKey id => Ok (w <| w_oracle := oracle_remove_key (w_oracle w) id |>, out0)
  | OOracleRemovePrice p => Ok (w <| w_oracle := oracle_remove_price (w_oracle w) p |>, out0)
  | OOraclePush ids msg =>
      x ← oracle_push E (w_oracle w) msg;
      _ ← oracle_get x ids;
      Ok (w <| w_oracle := x |>, out0)
  end.

(** One call: engine checks, then the body. *)
Definition step (E : env) (cx : ctx) (w : world) (o : op) : res (world * outp) :=
  _ ← guard_ (forallb (bucket_ok E) (op_buckets o)) EEngine;
  _ ← guard_ (access_ok cx w (op_access o)) EAuth;
  _ ← guard_ (implb (needs_authority o) (1 <=? w_auth w)) EEngine;
  exec E cx w o.

(** The state after deployment: [Exchange::new] and the constructors of the other
    components. [keys] are the oracle's initial keys (oracle.rs:36), [auth] the
    authority badges handed to the exchange. *)
Definition genesis_roles (r : role) : option access_rule :=
  match r with
  | RFeeDelegatorAdmin | RTreasuryAdmin | RReferralAdmin | RUserAdmin
  | RDlAdmin | RDlDepositor | RDlWithdrawer => None
  | _ => Some AllowAll
  end.
Definition genesis (owner : access_rule) (auth : Z) (keys : gmap N N) (now : Z) : res world :=
  c ← config_new;
  Ok (mkW now auth owner genesis_roles c (mkOracle keys ∅) pool_new ∅ fd_new dl_new ∅ gn_new reg_new 0 0 0 0 0%N).

(** States reachable by successful calls, each with its own caller context.
    A failed call aborts its transaction and changes nothing. *)
Inductive reachable (E : env) : world -> Prop :=
| reach_init owner auth keys now w :
    0 <= auth <= DMAX -> I64MIN <= now <= I64MAX ->
    genesis owner auth keys now = Ok w -> reachable E w
| reach_step w cx o w' out :
    reachable E w -> step E cx w o = Ok (w', out) -> reachable E w'.

(** Histories: the calls made from one state to another, oldest first. *)
Inductive steps (E : env) : world -> list (ctx * op * outp) -> world -> Prop :=
| steps_nil w : steps E w [] w
| steps_cons w cx o out w1 l w2 :
    step E cx w o = Ok (w1, out) -> steps E w1 l w2 -> steps E w ((cx, o, out) :: l) w2.

(** A transaction: a sequence of calls that commits only if every call succeeds
    and no fee oath is left in existence - the resource cannot be deposited
    anywhere (fee_delegator.rs:66-69), so a worktop holding one aborts. *)
Fixpoint run (E : env) (w : world) (l : list (ctx * op)) : res (world * list outp) :=
  match l with
  | [] => Ok (w, [])
  | (cx, o) :: l =>
      '(w, out) ← step E cx w o;
      '(w, outs) ← run E w l;
      Ok (w, out :: outs)
  end.
Definition tx (E : env) (w : world) (l : list (ctx * op)) : world :=
  match run E w l with
  | Ok (w', _) => if w_oath w' =? 0 then w' else w
  | Err _ => w
  end.
Inductive tx_reachable (E : env) : world -> Prop :=
| txr_init owner auth keys now w :
    0 <= auth <= DMAX -> I64MIN <= now <= I64MAX ->
    genesis owner auth keys now = Ok w -> tx_reachable E w
| txr_tx w l : tx_reachable E w -> tx_reachable E (tx E w l).
