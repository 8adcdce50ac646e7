(** * Specification vocabulary for access rules, the permission registry and owner control (C31-C34). *)
From Verif Require Import Base Lists Types Config Oracle Pool Account Fees Referral ExInternal Exchange System.

(** The rule of an account for level 1, 2 or 3. *)
Definition rule_of (w : world) (a : addr) (lvl : N) : option access_rule := ac_level lvl <$> w_accounts w !! a.
(** The proofs a caller brings satisfy a rule. *)
Definition satisfies (cx : ctx) (r : access_rule) : bool := rule_sat (cx_sat cx) r.
Definition may (cx : ctx) (w : world) (a : addr) (lvl : N) : Prop := exists r, rule_of w a lvl = Some r /\ satisfies cx r = true.
(** The account a call acts on for its user, and the level it needs. *)
Definition needed_level (o : op) : option (addr * N) :=
  match o with
  | OCreateRecoveryKey _ a | OAddAuthRule _ a _ _ | OSetLevel1Auth _ a _ | OSetLevel2Auth _ a _ | OSetLevel3Auth _ a _ => Some (a, 1%N)
  | ORemoveCollateralRequest _ _ a _ _ => Some (a, 2%N)
  | OAddCollateral _ a _ | OMarginOrderRequest _ _ _ a _ _ _ _ _ _ _ _ | OMarginOrderTpSlRequest _ _ _ a _ _ _ _ _ _ _ | OCancelRequests _ a _ => Some (a, 3%N)
  | _ => None
  end.
(** A rule widened by an alternative: the widened rule of a protected rule is satisfied by whoever satisfies either. *)
Definition widen (r : access_rule) (n : rule_node) : access_rule :=
  match r with Protected (NAny ns) => Protected (NAny (ns ++ [n])) | Protected m => Protected (NAny [m; n]) | AllowAll | DenyAll => Protected n end.
(** The rule of level [lvl] of account [a] after a call, when it was [r] before. *)
Definition rule_after (w : world) (o : op) (a : addr) (lvl : N) (r : access_rule) : access_rule :=
  match o with
  | OCreateRecoveryKey _ b => if (b =? a)%N && (lvl =? 1)%N then widen r (NLeaf (LKey (w_next w))) else r
  | OAddAuthRule _ b l n => if (b =? a)%N && (lvl =? l)%N then widen r n else r
  | OSetLevel1Auth _ b x => if (b =? a)%N && (lvl =? 1)%N then x else r
  | OSetLevel2Auth _ b x => if (b =? a)%N && (lvl =? 2)%N then x else r
  | OSetLevel3Auth _ b x => if (b =? a)%N && (lvl =? 3)%N then x else r
  | _ => r
  end.
(** [rule] controls what [r] protects: it is [r], or one of the alternatives of [r]'s top-level any-of. *)
Definition controls (rule r : access_rule) : Prop := rule = r \/ exists ns n, r = Protected (NAny ns) /\ n ∈ ns /\ rule = Protected n.
(** The permission registry lists the account under the rule at the level. *)
Definition listed (w : world) (rule : access_rule) (lvl : N) (a : addr) : Prop :=
  a ∈ (if (lvl =? 1)%N then pm_1 (g_permissions w rule) else if (lvl =? 2)%N then pm_2 (g_permissions w rule) else pm_3 (g_permissions w rule)).
(** The user, keeper and admin methods of the exchange. *)
Definition exchange_method (o : op) : bool :=
  match o with
  | OUpdateExchangeConfig _ | OUpdatePairConfigs _ | OUpdateCollateralConfigs _ | ORemoveCollateralConfig _
  | OCollectTreasury | OCollectFeeDelegator | OMintReferral _ _ _ | OMintReferralWithAllocation _ _ _ _ _ _ | OUpdateReferral _ _ _ _ | OAddReferralAllocation _ _ _ _
  | OSwapProtocolFee _ | OAddLiquidity _ | ORemoveLiquidity _ | OCreateReferralCodes _ _ _ | OCreateReferralCodesFromAllocation _ _ _ | OCollectReferralRewards _
  | OCreateAccount _ _ _ _ _ | OCreateRecoveryKey _ _ | OAddAuthRule _ _ _ _ | OSetLevel1Auth _ _ _ | OSetLevel2Auth _ _ _ | OSetLevel3Auth _ _ _
  | OAddCollateral _ _ _ | ORemoveCollateralRequest _ _ _ _ _ | OMarginOrderRequest _ _ _ _ _ _ _ _ _ _ _ _ | OMarginOrderTpSlRequest _ _ _ _ _ _ _ _ _ _ _
  | OCancelRequests _ _ _ | OProcessRequest _ _ _ | OSwapDebt _ _ _ _ | OLiquidate _ _ _ | OAutoDeleverage _ _ _ | OUpdatePairs _ _ => true
  | _ => false
  end.
(** The parts of the state only the owner (or the admin named) may change. *)
Definition delegator_settings (w : world) : Z * Z * bool := (dl_max_lock (w_dl w), dl_mult (w_dl w), dl_contingent (w_dl w)).
Definition owner_only (w : world) : config * gmap N N * Z := (w_config w, or_keys (w_oracle w), w_auth w).
(** Everything the exchange controls, apart from the fee delegator's own vault and the oracle's prices. *)
Record exchange_state := mkXS { xs_config : config; xs_pool : pool; xs_accounts : gmap addr account; xs_fees : distributor; xs_referrals : gmap N referral; xs_generator : generator; xs_registry : access_rule -> perms; xs_lp : Z; xs_rewards : Z }.
Definition exchange_of (w : world) : exchange_state := mkXS (w_config w) (w_pool w) (w_accounts w) (w_fd w) (w_refs w) (w_gen w) (w_perms w) (w_lp w) (w_rewards w).
(** The roles the user admin may set besides the owner. *)
Definition user_role (r : role) : bool :=
  match r with RProtocolSwap | RLiquidity | RReferralUser | RAccountCreation | RAccountManagement | RRemoveCollateralRequest | RMarginOrderRequest | RCancelRequest => true | _ => false end.
(** Who satisfies a role: the role's rule if it has one, the owner rule otherwise. *)
Definition has_role (cx : ctx) (w : world) (r : role) : bool := satisfies cx (default (w_owner w) (w_roles w r)).
Definition is_owner (cx : ctx) (w : world) : bool := satisfies cx (w_owner w).
