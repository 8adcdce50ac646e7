(** * Specification vocabulary for prices (C11-C13, C53). Observable state only. *)
From Verif Require Import Base Lists Types Config Oracle Account ExInternal Exchange System.

(** The price and timestamp the oracle stores for a pair. *)
Definition stored_price (w : world) (k : pair_id) : option (Z * Z) := or_prices (w_oracle w) !! k.
(** The signed price message a call carries. *)
Definition message_of (o : op) : option price_msg :=
  match o with
  | OProcessRequest _ _ upd | OSwapDebt _ _ _ upd | OLiquidate _ _ upd | OAutoDeleverage _ _ upd | OUpdatePairs _ upd => upd
  | OOraclePush _ msg => Some msg
  | _ => None
  end.
(** A message carries price [p] at time [t] for pair [k], signed by a key the oracle knows in [w]. *)
Definition signed_price (E : env) (w : world) (msg : price_msg) (k : pair_id) (p t : Z) : Prop :=
  let '(data, sig, key_id) := msg in
  exists key prices, or_keys (w_oracle w) !! key_id = Some key /\ e_verify E key data sig = true /\
    e_decode E data = Some prices /\ mkPrice k p t ∈ prices.
(** The maximum price age (seconds) configured for trading a pair, and for a collateral's feed. *)
Definition pair_max_age (w : world) (k : pair_id) : option Z := pc_price_age_max <$> hl_kvs (cf_pairs (w_config w)) !! k.
Definition feed_max_age (w : world) (k : pair_id) (age : Z) : Prop :=
  exists r cc, cf_collaterals (w_config w) !! r = Some cc /\ cc_pair_id cc = k /\ cc_price_age_max cc = age.
Definition account_pairs (w : world) (a : addr) (k : pair_id) : Prop :=
  exists acc pos, w_accounts w !! a = Some acc /\ ac_positions acc !! k = Some pos.
(** The request a call processes is executed (it has not expired). *)
Definition executes (w : world) (o : op) : Prop :=
  match o with
  | OProcessRequest a i _ => exists acc kr, w_accounts w !! a = Some acc /\ kl_kvs (ac_requests acc) !! i = Some kr /\ w_now w < kr_expiry kr
  | OSwapDebt _ _ _ _ | OLiquidate _ _ _ | OAutoDeleverage _ _ _ | OUpdatePairs _ _ => True
  | _ => False
  end.
(** The traded pairs whose price a keeper call uses. *)
Definition trades_pair (w : world) (o : op) (k : pair_id) : Prop :=
  match o with
  | OProcessRequest a i _ => account_pairs w a k \/
      exists acc kr r, w_accounts w !! a = Some acc /\ kl_kvs (ac_requests acc) !! i = Some kr /\ kr_request kr = ROrder r /\ ro_pair r = k
  | OLiquidate a _ _ => account_pairs w a k
  | OAutoDeleverage a p _ => account_pairs w a k \/ k = p
  | OUpdatePairs ps _ => k ∈ ps
  | _ => False
  end.
(** A keeper call needs a price of pair [k] younger than [age]. *)
Definition needs_price (w : world) (o : op) (k : pair_id) (age : Z) : Prop :=
  executes w o /\ (feed_max_age w k age \/ trades_pair w o k /\ pair_max_age w k = Some age).
(** A price with its timestamp is usable at time [now] under a maximum age. *)
Definition fresh (now age : Z) (x : Z * Z) : Prop := 0 < fst x /\ now < snd x + age.
(** A price of a pair that an event reports as the one used. *)
Definition reports_price (w : world) (ev : event) (k : pair_id) (p : Z) : Prop :=
  match ev with
  | EvMarginOrder e => eo_pair e = k /\ eo_price e = p
  | EvAutoDeleverage e => ea_pair e = k /\ ea_price e = p
  | EvLiquidate e => (k, p) ∈ el_position_prices e \/
      exists r cc, (r, p) ∈ el_collateral_prices e /\ cf_collaterals (w_config w) !! r = Some cc /\ cc_pair_id cc = k
  | _ => False
  end.
