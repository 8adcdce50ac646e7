(** * Config component. Models config/src/config.rs and config/src/config/structs.rs. *)
From Verif Require Import Base DFloat Lists Types.

(** structs.rs:28-60 *)
Record exchange_config := mkEC {
  ec_positions_max : N; ec_collaterals_max : N; ec_active_requests_max : N;
  ec_skew_ratio_cap : Z; ec_adl_offset : Z; ec_adl_a : Z; ec_adl_b : Z;
  ec_fee_liquidity_add : Z; ec_fee_liquidity_remove : Z;
  ec_fee_share_protocol : Z; ec_fee_share_treasury : Z; ec_fee_share_referral : Z;
  ec_fee_max : Z; ec_protocol_burn_amount : Z; ec_reward_keeper : Z }.
(** structs.rs:62-94: the same fields; [Decimal]s are DFloat16 bit patterns. *)
Definition exchange_config_c := exchange_config.

(** structs.rs:178-214 *)
Record pair_config := mkPC {
  pc_pair_id : pair_id; pc_price_age_max : Z; pc_oi_max : Z; pc_trade_size_min : Z;
  pc_update_price_delta_ratio : Z; pc_update_period_seconds : Z;
  pc_margin_initial : Z; pc_margin_maintenance : Z;
  pc_funding_1 : Z; pc_funding_2 : Z; pc_funding_2_delta : Z; pc_funding_2_decay : Z;
  pc_funding_pool_0 : Z; pc_funding_pool_1 : Z; pc_funding_share : Z;
  pc_fee_0 : Z; pc_fee_1 : Z }.
(** structs.rs:216-252 *)
Definition pair_config_c := pair_config.

(** structs.rs:321-331 *)
Record collateral_config := mkCC {
  cc_pair_id : pair_id; cc_price_age_max : Z; cc_discount : Z; cc_margin : Z }.
(** structs.rs:333-343 *)
Definition collateral_config_c := collateral_config.

(** structs.rs:96-116 *)
Definition exchange_config_default : exchange_config := {|
  ec_positions_max := 30; ec_collaterals_max := 5; ec_active_requests_max := 100;
  ec_skew_ratio_cap := 150000000000000000;
  ec_adl_offset := 200000000000000000;
  ec_adl_a := 70000000000000000; ec_adl_b := 70000000000000000;
  ec_fee_liquidity_add := 1000000000000000; ec_fee_liquidity_remove := 1000000000000000;
  ec_fee_share_protocol := 220000000000000000; ec_fee_share_treasury := 80000000000000000;
  ec_fee_share_referral := dec 1; ec_fee_max := 10000000000000000;
  ec_protocol_burn_amount := dec 10000; ec_reward_keeper := dec 1 |}.

(** structs.rs:119-133 *)
Definition ec_validate (c : exchange_config) : bool :=
  (0 <? ec_positions_max c)%N && (0 <=? ec_skew_ratio_cap c) && (0 <=? ec_adl_offset c)
  && (0 <=? ec_adl_a c) && (0 <=? ec_adl_b c)
  && (0 <=? ec_fee_liquidity_add c) && (0 <=? ec_fee_liquidity_remove c)
  && ((0 <=? ec_fee_share_protocol c) && (ec_fee_share_protocol c <=? 300000000000000000))
  && ((0 <=? ec_fee_share_treasury c) && (ec_fee_share_treasury c <=? 150000000000000000))
  && ((0 <=? ec_fee_share_referral c) && (ec_fee_share_referral c <=? dec 1))
  && (0 <=? ec_fee_max c) && (dec 1000 <=? ec_protocol_burn_amount c)
  && (0 <=? ec_reward_keeper c).

(** structs.rs:135-153 *)
Definition ec_compress (c : exchange_config) : res exchange_config_c :=
  skew_cap ← dfloat_from (ec_skew_ratio_cap c);
  off ← dfloat_from (ec_adl_offset c);
  a ← dfloat_from (ec_adl_a c);
  b ← dfloat_from (ec_adl_b c);
  fla ← dfloat_from (ec_fee_liquidity_add c);
  flr ← dfloat_from (ec_fee_liquidity_remove c);
  fsp ← dfloat_from (ec_fee_share_protocol c);
  fst_ ← dfloat_from (ec_fee_share_treasury c);
  fsr ← dfloat_from (ec_fee_share_referral c);
  fm ← dfloat_from (ec_fee_max c);
  pb ← dfloat_from (ec_protocol_burn_amount c);
  rk ← dfloat_from (ec_reward_keeper c);
  Ok (mkEC (ec_positions_max c) (ec_collaterals_max c) (ec_active_requests_max c)
        skew_cap off a b fla flr fsp fst_ fsr fm pb rk).
(** structs.rs:156-176 *)
Definition ec_decompress (c : exchange_config_c) : exchange_config :=
  mkEC (ec_positions_max c) (ec_collaterals_max c) (ec_active_requests_max c)
    (dfloat_to (ec_skew_ratio_cap c)) (dfloat_to (ec_adl_offset c))
    (dfloat_to (ec_adl_a c)) (dfloat_to (ec_adl_b c))
    (dfloat_to (ec_fee_liquidity_add c)) (dfloat_to (ec_fee_liquidity_remove c))
    (dfloat_to (ec_fee_share_protocol c)) (dfloat_to (ec_fee_share_treasury c))
    (dfloat_to (ec_fee_share_referral c)) (dfloat_to (ec_fee_max c))
    (dfloat_to (ec_protocol_burn_amount c)) (dfloat_to (ec_reward_keeper c)).

(** structs.rs:255-272 *)
Definition pc_validate (c : pair_config) : bool :=
  (0 <? pc_price_age_max c) && (0 <=? pc_oi_max c) && (0 <=? pc_trade_size_min c)
  && (0 <? pc_update_price_delta_ratio c) && (0 <? pc_update_period_seconds c)
  && ((0 <=? pc_margin_initial c) && (pc_margin_initial c <=? dec 1))
  && ((0 <=? pc_margin_maintenance c) && (pc_margin_maintenance c <=? dec 1)
      && (pc_margin_maintenance c <=? pc_margin_initial c))
  && ((0 <=? pc_funding_1 c) && (pc_funding_1 c <=? dec 2))
  && ((0 <=? pc_funding_2 c) && (pc_funding_2 c <=? dec 4))
  && ((0 <=? pc_funding_2_delta c) && (pc_funding_2_delta c <=? dec 10000))
  && (0 <=? pc_funding_2_decay c)
  && ((0 <=? pc_funding_pool_0 c) && (pc_funding_pool_0 c <=? dec 1))
  && ((0 <=? pc_funding_pool_1 c) && (pc_funding_pool_1 c <=? dec 2))
  && ((0 <=? pc_funding_share c) && (pc_funding_share c <=? 100000000000000000))
  && ((0 <=? pc_fee_0 c) && (pc_fee_0 c <=? 15000000000000000))
  && ((0 <=? pc_fee_1 c) && (pc_fee_1 c <=? 1000000000000)).

(** structs.rs:274-294; [price_age_max as u16] and [update_period_seconds as u16]
    wrap modulo 65536. *)
Definition pc_compress (c : pair_config) : res pair_config_c :=
  oi ← dfloat_from (pc_oi_max c);
  ts ← dfloat_from (pc_trade_size_min c);
  pd ← dfloat_from (pc_update_price_delta_ratio c);
  mi ← dfloat_from (pc_margin_initial c);
  mm ← dfloat_from (pc_margin_maintenance c);
  f1 ← dfloat_from (pc_funding_1 c);
  f2 ← dfloat_from (pc_funding_2 c);
  f2d ← dfloat_from (pc_funding_2_delta c);
  f2y ← dfloat_from (pc_funding_2_decay c);
  fp0 ← dfloat_from (pc_funding_pool_0 c);
  fp1 ← dfloat_from (pc_funding_pool_1 c);
  fs ← dfloat_from (pc_funding_share c);
  fe0 ← dfloat_from (pc_fee_0 c);
  fe1 ← dfloat_from (pc_fee_1 c);
  Ok (mkPC (pc_pair_id c) (i64_as_u16 (pc_price_age_max c)) oi ts pd
        (i64_as_u16 (pc_update_period_seconds c)) mi mm f1 f2 f2d f2y fp0 fp1 fs fe0 fe1).
(** structs.rs:297-319 *)
Definition pc_decompress (c : pair_config_c) : pair_config :=
  mkPC (pc_pair_id c) (pc_price_age_max c) (dfloat_to (pc_oi_max c))
    (dfloat_to (pc_trade_size_min c)) (dfloat_to (pc_update_price_delta_ratio c))
    (pc_update_period_seconds c) (dfloat_to (pc_margin_initial c))
    (dfloat_to (pc_margin_maintenance c)) (dfloat_to (pc_funding_1 c))
    (dfloat_to (pc_funding_2 c)) (dfloat_to (pc_funding_2_delta c))
    (dfloat_to (pc_funding_2_decay c)) (dfloat_to (pc_funding_pool_0 c))
    (dfloat_to (pc_funding_pool_1 c)) (dfloat_to (pc_funding_share c))
    (dfloat_to (pc_fee_0 c)) (dfloat_to (pc_fee_1 c)).

(** structs.rs:346-350 *)
Definition cc_validate (c : collateral_config) : bool :=
  (0 <? cc_price_age_max c)
  && ((800000000000000000 <=? cc_discount c) && (cc_discount c <=? dec 1))
  && ((0 <=? cc_margin c) && (cc_margin c <=? 100000000000000000)).
(** structs.rs:352-359 *)
Definition cc_compress (c : collateral_config) : res collateral_config_c :=
  d ← dfloat_from (cc_discount c);
  m ← dfloat_from (cc_margin c);
  Ok (mkCC (cc_pair_id c) (i64_as_u16 (cc_price_age_max c)) d m).
(** structs.rs:362-371 *)
Definition cc_decompress (c : collateral_config_c) : collateral_config :=
  mkCC (cc_pair_id c) (cc_price_age_max c) (dfloat_to (cc_discount c)) (dfloat_to (cc_margin c)).

(** config.rs:35-39 *)
Record config := mkConfig {
  cf_exchange : exchange_config_c;
  cf_pairs : hlist pair_config_c;
  cf_collaterals : gmap resource collateral_config_c }.
Global Instance eta_config : Settable config :=
  settable! mkConfig <cf_exchange; cf_pairs; cf_collaterals>.

(** config.rs:42-58 *)
Definition config_new : res config :=
  e ← ec_compress exchange_config_default; Ok (mkConfig e hl_new ∅).
(** config.rs:72-76 *)
Definition config_get_pair_configs (c : config) (n : N) (start : option N) : res (list pair_config_c) :=
  let s := default 0%N start in
  e ← uadd s n;
  hl_range (cf_pairs c) s (N.min e (hl_len (cf_pairs c))).
(** config.rs:78-83, one id *)
Definition config_get_pair (c : config) (p : pair_id) : option pair_config_c := hl_get (cf_pairs c) p.
(** config.rs:89-92 *)
Definition config_update_exchange (c : config) (e : exchange_config) : res config :=
  _ ← guard_ (ec_validate e) EInvalidConfig;
  ce ← ec_compress e;
  Ok (c <| cf_exchange := ce |>).
(** config.rs:94-99 *)
Definition config_update_pair1 (c : config) (p : pair_config) : res config :=
  _ ← guard_ (pc_validate p) EInvalidConfig;
  cp ← pc_compress p;
  ps ← hl_insert (cf_pairs c) (pc_pair_id p) cp;
  Ok (c <| cf_pairs := ps |>).
Definition config_update_pairs (c : config) (ps : list pair_config) : res config :=
  rfold config_update_pair1 c ps.
(** config.rs:101-106 *)
Definition config_update_collaterals (c : config) (cs : list (resource * collateral_config)) : res config :=
  _ ← guard_ (forallb (fun x => cc_validate (snd x)) cs) EInvalidConfig;
  rfold (fun c x => cc ← cc_compress (snd x);
                    Ok (c <| cf_collaterals := <[fst x := cc]> (cf_collaterals c) |>)) c cs.
(** config.rs:108-110 *)
Definition config_remove_collateral (c : config) (r : resource) : config :=
  c <| cf_collaterals := delete r (cf_collaterals c) |>.

(** ** VirtualConfig: exchange/src/exchange/virtual_config.rs *)
(** virtual_config.rs:7-11 *)
Record vconfig := mkVC {
  vc_exchange : exchange_config;
  vc_pairs : gmap pair_id pair_config;
  vc_collaterals : gmap resource collateral_config }.
(** virtual_config.rs:13-26: every requested pair must be configured. *)
Definition vc_new (c : config) (ids : gset pair_id) : res vconfig :=
  ps ← rfold (fun (m : gmap pair_id pair_config) p =>
                pc ← expect (config_get_pair c p) EMissingPairConfig;
                Ok (<[p := pc_decompress pc]> m)) ∅ (elements ids);
  Ok (mkVC (ec_decompress (cf_exchange c)) ps (cc_decompress <$> cf_collaterals c)).
(** virtual_config.rs:32-37 *)
Definition vc_pair (c : vconfig) (p : pair_id) : res pair_config := expect (vc_pairs c !! p) EMissingPairConfig.
(** virtual_config.rs:43-45 *)
Definition vc_feeds (c : vconfig) : gmap resource (pair_id * Z) :=
  (fun cc => (cc_pair_id cc, cc_price_age_max cc)) <$> vc_collaterals c.
