(** * A concrete deployment used as non-vacuity witness.
    Two traded pairs, two collaterals, signed price messages; every state below is
    computed from [genesis] by successful calls of the model. *)
From Verif Require Import Base DFloat Lists Types Config Oracle Pool Account Fees Referral ExInternal Exchange System.

(** A price message number carries the prices of pairs 1 and 2 (in units) and a time. *)
Definition enc (p1 p2 t : N) : N := ((p1 * 2 ^ 20 + p2) * 2 ^ 32 + t)%N.
Definition sc_decode (d : N) : option (list price_rec) :=
  let t := (d mod 2 ^ 32)%N in
  let p2 := ((d / 2 ^ 32) mod 2 ^ 20)%N in
  let p1 := (d / 2 ^ 52)%N in
  Some [mkPrice 1%N (dec (Z.of_N p1)) (Z.of_N t); mkPrice 2%N (dec (Z.of_N p2)) (Z.of_N t)].
Definition sc_env : env := mkEnv sc_decode (fun key _ sig => (key =? 77)%N && (sig =? 5)%N) (fun s => (s + 1000)%N)
  (fun r => if (r =? 21)%N then 8%N else 18%N).
Definition msg (p1 p2 t : N) : option price_msg := Some (enc p1 p2 t, 5%N, 1%N).

(** Requirement 1 is the owner badge, 2 and 3 are two users. *)
Definition cx_of (l : list N) : ctx :=
  mkCtx (fun x => match x with LReq n => existsb (N.eqb n) l | LKey _ => false end)
        (fun _ _ => true) (fun _ _ => true) 60000000000000000.
Definition cx_owner := cx_of [1%N].
Definition cx_u2 := cx_of [2%N].
Definition cx_u3 := cx_of [3%N].
Definition cx_any := cx_of [].

Definition own_rule : access_rule := Protected (NLeaf (LReq 1%N)).
Definition u2_rule : access_rule := Protected (NLeaf (LReq 2%N)).
Definition u3_rule : access_rule := Protected (NAny [NLeaf (LReq 3%N); NLeaf (LReq 2%N)]).

Definition sc_pair (p : N) : pair_config :=
  {| pc_pair_id := p; pc_price_age_max := 60; pc_oi_max := dec 1000; pc_trade_size_min := dec 1 / 1000;
     pc_update_price_delta_ratio := dec 1 / 100; pc_update_period_seconds := 3600;
     pc_margin_initial := dec 1 / 10; pc_margin_maintenance := dec 1 / 20;
     pc_funding_1 := dec 1; pc_funding_2 := dec 1; pc_funding_2_delta := dec 10; pc_funding_2_decay := dec 100;
     pc_funding_pool_0 := dec 1 / 50; pc_funding_pool_1 := dec 1 / 10; pc_funding_share := dec 1 / 20;
     pc_fee_0 := dec 1 / 1000; pc_fee_1 := 100 |}.
Definition sc_coll (p : N) : collateral_config :=
  {| cc_pair_id := p; cc_price_age_max := 600; cc_discount := dec 9 / 10; cc_margin := dec 1 / 100 |}.

Definition go (E : env) (w : res world) (l : list (ctx * op)) : res world :=
  w ← w; '(w, _) ← run E w l; Ok w.

Definition sc_genesis : res world := genesis own_rule (dec 1) {[1%N := 77%N]} 1000.

Definition A2 : addr := 100%N.
Definition A3 : addr := 101%N.
Definition order (cx : ctx) (a : addr) (p : pair_id) (amt : Z) (ro : bool) : ctx * op :=
  (cx, OMarginOrderRequest None 0%N 600%N a p amt ro PLNone (SLPercent (dec 5)) [] [] STATUS_ACTIVE).

(** Setup: configs, liquidity, two funded accounts (one with token collateral). *)
Definition sc_setup : list (ctx * op) :=
  [ (cx_owner, OUpdatePairConfigs [sc_pair 1%N; sc_pair 2%N]);
    (cx_owner, OUpdateCollateralConfigs [(20%N, sc_coll 2%N); (21%N, sc_coll 1%N)]);
    (cx_any, OAddLiquidity (BASE, dec 1000000));
    (cx_any, OCreateAccount None u2_rule [(BASE, dec 10000); (20%N, dec 2)] None A2);
    (cx_any, OCreateAccount None u3_rule [(BASE, dec 20000)] None A3) ].
Definition sc_w1 : res world := go sc_env sc_genesis sc_setup.

(** Trading: A2 goes long 2, A3 short 1 in pair 1. *)
Definition sc_trades : list (ctx * op) :=
  [ order cx_u2 A2 1%N (dec 2) false;
    order cx_u3 A3 1%N (- dec 1) false;
    (cx_any, OAdvance 1010);
    (cx_any, OProcessRequest A2 0%N (msg 30000%N 2000%N 1009%N));
    (cx_any, OProcessRequest A3 0%N (msg 30000%N 2000%N 1009%N)) ].
Definition sc_w2 : res world := go sc_env sc_w1 sc_trades.

(** A day later: pair update and a partial reduce-only close by A2. *)
Definition sc_later : list (ctx * op) :=
  [ (cx_any, OAdvance 87410);
    (cx_any, OUpdatePairs [1%N] (msg 30300%N 2000%N 87400%N));
    order cx_u2 A2 1%N (- dec 1) true;
    (cx_any, OAdvance 87420);
    (cx_any, OProcessRequest A2 1%N%N (msg 30300%N 2000%N 87419%N)) ].
Definition sc_w3 : res world := go sc_env sc_w2 sc_later.

(** The price falls; A2 has a pending take-profit; it is liquidated. *)
Definition sc_crash : list (ctx * op) :=
  [ (cx_u2, OMarginOrderTpSlRequest None 0%N 6000%N A2 1%N (dec 1) false PLNone SLNone (Some (dec 40000)) (Some (dec 1000)));
    (cx_any, OAdvance 87450);
    (cx_any, OLiquidate A2 (BASE, dec 5000) (msg 17000%N 2000%N 87440%N)) ].
Definition sc_w4 : res world := go sc_env sc_w3 sc_crash.

Definition show (w : res world) :=
  match w with
  | Ok w => Ok (po_vb (w_pool w), po_base (w_pool w), (fun a => (ac_vb a, map_to_list (ac_positions a))) <$> (w_accounts w !! A2),
                (fun a => (ac_vb a, map_to_list (ac_positions a))) <$> (w_accounts w !! A3), w_rewards w)
  | Err e => Err e
  end.

(** Referrals and fee oaths: a referral is minted with an allocation, codes are made
    from it and directly, account A5 joins with a code and trades, a fee oath pays for a
    cancellation, and a new oath is left outstanding (mid-transaction). *)
Definition A5 : addr := 105%N.
Definition u5_rule : access_rule := Protected (NLeaf (LReq 5%N)).
Definition cx_u5 := cx_of [5%N].
Definition sc_referral : list (ctx * op) :=
  [ (cx_owner, OMintReferralWithAllocation (dec 1 / 20) (dec 1 / 10) 10%N [(BASE, dec 700)] [(BASE, dec 100)] 3%N);
    (cx_u5, OCreateReferralCodesFromAllocation (REFERRAL, 0%N) 0%N {[1007%N; 1008%N]});
    (cx_u5, OCreateReferralCodes (REFERRAL, 0%N) [(BASE, dec 60)] {[1009%N := ([(BASE, dec 50)], 1%N)]});
    (cx_any, OCreateAccount None u5_rule [(BASE, dec 9000); (21%N, dec 1)] (Some 7%N) A5);
    order cx_u5 A5 1%N (- dec 3) false;
    order cx_u5 A5 1%N (- dec 4) false;
    (cx_any, OAdvance 1020);
    (cx_any, OProcessRequest A5 0%N (msg 30000%N 2000%N 1019%N));
    (cx_owner, ODlDeposit (XRD, dec 1000));
    (cx_any, OLockFee (dec 10));
    (cx_u5, OCancelRequests (Some (FEE_OATH, 9 * (dec 1 / 10))) A5 [1%N]);
    (cx_any, OLockFee (dec 20)) ].
Definition sc_w5 : res world := go sc_env sc_w2 sc_referral.
