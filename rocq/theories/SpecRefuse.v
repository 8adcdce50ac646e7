(** * Specification vocabulary for the reasons a call is refused (C65). *)
From Verif Require Import Base DFloat Types Config Oracle Pool Account Exchange System SpecMargin SpecAuth SpecRequests SpecOracle Spec SpecTrading.

(** [w1] is what bringing exactly the pairs of [acc]'s positions up to date with the price message [upd] would leave:
    the state in which anyone can read off, with the getters, what a keeper's call with the same message will see. *)
Definition up_to_date (E : env) (w : world) (acc : account) (upd : option price_msg) (w1 : world) : Prop :=
  exists cx ps out, (forall k, k ∈ ps <-> is_Some (ac_positions acc !! k)) /\ step E cx w (OUpdatePairs ps upd) = Ok (w1, out).
(** The engine's own checks: who calls, and what is handed over. *)
Definition not_allowed (cx : ctx) (w : world) (r : role) : Prop := rule_sat (cx_sat cx) (role_rule w r) = false.
Definition bad_bucket (E : env) (b : bucket) : Prop := ~ (0 <= b_amt b <= DMAX /\ (unit_of E (b_res b) | b_amt b)).
Definition unmintable (E : env) (w : world) : Prop := mint_ok E KEEPER_REWARD (ec_reward_keeper (g_exchange_config w)) = false.

(** What stops a user's call at the door: the caller lacks the method's role, or does not satisfy the account's rule of the level the method
    needs; the exchange holds no authority badge, or something handed over is no bucket; there is no such account. *)
Definition at_the_door (E : env) (cx : ctx) (w : world) (r : role) (a : addr) (lvl : N) (bs : list bucket) (e : error) : Prop :=
  e = EAuth /\ (has_role cx w r = false \/ ~ may cx w a lvl) \/
  e = EEngine /\ (w_auth w < 1 \/ exists b, b ∈ bs /\ bad_bucket E b) \/
  e = EInvalidMarginAccount /\ w_accounts w !! a = None.
(** Fewer than [n] indexes are left for new requests. *)
Definition no_index_left (w : world) (a : addr) (n : N) : Prop := (2 ^ 64 <= request_count w a + n)%N.
(** A time that does not fit. *)
Definition no_time (t : Z) : Prop := ~ (- 2 ^ 63 <= t < 2 ^ 63).
(** A balance [x] that is given [more] leaves the range of decimals. *)
Definition overflows (x more : Z) : Prop := ~ (DMIN <= x + more <= DMAX).
(** The kinds of collateral in a list of buckets. *)
Definition kinds (ts : list bucket) : gset resource := list_to_set (List.map b_res (List.filter (fun b => negb (b_res b =? BASE)%N) ts)).
(** ** Prices *)
(** The price (with its timestamp) a call that carries the message [upd] reads for pair [k]: what the oracle holds, unless the message has something newer. *)
Definition newer (k : pair_id) (cur : option (Z * Z)) (p : price_rec) : option (Z * Z) :=
  if (pr_pair p =? k)%N
  then match cur with
       | Some (_, t) => if t <? pr_time p then Some (pr_quote p, pr_time p) else cur
       | None => Some (pr_quote p, pr_time p)
       end
  else cur.
Definition told (E : env) (w : world) (upd : option price_msg) (k : pair_id) : option (Z * Z) :=
  match upd with
  | None => stored_price w k
  | Some (data, _, _) => foldl (newer k) (stored_price w k) (default [] (e_decode E data))
  end.
(** The message itself is no good: it cannot be read, names a key the oracle does not know, or is not signed with it. *)
Definition bad_message (E : env) (w : world) (upd : option price_msg) (e : error) : Prop :=
  exists data sig key, upd = Some (data, sig, key) /\
   (e = EInvalidData /\ e_decode E data = None \/
    e = EInvalidKeyId /\ or_keys (w_oracle w) !! key = None \/
    e = EInvalidSignature /\ exists pk, or_keys (w_oracle w) !! key = Some pk /\ e_verify E pk data sig = false).
(** The price of [k] is missing, older than [age] allows, or not positive. *)
Definition bad_price (E : env) (w : world) (upd : option price_msg) (k : pair_id) (age : Z) (e : error) : Prop :=
  e = EMissingPair /\ told E w upd k = None \/
  e = EPriceTooOld /\ (exists p t, told E w upd k = Some (p, t) /\ t + age <= w_now w) \/
  e = EInvalidPrice /\ (exists p t, told E w upd k = Some (p, t) /\ p <= 0).
(** What is wrong with the prices a keeper's call needs. *)
Definition price_trouble (E : env) (w : world) (o : op) (e : error) : Prop :=
  bad_message E w (message_of o) e \/ exists k age, needs_price w o k age /\ bad_price E w (message_of o) k age e.
(** ** Requests *)
(** Request [i] is not there to be processed: it was invalidated, never made, is not waiting (when expired: not even dormant), or its delay is not over. *)
Definition not_processable (w : world) (a : addr) (i : N) (e : error) : Prop :=
  e = EProcessBeforeValidStart /\ (i < valid_start w a)%N \/
  e = EMissingRequest /\ request_at w a i = None \/
  exists kr, request_at w a i = Some kr /\
   (e = EProcessNotActive /\ (if kr_expiry kr <=? w_now w then ~ pending (kr_status kr) else kr_status kr <> STATUS_ACTIVE) \/
    e = EProcessBeforeSubmission /\ w_now w <= kr_submission kr).
(** The part of an order that opens: everything, or what is left once the position is closed. *)
Definition opens (pos amount : Z) : Z := if (Z.sgn pos * Z.sgn amount =? -1) then (if Z.abs amount <=? Z.abs pos then 0 else pos + amount) else amount.
(** What stops an order when it is executed at the price [told] for its pair: its price limit; a linked request that does not exist;
    the pair's open interest limit, the limit on positions or the margin, when something is opened; its slippage limit, when even the highest fee
    the exchange may charge would break it; the pool's skew, when the order does not reduce the pair's imbalance. *)
Definition order_stopped (E : env) (w : world) (a : addr) (acc : account) (upd : option price_msg) (rq : req_order) (e : error) : Prop :=
  let k := ro_pair rq in
  let opened := opens (ap_amount (held acc k)) (ro_amount rq) in
  e = EPriceLimit /\ (exists p t, told E w upd k = Some (p, t) /\ pl_compare (ro_price_limit rq) p = false) \/
  e = EMissingRequest /\ (exists j, j ∈ ro_activate rq ++ ro_cancel rq /\ request_at w a j = None) \/
  (ro_reduce_only rq = false /\ opened <> 0 /\
   (e = EPairOiTooHigh /\ (exists pc, pair_cfg w k = Some pc /\
       (0 < opened /\ pc_oi_max pc < open_interest_long w k + opened \/ opened < 0 /\ pc_oi_max pc < open_interest_short w k - opened)) \/
    e = EPositionsTooMany /\ (ec_positions_max (g_exchange_config w) < N.of_nat (size (dom (ac_positions acc) ∪ {[k]})))%N \/
    e = EInsufficientMargin)) \/
  let traded := order_change (ap_amount (held acc k)) (ro_amount rq) (ro_reduce_only rq) in
  e = ESlippageLimit /\ (exists p t, told E w upd k = Some (p, t) /\
    let value := mul p (Z.abs traded) in ~ within_slippage (ro_slippage rq) (mul value (ec_fee_max (g_exchange_config w))) value) \/
  e = ESkewTooHigh /\ (exists p t, told E w upd k = Some (p, t) /\
    let imbalance := open_interest_long w k - open_interest_short w k in Z.abs (mul imbalance p) <= Z.abs (mul (imbalance + traded) p)).
(** What stops a withdrawal: more is claimed of something than is held, or of base tokens than the pool has; nothing (or less) of a token is
    claimed; the target does not take the tokens; the margin. *)
Definition withdrawal_stopped (E : env) (cx : ctx) (w : world) (acc : account) (rq : req_remove) (e : error) : Prop :=
  let claimed r := amount_in r (rr_claims rq) in
  e = EWithdrawalInsufficientBalance /\ (exists r, r ∈ map fst (rr_claims rq) /\ (if (r =? BASE)%N then ac_vb acc else default 0 (ac_coll acc !! r)) < claimed r) \/
  e = EWithdrawalInsufficientPoolTokens /\ po_base (w_pool w) < claimed BASE \/
  e = EEngine /\ (exists r, r ∈ map fst (rr_claims rq) /\ claimed r <= 0) \/
  e = EInvalidAccount /\ (exists toks, cx_accepts cx (rr_target rq) toks = false /\ forall r, amount_in r toks = Z.quot (claimed r) (10 ^ (18 - divis E r)) * 10 ^ (18 - divis E r)) \/
  e = EInsufficientMargin.
(** ** Liquidity *)
(** The LP tokens minted for [x] base tokens, and the base tokens paid for [l] LP tokens, in the state [w]. *)
Definition lp_for (w : world) (x : Z) : Z :=
  let left := x - mul x (ec_fee_liquidity_add (g_exchange_config w)) in
  if w_lp w =? 0 then left else Z.quot (left * 10 ^ 18) (Z.quot (Z.max (pool_value w) (10 ^ 18) * 10 ^ 18) (w_lp w)).
Definition redeemed (w : world) (l : Z) : Z := mul l (Z.quot (Z.max (pool_value w) 0 * 10 ^ 18) (w_lp w)).
Definition redemption_fee (w : world) (l : Z) : Z := mul (redeemed w l) (ec_fee_liquidity_remove (g_exchange_config w)).
(** What is left of the pool's value when [l] LP tokens are redeemed: less what is paid, and the shares of the fee that are not the pool's. *)
Definition value_left (w : world) (l : Z) : Z :=
  pool_value w - (redeemed w l - redemption_fee w l) - mul (redemption_fee w l) (ec_fee_share_protocol (g_exchange_config w)) - mul (redemption_fee w l) (ec_fee_share_treasury (g_exchange_config w)).
(** The caller's role, the exchange's badge and the bucket handed over. *)
Definition at_the_gate (E : env) (cx : ctx) (w : world) (r : role) (bs : list bucket) (e : error) : Prop :=
  e = EAuth /\ has_role cx w r = false \/ e = EEngine /\ (w_auth w < 1 \/ exists b, b ∈ bs /\ bad_bucket E b).
