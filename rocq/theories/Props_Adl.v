(** * C28, C29: auto-deleveraging; C20, C21, C49 for the fees and the funding it charges. *)
From Verif Require Import Base DFloat Lists Types Config Oracle Pool Account Fees Referral ExInternal Exchange System Scenario Sums Trace Frames Calls Shape Spec SpecOracle SpecTrading SpecMargin SpecLiq P_Ledger P_DFloat Witness Props_Config P_Fees P_Keeper P_Orders P_Final Trading P_Longs P_Adl P_Liq.

(** C28. A deleveraging succeeds only on an open position, only with the skew ratio above the cap and the position's
    profit ratio above the threshold; it closes the position completely, touches no other position or account,
    pays the position's profit, and strictly lowers the skew ratio. *)
Theorem C28_conditional_and_total E cx w a k upd w' out acc pc : reachable E w -> step E cx w (OAutoDeleverage a k upd) = Ok (w', out) -> w_accounts w !! a = Some acc -> pair_cfg w k = Some pc ->
  let ec := g_exchange_config w in let price := price_of w' k in let sr := marked_skew_ratio w w' a k price in
  size_of w a k <> 0 /\ ec_skew_ratio_cap ec < sr /\ adl_threshold ec sr < profit_ratio price (position w a k) /\
  size_of w' a k = 0 /\ (forall k', k' <> k -> position w' a k' = position w a k') /\ (forall b, b <> a -> w_accounts w' !! b = w_accounts w !! b) /\
  balance w' a = balance w a + profit ec pc (funded w w' k) (fee_share w acc) price (position w a k) /\ skew_ratio w' < sr.
Proof.
  intros Hr H Ha Hpc. cbv zeta. destruct (adl_call_intro _ _ _ _ _ _ _ _ Hr H) as (acc1 & acc' & fee & e & D). pose proof (ad_acc _ _ _ _ _ _ _ _ _ _ D) as Ha1. rewrite Ha in Ha1. injection Ha1 as <-.
  destruct (ad_nz _ _ _ _ _ _ _ _ _ _ D) as (N1 & _ & _). destruct (ad_pair _ _ _ _ _ _ _ _ _ _ D) as (pc1 & P1 & P2 & _). rewrite Hpc in P1. injection P1 as <-.
  split; [exact N1|]. split; [exact (ad_cap _ _ _ _ _ _ _ _ _ _ D)|]. split; [exact (ad_threshold _ _ _ _ _ _ _ _ _ _ D)|]. split; [exact (ad_size _ _ _ _ _ _ _ _ _ _ D)|]. split; [exact (ad_oth _ _ _ _ _ _ _ _ _ _ D)|]. split; [exact (ad_acc_oth _ _ _ _ _ _ _ _ _ _ D)|].
  split; [exact P2|exact (ad_lower _ _ _ _ _ _ _ _ _ _ D)].
Qed.
(** The pool's open interest falls by exactly the position. *)
Theorem C28_open_interest E cx w a k upd w' out : reachable E w -> step E cx w (OAutoDeleverage a k upd) = Ok (w', out) ->
  pp_oi_long (pool_pair w' k) = pp_oi_long (pool_pair w k) - Z.max 0 (size_of w a k) /\ pp_oi_short (pool_pair w' k) = pp_oi_short (pool_pair w k) - Z.max 0 (- size_of w a k).
Proof. intros Hr H. destruct (adl_call_intro _ _ _ _ _ _ _ _ Hr H) as (acc1 & acc' & fee & e & D). destruct (ad_pool _ _ _ _ _ _ _ _ _ _ D) as (P1 & P2 & _). auto. Qed.
(** The threshold never grows with the skew ratio. *)
Lemma mul_mono a b c d : 0 <= a <= b -> 0 <= c <= d -> 0 <= mul a c <= mul b d.
Proof. intros H1 H2. unfold mul. assert (0 < 10 ^ 18) by reflexivity. split; [apply Z.quot_pos; nia|apply Z.quot_le_mono; nia]. Qed.
Lemma mul_neg a b : mul a (- b) = - mul a b.
Proof. unfold mul. rewrite Z.mul_opp_r. apply Z.quot_opp_l. discriminate. Qed.
Lemma mul_neg2 u : mul (- u) (- u) = mul u u.
Proof. unfold mul. rewrite Z.mul_opp_opp. reflexivity. Qed.
Lemma cube_mono u v : u <= v -> mul (mul u u) u <= mul (mul v v) v.
Proof.
  intros H. assert (forall x, 0 <= x -> 0 <= mul (mul x x) x) as Hp. { intros x Hx. pose proof (mul_mono x x x x ltac:(lia) ltac:(lia)). apply (mul_mono (mul x x) (mul x x) x x); lia. }
  destruct (Z.le_gt_cases 0 u) as [Hu|Hu].
  - pose proof (mul_mono u v u v ltac:(lia) ltac:(lia)). apply (mul_mono (mul u u) (mul v v) u v); lia.
  - set (u' := - u). assert (mul (mul u u) u = - mul (mul u' u') u') as -> by (unfold u'; rewrite mul_neg2, mul_neg; lia).
    pose proof (Hp u' ltac:(unfold u'; lia)). destruct (Z.le_gt_cases 0 v) as [Hv|Hv]; [pose proof (Hp v Hv); lia|].
    set (v' := - v). assert (mul (mul v v) v = - mul (mul v' v') v') as -> by (unfold v'; rewrite mul_neg2, mul_neg; lia).
    assert (0 <= v' <= u') as Hvu by (unfold u', v'; lia). pose proof (mul_mono v' u' v' u' Hvu Hvu). pose proof (mul_mono (mul v' v') (mul u' u') v' u'). lia.
Qed.
Theorem C28_threshold_decreasing E w s1 s2 : reachable E w -> let ec := g_exchange_config w in ec_adl_a ec <> 0 -> s1 <= s2 -> adl_threshold ec s2 <= adl_threshold ec s1.
Proof.
  intros Hr ec Ha Hs. pose proof (ec_valid_shares _ (C40_exchange_config _ _ Hr)) as (_ & _ & _ & _ & _ & _ & _ & _ & _ & _ & V1 & V2 & _). fold ec in V1, V2.
  unfold adl_threshold. cbv zeta. set (u1 := Z.quot (s1 * 10 ^ 18) (ec_adl_a ec) - Z.quot (ec_adl_offset ec * 10 ^ 18) (ec_adl_a ec)). set (u2 := Z.quot (s2 * 10 ^ 18) (ec_adl_a ec) - Z.quot (ec_adl_offset ec * 10 ^ 18) (ec_adl_a ec)).
  assert (u1 <= u2) as Hu. { unfold u1, u2. assert (0 < 10 ^ 18) by reflexivity. assert (Z.quot (s1 * 10 ^ 18) (ec_adl_a ec) <= Z.quot (s2 * 10 ^ 18) (ec_adl_a ec)) by (apply Z.quot_le_mono; nia). lia. }
  pose proof (cube_mono _ _ Hu). assert (mul (ec_adl_b ec) u1 <= mul (ec_adl_b ec) u2); [|lia]. unfold mul. apply Z.quot_le_mono; [reflexivity|]. nia.
Qed.
(** With adl_a = 0, which the validation of the configuration accepts, no position can be deleveraged at all. *)
Theorem C28_zero_a_disables E cx w a k upd : reachable E w -> ec_adl_a (g_exchange_config w) = 0 -> forall r, step E cx w (OAutoDeleverage a k upd) <> Ok r.
Proof. intros Hr H0 [w' out] H. destruct (adl_call_intro _ _ _ _ _ _ _ _ Hr H) as (acc1 & acc' & fee & e & D). destruct (ad_nz _ _ _ _ _ _ _ _ _ _ D) as (_ & _ & N). contradiction. Qed.

(** C29. For a long, the ratio has the sign of the profit: positive only in profit, negative only at a loss. *)
Lemma quot_0_r x : Z.quot x 0 = 0. Proof. destruct x; reflexivity. Qed.
Lemma quot_pos_inv n d : 0 <= d -> 0 < Z.quot (n * 10 ^ 18) d -> 0 < n.
Proof.
  intros Hd H. destruct (Z.eq_dec d 0) as [->|Hn]; [rewrite quot_0_r in H; lia|]. destruct (Z.lt_ge_cases 0 n) as [|Hle]; [assumption|]. exfalso. assert (Z.quot (n * 10 ^ 18) d <= 0); [|lia].
  assert (n * 10 ^ 18 = - ((- n) * 10 ^ 18)) as -> by lia. rewrite Z.quot_opp_l by lia. pose proof (Z.quot_pos ((- n) * 10 ^ 18) d). lia.
Qed.
Theorem C29_long_ratio_sign E w a k price : reachable E w -> 0 < size_of w a k -> let pos := position w a k in
  (0 < profit_ratio price pos -> ap_cost pos < mul (ap_amount pos) price) /\ (profit_ratio price pos < 0 -> mul (ap_amount pos) price < ap_cost pos).
Proof.
  intros Hr Hs pos. pose proof (longs_reachable _ _ Hr a k Hs) as Hc. fold pos in Hc. unfold profit_ratio. split; intros H.
  - apply quot_pos_inv in H; lia.
  - pose proof (quot_pos_inv (ap_cost pos - mul (ap_amount pos) price) (ap_cost pos) Hc) as HH. apply Z.lt_0_sub, HH.
    replace ((ap_cost pos - mul (ap_amount pos) price) * 10 ^ 18) with (- ((mul (ap_amount pos) price - ap_cost pos) * 10 ^ 18)) by lia.
    destruct (Z.eq_dec (ap_cost pos) 0) as [E0|E0]; [exfalso; rewrite E0, quot_0_r in H; lia|]. rewrite Z.quot_opp_l by exact E0. lia.
Qed.
(** Hence a long deleveraged at a non-negative threshold is in profit at the call's price. *)
Theorem C29_long_deleveraged_in_profit E cx w a k upd w' out : reachable E w -> step E cx w (OAutoDeleverage a k upd) = Ok (w', out) -> 0 < size_of w a k ->
  0 <= adl_threshold (g_exchange_config w) (marked_skew_ratio w w' a k (price_of w' k)) -> ap_cost (position w a k) < mul (size_of w a k) (price_of w' k).
Proof.
  intros Hr H Hs Ht. destruct (adl_call_intro _ _ _ _ _ _ _ _ Hr H) as (acc1 & acc' & fee & e & D). pose proof (ad_threshold _ _ _ _ _ _ _ _ _ _ D) as Hth.
  apply (C29_long_ratio_sign E w a k (price_of w' k) Hr Hs). lia.
Qed.
(** For a short (negative cost) the sign is the opposite: the ratio is positive only at a loss, negative only in profit. *)
Theorem C29_short_ratio_inverted price pos : ap_cost pos < 0 ->
  (0 < profit_ratio price pos -> mul (ap_amount pos) price < ap_cost pos) /\ (profit_ratio price pos < 0 -> ap_cost pos < mul (ap_amount pos) price).
Proof.
  intros Hc. unfold profit_ratio. set (n := mul (ap_amount pos) price - ap_cost pos). assert (Z.quot (n * 10 ^ 18) (ap_cost pos) = Z.quot ((- n) * 10 ^ 18) (- ap_cost pos)) as ->.
  { replace (- n * 10 ^ 18) with (- (n * 10 ^ 18)) by lia. rewrite Z.quot_opp_opp by lia. reflexivity. }
  split; intros H.
  - apply quot_pos_inv in H; unfold n in *; lia.
  - assert (0 < Z.quot (n * 10 ^ 18) (- ap_cost pos)) as H2. { replace (- n * 10 ^ 18) with (- (n * 10 ^ 18)) in H by lia. rewrite Z.quot_opp_l in H by lia. lia. } apply quot_pos_inv in H2; unfold n in *; lia.
Qed.

(** ** Witnesses and the refutation for shorts *)
Definition adl_config (cap off : Z) : exchange_config := let d := exchange_config_default in
  mkEC 30 5 100 cap off (ec_adl_a d) (ec_adl_b d) (ec_fee_liquidity_add d) (ec_fee_liquidity_remove d) (ec_fee_share_protocol d) (ec_fee_share_treasury d) (ec_fee_share_referral d) (ec_fee_max d) (ec_protocol_burn_amount d) (ec_reward_keeper d).
Definition adl_history : list (ctx * op) := [(cx_owner, OUpdateExchangeConfig (adl_config (dec 1 / 1000) (7 * dec 1 / 100))); (cx_any, OAdvance 1030)].
Definition WA := get (go sc_env sc_w5 adl_history).
Lemma WA_ok : go sc_env sc_w5 adl_history = Ok WA. Proof. apply okb_get. vm_compute. reflexivity. Qed.
Lemma WA_reach : reachable sc_env WA. Proof. apply go_reachable; [vm_compute; reflexivity|]. intros w H. rewrite W5_ok in H. apply Ok_inj in H. subst w. exact W5_reach. Qed.
Definition adl_history2 : list (ctx * op) := [(cx_owner, OUpdateExchangeConfig (adl_config (dec 1 / 1000) (4 * dec 1 / 100))); (cx_any, OAdvance 1030)].
Definition WB := get (go sc_env sc_w2 adl_history2).
Lemma WB_ok : go sc_env sc_w2 adl_history2 = Ok WB. Proof. apply okb_get. vm_compute. reflexivity. Qed.
Lemma WB_reach : reachable sc_env WB. Proof. apply go_reachable; [vm_compute; reflexivity|]. intros w H. rewrite W2_ok in H. apply Ok_inj in H. subst w. exact W2_reach. Qed.
Global Opaque WA WB.
(** C28 and the long half of C29: a long of 2 with a positive threshold is deleveraged in profit. *)
Example C28_C29_ex : reachable sc_env WB /\ exists w' out, step sc_env cx_any WB (OAutoDeleverage A2 1%N (msg 31000%N 2000%N 1029%N)) = Ok (w', out) /\ size_of WB A2 1%N = dec 2 /\
  0 < adl_threshold (g_exchange_config WB) (marked_skew_ratio WB w' A2 1%N (price_of w' 1%N)) /\ balance WB A2 < balance w' A2.
Proof.
  split; [exact WB_reach|].
  destruct (try_true WB (cx_any, OAutoDeleverage A2 1%N (msg 31000%N 2000%N 1029%N)) (fun w' _ => (size_of WB A2 1%N =? dec 2) && (0 <? adl_threshold (g_exchange_config WB) (marked_skew_ratio WB w' A2 1%N (price_of w' 1%N))) && (balance WB A2 <? balance w' A2)))
    as (w' & out & H & Hf); [vm_compute; reflexivity|].
  apply andb_true_iff in Hf as [Hf H3]. apply andb_true_iff in Hf as [H1 H2]. apply Z.eqb_eq in H1. apply Z.ltb_lt in H2, H3. exists w', out. auto.
Qed.
(** C29 refuted for shorts: in one reachable state, the same short of 3 is forcibly closed at a loss of over 3000 when the price is above its entry,
    with a positive threshold, and is refused with "profit below threshold" when the price is below its entry, however far: at half the price it is worth 44000 more. *)
Theorem C29_refuted_for_shorts : reachable sc_env WA /\ size_of WA A5 1%N = - dec 3 /\
  (exists w' out, step sc_env cx_any WA (OAutoDeleverage A5 1%N (msg 31000%N 2000%N 1029%N)) = Ok (w', out) /\
     0 < adl_threshold (g_exchange_config WA) (marked_skew_ratio WA w' A5 1%N (price_of w' 1%N)) /\
     mul (size_of WA A5 1%N) (price_of w' 1%N) < ap_cost (position WA A5 1%N) /\ balance w' A5 < balance WA A5 - dec 3000) /\
  step sc_env cx_any WA (OAutoDeleverage A5 1%N (msg 15000%N 2000%N 1029%N)) = Err EAdlPnlBelowThreshold /\
  ap_cost (position WA A5 1%N) + dec 44000 < mul (size_of WA A5 1%N) (dec 15000).
Proof.
  split; [exact WA_reach|].
  assert ((size_of WA A5 1%N =? - dec 3) && match step sc_env cx_any WA (OAutoDeleverage A5 1%N (msg 15000%N 2000%N 1029%N)) with Err EAdlPnlBelowThreshold => true | _ => false end &&
     (ap_cost (position WA A5 1%N) + dec 44000 <? mul (size_of WA A5 1%N) (dec 15000)) = true) as Hc by (vm_compute; reflexivity).
  apply andb_true_iff in Hc as [Hc C3]. apply andb_true_iff in Hc as [C1 C2]. apply Z.eqb_eq in C1. apply Z.ltb_lt in C3. split; [exact C1|]. split.
  2: { split; [|exact C3]. destruct (step sc_env cx_any WA (OAutoDeleverage A5 1%N (msg 15000%N 2000%N 1029%N))) as [x|[]]; try (exfalso; exact (Bool.diff_false_true C2)). reflexivity. }
  destruct (try_true WA (cx_any, OAutoDeleverage A5 1%N (msg 31000%N 2000%N 1029%N)) (fun w' _ => (0 <? adl_threshold (g_exchange_config WA) (marked_skew_ratio WA w' A5 1%N (price_of w' 1%N))) &&
     (mul (size_of WA A5 1%N) (price_of w' 1%N) <? ap_cost (position WA A5 1%N)) && (balance w' A5 <? balance WA A5 - dec 3000))) as (w' & out & H & Hf); [vm_compute; reflexivity|].
  apply andb_true_iff in Hf as [Hf H3]. apply andb_true_iff in Hf as [H1 H2]. apply Z.ltb_lt in H1, H2, H3. exists w', out. auto.
Qed.

(** ** Fees and funding of a deleveraging *)
Definition adl_fee (e : ev_adl) : Z := - (ea_fee_pool e + ea_fee_protocol e + ea_fee_treasury e + ea_fee_referral e).
Theorem C20_adl_fee_bounds E cx w a k upd w' out acc pc : reachable E w -> step E cx w (OAutoDeleverage a k upd) = Ok (w', out) -> w_accounts w !! a = Some acc -> pair_cfg w k = Some pc ->
  exists e rest, o_events out = EvAutoDeleverage e :: rest /\
    adl_fee e = trading_fee (g_exchange_config w) pc (pool_pair w k) (fee_share w acc) (price_of w' k) (mul (- size_of w a k) (price_of w' k)) /\
    0 <= adl_fee e <= mul (Z.abs (mul (size_of w a k) (price_of w' k))) (ec_fee_max (g_exchange_config w)).
Proof.
  intros Hr H Ha Hpc. destruct (adl_call_intro _ _ _ _ _ _ _ _ Hr H) as (acc1 & acc' & fee & e & D). pose proof (ad_acc _ _ _ _ _ _ _ _ _ _ D) as Ha1. rewrite Ha in Ha1. injection Ha1 as <-.
  destruct (ad_pair _ _ _ _ _ _ _ _ _ _ D) as (pc1 & P1 & _ & P3). rewrite Hpc in P1. injection P1 as <-. destruct (ad_ev _ _ _ _ _ _ _ _ _ _ D) as ((rest & Hev) & _ & _ & _ & _ & _ & _ & _ & Hf & _).
  exists e, rest. split; [exact Hev|]. unfold adl_fee. rewrite Hf. split; [exact P3|exact (ad_fee _ _ _ _ _ _ _ _ _ _ D)].
Qed.
Theorem C21_adl_fee_split_exact E cx w a k upd w' out : reachable E w -> step E cx w (OAutoDeleverage a k upd) = Ok (w', out) ->
  exists e rest, o_events out = EvAutoDeleverage e :: rest /\
    (* the trader pays the fee out of the profit *)
    balance w' a = balance w a + (mul (size_of w a k) (price_of w' k) - ap_cost (position w a k)) + ea_funding e - adl_fee e /\
    fd_protocol (w_fd w') = fd_protocol (w_fd w) - ea_fee_protocol e /\ fd_treasury (w_fd w') = fd_treasury (w_fd w) - ea_fee_treasury e /\
    referral_balance w' a = referral_balance w a - ea_fee_referral e /\
    po_vb (w_pool w') = po_vb (w_pool w) - (balance w' a - balance w a) + ea_fee_protocol e + ea_fee_treasury e + ea_fee_referral e /\
    ea_fee_pool e <= 0 /\ ea_fee_protocol e <= 0 /\ ea_fee_treasury e <= 0 /\ ea_fee_referral e <= 0 /\
    - ea_fee_protocol e = mul (adl_fee e) (ec_fee_share_protocol (g_exchange_config w)) /\ - ea_fee_treasury e = mul (adl_fee e) (ec_fee_share_treasury (g_exchange_config w)).
Proof.
  intros Hr H. destruct (adl_call_intro _ _ _ _ _ _ _ _ Hr H) as (acc & acc' & fee & e & D). destruct (ad_ev _ _ _ _ _ _ _ _ _ _ D) as ((rest & Hev) & V1 & V2 & V3 & V4 & V5 & V6 & V7 & V8 & V9 & V10 & V11 & V12 & V13 & V14 & V15).
  exists e, rest. split; [exact Hev|]. pose proof (ad_fee _ _ _ _ _ _ _ _ _ _ D) as Hfee. pose proof (shares_bounds _ _ fee acc Hr (proj1 Hfee)) as (B1 & B2 & B3 & B4). cbv zeta in *. unfold adl_fee. rewrite V8.
  destruct (ad_pair _ _ _ _ _ _ _ _ _ _ D) as (pc1 & P1 & P2 & P3). unfold profit in P2.
  assert (trading_fee (g_exchange_config w) pc1 (funded w w' k) (fee_share w acc) (price_of w' k) (mul (- ap_amount (position w a k)) (price_of w' k)) = fee) as Ef. { rewrite P3. apply trading_fee_net. reflexivity. }
  assert (funding_owed (funded w w' k) (position w a k) = - ea_funding e) as Eo. { rewrite V6, Z.opp_involutive. unfold funding_owed, side_index, funded. reflexivity. }
  rewrite Ef, Eo in P2. change mul with mulq in *. unfold size_of in *.
  split; [lia|]. split; [exact V9|]. split; [exact V10|]. split; [exact V14|]. split; [lia|]. split; [lia|]. split; [lia|]. split; [lia|]. split; [lia|]. split; lia.
Qed.
Theorem C49_adl_settles_funding E cx w a k upd w' out : reachable E w -> step E cx w (OAutoDeleverage a k upd) = Ok (w', out) ->
  exists e rest, o_events out = EvAutoDeleverage e :: rest /\ ea_funding e = - funding_owed (pool_pair w' k) (position w a k) /\ balance w' a = balance w a + ea_pnl e /\ funding_owed (pool_pair w' k) (position w' a k) = 0.
Proof.
  intros Hr H. destruct (adl_call_intro _ _ _ _ _ _ _ _ Hr H) as (acc & acc' & fee & e & D). destruct (ad_ev _ _ _ _ _ _ _ _ _ _ D) as ((rest & Hev) & V1 & V2 & V3 & V4 & V5 & V6 & _).
  exists e, rest. split; [exact Hev|]. split; [exact V6|]. split; [exact V5|]. pose proof (ad_size _ _ _ _ _ _ _ _ _ _ D) as Hz. unfold size_of in Hz. unfold funding_owed. rewrite Hz. reflexivity.
Qed.
