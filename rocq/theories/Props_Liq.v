(** * C15, C16: liquidation; C20, C21 for the fees a liquidation charges. *)
From Verif Require Import Base DFloat Lists Types Config Oracle Pool Account Fees Referral ExInternal Exchange System Scenario Sums Trace Frames Calls Shape Spec SpecOracle SpecTrading SpecMargin SpecLiq SpecRequests P_Ledger P_Accounts P_DFloat Witness Props_Config Frames2 P_Fees P_Refs P_Tokens P_Requests P_Requests2 P_Requests3 Trading P_Positions P_Positions2 P_Oracle P_Keeper P_Orders P_Final P_OrderCall P_Coll P_Remove P_Margin P_Whole P_Liq Props_Oracle Props_Orders Props_Collateral Props_Requests.

(** C15. A liquidation succeeds only if the account's value, with funding brought up to date and at
    the prices the call used (which it leaves in the oracle), is below the maintenance margin. *)
Theorem C15_only_below_maintenance E cx w a payment upd w' out acc : reachable E w -> step E cx w (OLiquidate a payment upd) = Ok (w', out) -> w_accounts w !! a = Some acc ->
  account_value_at (funded w w') w' acc < maintenance_margin w' acc.
Proof. intros Hr H Ha. destruct (liq_call_intro _ _ _ _ _ _ _ _ Hr H) as (acc1 & acc' & paid & L). pose proof (lq_acc _ _ _ _ _ _ _ _ _ _ L) as Ha1. rewrite Ha in Ha1. injection Ha1 as <-. exact (lq_below _ _ _ _ _ _ _ _ _ _ L). Qed.
(** The two numbers compared are the ones the event reports. *)
Theorem C15_reported E cx w a payment upd w' out acc : reachable E w -> step E cx w (OLiquidate a payment upd) = Ok (w', out) -> w_accounts w !! a = Some acc ->
  exists e, In (EvLiquidate e) (o_events out) /\ el_account e = a /\ el_account_value e = account_value_at (funded w w') w' acc /\ el_margin e = maintenance_margin w' acc /\ el_account_value e < el_margin e.
Proof.
  intros Hr H Ha. destruct (liq_call_intro _ _ _ _ _ _ _ _ Hr H) as (acc1 & acc' & paid & L). pose proof (lq_acc _ _ _ _ _ _ _ _ _ _ L) as Ha1. rewrite Ha in Ha1. injection Ha1 as <-.
  destruct (lq_ev _ _ _ _ _ _ _ _ _ _ L) as (e & E1 & E2 & E3 & E4 & _). exists e. split; [exact E1|]. split; [exact E2|]. split; [exact E3|]. split; [exact E4|]. rewrite E3, E4. exact (lq_below _ _ _ _ _ _ _ _ _ _ L).
Qed.
(** C16. What a liquidation leaves: no position, no debt, none of the configured collateral, no request that could
    still be executed; the liquidator paid the discounted value of the collateral and got exactly that collateral. *)
Theorem C16_clean_account E cx w a payment upd w' out acc : reachable E w -> step E cx w (OLiquidate a payment upd) = Ok (w', out) -> w_accounts w !! a = Some acc ->
  exists acc' paid, w_accounts w' !! a = Some acc' /\
    ac_positions acc' = ∅ /\
    ac_vb acc' = Z.max 0 (ac_vb acc + positions_profit (funded w w') w' acc + paid) /\ 0 <= ac_vb acc' /\
    (forall r, coll_cfg w r <> None -> recorded acc' r = 0) /\ (forall r, coll_cfg w r = None -> recorded acc' r = recorded acc r) /\
    active_set w' a = ∅ /\ valid_start w' a = request_count w' a /\
    b_res payment = BASE /\ collateral_total cc_discount w' acc <= paid <= b_amt payment /\ po_base (w_pool w') = po_base (w_pool w) + paid /\
    (forall r, amount_in r (o_tokens out) = (match coll_cfg w r with Some _ => recorded acc r | None => 0 end)
        + (if (r =? BASE)%N then b_amt payment - paid else 0) + (if (r =? KEEPER_REWARD)%N then keeper_reward w else 0)).
Proof.
  intros Hr H Ha. destruct (liq_call_intro _ _ _ _ _ _ _ _ Hr H) as (acc1 & acc' & paid & L). pose proof (lq_acc _ _ _ _ _ _ _ _ _ _ L) as Ha1. rewrite Ha in Ha1. injection Ha1 as <-.
  assert (forall r, coll_cfg w' r = coll_cfg w r) as Ecc. { intros r. unfold coll_cfg, g_collateral_configs. rewrite (lq_config _ _ _ _ _ _ _ _ _ _ L). reflexivity. }
  exists acc', paid. pose proof (lq_acc' _ _ _ _ _ _ _ _ _ _ L) as Ha'. split; [exact Ha'|]. split; [exact (lq_pos _ _ _ _ _ _ _ _ _ _ L)|]. pose proof (lq_vb _ _ _ _ _ _ _ _ _ _ L) as Hvb. split; [exact Hvb|]. split; [lia|].
  split; [intros r Hc; rewrite (lq_coll _ _ _ _ _ _ _ _ _ _ L r), Ecc; destruct (coll_cfg w r); [reflexivity|contradiction]|]. split; [intros r Hc; rewrite (lq_coll _ _ _ _ _ _ _ _ _ _ L r), Ecc, Hc; reflexivity|].
  destruct (liquidate_vstart _ _ _ _ _ _ _ _ Hr H) as (acc2 & acc3 & A2 & A3 & Hvs & Hlen). rewrite Ha in A2. injection A2 as <-. rewrite Ha' in A3. injection A3 as <-.
  pose proof (acc_ok_reachable _ _ (reach_step _ _ _ _ _ _ Hr H) _ _ Ha') as Hok.
  split. { unfold active_set. rewrite Ha'. apply stdpp.sets.set_eq. intros i. rewrite (ok_active _ Hok i). split; [|intros Hi; set_solver]. intros [Hi (r & Hg & _)]. exfalso. rewrite Hvs, <- Hlen in Hi. assert (i < kl_len (ac_requests acc'))%N; [|lia]. apply (ok_list _ Hok). unfold kl_get in Hg. eauto. }
  split; [unfold valid_start, request_count; rewrite Ha', Hvs; symmetry; exact Hlen|].
  destruct (lq_base _ _ _ _ _ _ _ _ _ _ L) as [Hb1 Hb2]. split; [exact Hb1|]. pose proof (lq_paid _ _ _ _ _ _ _ _ _ _ L) as Hp. split; [lia|]. split; [exact (lq_pbase _ _ _ _ _ _ _ _ _ _ L)|].
  intros r. rewrite (lq_tokens _ _ _ _ _ _ _ _ _ _ L r), Ecc. reflexivity.
Qed.
(** C16. The pool's open interest falls by exactly the sizes of the account's positions, and its recorded cost by theirs. *)
Theorem C16_open_interest E cx w a payment upd w' out k : reachable E w -> step E cx w (OLiquidate a payment upd) = Ok (w', out) ->
  open_interest_long w' k = open_interest_long w k - Z.max 0 (size_of w a k) /\ open_interest_short w' k = open_interest_short w k - Z.max 0 (- size_of w a k) /\
  (forall b, b <> a -> w_accounts w' !! b = w_accounts w !! b) /\ size_of w' a k = 0.
Proof.
  intros Hr H. destruct (liq_call_intro _ _ _ _ _ _ _ _ Hr H) as (acc & acc' & paid & L). pose proof (lq_acc _ _ _ _ _ _ _ _ _ _ L) as Ha. pose proof (lq_acc' _ _ _ _ _ _ _ _ _ _ L) as Ha'.
  destruct (lq_pool _ _ _ _ _ _ _ _ _ _ L k) as (P1 & P2 & _). unfold size_of, position. rewrite Ha, Ha'. unfold held at 3. rewrite (lq_pos _ _ _ _ _ _ _ _ _ _ L), lookup_empty.
  assert (forall w0, open_interest_long w0 k = pp_oi_long (pool_pair w0 k) /\ open_interest_short w0 k = pp_oi_short (pool_pair w0 k)) as Hoi.
  { intros w0. unfold open_interest_long, open_interest_short, pair_field, pool_pair. destruct (po_positions (w_pool w0) !! k); split; reflexivity. }
  destruct (Hoi w) as [-> ->]. destruct (Hoi w') as [-> ->]. split; [exact P1|]. split; [exact P2|]. split; [exact (lq_oth _ _ _ _ _ _ _ _ _ _ L)|reflexivity].
Qed.

Lemma trading_fee_bounds E w pc pp share price value : reachable E w -> 0 <= trading_fee (g_exchange_config w) pc pp share price value <= mul (Z.abs value) (ec_fee_max (g_exchange_config w)).
Proof.
  intros Hr. pose proof (ec_valid_shares _ (C40_exchange_config _ _ Hr)) as (_ & _ & _ & _ & _ & V & _). unfold trading_fee. cbv zeta. split; [apply Z.le_max_l|]. apply Z.max_lub; [|apply Z.le_min_r].
  unfold mul. apply Z.quot_pos; [|reflexivity]. apply Z.mul_nonneg_nonneg; [apply Z.abs_nonneg|exact V].
Qed.
(** The total fee a liquidation event reports. *)
Definition liquidation_fee (e : ev_liquidate) : Z := - (el_fee_pool e + el_fee_protocol e + el_fee_treasury e + el_fee_referral e).
(** C20. The fee of a liquidation is the sum of the fees of closing each position, each within its bound. *)
Theorem C20_liquidation_fee_bounds E cx w a payment upd w' out acc : reachable E w -> step E cx w (OLiquidate a payment upd) = Ok (w', out) -> w_accounts w !! a = Some acc ->
  exists e, In (EvLiquidate e) (o_events out) /\ liquidation_fee e = msum (fee_term w w' acc) (ac_positions acc) /\
    0 <= liquidation_fee e <= msum (fun k pos => mul (Z.abs (mul (ap_amount pos) (price_of w' k))) (ec_fee_max (g_exchange_config w))) (ac_positions acc).
Proof.
  intros Hr H Ha. destruct (liq_call_intro _ _ _ _ _ _ _ _ Hr H) as (acc1 & acc' & paid & L). pose proof (lq_acc _ _ _ _ _ _ _ _ _ _ L) as Ha1. rewrite Ha in Ha1. injection Ha1 as <-.
  destruct (lq_ev _ _ _ _ _ _ _ _ _ _ L) as (e & E1 & _ & _ & _ & _ & _ & _ & _ & E9 & _). exists e. split; [exact E1|]. split; [exact E9|]. unfold liquidation_fee. rewrite E9.
  pose proof (reach_step _ _ _ _ _ _ Hr H) as Hr'. assert (g_exchange_config w' = g_exchange_config w) as Eec by (unfold g_exchange_config; rewrite (lq_config _ _ _ _ _ _ _ _ _ _ L); reflexivity).
  pose proof (ec_valid_shares _ (C40_exchange_config _ _ Hr)) as (_ & _ & _ & _ & _ & V & _).
  assert (forall k pos, 0 <= fee_term w w' acc k pos <= mul (Z.abs (mul (ap_amount pos) (price_of w' k))) (ec_fee_max (g_exchange_config w))) as Hb.
  { intros k pos. unfold fee_term. destruct (pair_cfg w' k) as [pc|].
    - pose proof (trading_fee_bounds E w' pc (funded w w' k) (fee_share w' acc) (price_of w' k) (mul (- ap_amount pos) (price_of w' k)) Hr') as Ht. rewrite Eec in *. replace (Z.abs (mul (- ap_amount pos) (price_of w' k))) with (Z.abs (mul (ap_amount pos) (price_of w' k))) in Ht; [exact Ht|].
      change mul with mulq. rewrite mulq_neg_l, Z.abs_opp. reflexivity.
    - split; [lia|]. unfold mul at 1. apply Z.quot_pos; [|reflexivity]. apply Z.mul_nonneg_nonneg; [apply Z.abs_nonneg|exact V]. }
  split; [apply msum_nonneg; intros k pos _; apply Hb|apply msum_le; intros k pos _; apply Hb].
Qed.
(** C21. The shares of a liquidation's fee add up to it, none is negative, and what is credited is what is reported. *)
Theorem C21_liquidation_fee_split_exact E cx w a payment upd w' out acc : reachable E w -> step E cx w (OLiquidate a payment upd) = Ok (w', out) -> w_accounts w !! a = Some acc ->
  exists e, In (EvLiquidate e) (o_events out) /\
    (* the trader's balance pays for the closing fees through the positions' profit *)
    balance w' a = balance w a + el_positions_pnl e + el_collateral_value_discounted e - el_pool_loss e /\
    fd_protocol (w_fd w') = fd_protocol (w_fd w) - el_fee_protocol e /\ fd_treasury (w_fd w') = fd_treasury (w_fd w) - el_fee_treasury e /\
    referral_balance w' a = referral_balance w a - el_fee_referral e /\
    po_vb (w_pool w') = po_vb (w_pool w) - (balance w' a - balance w a) + el_fee_protocol e + el_fee_treasury e + el_fee_referral e /\
    el_fee_pool e <= 0 /\ el_fee_protocol e <= 0 /\ el_fee_treasury e <= 0 /\ el_fee_referral e <= 0 /\
    - el_fee_protocol e = mul (liquidation_fee e) (ec_fee_share_protocol (g_exchange_config w)) /\ - el_fee_treasury e = mul (liquidation_fee e) (ec_fee_share_treasury (g_exchange_config w)).
Proof.
  intros Hr H Ha. destruct (C20_liquidation_fee_bounds _ _ _ _ _ _ _ _ _ Hr H Ha) as (e1 & _ & Hf1 & Hf2). destruct (liq_call_intro _ _ _ _ _ _ _ _ Hr H) as (acc1 & acc' & paid & L). pose proof (lq_acc _ _ _ _ _ _ _ _ _ _ L) as Ha1. rewrite Ha in Ha1. injection Ha1 as <-.
  destruct (lq_ev _ _ _ _ _ _ _ _ _ _ L) as (e & E1 & _ & _ & _ & E5 & E6 & E7 & E8 & E9 & E10 & E11 & E12 & E13 & E14 & E15 & E16). exists e. split; [exact E1|].
  rewrite Hf1 in Hf2. unfold liquidation_fee. rewrite E9. unfold balance. rewrite Ha, (lq_acc' _ _ _ _ _ _ _ _ _ _ L). pose proof (lq_vb _ _ _ _ _ _ _ _ _ _ L) as Hvb.
  set (f := msum (fee_term w w' acc) (ac_positions acc)) in *. pose proof (shares_bounds _ _ f acc Hr (proj1 Hf2)) as (B1 & B2 & B3 & B4). cbv zeta in *. change mul with mulq in *.
  split; [lia|]. split; [exact E10|]. split; [exact E11|]. split; [exact E14|]. split; [lia|]. split; [lia|]. split; [lia|]. split; [lia|]. split; [lia|]. split; [lia|lia].
Qed.
(** A liquidation that happens: price down to 17000, the account holds a long of 1 and collateral. *)
Definition WL := get (go sc_env sc_w3 (firstn 2 sc_crash)).
Lemma WL_ok : go sc_env sc_w3 (firstn 2 sc_crash) = Ok WL. Proof. apply okb_get. vm_compute. reflexivity. Qed.
Lemma WL_reach : reachable sc_env WL. Proof. apply go_reachable; [vm_compute; reflexivity|]. intros w H. rewrite W3_ok in H. apply Ok_inj in H. subst w. exact W3_reach. Qed.
Global Opaque WL.
Example C15_C16_ex : reachable sc_env WL /\ exists w' out acc, step sc_env cx_any WL (OLiquidate A2 (BASE, dec 5000) (msg 17000%N 2000%N 87440%N)) = Ok (w', out) /\ w_accounts WL !! A2 = Some acc /\
  size_of WL A2 1%N = dec 1 /\ active_set WL A2 <> ∅ /\ recorded acc 20%N > 0 /\ account_value_at (funded WL w') w' acc < maintenance_margin w' acc /\ ac_vb acc + positions_profit (funded WL w') w' acc < 0.
Proof.
  split; [exact WL_reach|].
  destruct (try_true WL (cx_any, OLiquidate A2 (BASE, dec 5000) (msg 17000%N 2000%N 87440%N)) (fun w' _ => match w_accounts WL !! A2 with Some acc =>
      (size_of WL A2 1%N =? dec 1) && negb (bool_decide (active_set WL A2 = ∅)) && (0 <? recorded acc 20%N) && (ac_vb acc + positions_profit (funded WL w') w' acc <? 0) | None => false end))
    as (w' & out & H & Hf); [vm_compute; reflexivity|]. destruct (w_accounts WL !! A2) as [acc|] eqn:Ha; [|exfalso; exact (Bool.diff_false_true Hf)].
  apply andb_true_iff in Hf as [Hf H4]. apply andb_true_iff in Hf as [Hf H3]. apply andb_true_iff in Hf as [H1 H2]. apply Z.eqb_eq in H1. apply Z.ltb_lt in H3, H4. apply negb_true_iff in H2. apply bool_decide_eq_false in H2.
  exists w', out, acc. split; [exact H|]. split; [reflexivity|]. split; [exact H1|]. split; [exact H2|]. split; [lia|]. split; [exact (C15_only_below_maintenance _ _ _ _ _ _ _ _ _ WL_reach H Ha)|exact H4].
Qed.
(** An account above the margin is not liquidated at the going price. *)
Example C15_not_above : forall r, step sc_env cx_any WL (OLiquidate A2 (BASE, dec 5000) (msg 30300%N 2000%N 87440%N)) <> Ok r.
Proof. intros r. assert (match step sc_env cx_any WL (OLiquidate A2 (BASE, dec 5000) (msg 30300%N 2000%N 87440%N)) with Ok _ => false | Err _ => true end = true) as Hf by (vm_compute; reflexivity). intros H. rewrite H in Hf. exact (Bool.diff_false_true Hf). Qed.
