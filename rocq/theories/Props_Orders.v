(** * Theorems about executing orders: C20, C21, C26, C27, C48, C49 (orders) and C24 (limits). *)
From Verif Require Import Base DFloat Lists Types Config Oracle Pool Account Fees Referral ExInternal Exchange System Scenario Sums Trace Frames Calls Shape Spec SpecOracle SpecTrading SpecMargin P_Ledger P_Accounts P_DFloat Witness Props_Config P_Fees Frames2 Trading P_Positions P_Positions2 P_Oracle P_Keeper P_Orders P_Final P_OrderCall Props_Oracle P_Snaps.

(** Observable quantities of an order call. *)
Lemma oc_price E w w' a rq upd out acc acc' ids c o v s d ev : order_call E w w' a rq upd out acc acc' ids c o v s d ev -> price_of w' (ro_pair rq) = od_price d.
Proof. intros H. destruct (stored_of _ _ _ _ _ _ _ w' _ _ (oc_prices _ _ _ _ _ _ _ _ _ _ _ _ _ _ _ _ H) eq_refl (of_price _ _ _ _ _ _ _ _ (oc_facts _ _ _ _ _ _ _ _ _ _ _ _ _ _ _ _ H))) as (t & Ht). unfold price_of. rewrite Ht. reflexivity. Qed.
Lemma oc_pp' E w w' a rq upd out acc acc' ids c o v s d ev : order_call E w w' a rq upd out acc acc' ids c o v s d ev -> pool_pair w' (ro_pair rq) = od_ppF d.
Proof.
  intros H. apply (pool_pair_cached w' (s_pool s)).
  - rewrite (oc_now _ _ _ _ _ _ _ _ _ _ _ _ _ _ _ _ H). exact (proj1 (oc_si _ _ _ _ _ _ _ _ _ _ _ _ _ _ _ _ H)).
  - exact (oc_pool _ _ _ _ _ _ _ _ _ _ _ _ _ _ _ _ H).
  - exact (proj1 (of_ppF _ _ _ _ _ _ _ _ (oc_facts _ _ _ _ _ _ _ _ _ _ _ _ _ _ _ _ H))).
Qed.
Lemma oc_pp E w w' a rq upd out acc acc' ids c o v s d ev : order_call E w w' a rq upd out acc acc' ids c o v s d ev -> pool_pair w (ro_pair rq) = od_pp0 d.
Proof.
  intros H. pose proof (of_pp0 _ _ _ _ _ _ _ _ (oc_facts _ _ _ _ _ _ _ _ _ _ _ _ _ _ _ _ H)) as Hp. cbn [s_pool] in Hp. rewrite get_pool_cached in Hp; [congruence|].
  rewrite (oc_ids _ _ _ _ _ _ _ _ _ _ _ _ _ _ _ _ H). set_solver.
Qed.
Lemma oc_pos E w w' a rq upd out acc acc' ids c o v s d ev : order_call E w w' a rq upd out acc acc' ids c o v s d ev -> forall k, position w a k = pos_of v k.
Proof. intros H k. unfold position. rewrite (oc_acc _ _ _ _ _ _ _ _ _ _ _ _ _ _ _ _ H). symmetry. apply (st_pos _ _ _ (oc_start _ _ _ _ _ _ _ _ _ _ _ _ _ _ _ _ H)). Qed.
Lemma oc_size' E w w' a rq upd out acc acc' ids c o v s d ev : order_call E w w' a rq upd out acc acc' ids c o v s d ev -> forall k, size_of w' a k = ap_amount (pos_of (s_acc s) k) /\ cost_of w' a k = ap_cost (pos_of (s_acc s) k).
Proof. intros H k. unfold size_of, cost_of, position. rewrite (oc_acc' _ _ _ _ _ _ _ _ _ _ _ _ _ _ _ _ H). split; [apply (rz_amount _ _ (oc_real _ _ _ _ _ _ _ _ _ _ _ _ _ _ _ _ H))|apply (rz_cost _ _ (oc_real _ _ _ _ _ _ _ _ _ _ _ _ _ _ _ _ H))]. Qed.
Lemma oc_bal E w w' a rq upd out acc acc' ids c o v s d ev : order_call E w w' a rq upd out acc acc' ids c o v s d ev -> balance w a = va_vb v /\ balance w' a = va_vb (s_acc s).
Proof. intros H. unfold balance. rewrite (oc_acc _ _ _ _ _ _ _ _ _ _ _ _ _ _ _ _ H), (oc_acc' _ _ _ _ _ _ _ _ _ _ _ _ _ _ _ _ H). split; [symmetry; apply (st_vb _ _ _ (oc_start _ _ _ _ _ _ _ _ _ _ _ _ _ _ _ _ H))|apply (rz_vb _ _ (oc_real _ _ _ _ _ _ _ _ _ _ _ _ _ _ _ _ H))]. Qed.
Lemma oc_ec E w w' a rq upd out acc acc' ids c o v s d ev : order_call E w w' a rq upd out acc acc' ids c o v s d ev -> vc_exchange c = g_exchange_config w.
Proof. intros H. exact (get_config_exchange _ _ _ (oc_config _ _ _ _ _ _ _ _ _ _ _ _ _ _ _ _ H)). Qed.
Lemma oc_pc E w w' a rq upd out acc acc' ids c o v s d ev : order_call E w w' a rq upd out acc acc' ids c o v s d ev -> pair_cfg w (ro_pair rq) = Some (od_pc d).
Proof.
  intros H. pose proof (of_pc _ _ _ _ _ _ _ _ (oc_facts _ _ _ _ _ _ _ _ _ _ _ _ _ _ _ _ H)) as Hp. pose proof (oc_config _ _ _ _ _ _ _ _ _ _ _ _ _ _ _ _ H) as Hc. unfold get_config in Hc. apply vc_new_spec in Hc as (_ & _ & C3 & _).
  destruct (C3 (ro_pair rq)) as (pc & P1 & P2); [rewrite (oc_ids _ _ _ _ _ _ _ _ _ _ _ _ _ _ _ _ H); set_solver|]. rewrite P2 in Hp. injection Hp as <-. unfold pair_cfg.
  match goal with |- _ <$> ?t = _ => assert (t = Some pc) as -> by exact P1 end. reflexivity.
Qed.
Lemma oc_funding E w w' a rq upd out acc acc' ids c o v s d ev : order_call E w w' a rq upd out acc acc' ids c o v s d ev -> funding_owed (od_pp1 d) (pos_of v (ro_pair rq)) = funding_owed (pool_pair w' (ro_pair rq)) (position w a (ro_pair rq)).
Proof.
  intros H. rewrite (oc_pp' _ _ _ _ _ _ _ _ _ _ _ _ _ _ _ _ H), (oc_pos _ _ _ _ _ _ _ _ _ _ _ _ _ _ _ _ H). destruct (of_ppF _ _ _ _ _ _ _ _ (oc_facts _ _ _ _ _ _ _ _ _ _ _ _ _ _ _ _ H)) as (_ & _ & _ & _ & I1 & I2 & _).
  unfold funding_owed, side_index. rewrite I1, I2. reflexivity.
Qed.
Lemma oc_event E w w' a rq upd out acc acc' ids c o v s d ev : order_call E w w' a rq upd out acc acc' ids c o v s d ev -> exists e rest, o_events out = EvMarginOrder e :: rest /\
  eo_account e = a /\ eo_pair e = ro_pair rq /\ eo_price e = price_of w' (ro_pair rq) /\ eo_close e = od_cl d /\ eo_open e = od_op d /\
  eo_funding e = - funding_owed (pool_pair w' (ro_pair rq)) (position w a (ro_pair rq)) /\ eo_pnl e = od_pnl d - funding_owed (pool_pair w' (ro_pair rq)) (position w a (ro_pair rq)) /\
  eo_fee_protocol e = - od_protocol d /\ eo_fee_treasury e = - od_treasury d /\ eo_fee_referral e = - od_referral d /\ eo_fee_pool e = - (od_fee0 d + od_fee1 d - od_protocol d - od_treasury d - od_referral d).
Proof.
  intros H. destruct (of_event _ _ _ _ _ _ _ _ (oc_facts _ _ _ _ _ _ _ _ _ _ _ _ _ _ _ _ H)) as (e & Hev & E1 & E2 & E3 & E4 & E5 & E6 & E7 & E8 & E9 & E10 & E11). exists e. eexists.
  split; [rewrite (oc_out _ _ _ _ _ _ _ _ _ _ _ _ _ _ _ _ H), Hev; reflexivity|].
  rewrite (oc_price _ _ _ _ _ _ _ _ _ _ _ _ _ _ _ _ H), <- (oc_funding _ _ _ _ _ _ _ _ _ _ _ _ _ _ _ _ H). rewrite (oc_addr _ _ _ _ _ _ _ _ _ _ _ _ _ _ _ _ H) in E1. cbn [s_acc] in *. auto 20.
Qed.
Ltac occ Hr H Hx := let H' := fresh "Hoc" in
  destruct (order_call_intro _ _ _ _ _ _ _ _ Hr H Hx) as (?i & ?upd & ?acc & ?acc' & ?ids & ?c & ?vo & ?v & ?s & ?d & ?ev & ?Ho & H').

(** ** C26: orders change the position exactly as asked *)
Theorem C26_order_changes_position_as_asked E cx w o w' out a r : reachable E w -> step E cx w o = Ok (w', out) -> executes_order w o a r ->
  size_of w' a (ro_pair r) = size_of w a (ro_pair r) + order_change (size_of w a (ro_pair r)) (ro_amount r) (ro_reduce_only r) /\
  (forall b k, b <> a \/ k <> ro_pair r -> position w' b k = position w b k).
Proof.
  intros Hr H Hx. occ Hr H Hx. pose proof (oc_facts _ _ _ _ _ _ _ _ _ _ _ _ _ _ _ _ Hoc) as F. pose proof (oc_size' _ _ _ _ _ _ _ _ _ _ _ _ _ _ _ _ Hoc) as Hs. pose proof (oc_pos _ _ _ _ _ _ _ _ _ _ _ _ _ _ _ _ Hoc) as Hp.
  split.
  - rewrite (proj1 (Hs _)). unfold size_of. rewrite Hp. destruct (of_pos _ _ _ _ _ _ _ _ F) as (-> & _). destruct (of_split _ _ _ _ _ _ _ _ F) as (Hsp & _). cbn [s_acc] in *. lia.
  - intros b k Hbk. destruct (decide (b = a)) as [->|Hne].
    + destruct Hbk as [Hbk|Hk]; [contradiction|]. rewrite Hp. pose proof (of_pos_other _ _ _ _ _ _ _ _ F k Hk) as Hq. cbn [s_acc] in Hq. rewrite <- Hq.
      destruct (Z.eq_dec (ap_amount (pos_of (s_acc s) k)) 0) as [H0|H0].
      * unfold position. rewrite (oc_acc' _ _ _ _ _ _ _ _ _ _ _ _ _ _ _ _ Hoc). unfold held. rewrite (rz_none _ _ (oc_real _ _ _ _ _ _ _ _ _ _ _ _ _ _ _ _ Hoc) _ H0).
        rewrite Hq. rewrite Hq in H0. rewrite <- Hp in H0 |- *. unfold position, held in *. rewrite (oc_acc _ _ _ _ _ _ _ _ _ _ _ _ _ _ _ _ Hoc) in *. destruct (ac_positions acc !! k) as [x|] eqn:Hx0; [|reflexivity].
        exfalso. exact (wi_nz _ (WI_reachable _ _ Hr) _ _ (oc_acc _ _ _ _ _ _ _ _ _ _ _ _ _ _ _ _ Hoc) _ _ Hx0 H0).
      * unfold position. rewrite (oc_acc' _ _ _ _ _ _ _ _ _ _ _ _ _ _ _ _ Hoc). exact (proj1 (rz_pos _ _ (oc_real _ _ _ _ _ _ _ _ _ _ _ _ _ _ _ _ Hoc) _ H0)).
    + unfold position. rewrite (oc_oth _ _ _ _ _ _ _ _ _ _ _ _ _ _ _ _ Hoc _ Hne). reflexivity.
Qed.
(** A reduce-only order never flips or enlarges a position, and moves it toward zero by
    min(|amount|, |position|) when the sides oppose. *)
Theorem C26_reduce_only E cx w o w' out a r : reachable E w -> step E cx w o = Ok (w', out) -> executes_order w o a r -> ro_reduce_only r = true ->
  let s := size_of w a (ro_pair r) in let s' := size_of w' a (ro_pair r) in
  Z.abs s' <= Z.abs s /\ 0 <= s * s' /\
  (s * ro_amount r < 0 -> Z.abs s' = Z.abs s - Z.min (Z.abs (ro_amount r)) (Z.abs s)) /\ (0 <= s * ro_amount r -> s' = s).
Proof.
  intros Hr H Hx Hro s s'. destruct (C26_order_changes_position_as_asked _ _ _ _ _ _ _ _ Hr H Hx) as [Hs _]. fold s s' in Hs. rewrite Hro in Hs. unfold order_change in Hs.
  destruct (Z.ltb_spec (s * ro_amount r) 0) as [Hl|Hl]; split; try nia; split; try nia; split; try nia; intros _; rewrite Hs; nia.
Qed.

(** ** C27: price and slippage limits are respected *)
Theorem C27_limits_respected E cx w o w' out a r : reachable E w -> step E cx w o = Ok (w', out) -> executes_order w o a r ->
  within_limit (ro_price_limit r) (price_of w' (ro_pair r)) /\
  exists e rest, o_events out = EvMarginOrder e :: rest /\ eo_price e = price_of w' (ro_pair r) /\
    within_slippage (ro_slippage r) (order_fee e) (mul (price_of w' (ro_pair r)) (Z.abs (size_of w' a (ro_pair r) - size_of w a (ro_pair r)))).
Proof.
  intros Hr H Hx. pose proof (C26_order_changes_position_as_asked _ _ _ _ _ _ _ _ Hr H Hx) as [Hs26 _]. occ Hr H Hx. pose proof (oc_facts _ _ _ _ _ _ _ _ _ _ _ _ _ _ _ _ Hoc) as F.
  rewrite (oc_price _ _ _ _ _ _ _ _ _ _ _ _ _ _ _ _ Hoc). split.
  - pose proof (of_limit _ _ _ _ _ _ _ _ F) as Hl. unfold pl_compare, within_limit in *. destruct (ro_price_limit r); [exact I| |]; apply Z.leb_le; exact Hl.
  - destruct (oc_event _ _ _ _ _ _ _ _ _ _ _ _ _ _ _ _ Hoc) as (e & rest & He & E1 & E2 & E3 & E4 & E5 & E6 & E7 & E8 & E9 & E10 & E11). exists e, rest. split; [exact He|]. split; [rewrite E3; apply (oc_price _ _ _ _ _ _ _ _ _ _ _ _ _ _ _ _ Hoc)|].
    assert (order_fee e = od_fee0 d + od_fee1 d) as -> by (unfold order_fee; lia).
    assert (size_of w' a (ro_pair r) - size_of w a (ro_pair r) = od_op d + od_cl d) as ->.
    { destruct (of_split _ _ _ _ _ _ _ _ F) as (Hsp & _). cbn [s_acc] in Hsp. rewrite <- (oc_pos _ _ _ _ _ _ _ _ _ _ _ _ _ _ _ _ Hoc) in Hsp. unfold size_of in *. lia. }
    pose proof (of_slip _ _ _ _ _ _ _ _ F) as Hsl. unfold sl_compare, sl_allowed, within_slippage in *. destruct (ro_slippage r) as [|p|x]; [exact I| |].
    + bd Hsl as (y & Hy & Hsl). bd Hy as (z & Hz & Hy). apply dmul_mulq in Hz. subst z. inv_step Hy. apply Ok_inj in Hsl. apply Z.leb_le in Hsl.
      rewrite mul_mulq. subst y. unfold dec in Hsl. rewrite Z.quot_mul_cancel_r in Hsl by discriminate. exact Hsl.
    + bd Hsl as (y & Hy & Hsl). apply Ok_inj in Hy, Hsl. subst y. apply Z.leb_le in Hsl. exact Hsl.
Qed.

(** ** C20: trading fees are bounded (and given by the documented formula) *)
Lemma rebate_share w acc v x : starts w acc v -> va_fee_rebate v = Ok x -> x = fee_share w acc.
Proof.
  intros Hs. unfold va_fee_rebate, fee_share. rewrite (st_ref _ _ _ Hs). destruct (ac_ref acc) as [id|]; [|intros H; apply Ok_inj in H; subst x; reflexivity].
  destruct (w_refs w !! id) as [d0|]; [|intros H; apply Ok_inj in H; subst x; reflexivity]. intros H. inv_step H. subst x. reflexivity.
Qed.
Theorem C20_order_fee_bounds E cx w o w' out a r : reachable E w -> step E cx w o = Ok (w', out) -> executes_order w o a r ->
  exists e rest, o_events out = EvMarginOrder e :: rest /\
    eo_close e + eo_open e = size_of w' a (ro_pair r) - size_of w a (ro_pair r) /\
    0 <= order_fee e <= mul (Z.abs (mul (eo_close e) (eo_price e))) (ec_fee_max (g_exchange_config w)) + mul (Z.abs (mul (eo_open e) (eo_price e))) (ec_fee_max (g_exchange_config w)).
Proof.
  intros Hr H Hx. pose proof (C26_order_changes_position_as_asked _ _ _ _ _ _ _ _ Hr H Hx) as [Hs26 _]. occ Hr H Hx. pose proof (oc_facts _ _ _ _ _ _ _ _ _ _ _ _ _ _ _ _ Hoc) as F.
  destruct (oc_event _ _ _ _ _ _ _ _ _ _ _ _ _ _ _ _ Hoc) as (e & rest & He & E1 & E2 & E3 & E4 & E5 & E6 & E7 & E8 & E9 & E10 & E11). exists e, rest. split; [exact He|].
  destruct (of_split _ _ _ _ _ _ _ _ F) as (Hsp & _). cbn [s_acc] in Hsp. rewrite <- (oc_pos _ _ _ _ _ _ _ _ _ _ _ _ _ _ _ _ Hoc) in Hsp. split; [unfold size_of in *; lia|].
  assert (order_fee e = od_fee0 d + od_fee1 d) as -> by (unfold order_fee; lia). rewrite E3, (oc_price _ _ _ _ _ _ _ _ _ _ _ _ _ _ _ _ Hoc), E4, E5, <- (oc_ec _ _ _ _ _ _ _ _ _ _ _ _ _ _ _ _ Hoc).
  assert (forall x, 0 <= mul (Z.abs (mul x (od_price d))) (ec_fee_max (vc_exchange c))) as Hnn.
  { intros x. rewrite mul_mulq. unfold mulq. apply quot_nonneg; [lia|]. rewrite (oc_ec _ _ _ _ _ _ _ _ _ _ _ _ _ _ _ _ Hoc). apply ec_valid_shares. eapply C40_exchange_config; eauto. }
  pose proof (Hnn (od_cl d)). pose proof (Hnn (od_op d)).
  destruct (of_close _ _ _ _ _ _ _ _ F) as [(_ & _ & _ & ->)|(_ & _ & _ & B0 & _)]; destruct (of_open _ _ _ _ _ _ _ _ F) as [(_ & ->)|(_ & B1 & _)]; try change mulq with mul in B0; try change mulq with mul in B1; lia.
Qed.
(** The fee is that of the closing part against the pool before it plus that of the opening part
    against the pool after the closing part. *)
Theorem C20_order_fee_formula E cx w o w' out a r acc pc : reachable E w -> step E cx w o = Ok (w', out) -> executes_order w o a r ->
  w_accounts w !! a = Some acc -> pair_cfg w (ro_pair r) = Some pc ->
  exists e rest, o_events out = EvMarginOrder e :: rest /\ let p := eo_price e in let pp := pool_pair w (ro_pair r) in
    order_fee e = trading_fee (g_exchange_config w) pc pp (fee_share w acc) p (mul (eo_close e) p) +
                  trading_fee (g_exchange_config w) pc (pp <| pp_oi_long := pp_oi_long pp + eo_close e |>) (fee_share w acc) p (mul (eo_open e) p).
Proof.
  intros Hr H Hx Ha Hpc. occ Hr H Hx. pose proof (oc_facts _ _ _ _ _ _ _ _ _ _ _ _ _ _ _ _ Hoc) as F. pose proof (oc_acc _ _ _ _ _ _ _ _ _ _ _ _ _ _ _ _ Hoc) as Ha0. rewrite Ha in Ha0. injection Ha0 as <-.
  pose proof (oc_pc _ _ _ _ _ _ _ _ _ _ _ _ _ _ _ _ Hoc) as Hpc0. rewrite Hpc in Hpc0. injection Hpc0 as ->.
  destruct (oc_event _ _ _ _ _ _ _ _ _ _ _ _ _ _ _ _ Hoc) as (e & rest & He & E1 & E2 & E3 & E4 & E5 & E6 & E7 & E8 & E9 & E10 & E11). exists e, rest. split; [exact He|]. cbv zeta.
  assert (order_fee e = od_fee0 d + od_fee1 d) as -> by (unfold order_fee; lia). rewrite E3, (oc_price _ _ _ _ _ _ _ _ _ _ _ _ _ _ _ _ Hoc), E4, E5, <- (oc_ec _ _ _ _ _ _ _ _ _ _ _ _ _ _ _ _ Hoc), (oc_pp _ _ _ _ _ _ _ _ _ _ _ _ _ _ _ _ Hoc).
  destruct (of_same _ _ _ _ _ _ _ _ F) as (S1 & S2 & _).
  assert (od_fee0 d = trading_fee (vc_exchange c) (od_pc d) (od_pp0 d) (od_share d) (od_price d) (mul (od_cl d) (od_price d))) as HF0.
  { destruct (of_close _ _ _ _ _ _ _ _ F) as [(-> & _ & _ & ->)|(_ & _ & -> & _)]; [rewrite mul_mulq, mulq_0_l; apply trading_fee_0|apply trading_fee_net; lia]. }
  assert (od_fee1 d = trading_fee (vc_exchange c) (od_pc d) (od_pp0 d <| pp_oi_long := pp_oi_long (od_pp0 d) + od_cl d |>) (od_share d) (od_price d) (mul (od_op d) (od_price d))) as HF1.
  { rewrite (of_fee1 _ _ _ _ _ _ _ _ F). apply trading_fee_net. cbn. lia. }
  destruct (Z.eq_dec (od_cl d) 0) as [C0|C0]; [destruct (Z.eq_dec (od_op d) 0) as [O0|O0]|].
  - rewrite HF0, HF1, C0, O0, !mul_mulq, !mulq_0_l, <- !trading_fee_0. reflexivity.
  - rewrite HF0, HF1. pose proof (of_share _ _ _ _ _ _ _ _ F (or_intror O0)) as Hsh. cbn [s_acc] in Hsh. rewrite (rebate_share _ _ _ _ (oc_start _ _ _ _ _ _ _ _ _ _ _ _ _ _ _ _ Hoc) Hsh). reflexivity.
  - rewrite HF0, HF1. pose proof (of_share _ _ _ _ _ _ _ _ F (or_introl C0)) as Hsh. cbn [s_acc] in Hsh. rewrite (rebate_share _ _ _ _ (oc_start _ _ _ _ _ _ _ _ _ _ _ _ _ _ _ _ Hoc) Hsh). reflexivity.
Qed.

(** ** C21: fees are split exactly *)
Theorem C21_order_fee_split_exact E cx w o w' out a r : reachable E w -> step E cx w o = Ok (w', out) -> executes_order w o a r ->
  exists e rest, o_events out = EvMarginOrder e :: rest /\ let k := ro_pair r in let owed := funding_owed (pool_pair w' k) (position w a k) in
    (* the four reported shares are what the trader paid on top of the price and the funding *)
    balance w' a - cost_of w' a k = balance w a - cost_of w a k - owed - mul (eo_close e) (eo_price e) - mul (eo_open e) (eo_price e) - order_fee e /\
    (* and each was credited as reported *)
    fd_protocol (w_fd w') = fd_protocol (w_fd w) - eo_fee_protocol e /\ fd_treasury (w_fd w') = fd_treasury (w_fd w) - eo_fee_treasury e /\
    referral_balance w' a = referral_balance w a - eo_fee_referral e /\
    po_vb (w_pool w') = po_vb (w_pool w) - (balance w' a - balance w a) + eo_fee_protocol e + eo_fee_treasury e + eo_fee_referral e /\
    eo_fee_pool e <= 0 /\ eo_fee_protocol e <= 0 /\ eo_fee_treasury e <= 0 /\ eo_fee_referral e <= 0 /\
    - eo_fee_protocol e = mul (order_fee e) (ec_fee_share_protocol (g_exchange_config w)) /\ - eo_fee_treasury e = mul (order_fee e) (ec_fee_share_treasury (g_exchange_config w)).
Proof.
  intros Hr H Hx. destruct (C20_order_fee_bounds _ _ _ _ _ _ _ _ Hr H Hx) as (e0 & rest0 & He0 & _ & Hfee & _). occ Hr H Hx. pose proof (oc_facts _ _ _ _ _ _ _ _ _ _ _ _ _ _ _ _ Hoc) as F.
  destruct (oc_event _ _ _ _ _ _ _ _ _ _ _ _ _ _ _ _ Hoc) as (e & rest & He & E1 & E2 & E3 & E4 & E5 & E6 & E7 & E8 & E9 & E10 & E11). rewrite He in He0. injection He0 as <- <-.
  exists e, rest. split; [exact He|]. cbv zeta. destruct (oc_bal _ _ _ _ _ _ _ _ _ _ _ _ _ _ _ _ Hoc) as [B1 B2]. destruct (oc_size' _ _ _ _ _ _ _ _ _ _ _ _ _ _ _ _ Hoc (ro_pair r)) as [_ C1].
  assert (cost_of w a (ro_pair r) = ap_cost (pos_of v (ro_pair r))) as C0 by (unfold cost_of; rewrite (oc_pos _ _ _ _ _ _ _ _ _ _ _ _ _ _ _ _ Hoc); reflexivity).
  assert (order_fee e = od_fee0 d + od_fee1 d) as Hof by (unfold order_fee; lia). rewrite B1, B2, C0, C1, <- (oc_funding _ _ _ _ _ _ _ _ _ _ _ _ _ _ _ _ Hoc), Hof, E3, (oc_price _ _ _ _ _ _ _ _ _ _ _ _ _ _ _ _ Hoc), E4, E5.
  pose proof (of_vb _ _ _ _ _ _ _ _ F) as Hvb. destruct (of_pos _ _ _ _ _ _ _ _ F) as (_ & Hcost & _). destruct (of_fees _ _ _ _ _ _ _ _ F) as (G1 & G2 & G3 & G4). destruct (of_pool _ _ _ _ _ _ _ _ F) as (P1 & _). cbn [s_acc s_pool s_fd] in *.
  assert (od_pnl d = - mulq (od_cl d) (od_price d) - od_cost_closed d - od_fee0 d) as Hpnl.
  { destruct (of_close _ _ _ _ _ _ _ _ F) as [(-> & -> & -> & ->)|(_ & _ & _ & _ & ->)]; [rewrite mulq_0_l; reflexivity|reflexivity]. }
  change mul with mulq in *. split; [lia|]. rewrite (oc_fd _ _ _ _ _ _ _ _ _ _ _ _ _ _ _ _ Hoc), G4, E8, E9, E10. cbn [fd_protocol fd_treasury]. split; [lia|]. split; [lia|].
  split; [rewrite (oc_refs _ _ _ _ _ _ _ _ _ _ _ _ _ _ _ _ Hoc); lia|].
  split. { rewrite (oc_pool _ _ _ _ _ _ _ _ _ _ _ _ _ _ _ _ Hoc). destruct (vp_realize_pool (s_pool s)) as (-> & _). rewrite P1, Hvb. change (vp_vb (get_pool w ids)) with (po_vb (w_pool w)). lia. }
  pose proof (ec_valid_shares _ (C40_exchange_config _ _ Hr)) as (_ & _ & V1 & V2 & V3 & _). rewrite <- (oc_ec _ _ _ _ _ _ _ _ _ _ _ _ _ _ _ _ Hoc) in V1, V2, V3.
  set (f := od_fee0 d + od_fee1 d) in *. assert (0 <= f) as Hf0 by lia.
  assert (0 <= va_fee_share_referral v <= FEE_REF_MAX) as Hsr.
  { destruct (fees_reachable _ _ Hr) as [_ Hs]. unfold va_fee_share_referral. pose proof (st_ref _ _ _ (oc_start _ _ _ _ _ _ _ _ _ _ _ _ _ _ _ _ Hoc)) as Hrf. destruct (va_ref v) as [d0|]; [|unfold FEE_REF_MAX; lia].
    destruct (ac_ref acc) as [id|]; [|discriminate]. symmetry in Hrf. destruct (Hs _ _ Hrf) as [? _]. assumption. }
  assert (0 <= od_protocol d /\ od_protocol d * E18 <= f * 300000000000000000) as [Q1 Q1'].
  { rewrite G1. unfold mulq. split; [apply quot_nonneg; lia|]. pose proof (Z.mul_quot_le (f * ec_fee_share_protocol (vc_exchange c)) E18). assert (0 <= f * ec_fee_share_protocol (vc_exchange c)) by nia. assert (E18 = 1000000000000000000) by reflexivity. nia. }
  assert (0 <= od_treasury d /\ od_treasury d * E18 <= f * 150000000000000000) as [Q2 Q2'].
  { rewrite G2. unfold mulq. split; [apply quot_nonneg; lia|]. pose proof (Z.mul_quot_le (f * ec_fee_share_treasury (vc_exchange c)) E18). assert (0 <= f * ec_fee_share_treasury (vc_exchange c)) by nia. assert (E18 = 1000000000000000000) by reflexivity. nia. }
  assert (0 <= od_referral d /\ od_referral d * E18 <= f * FEE_REF_MAX) as [Q3 Q3'].
  { rewrite G3. set (g := mulq f (ec_fee_share_referral (vc_exchange c))). assert (0 <= g <= f) as [Hg0 Hg1].
    { unfold g, mulq. split; [apply quot_nonneg; lia|]. pose proof (Z.mul_quot_le (f * ec_fee_share_referral (vc_exchange c)) E18). assert (0 <= f * ec_fee_share_referral (vc_exchange c)) by nia. assert (E18 = 1000000000000000000) by reflexivity. nia. }
    unfold mulq. split; [apply quot_nonneg; lia|]. pose proof (Z.mul_quot_le (g * va_fee_share_referral v) E18). assert (0 <= g * va_fee_share_referral v) by nia. assert (E18 = 1000000000000000000) by reflexivity. nia. }
  assert (E18 = 1000000000000000000) as HE by reflexivity. unfold FEE_REF_MAX in Q3'.
  split; [rewrite E11; unfold f in *; lia|]. split; [lia|]. split; [lia|]. split; [lia|]. rewrite <- (oc_ec _ _ _ _ _ _ _ _ _ _ _ _ _ _ _ _ Hoc). split; [rewrite Z.opp_involutive; exact G1|rewrite Z.opp_involutive; exact G2].
Qed.

(** ** C49: funding is settled before the position changes *)
Theorem C49_order_settles_funding E cx w o w' out a r : reachable E w -> step E cx w o = Ok (w', out) -> executes_order w o a r ->
  exists e rest, o_events out = EvMarginOrder e :: rest /\ let k := ro_pair r in
    (* what the old position owed under the new indexes is reported and charged *)
    eo_funding e = - funding_owed (pool_pair w' k) (position w a k) /\ balance w' a = balance w a + eo_pnl e /\
    (size_of w' a k = size_of w a k -> eo_pnl e = eo_funding e) /\
    (* afterwards the position owes nothing *)
    funding_owed (pool_pair w' k) (position w' a k) = 0.
Proof.
  intros Hr H Hx. pose proof (C26_order_changes_position_as_asked _ _ _ _ _ _ _ _ Hr H Hx) as [Hs26 _]. occ Hr H Hx. pose proof (oc_facts _ _ _ _ _ _ _ _ _ _ _ _ _ _ _ _ Hoc) as F.
  destruct (oc_event _ _ _ _ _ _ _ _ _ _ _ _ _ _ _ _ Hoc) as (e & rest & He & E1 & E2 & E3 & E4 & E5 & E6 & E7 & E8 & E9 & E10 & E11). exists e, rest. split; [exact He|]. cbv zeta. split; [exact E6|].
  destruct (oc_bal _ _ _ _ _ _ _ _ _ _ _ _ _ _ _ _ Hoc) as [B1 B2]. pose proof (of_vb _ _ _ _ _ _ _ _ F) as Hvb. cbn [s_acc] in Hvb. split; [rewrite E7, B1, B2, <- (oc_funding _ _ _ _ _ _ _ _ _ _ _ _ _ _ _ _ Hoc); lia|].
  split. { intros Heq. destruct (of_split _ _ _ _ _ _ _ _ F) as (Hsp & Hro & Hc1 & Hc2 & Hc3). cbn [s_acc] in *. rewrite <- (oc_pos _ _ _ _ _ _ _ _ _ _ _ _ _ _ _ _ Hoc) in *. fold (size_of w a (ro_pair r)) in *.
    assert (od_cl d = 0) as C0. { destruct (Z.eq_dec (od_cl d) 0) as [|Hne]; [assumption|]. exfalso. specialize (Hc1 Hne). destruct (Z.eq_dec (od_op d) 0) as [|Hop]; [lia|]. destruct (ro_reduce_only r); [apply Hop; auto|]. unfold order_change in *. destruct (Z.ltb_spec (size_of w a (ro_pair r) * ro_amount r) 0); nia. }
    destruct (of_close _ _ _ _ _ _ _ _ F) as [(_ & _ & Hp & _)|(Hne & _)]; [|contradiction]. lia. }
  pose proof (oc_pp' _ _ _ _ _ _ _ _ _ _ _ _ _ _ _ _ Hoc) as Hpp. rewrite Hpp. destruct (of_pos _ _ _ _ _ _ _ _ F) as (_ & _ & Hfu). cbn [s_acc] in Hfu.
  destruct (Z.eq_dec (ap_amount (pos_of (s_acc s) (ro_pair r))) 0) as [H0|H0].
  - unfold position. rewrite (oc_acc' _ _ _ _ _ _ _ _ _ _ _ _ _ _ _ _ Hoc). unfold held. rewrite (rz_none _ _ (oc_real _ _ _ _ _ _ _ _ _ _ _ _ _ _ _ _ Hoc) _ H0). unfold funding_owed. cbn [ap_amount]. change (Z.abs 0) with 0. apply mulq_0_l.
  - unfold position. rewrite (oc_acc' _ _ _ _ _ _ _ _ _ _ _ _ _ _ _ _ Hoc), (proj1 (rz_pos _ _ (oc_real _ _ _ _ _ _ _ _ _ _ _ _ _ _ _ _ Hoc) _ H0)). unfold funding_owed. rewrite (Hfu H0), Z.sub_diag. apply mulq_0_r.
Qed.

(** ** C48: a trade moves value only by fees *)
(** When the pair was already updated at this instant and price (so no funding accrues and
    nothing is re-marked by the call), the pool's value plus the trader's value at the execution
    price change exactly by the shares paid out of the pool, up to 3 units of 10^-18. *)
Theorem C48_trade_moves_only_fees E cx w o w' out a r : reachable E w -> step E cx w o = Ok (w', out) -> executes_order w o a r ->
  let k := ro_pair r in let p := price_of w' k in
  last_updated w k = Some (w_now w) -> pp_last_price (pool_pair w k) = p ->
  exists e rest, o_events out = EvMarginOrder e :: rest /\
    Z.abs ((pool_value w' + trader_value w' a k p) - (pool_value w + trader_value w a k p) - (eo_fee_protocol e + eo_fee_treasury e + eo_fee_referral e)) <= 3.
Proof.
  intros Hr H Hx k p Hlu Hlp. pose proof (C49_order_settles_funding _ _ _ _ _ _ _ _ Hr H Hx) as (e49 & rest49 & He49 & _ & _ & _ & H49). occ Hr H Hx. pose proof (oc_facts _ _ _ _ _ _ _ _ _ _ _ _ _ _ _ _ Hoc) as F.
  destruct (oc_event _ _ _ _ _ _ _ _ _ _ _ _ _ _ _ _ Hoc) as (e & rest & He & E1 & E2 & E3 & E4 & E5 & E6 & E7 & E8 & E9 & E10 & E11). exists e, rest. split; [exact He|].
  rewrite E8, E9, E10. clear e49 rest49 He49 e rest He E1 E2 E3 E4 E5 E6 E7 E8 E9 E10 E11.
  assert (p = od_price d) as Hp by exact (oc_price _ _ _ _ _ _ _ _ _ _ _ _ _ _ _ _ Hoc).
  pose proof (oc_pp _ _ _ _ _ _ _ _ _ _ _ _ _ _ _ _ Hoc) as Hpp0. pose proof (oc_pp' _ _ _ _ _ _ _ _ _ _ _ _ _ _ _ _ Hoc) as HppF. fold k in Hpp0, HppF.
  assert (snap_ok (od_pp0 d) /\ pp_last_update (od_pp0 d) = w_now w) as [[_ Hsnap] Hupd].
  { rewrite <- Hpp0. unfold pool_pair. unfold last_updated in Hlu. match goal with |- context[match ?t with Some _ => _ | None => _ end] => destruct t as [pp|] eqn:Hk end.
    - split; [exact (wsnaps_reachable _ _ Hr _ _ Hk)|]. injection Hlu as Hlu'. exact Hlu'.
    - discriminate Hlu. }
  assert (pp_last_price (od_pp0 d) = od_price d) as Hlp0 by (rewrite <- Hpp0, <- Hp; exact Hlp). rewrite Hlp0 in Hsnap.
  destruct (of_period _ _ _ _ _ _ _ _ F) as [Hpf Hpp1]. { rewrite Hupd. unfold period_of. rewrite Z.sub_diag. reflexivity. }
  destruct (of_ppF _ _ _ _ _ _ _ _ F) as (_ & O1 & O2 & O3 & _ & _ & _ & _ & _ & O10).
  destruct (oc_bal _ _ _ _ _ _ _ _ _ _ _ _ _ _ _ _ Hoc) as [B1 B2]. destruct (oc_size' _ _ _ _ _ _ _ _ _ _ _ _ _ _ _ _ Hoc k) as [Z1 C1].
  assert (funding_owed (pool_pair w k) (position w a k) = funding_owed (od_pp1 d) (pos_of v k)) as Hfo.
  { rewrite (oc_pos _ _ _ _ _ _ _ _ _ _ _ _ _ _ _ _ Hoc), Hpp0, Hpp1. reflexivity. }
  pose proof (of_vb _ _ _ _ _ _ _ _ F) as Hvb. destruct (of_pos _ _ _ _ _ _ _ _ F) as (Ham & Hcost & _). destruct (of_pool _ _ _ _ _ _ _ _ F) as (P1 & P2 & _ & P4 & P5). cbn [s_acc s_pool s_fd] in *. fold k in Ham, Hcost, Hvb, P1, P2.
  assert (pool_value w' = vp_base (s_pool s) + vp_vb (s_pool s) + vp_upf (s_pool s) + vp_pnl (s_pool s)) as HV'.
  { unfold pool_value. rewrite (oc_pool _ _ _ _ _ _ _ _ _ _ _ _ _ _ _ _ Hoc). destruct (vp_realize_pool (s_pool s)) as (-> & -> & _ & -> & ->). unfold g_base in P5. injection P5 as P5a P5b. rewrite P5a, P5b. reflexivity. }
  assert (pool_value w = vp_base (s_pool s) + po_vb (w_pool w) + po_upf (w_pool w) + po_pnl (w_pool w)) as HV. { unfold g_base in P5. injection P5 as P5a P5b. unfold pool_value. rewrite P5a. reflexivity. }
  rewrite HV, HV'. unfold trader_value. fold k in H49. rewrite H49, Hfo, B1, B2, Z1, C1. unfold size_of, cost_of. rewrite (oc_pos _ _ _ _ _ _ _ _ _ _ _ _ _ _ _ _ Hoc).
  rewrite P1, P2, P4, Hvb, Hcost, Hpf, O10, Hsnap, O3, Ham, Hp. change (vp_vb (get_pool w ids)) with (po_vb (w_pool w)). change (vp_upf (get_pool w ids)) with (po_upf (w_pool w)). change (vp_pnl (get_pool w ids)) with (po_pnl (w_pool w)).
  assert (skew_at (od_ppF d) (od_price d) = mulq (pp_oi_long (od_pp0 d) - pp_oi_short (od_pp0 d) + (od_cl d + od_op d)) (od_price d)) as ->.
  { unfold skew_at. f_equal. rewrite O1, O2. destruct (Z.ltb_spec (od_cl d) 0), (Z.ltb_spec 0 (od_cl d)), (Z.ltb_spec 0 (od_op d)), (Z.ltb_spec (od_op d) 0); lia. }
  unfold skew_at. set (n := pp_oi_long (od_pp0 d) - pp_oi_short (od_pp0 d)). set (z := ap_amount (pos_of v k)). set (x := od_cl d + od_op d). replace (z + od_cl d + od_op d) with (z + x) by (unfold x; lia).
  generalize (od_price d) as q. intros q.
  assert (Z.abs (mulq (z + x) q - mulq z q - (mulq (n + x) q - mulq n q)) <= 3) as Hb.
  { unfold mulq. assert (0 < E18) as HE by reflexivity. generalize dependent E18. intros e Hb.
    pose proof (Z.quot_rem' ((z + x) * q) e). pose proof (Z.quot_rem' (z * q) e). pose proof (Z.quot_rem' ((n + x) * q) e). pose proof (Z.quot_rem' (n * q) e).
    pose proof (Z.rem_bound_abs ((z + x) * q) e ltac:(lia)). pose proof (Z.rem_bound_abs (z * q) e ltac:(lia)). pose proof (Z.rem_bound_abs ((n + x) * q) e ltac:(lia)). pose proof (Z.rem_bound_abs (n * q) e ltac:(lia)).
    set (a1 := Z.quot ((z + x) * q) e) in *. set (a2 := Z.quot (z * q) e) in *. set (a3 := Z.quot ((n + x) * q) e) in *. set (a4 := Z.quot (n * q) e) in *.
    assert (e * (a1 - a2 - (a3 - a4)) = - Z.rem ((z + x) * q) e + Z.rem (z * q) e + Z.rem ((n + x) * q) e - Z.rem (n * q) e) by lia.
    assert (Z.abs (e * (a1 - a2 - (a3 - a4))) < e * 4) as Hm by lia. rewrite Z.abs_mul, (Z.abs_eq e) in Hm by lia. apply Z.mul_lt_mono_pos_l in Hm; lia. }
  change mul with mulq. match goal with |- Z.abs ?t <= 3 => replace t with (mulq (z + x) q - mulq z q - (mulq (n + x) q - mulq n q)) end; [exact Hb|]. lia.
Qed.

(** ** Concrete cases. WQ: A2's order has just executed, A3's is next (same instant and price).
    WF: A5 (with a referral, short 3) is about to buy 5, closing and flipping its position. *)
Definition sc_wq : res world := go sc_env sc_w1 (take 4 sc_trades).
Definition WQ := get sc_wq.
Lemma WQ_ok : sc_wq = Ok WQ. Proof. apply okb_get. vm_compute. reflexivity. Qed.
Lemma WQ_reach : reachable sc_env WQ.
Proof. apply go_reachable; [vm_compute; reflexivity|]. intros w H. rewrite W1_ok in H. apply Ok_inj in H. subst w. exact W1_reach. Qed.
Definition sc_flip : list (ctx * op) := [order cx_u5 A5 1%N (dec 5) false; (cx_any, OAdvance 1030)].
Definition sc_wf : res world := go sc_env sc_w5 sc_flip.
Definition WF := get sc_wf.
Lemma WF_ok : sc_wf = Ok WF. Proof. apply okb_get. vm_compute. reflexivity. Qed.
Lemma WF_reach : reachable sc_env WF.
Proof. apply go_reachable; [vm_compute; reflexivity|]. intros w H. rewrite W5_ok in H. apply Ok_inj in H. subst w. exact W5_reach. Qed.
Global Opaque WQ WF.
Definition order_at (w : world) (a : addr) (i : N) : option req_order :=
  match w_accounts w !! a with Some acc => match kl_kvs (ac_requests acc) !! i with Some kr => if w_now w <? kr_expiry kr then match kr_request kr with ROrder r => Some r | _ => None end else None | None => None end | None => None end.
Lemma order_at_executes w a i upd r : order_at w a i = Some r -> executes_order w (OProcessRequest a i upd) a r.
Proof.
  unfold order_at. destruct (w_accounts w !! a) as [acc|] eqn:Ha; [|intros H; discriminate H]. destruct (kl_kvs (ac_requests acc) !! i) as [kr|] eqn:Hk; [|intros H; discriminate H].
  destruct (Z.ltb_spec (w_now w) (kr_expiry kr)) as [Hl|Hl]; [|intros H; discriminate H]. destruct (kr_request kr) as [r0|r0] eqn:Hq; [intros H; discriminate H|]. intros H. injection H as <-. exists i, upd, acc, kr. auto 10.
Qed.
Example C48_ex : exists w' out r, step sc_env cx_any WQ (OProcessRequest A3 0%N (msg 30000%N 2000%N 1009%N)) = Ok (w', out) /\ reachable sc_env WQ /\
  executes_order WQ (OProcessRequest A3 0%N (msg 30000%N 2000%N 1009%N)) A3 r /\ ro_pair r = 1%N /\ last_updated WQ 1%N = Some (w_now WQ) /\ pp_last_price (pool_pair WQ 1%N) = price_of w' 1%N /\ size_of w' A3 1%N = - dec 1.
Proof.
  destruct (try_true WQ (cx_any, OProcessRequest A3 0%N (msg 30000%N 2000%N 1009%N)) (fun w' _ =>
    match order_at WQ A3 0%N with Some r => (ro_pair r =? 1)%N | None => false end && bool_decide (last_updated WQ 1%N = Some (w_now WQ)) && (pp_last_price (pool_pair WQ 1%N) =? price_of w' 1%N) && (size_of w' A3 1%N =? - dec 1)))
    as (w' & out & H & Hf); [vm_compute; reflexivity|]. apply andb_true_iff in Hf as [Hf H4]. apply andb_true_iff in Hf as [Hf H3]. apply andb_true_iff in Hf as [H1 H2]. apply bool_decide_eq_true in H2. apply Z.eqb_eq in H3, H4.
  destruct (order_at WQ A3 0%N) as [r|] eqn:Hr; [|exfalso; exact (Bool.diff_false_true H1)]. apply N.eqb_eq in H1. exists w', out, r. split; [exact H|]. split; [exact WQ_reach|]. split; [apply order_at_executes; exact Hr|].
  split; [exact H1|]. split; [exact H2|]. split; [exact H3|exact H4].
Qed.
Example C26_flip_ex : exists w' out r e rest, step sc_env cx_any WF (OProcessRequest A5 2%N (msg 30100%N 2000%N 1029%N)) = Ok (w', out) /\ reachable sc_env WF /\
  executes_order WF (OProcessRequest A5 2%N (msg 30100%N 2000%N 1029%N)) A5 r /\ ro_pair r = 1%N /\ size_of WF A5 1%N = - dec 3 /\ size_of w' A5 1%N = dec 2 /\
  o_events out = EvMarginOrder e :: rest /\ eo_close e = dec 3 /\ eo_open e = dec 2 /\ 0 < order_fee e /\ eo_fee_referral e < 0.
Proof.
  destruct (try_true WF (cx_any, OProcessRequest A5 2%N (msg 30100%N 2000%N 1029%N)) (fun w' out =>
    match order_at WF A5 2%N with Some r => (ro_pair r =? 1)%N | None => false end && (size_of WF A5 1%N =? - dec 3) && (size_of w' A5 1%N =? dec 2) &&
    match o_events out with EvMarginOrder e :: rest => (eo_close e =? dec 3) && (eo_open e =? dec 2) && (0 <? order_fee e) && (eo_fee_referral e <? 0) | _ => false end))
    as (w' & out & H & Hf); [vm_compute; reflexivity|]. apply andb_true_iff in Hf as [Hf H4]. apply andb_true_iff in Hf as [Hf H3]. apply andb_true_iff in Hf as [H1 H2]. apply Z.eqb_eq in H2, H3.
  destruct (order_at WF A5 2%N) as [r|] eqn:Hr; [|exfalso; exact (Bool.diff_false_true H1)]. apply N.eqb_eq in H1.
  destruct (o_events out) as [|[] rest] eqn:He; try (exfalso; exact (Bool.diff_false_true H4)). apply andb_true_iff in H4 as [H4 H7]. apply andb_true_iff in H4 as [H4 H6]. apply andb_true_iff in H4 as [H4 H5].
  apply Z.eqb_eq in H4, H5. apply Z.ltb_lt in H6, H7.
  eexists w', out, r, _, rest. split; [exact H|]. split; [exact WF_reach|]. split; [apply order_at_executes; exact Hr|]. split; [exact H1|]. split; [exact H2|]. split; [exact H3|]. split; [exact He|].
  split; [exact H4|]. split; [exact H5|]. split; [exact H6|exact H7].
Qed.
