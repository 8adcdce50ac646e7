(** * What a successful liquidation does (for C15, C16, C51). *)
From Verif Require Import Base DFloat Lists Types Config Oracle Pool Account Fees Referral ExInternal Exchange System Scenario Sums Trace Frames Calls Shape Spec SpecOracle SpecTrading SpecMargin SpecLiq P_Ledger P_Accounts P_DFloat Witness Props_Config Frames2 P_Fees P_Refs P_Tokens P_Requests P_Requests2 P_Requests3 Trading P_Positions P_Positions2 P_Oracle P_Keeper P_Orders P_Final P_OrderCall P_Coll P_Remove P_Margin P_Whole Props_Oracle Props_Orders Props_Collateral.

Lemma put_snap_fields p k old x : vp_positions (put_snap p k old x) = <[k := x]> (vp_positions p) /\ vp_comp (put_snap p k old x) = vp_comp p /\ vp_vb (put_snap p k old x) = vp_vb p /\ vp_upf (put_snap p k old x) = vp_upf p /\ vp_base (put_snap p k old x) = vp_base p.
Proof. unfold put_snap, vp_set_position. cbn. auto. Qed.
(** Updating the pairs one after the other. *)
Lemma upd_fold now c o ks : forall p p1, rfold (fun p k => '(p, _) ← x_update_pair now c o p k; Ok p) p ks = Ok p1 -> NoDup ks ->
  vp_comp p1 = vp_comp p /\ vp_vb p1 = vp_vb p /\ (forall k, k ∉ ks -> vp_positions p1 !! k = vp_positions p !! k) /\
  (forall k, k ∈ ks -> exists pp pp1, vp_positions p !! k = Some pp /\ vp_positions p1 !! k = Some pp1 /\
     pp_oi_long pp1 = pp_oi_long pp /\ pp_oi_short pp1 = pp_oi_short pp /\ pp_cost pp1 = pp_cost pp).
Proof.
  induction ks as [|k ks IH]; intros p p1 H Hn; cbn [rfold] in H.
  - apply Ok_inj in H. subst. split; [reflexivity|]. split; [reflexivity|]. split; [reflexivity|]. intros k Hk. inversion Hk.
  - bd H as (p2 & H1 & H). bd H1 as ([p3 b] & H1 & H2). apply Ok_inj in H2. subst p3. inversion Hn as [|? ? Hni Hn']; subst. destruct (IH _ _ H Hn') as (I1 & I2 & I3 & I4).
    apply update_moved in H1 as (pc & price & pp & pp1 & fpd & _ & _ & Hpp & _ & Hoi & _ & ->).
    match type of I1 with _ = vp_comp ?q => set (p2 := q) in * end. assert (vp_positions p2 = <[k := pp1]> (vp_positions p)) as E1 by reflexivity.
    split; [rewrite I1; reflexivity|]. split; [rewrite I2; reflexivity|]. split.
    + intros j Hj. rewrite I3 by (intros Hj'; apply Hj; right; exact Hj'). rewrite E1. apply lookup_insert_ne. intros ->. apply Hj. left.
    + intros j Hj. apply elem_of_cons in Hj as [->|Hj].
      * exists pp, pp1. split; [exact Hpp|]. split; [rewrite I3 by exact Hni; rewrite E1; apply lookup_insert|]. tauto.
      * destruct (I4 j Hj) as (q & q1 & Q1 & Q2). exists q, q1. rewrite E1, lookup_insert_ne in Q1 by (intros ->; contradiction). auto.
Qed.
Lemma snaps_fold o ks : forall p p1, rfold (x_update_pair_snaps o) p ks = Ok p1 -> NoDup ks ->
  vp_comp p1 = vp_comp p /\ vp_vb p1 = vp_vb p /\ vp_upf p1 = vp_upf p /\ (forall k, k ∉ ks -> vp_positions p1 !! k = vp_positions p !! k) /\
  (forall k, k ∈ ks -> exists pp price, vp_positions p !! k = Some pp /\ vp_positions p1 !! k = Some (resnap price pp)).
Proof.
  induction ks as [|k ks IH]; intros p p1 H Hn; cbn [rfold] in H.
  - apply Ok_inj in H. subst. do 4 (split; [reflexivity|]). intros k Hk. inversion Hk.
  - bd H as (p2 & H1 & H). inversion Hn as [|? ? Hni Hn']; subst. destruct (IH _ _ H Hn') as (I1 & I2 & I2' & I3 & I4).
    apply update_snaps_inv in H1 as (price & pp & _ & Hpp & ->). destruct (put_snap_fields p k pp (resnap price pp)) as (E1 & E2 & E3 & E4 & _).
    split; [congruence|]. split; [congruence|]. split; [congruence|]. split.
    + intros j Hj. rewrite I3 by (intros Hj'; apply Hj; right; exact Hj'). rewrite E1. apply lookup_insert_ne. intros ->. apply Hj. left.
    + intros j Hj. apply elem_of_cons in Hj as [->|Hj].
      * exists pp, price. split; [exact Hpp|]. rewrite I3 by exact Hni. rewrite E1. apply lookup_insert.
      * destruct (I4 j Hj) as (q & q1 & Q1 & Q2). exists q, q1. rewrite E1, lookup_insert_ne in Q1 by (intros ->; contradiction). auto.
Qed.
Definition configured (c : vconfig) (x : resource * Z) : bool := match vc_collaterals c !! fst x with Some _ => true | None => false end.
Lemma liq_coll_fold c o l : forall s r, rfold (x_liq_collateral1 c o) s l = Ok r ->
  lc_disc r = lc_disc s + lsum (t_coll cc_discount c o) l /\ lc_margin r = lc_margin s + lsum (t_coll cc_margin c o) l /\ lc_amounts r = lc_amounts s ++ List.filter (configured c) l.
Proof.
  induction l as [|x l IH]; intros s r H; cbn [rfold] in H.
  - apply Ok_inj in H. subst r. unfold lsum. simpl. rewrite !Z.add_0_r, app_nil_r. auto.
  - bd H as (s1 & H1 & H). destruct (IH _ _ H) as (I1 & I2 & I3). rewrite !lsum_cons. unfold x_liq_collateral1 in H1. cbn [List.filter].
    assert (forall rate, t_coll rate c o x = match vc_collaterals c !! fst x with Some cc => match vo_resources o !! fst x with Some k => match vo_prices o !! k with Some price => mul (mul (snd x) price) (rate cc) | None => 0 end | None => 0 end | None => 0 end) as Ht by reflexivity. rewrite !Ht. clear Ht.
    unfold configured at 1. destruct (vc_collaterals c !! fst x) as [cc|].
    + unfold vo_price_resource, vo_price in H1. bd H1 as (price & Hp & H1). bd Hp as (k & Hk & Hp). apply expect_Ok in Hk, Hp. rewrite Hk, Hp. bd H1 as (v & Hv & H1). bd H1 as (d & Hd & H1). bd H1 as (mg & Hm & H1). bd H1 as (s0 & Hs0 & H1). bd H1 as (t1 & Hs1 & H1). bd H1 as (t2 & Hs2 & H1).
      apply Ok_inj in H1. subst s1. apply dmul_mulq in Hv, Hd, Hm. subst. apply dadd_Ok in Hs1 as [-> _], Hs2 as [-> _]. cbn [lc_disc lc_margin lc_amounts] in *. change mul with mulq. rewrite I1, I2, I3, <- app_assoc. split; [lia|]. split; [lia|reflexivity].
    + apply Ok_inj in H1. subst s1. rewrite I1, I2, I3. auto.
Qed.
(** Profit reads the open interest and the funding indexes only. *)
Lemma profit_ext ec pc pp pp' share price pos : pp_oi_long pp = pp_oi_long pp' -> pp_oi_short pp = pp_oi_short pp' -> pp_funding_long_index pp = pp_funding_long_index pp' -> pp_funding_short_index pp = pp_funding_short_index pp' ->
  profit ec pc pp share price pos = profit ec pc pp' share price pos.
Proof. intros H1 H2 H3 H4. unfold profit, trading_fee, funding_owed, side_index. rewrite H1, H2, H3, H4. reflexivity. Qed.

Record liq_call (E : env) (w w' : world) (a : addr) (payment : bucket) (upd : option price_msg) (out : outp) (acc acc' : account) (paid : Z) : Prop := {
  lq_acc : w_accounts w !! a = Some acc; lq_acc' : w_accounts w' !! a = Some acc'; lq_oth : forall b, b <> a -> w_accounts w' !! b = w_accounts w !! b;
  lq_share : fee_share w' acc' = fee_share w acc /\ fee_share w' acc = fee_share w acc;
  lq_base : b_res payment = BASE /\ 0 <= paid <= b_amt payment;
  lq_below : account_value_at (funded w w') w' acc < maintenance_margin w' acc;
  lq_paid : paid = collateral_total cc_discount w' acc;
  lq_pos : ac_positions acc' = ∅;
  lq_vb : ac_vb acc' = Z.max 0 (ac_vb acc + positions_profit (funded w w') w' acc + paid);
  lq_coll : forall r, recorded acc' r = match coll_cfg w' r with Some _ => 0 | None => recorded acc r end;
  lq_tokens : forall r, amount_in r (o_tokens out) = match coll_cfg w' r with Some _ => recorded acc r | None => 0 end + (if (r =? BASE)%N then b_amt payment - paid else 0) + (if (r =? KEEPER_REWARD)%N then keeper_reward w else 0);
  lq_pool : forall k, pp_oi_long (pool_pair w' k) = pp_oi_long (pool_pair w k) - Z.max 0 (ap_amount (held acc k)) /\ pp_oi_short (pool_pair w' k) = pp_oi_short (pool_pair w k) - Z.max 0 (- ap_amount (held acc k)) /\
     pp_cost (pool_pair w' k) = pp_cost (pool_pair w k) - ap_cost (held acc k);
  lq_pbase : po_base (w_pool w') = po_base (w_pool w) + paid;
  lq_config : w_config w' = w_config w; lq_prices : exists ids c o, prices_ok E w upd ids c (w_oracle w') o;
  lq_ev : exists e, In (EvLiquidate e) (o_events out) /\ el_account e = a /\ el_account_value e = account_value_at (funded w w') w' acc /\ el_margin e = maintenance_margin w' acc /\
     el_collateral_value_discounted e = paid /\ el_positions_pnl e = positions_profit (funded w w') w' acc /\ el_vb e = ac_vb acc /\
     el_pool_loss e = Z.min 0 (ac_vb acc + positions_profit (funded w w') w' acc + paid) /\
     - (el_fee_pool e + el_fee_protocol e + el_fee_treasury e + el_fee_referral e) = msum (fee_term w w' acc) (ac_positions acc) /\
     fd_protocol (w_fd w') = fd_protocol (w_fd w) - el_fee_protocol e /\ fd_treasury (w_fd w') = fd_treasury (w_fd w) - el_fee_treasury e /\
     el_fee_protocol e = - mul (msum (fee_term w w' acc) (ac_positions acc)) (ec_fee_share_protocol (g_exchange_config w)) /\
     el_fee_treasury e = - mul (msum (fee_term w w' acc) (ac_positions acc)) (ec_fee_share_treasury (g_exchange_config w)) /\
     referral_balance w' a = referral_balance w a - el_fee_referral e /\
     el_fee_referral e = - mul (mul (msum (fee_term w w' acc) (ac_positions acc)) (ec_fee_share_referral (g_exchange_config w))) (referral_share w acc) /\
     po_vb (w_pool w') + ac_vb acc' = po_vb (w_pool w) + ac_vb acc + el_fee_protocol e + el_fee_treasury e + el_fee_referral e }.
Lemma unit_base E : unit_of E BASE = 1. Proof. reflexivity. Qed.
Lemma liquidate_inv E now c o p a fd payment s toks evs : x_liquidate E now c o (mkS p a fd) payment = Ok (s, toks, evs) ->
  exists fr p1 p2 p3 tp tm tf tfe rc aw bs paid e fp ft frf, b_res payment = BASE /\ va_fee_rebate a = Ok fr /\
    rfold (fun p k => '(p, _) ← x_update_pair now c o p k; Ok p) p (map fst (map_to_list (va_positions a))) = Ok p1 /\
    rfold (x_liq_position1 c fr o) (p1, (0, 0, 0, 0)) (map_to_list (va_positions a)) = Ok (p2, (tp, tm, tf, tfe)) /\
    rfold (x_update_pair_snaps o) (p2 <| vp_upf := vp_upf p2 - tf |>) (map fst (map_to_list (va_positions a))) = Ok p3 /\
    rfold (x_liq_collateral1 c o) (mkRLC 0 0 0 [] []) (map_to_list (va_coll a)) = Ok rc /\
    tp + lc_disc rc + va_vb a < tm + lc_margin rc /\ paid = lc_disc rc /\ 0 <= paid <= b_amt payment /\
    va_withdraw E (liq_rebalance a) (lc_amounts rc) ToZero = Ok (aw, bs) /\
    vp_positions (s_pool s) = vp_positions p3 /\ po_base (vp_comp (s_pool s)) = po_base (vp_comp p3) + paid /\ po_positions (vp_comp (s_pool s)) = po_positions (vp_comp p3) /\
    va_vb (s_acc s) = Z.max 0 (va_vb a + tp + paid) /\ g_pos (s_acc s) = g_pos (liq_rebalance a) /\ g_coll (s_acc s) = g_coll aw /\
    toks = bs ++ [(BASE, b_amt payment - paid)] /\ In (EvLiquidate e) evs /\ el_account e = va_addr a /\ el_account_value e = tp + lc_disc rc + va_vb a /\ el_margin e = tm + lc_margin rc /\
    el_collateral_value_discounted e = paid /\ el_positions_pnl e = tp /\ el_vb e = va_vb a /\ el_pool_loss e = Z.min 0 (va_vb a + tp + paid) /\
    fp = mulq tfe (ec_fee_share_protocol (vc_exchange c)) /\ ft = mulq tfe (ec_fee_share_treasury (vc_exchange c)) /\
    s_fd s = mkFD (fd_protocol fd + fp) (fd_treasury fd + ft) /\ el_fee_pool e = - (tfe - fp - ft - frf) /\ el_fee_protocol e = - fp /\ el_fee_treasury e = - ft /\ el_fee_referral e = - frf /\
    ref_bal (s_acc s) = ref_bal a + frf /\
    frf = mulq (mulq tfe (ec_fee_share_referral (vc_exchange c))) (va_fee_share_referral a).
Proof.
  unfold x_liquidate. cbn [s_pool s_acc s_fd]. intros H. bd H as (? & Hb & H). apply guard_Ok, N.eqb_eq in Hb. bd H as ([[p3 a3] rp] & Hlp & H).
  apply liquidate_positions_inv in Hlp as (fr & p1 & p2 & tp & tm & tf & tfe & L1 & L2 & L3 & L4 & -> & L6 & L7 & L8 & L9 & L10).
  bd H as (rc & Hrc & H). unfold x_liquidate_collateral in Hrc. assert (va_coll (liq_rebalance a) = va_coll a) as E1 by reflexivity. rewrite E1 in Hrc. cbv zeta in H.
  bd H as (t & Ht & H). bd H as (av & Hav & H). bd H as (m & Hm & H). bd H as (? & Hg & H). apply guard_Ok, Z.ltb_lt in Hg. apply dadd_Ok in Ht as [-> _], Hav as [-> _], Hm as [-> _].
  bd H as (value & Hval & H). unfold round_amount in Hval. rewrite unit_base in Hval. apply chk_Ok in Hval as [Hval _]. rewrite Z.div_1_r in Hval. assert (value = lc_disc rc) as -> by lia. clear Hval.
  bd H as (? & Hp & H). apply guard_Ok, Z.leb_le in Hp. bd H as ([aw bs] & Hw & H). bd H as (paid & Htk & H). apply take_exact_inv in Htk. destruct Htk as (-> & Hpd). bd H as (p4 & Hd & H). apply vp_deposit_inv in Hd.
  bd H as (st & Hst & H). apply dadd_Ok in Hst as [-> _]. bd H as ([p5 a5] & Hs & H). apply x_settle_account_inv in Hs as [-> ->].
  bd H as ([[p6 a6] pl] & Hl & H). bd H as ([s1 [[[q0 q1] q2] q3]] & Hf & H). apply Ok_inj in H. injection H as <- <- <-.
  assert (va_vb aw = va_vb a /\ g_pos aw = g_pos (liq_rebalance a) /\ va_addr aw = va_addr a /\ va_ref aw = va_ref a) as (W1 & W2 & W3 & W4).
  { unfold va_withdraw, acc_withdraw in Hw. bd Hw as ([a1 b1] & H2 & Hw). bd Hw as (c1 & H1 & Hw). bd H2 as ([v2 b2] & H2a & H2). bd H2 as (c2 & H2b & H2). apply Ok_inj in Hw, H2. injection Hw as <- <-. injection H2 as <- <-. repeat split. }
  change (va_vb (liq_rebalance a)) with (va_vb a) in *. rewrite L6, L7, L9 in *.
  assert (po_positions (vp_comp p6) = po_positions (vp_comp p3)) as X0.
  { cbn in Hl. destruct (_ <? 0); [bd Hl as (n & Hn & Hl); bd Hl as ([p7 a7] & Hs & Hl); apply x_settle_account_inv in Hs as [-> ->]|]; apply Ok_inj in Hl; injection Hl as <- <- <-; rewrite Hd; reflexivity. }
  assert (vp_positions p6 = vp_positions p3 /\ po_base (vp_comp p6) = po_base (vp_comp p3) + lc_disc rc /\ va_vb a6 = Z.max 0 (va_vb a + tp + lc_disc rc) /\ pl = Z.min 0 (va_vb a + tp + lc_disc rc) /\
    g_pos a6 = g_pos aw /\ g_coll a6 = g_coll aw /\ va_addr a6 = va_addr aw /\ va_ref a6 = va_ref aw) as (X1 & X2 & X3 & X4 & X5 & X6 & X7 & X8).
  { cbn in Hl. destruct (Z.ltb_spec (va_vb aw + (tp + lc_disc rc)) 0) as [Hneg|Hneg].
    - bd Hl as (n & Hn & Hl). apply dneg_Ok in Hn as [-> _]. bd Hl as ([p7 a7] & Hs & Hl). apply Ok_inj in Hl. injection Hl as <- <- <-. apply x_settle_account_inv in Hs as [-> ->]. cbn. rewrite W1 in *.
      split; [subst p4; reflexivity|]. split; [subst p4; reflexivity|]. split; [lia|]. split; [lia|]. split; [reflexivity|]. split; [reflexivity|split; reflexivity].
    - apply Ok_inj in Hl. injection Hl as <- <- <-. cbn. rewrite W1 in *. split; [subst p4; reflexivity|]. split; [subst p4; reflexivity|]. split; [lia|]. split; [lia|]. split; [reflexivity|]. split; [reflexivity|split; reflexivity]. }
  clear Hl Hd. pose proof (fees_referral_frame _ _ _ _ _ Hf) as (F1 & F2 & F3 & _ & F5 & _ & _ & F8 & F9 & _). cbn [s_acc s_pool] in *.
  apply fees_referral_inv in Hf as (fp & ft & frf & -> & -> & Hfr & G4 & G5 & G6 & -> & -> & -> & ->). cbn [s_acc s_pool s_fd] in *.
  assert (va_addr (s_acc s1) = va_addr a6) as Hada. { unfold va_reward_referral in G6. destruct (va_ref a6); [bd G6 as (? & _ & G6); bd G6 as (? & _ & G6)|]; apply Ok_inj in G6; rewrite <- G6; reflexivity. }
  eexists fr, p1, p2, p3, tp, tm, tf, tfe, rc, aw, bs, (lc_disc rc), _, _, _, frf. split; [exact Hb|]. split; [exact L1|]. split; [exact L2|]. split; [exact L3|]. split; [exact L4|]. split; [exact Hrc|]. split; [exact Hg|]. split; [reflexivity|]. split; [split; [exact (proj1 (proj1 Hpd))|exact Hp]|]. split; [exact Hw|].
  split; [change (vp_positions (s_pool s1) = vp_positions p3); rewrite G4; exact X1|]. split; [change (po_base (vp_comp (s_pool s1)) = po_base (vp_comp p3) + lc_disc rc); rewrite G4; exact X2|]. split; [change (po_positions (vp_comp (s_pool s1)) = po_positions (vp_comp p3)); rewrite G4; exact X0|].
  split; [change (va_vb (s_acc s1) = Z.max 0 (va_vb a + tp + lc_disc rc)); rewrite F5; exact X3|]. split; [change (g_pos (s_acc s1) = g_pos (liq_rebalance a)); congruence|]. split; [change (g_coll (s_acc s1) = g_coll aw); congruence|].
  split; [reflexivity|]. split; [right; left; reflexivity|]. cbn [el_account el_account_value el_margin el_collateral_value_discounted el_positions_pnl el_vb el_pool_loss el_fee_pool el_fee_protocol el_fee_treasury el_fee_referral].
  split; [change (va_addr (s_acc s1) = va_addr a); congruence|]. do 5 (split; [reflexivity|]). split; [exact X4|]. split; [reflexivity|]. split; [reflexivity|].
  split; [exact G5|]. do 4 (split; [reflexivity|]). split.
  - cut (ref_bal (s_acc s1) = ref_bal a + frf); [intros G; exact G|]. pose proof (reward_bal _ _ _ G6) as Hrb. assert (va_ref a6 = va_ref a) as E6 by congruence. assert (ref_bal a6 = ref_bal a) as E7 by (unfold ref_bal; rewrite E6; reflexivity). rewrite E7, E6 in Hrb. unfold va_fee_share_referral in Hfr. rewrite E6 in Hfr. rewrite Hrb. destruct (va_ref a); [reflexivity|]. rewrite Hfr, Z.mul_0_r. reflexivity.
  - rewrite Hfr. unfold va_fee_share_referral. rewrite X8, W4. reflexivity.
Qed.
Lemma get_pool_none w ids k : k ∉ ids -> vp_positions (get_pool w ids) !! k = None.
Proof.
  intros Hk. destruct (vp_positions (get_pool w ids) !! k) as [q|] eqn:Hq; [|reflexivity]. exfalso. unfold get_pool, vp_new in Hq. simpl in Hq. unfold pool_get_positions in Hq.
  apply lookup_set_to_map in Hq; [|intros; simpl in *; congruence]. destruct Hq as (k' & Hk' & E0). simpl in E0. injection E0 as <- _. contradiction.
Qed.
(** The shares of a fee are never negative and never more than the fee. *)
Lemma shares_bounds E w f acc : reachable E w -> 0 <= f -> let ec := g_exchange_config w in
  0 <= mulq f (ec_fee_share_protocol ec) /\ 0 <= mulq f (ec_fee_share_treasury ec) /\ 0 <= mulq (mulq f (ec_fee_share_referral ec)) (referral_share w acc) /\
  mulq f (ec_fee_share_protocol ec) + mulq f (ec_fee_share_treasury ec) + mulq (mulq f (ec_fee_share_referral ec)) (referral_share w acc) <= f.
Proof.
  intros Hr Hf. cbv zeta. pose proof (ec_valid_shares _ (C40_exchange_config _ _ Hr)) as (_ & _ & V1 & V2 & V3 & _). set (ec := g_exchange_config w) in *.
  assert (0 <= referral_share w acc <= FEE_REF_MAX) as Hsr.
  { destruct (fees_reachable _ _ Hr) as [_ Hs]. unfold referral_share. destruct (ac_ref acc) as [id|]; [|unfold FEE_REF_MAX; lia]. destruct (w_refs w !! id) as [d0|] eqn:Hd; [|unfold FEE_REF_MAX; lia]. destruct (Hs _ _ Hd) as [? _]. assumption. }
  assert (forall x y, 0 <= x -> 0 <= y -> 0 <= mulq x y /\ mulq x y * E18 <= x * y) as Hm.
  { intros x y Hx Hy. unfold mulq. split; [apply quot_nonneg; assumption|]. assert (0 <= x * y) by nia. pose proof (Z.mul_quot_le (x * y) E18). assert (0 < E18) by reflexivity. lia. }
  destruct (Hm f (ec_fee_share_protocol ec) Hf ltac:(lia)) as [A1 A2]. destruct (Hm f (ec_fee_share_treasury ec) Hf ltac:(lia)) as [B1 B2]. destruct (Hm f (ec_fee_share_referral ec) Hf ltac:(lia)) as [C1 C2].
  destruct (Hm (mulq f (ec_fee_share_referral ec)) (referral_share w acc) C1 ltac:(lia)) as [D1 D2]. split; [exact A1|]. split; [exact B1|]. split; [exact D1|].
  set (g := mulq f (ec_fee_share_referral ec)) in *. assert (E18 = 1000000000000000000) as HE by reflexivity. assert (g <= f) by nia. unfold FEE_REF_MAX in *. assert (g * referral_share w acc <= f * 100000000000000000) by nia. assert (f * ec_fee_share_protocol ec <= f * 300000000000000000) by nia. assert (f * ec_fee_share_treasury ec <= f * 150000000000000000) by nia. nia.
Qed.
Lemma referral_share_start w acc v : starts w acc v -> va_fee_share_referral v = referral_share w acc.
Proof. intros S. unfold va_fee_share_referral, referral_share. rewrite (st_ref _ _ _ S). destruct (ac_ref acc) as [id|]; [|reflexivity]. destruct (w_refs w !! id); reflexivity. Qed.
Lemma lookup_held acc k x : ac_positions acc !! k = Some x -> held acc k = x.
Proof. unfold held. intros ->. reflexivity. Qed.
Lemma liq_call_intro E cx w a payment upd w' out : reachable E w -> step E cx w (OLiquidate a payment upd) = Ok (w', out) ->
  exists acc acc' paid, liq_call E w w' a payment upd out acc acc' paid.
Proof.
  intros Hr H. pose proof (step_acct _ _ _ _ _ _ a H eq_refl) as (lx & Hlx & _). pose proof (acct_call_self _ _ _ _ _ Hlx) as ((acc & Ha) & (acc0 & Ha0) & _).
  pose proof (acct_call_share _ _ _ _ _ _ _ Hlx Ha Ha0) as [Sh1 Sh2].
  apply liquidate_call_inv in H as (v0 & c & orc & o & s & toks & evs & w1 & Hv & Hc & Hpk & Hx & Hz & Hw' & Htok & Hev).
  pose proof (wi_nz _ (WI_reachable _ _ Hr)) as Hnz. pose proof (starts_intro _ _ _ _ Hv Ha (Hnz _ _ Ha)) as Hst. pose proof (get_acc_addr _ _ _ Hv) as Had.
  destruct (tr_liquidate E (w_now w) c o _ _ _ _ _ Hx) as (paid0 & bs0 & st0 & lo0 & fee0 & Htr & _ & Hlo).
  match type of Hz with realize_acc ?x _ = _ => set (wz := x) in Hz end.
  destruct (call_finish E w a acc v0 (dom (va_positions v0)) c o _ s wz w1 Hr Ha Hst Had Htr eq_refl Hz) as (acc' & Ha' & Hrz & Hoth & HSI & Hsy & Hpo & Hno & Hcf & Hor & Hfd & _).
  destruct (liquidate_inv _ _ _ _ _ _ _ _ _ _ _ Hx) as (fr & p1 & p2 & p3 & tp & tm & tf & tfe & rc & aw & bs & paid & e & fp & ft & frf & Hb & Hfr & Hup & Hlq & Hsn & Hrc & Hbelow & Hpaid & Hpb & Hw & Q1 & Q2 & Q2' & Q3 & Q4 & Q5 & Q6 & V0 & V1 & V2 & V3 & V4 & V5 & V6 & V7 & V8 & V9 & V10 & V11 & V12 & V13 & V14 & V15 & V16).
  set (l := map_to_list (va_positions v0)) in *. assert (NoDup (map fst l)) as Hnd by apply NoDup_fst_map_to_list.
  assert (forall k, k ∈ map fst l <-> k ∈ dom (va_positions v0)) as Hdom.
  { intros k. rewrite elem_of_dom. split; [intros Hk; apply elem_of_list_In, in_map_iff in Hk as ([k' x] & E0 & Hk); cbn in E0; subst k'; apply elem_of_list_In, elem_of_map_to_list in Hk; eauto|intros [x Hk]; change k with (fst (k, x)); apply elem_of_list_In, in_map, elem_of_list_In, elem_of_map_to_list; exact Hk]. }
  destruct (upd_fold _ _ _ _ _ _ Hup Hnd) as (U1 & U2 & U3 & U4).
  destruct (liq_fold _ _ _ _ _ _ _ _ _ _ Hlq Hnd) as (p2' & Er & Hpriced & B1 & B2 & B3 & B4 & B5 & B6 & Bout & Bin). injection Er as <- -> -> -> ->.
  destruct (snaps_fold _ _ _ _ Hsn Hnd) as (S1 & S2 & S3 & S4 & S5).
  destruct (liq_coll_fold _ _ _ _ _ Hrc) as (C1 & C2 & C3). cbn [lc_disc lc_margin lc_amounts] in C1, C2, C3.
  assert (w_accounts w' = w_accounts w1 /\ w_pool w' = vp_realize (s_pool s) /\ w_config w' = w_config w /\ w_oracle w' = orc /\ w_now w' = w_now w /\ w_refs w' = w_refs w1 /\ w_fd w' = s_fd s) as (T1 & T2 & T3 & T4 & T5 & T6 & T7).
  { subst w'. split; [reflexivity|]. split; [reflexivity|]. split; [exact Hcf|]. split; [exact Hor|]. split; [exact Hno|]. split; [reflexivity|exact Hfd]. }
  rewrite T1, Ha' in Ha0. injection Ha0 as <-.
  assert (cached_ok (w_now w') (s_pool s)) as Hcache. { rewrite T5. exact (proj1 HSI). }
  (* the pool's records, pair by pair *)
  assert (forall k pos, va_positions v0 !! k = Some pos -> exists pp1 price, vp_positions p1 !! k = Some pp1 /\ pp_oi_long pp1 = pp_oi_long (pool_pair w k) /\ pp_oi_short pp1 = pp_oi_short (pool_pair w k) /\ pp_cost pp1 = pp_cost (pool_pair w k) /\
     pool_pair w' k = resnap price (traded pp1 (0 <? ap_amount pos) (- ap_amount pos) (- ap_cost pos))) as Hpair.
  { intros k pos Hk. assert (k ∈ map fst l) as Hin by (apply Hdom, elem_of_dom; eauto). destruct (U4 k Hin) as (pp & pp1 & P1 & P2 & P3). rewrite (get_pool_cached w _ k) in P1 by (apply Hdom; exact Hin). injection P1 as <-.
    assert (In (k, pos) l) as Hin2 by (apply elem_of_list_In, elem_of_map_to_list; exact Hk). destruct (Bin k pos Hin2) as (q & Y1 & Y2). rewrite P2 in Y1. injection Y1 as <-.
    destruct (S5 k Hin) as (q & price & Y3 & Y4). change (vp_positions (p2 <| vp_upf := _ |>)) with (vp_positions p2) in Y3. rewrite Y2 in Y3. injection Y3 as <-.
    exists pp1, price. destruct P3 as (P3a & P3b & P3c). split; [exact P2|]. split; [exact P3a|]. split; [exact P3b|]. split; [exact P3c|]. apply (pool_pair_cached _ _ _ _ Hcache T2). rewrite Q1. exact Y4. }
  assert (sees w' (fun k => default (pool_pair w k) (vp_positions p1 !! k)) c o p1) as S.
  { eapply sees_intro; [exact Hc|rewrite T4; exact Hpk|exact T3|]. intros k q Hq. rewrite Hq. reflexivity. }
  assert (fee_share w' acc = fee_share w acc) as Sh3. { rewrite <- Sh1. unfold fee_share. rewrite Sh2. reflexivity. }
  assert (fr = fee_share w' acc) as -> by (rewrite Sh3; exact (rebate_share _ _ _ _ Hst Hfr)).
  pose proof (st_positions _ _ _ Hst) as Ep.
  assert (lsum (t_profit c p1 (fee_share w' acc) o) l = positions_profit (funded w w') w' acc) as Epr.
  { unfold l. rewrite (sees_profit _ _ _ _ _ _ _ S) by exact Hpriced. rewrite Ep. unfold positions_profit. apply msum_ext. intros k pos Hk. rewrite <- Ep in Hk. destruct (pair_cfg w' k) as [pc|]; [|reflexivity].
    destruct (Hpair _ _ Hk) as (pp1 & price & P2 & P3 & P4 & _ & P5). rewrite P2. cbn [default]. apply profit_ext; [exact P3|exact P4|unfold funded; cbn; rewrite P5; unfold traded; destruct (0 <? ap_amount pos); reflexivity|unfold funded; cbn; rewrite P5; unfold traded; destruct (0 <? ap_amount pos); reflexivity]. }
  assert (forall rate, lsum (t_margin rate c o) l = positions_margin rate w' acc) as Emg. { intros rate. unfold l. rewrite (sees_margin _ _ _ _ _ _ _ S) by exact Hpriced. rewrite Ep. reflexivity. }
  assert (forall rate, lsum (t_coll rate c o) (map_to_list (va_coll v0)) = collateral_total rate w' acc) as Ecl. { intros rate. rewrite (sees_coll _ _ _ _ _ _ _ S). rewrite (st_coll _ _ _ Hst). reflexivity. }
  rewrite (Ecl cc_discount) in C1. rewrite (Ecl cc_margin) in C2. rewrite Z.add_0_l in C1, C2. rewrite Epr, Emg, (st_vb _ _ _ Hst), !Z.add_0_l in *.
  match type of V8 with fp = mulq ?t _ => set (tfee := t) in * end.
  assert (tfee = msum (fee_term w w' acc) (ac_positions acc)) as Efe.
  { unfold tfee, l. rewrite <- Ep, msum_lsum. apply lsum_ext. intros [k pos] Hk. cbn [fst snd]. rewrite Forall_forall in Hpriced. destruct (Hpriced _ Hk) as ((pc & R1) & (pr & R2) & (q & R3)). cbn [fst] in *. apply elem_of_map_to_list in Hk. rewrite R1, R2, R3. unfold fee_term.
    rewrite (sv_pc _ _ _ _ _ S _ _ R1), (sv_pr _ _ _ _ _ S _ _ R2), (sv_ex _ _ _ _ _ S). destruct (Hpair _ _ Hk) as (pp1 & price & P2 & P3 & P4 & _ & P5). rewrite R3 in P2. injection P2 as <-.
    unfold trading_fee, funded. cbn. rewrite P3, P4. reflexivity. }
  (* collateral *)
  pose proof (coll_ok_reachable _ _ Hr _ _ Ha) as Hok. pose proof (whole_reachable _ _ Hr _ _ Ha) as Hwh.
  pose proof Hw as Hw0. unfold va_withdraw, acc_withdraw in Hw0. bd Hw0 as ([a1 b1] & H2 & Hw0). bd Hw0 as (c1 & H1 & Hw0). bd H2 as ([vt b2] & H2a & H2). bd H2 as (c2 & H2b & H2). apply Ok_inj in Hw0, H2. injection Hw0 as <- <-. injection H2 as <- <-.
  change (va_comp (liq_rebalance v0)) with (va_comp v0) in *. rewrite (st_comp _ _ _ Hst) in H2a, H2b.
  assert (list_to_map (M := gmap resource Z) (List.filter (configured c) (map_to_list (ac_coll acc))) = filter (fun x => configured c x = true) (ac_coll acc)) as Hflt.
  { apply map_eq. intros r. destruct (filter (fun x => configured c x = true) (ac_coll acc) !! r) as [x|] eqn:Hx0.
    - apply map_filter_lookup_Some in Hx0 as [X1 X2]. apply elem_of_list_to_map_1.
      + assert (NoDup (map fst (map_to_list (ac_coll acc)))) as Hn0 by apply NoDup_fst_map_to_list. clear - Hn0. induction (map_to_list (ac_coll acc)) as [|[q y] m IH]; [constructor|]. cbn in Hn0. inversion Hn0 as [|? ? Hni Hn]; subst. cbn. destruct (configured c (q, y)); [|auto]. cbn. constructor; [|auto].
        intros Hin. apply Hni. apply elem_of_list_In, in_map_iff in Hin as ([q' y'] & E0 & Hin). apply filter_In in Hin as [Hin _]. cbn in E0. subst q'. apply elem_of_list_In, in_map_iff. exists (q, y'). auto.
      + apply elem_of_list_In, filter_In. split; [apply elem_of_list_In, elem_of_map_to_list; exact X1|exact X2].
    - apply not_elem_of_list_to_map_1. intros Hin. apply elem_of_list_In, in_map_iff in Hin as ([q' y'] & E0 & Hin). cbn in E0. subst q'. apply filter_In in Hin as [Hin Hcf0]. apply elem_of_list_In, elem_of_map_to_list in Hin.
      pose proof (proj1 (map_filter_lookup_None _ _ _) Hx0) as [Hn0|Hn0]; [congruence|]. exact (Hn0 _ Hin Hcf0). }
  assert (forall r, amount_in r b2 = match coll_cfg w' r with Some _ => recorded acc r | None => 0 end) as Hgot.
  { intros r. rewrite (claims_taken _ _ _ _ _ _ eq_refl H2a).
    - rewrite C3, app_nil_l, (st_coll _ _ _ Hst), Hflt. specialize (Hwh r). unfold recorded. destruct (ac_coll acc !! r) as [x|] eqn:Hx0; cbn [default] in Hwh.
      + destruct (coll_cfg w' r) as [cc|] eqn:Hcc.
        * rewrite (map_filter_lookup_Some_2 _ _ _ _ Hx0); [|unfold configured; cbn [fst]; rewrite (sv_cc _ _ _ _ _ S r), Hcc; reflexivity]. cbn in Hwh. destruct Hwh as [n ->]. unfold units. pose proof (unit_pos E r). rewrite Z.quot_mul by lia. reflexivity.
        * rewrite (map_filter_lookup_None_2); [reflexivity|]. right. intros y Hy. unfold configured. cbn [fst]. rewrite (sv_cc _ _ _ _ _ S r), Hcc. discriminate.
      + rewrite (map_filter_lookup_None_2) by (left; exact Hx0). destruct (coll_cfg w' r); reflexivity.
    - rewrite C3, app_nil_l. assert (NoDup (map fst (map_to_list (va_coll v0)))) as Hn0 by apply NoDup_fst_map_to_list. clear - Hn0. induction (map_to_list (va_coll v0)) as [|[q y] m IH]; [constructor|]. cbn in Hn0. inversion Hn0 as [|? ? Hni Hn]; subst. cbn. destruct (configured c (q, y)); [|auto]. cbn. constructor; [|auto].
      intros Hin. apply Hni. apply elem_of_list_In, in_map_iff in Hin as ([q' y'] & E0 & Hin). apply filter_In in Hin as [Hin _]. cbn in E0. subst q'. apply elem_of_list_In, in_map_iff. exists (q, y'). auto. }
  assert (ac_coll acc' = c2) as Ecoll. { rewrite (rz_coll _ _ Hrz). unfold g_coll in Q5. injection Q5 as G1 G2 G3. rewrite G2. reflexivity. }
  exists acc, acc', paid. constructor.
  - exact Ha.
  - rewrite T1. exact Ha'.
  - intros b Hne. rewrite T1. exact (Hoth b Hne).
  - split; [exact Sh1|exact Sh3].
  - split; [exact Hb|exact Hpb].
  - unfold account_value_at, maintenance_margin, margin_required. rewrite <- C1, <- C2. lia.
  - congruence.
  - apply map_eq. intros k. rewrite lookup_empty. apply (rz_none _ _ Hrz). unfold pos_of. unfold g_pos in Q4. injection Q4 as G1 G2 G3. rewrite G1. unfold liq_rebalance, va_set_positions. cbn. rewrite lookup_fmap. destruct (va_positions v0 !! k); reflexivity.
  - rewrite (rz_vb _ _ Hrz), Q3. reflexivity.
  - intros r. destruct (take_batch_table _ _ _ _ _ _ _ _ H2a H2b Hok) as [Tab _]. pose proof (Tab r) as [Tr _]. pose proof (vts_take_batch_amount _ r _ _ _ _ _ H2a) as Hva. rewrite <- Tr in Hva. pose proof (Hok r) as [Ko _]. unfold held_coll, in_vault in Ko.
    change vaults with (gmap resource Z) in *. rewrite <- Ko, Hgot in Hva. unfold recorded at 1. rewrite Ecoll. change (default 0 (c2 !! r) = match coll_cfg w' r with Some _ => 0 | None => recorded acc r end). rewrite Hva.
    change (default 0 (ac_coll acc !! r)) with (recorded acc r). destruct (coll_cfg w' r); lia.
  - intros r. rewrite Htok, Q6, !amount_app, Hgot, !amount_cons. change (b_res (BASE, b_amt payment - paid)) with BASE. change (b_res (KEEPER_REWARD, keeper_reward w)) with KEEPER_REWARD. rewrite (N.eqb_sym BASE r), (N.eqb_sym KEEPER_REWARD r). cbn [b_amt snd]. change (amount_in r []) with 0. destruct (r =? BASE)%N, (r =? KEEPER_REWARD)%N; lia.
  - intros k. destruct (va_positions v0 !! k) as [pos|] eqn:Hk.
    + destruct (Hpair _ _ Hk) as (pp1 & price & P2 & P3 & P4 & P6 & P5). rewrite Ep in Hk. rewrite (lookup_held _ _ _ Hk), P5. rewrite <- P3, <- P4, <- P6. unfold traded. destruct (Z.ltb_spec 0 (ap_amount pos)); cbn; lia.
    + assert (ac_positions acc !! k = None) as Hn by congruence. unfold held. rewrite Hn. cbn.
      assert (k ∉ map fst l) as Hni by (intros Hin; apply Hdom, elem_of_dom in Hin as [x Hx']; congruence). 
      assert (pool_pair w' k = pool_pair w k) as ->; [|lia].
      assert (k ∉ dom (va_positions v0)) as Hnd' by (intros Hd; apply Hni, Hdom; exact Hd).
      unfold pool_pair. rewrite T2, T5. change (po_positions (vp_realize (s_pool s))) with (real (s_pool s)).
      assert (real (s_pool s) !! k = po_positions (w_pool w) !! k) as ->; [|reflexivity].
      rewrite real_lookup. assert (vp_positions (s_pool s) !! k = None) as ->.
      { rewrite Q1, S4 by exact Hni. change (vp_positions (p2 <| vp_upf := _ |>)) with (vp_positions p2). rewrite Bout, U3 by exact Hni. apply get_pool_none. exact Hnd'. }
      rewrite Q2', S1. change (vp_comp (p2 <| vp_upf := _ |>)) with (vp_comp p2). rewrite B1, U1. reflexivity.
  - rewrite T2. destruct (vp_realize_pool (s_pool s)) as (_ & _ & _ & _ & ->). rewrite Q2, S1. change (vp_comp (p2 <| vp_upf := _ |>)) with (vp_comp p2). rewrite B1, U1. reflexivity.
  - exact T3.
  - exists (dom (va_positions v0)), c, o. rewrite T4. exact Hpk.
  - exists e. split; [rewrite Hev; apply in_or_app; left; exact V0|]. split; [congruence|]. split; [rewrite V2, C1; unfold account_value_at; lia|]. split; [rewrite V3, C2; reflexivity|]. split; [exact V4|]. split; [exact V5|]. split; [exact V6|]. split; [exact V7|].
    rewrite <- Efe. split; [lia|]. rewrite T7, V10. cbn [fd_protocol fd_treasury]. split; [lia|]. split; [lia|]. change (g_exchange_config w) with (ec_decompress (cf_exchange (w_config w))). rewrite <- (get_config_exchange _ _ _ Hc). change mul with mulq. split; [congruence|]. split; [congruence|].
    split; [|split; [rewrite V14, V16; rewrite (referral_share_start _ _ _ Hst); reflexivity|pose proof (sess_ledger_steps _ _ _ _ _ _ _ Htr) as Hled; assert (oath_total ([ALiqPos; AWithdraw bs0; ADepositBase paid0; ASettle st0] ++ lo0 ++ [AFees fee0; AVstart]) = 0) as Hot by (destruct Hlo as [->|[x ->]]; reflexivity); rewrite Hot in Hled; unfold sess_ledger in Hled; cbn [s_pool s_acc s_fd] in Hled; rewrite T2; destruct (vp_realize_pool (s_pool s)) as (-> & _); rewrite (rz_vb _ _ Hrz); change (vp_vb (get_pool w (dom (va_positions v0)))) with (po_vb (w_pool w)) in Hled; rewrite (st_vb _ _ _ Hst), V10, V15 in Hled; cbn [fd_protocol fd_treasury] in Hled; rewrite V12, V13, V14; lia]].
    unfold referral_balance. rewrite Ha, T1, Ha', T6, Sh2. pose proof Hz as Hz'. apply realize_acc_inv in Hz' as (acc2 & refs & Hz' & Ew1). pose proof (refs_final v0 _ _ _ _ (ac_ref acc) Hz' (ssteps_ref _ _ _ _ _ _ _ Htr)) as Hrf.
    assert (va_ref_id v0 = ac_ref acc) as Hid1. { apply get_acc_inv in Hv as (accx & Hax & _ & _ & _ & _ & _ & _ & _ & _ & _ & _ & _ & _ & _ & Hvid & _). congruence. }
    specialize (Hrf Hid1 (st_ref _ _ _ Hst)). rewrite Ew1. cbn [w_refs]. simpl. unfold ref_bal_of in Hrf. rewrite Hrf, V15, V14. unfold ref_bal. rewrite (st_ref _ _ _ Hst). destruct (ac_ref acc); lia.
Qed.
