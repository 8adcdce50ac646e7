(** * Auto-deleveraging: its effect on the session and on the stored state. *)
From Verif Require Import Base DFloat Lists Types Config Oracle Pool Account Fees Referral ExInternal Exchange System Sums Trace Frames Calls Shape Spec SpecOracle SpecTrading SpecMargin SpecLiq P_Ledger P_Accounts Frames2 P_Requests2 Trading P_Positions P_Positions2 P_Oracle P_Keeper P_Orders P_Final P_OrderCall Props_Oracle Props_Orders Props_Limits P_Remove P_Margin P_Liq.

Lemma x_skew_ratio_val p r : x_skew_ratio p = Ok r -> r = ratio (vp_skew p) (vp_base p + vp_vb p + vp_upf p + vp_pnl p).
Proof.
  unfold x_skew_ratio, x_pool_value. intros H. bd H as (pv & Hpv & H). bd Hpv as (x & Hx & Hpv). bd Hpv as (y & Hy & Hpv). apply dadd_Ok in Hx as [-> _], Hy as [-> _], Hpv as [-> _].
  apply ddiv_Ok in H as (_ & -> & _). reflexivity.
Qed.
Lemma adl_threshold_val ec sr t : x_adl_threshold ec sr = Ok t -> ec_adl_a ec <> 0 /\ t = adl_threshold ec sr.
Proof.
  unfold x_adl_threshold. intros H. bd H as (u0 & H0 & H). bd H as (u1 & H1 & H). bd H as (u & Hu & H). bd H as (uu & H2 & H). bd H as (uuu & H3 & H). bd H as (n & Hn & H). bd H as (bu & H4 & H).
  apply ddiv_Ok in H0 as (Hnz & -> & _), H1 as (_ & -> & _). apply dsub_Ok in Hu as [-> _], H as [-> _]. apply dmul_mulq in H2, H3, H4. apply dneg_Ok in Hn as [-> _]. subst. split; [exact Hnz|]. reflexivity.
Qed.
Record adl_facts (c : vconfig) (o : voracle) (p : vpool) (a : vacc) (fd : distributor) (pid : pair_id) (s : sess) (ev : event) (price : Z) (pc : pair_config) (pp0 pp1 ppF : pool_position) (fr fpd fee : Z) : Prop := {
  af_price : vo_prices o !! pid = Some price; af_pc : vc_pairs c !! pid = Some pc; af_pp0 : vp_positions p !! pid = Some pp0; af_share : va_fee_rebate a = Ok fr;
  af_nz : ap_amount (pos_of a pid) <> 0 /\ ap_cost (pos_of a pid) <> 0 /\ ec_adl_a (vc_exchange c) <> 0;
  af_same : pp_oi_long pp1 = pp_oi_long pp0 /\ pp_oi_short pp1 = pp_oi_short pp0 /\ pp_cost pp1 = pp_cost pp0;
  af_sr : let sr := ratio (vp_skew p + (Z.abs (net_value pp0 price) - pp_skew_abs_snap pp0)) (vp_base p + vp_vb p + (vp_upf p + fpd) + (vp_pnl p + (pp_cost pp0 - net_value pp0 price - pp_pnl_snap pp0))) in
     ec_skew_ratio_cap (vc_exchange c) < sr /\ adl_threshold (vc_exchange c) sr < profit_ratio price (pos_of a pid) /\ exists r, x_skew_ratio (s_pool s) = Ok r /\ r < sr;
  af_fee : fee = trading_fee (vc_exchange c) pc pp0 fr price (mul (- ap_amount (pos_of a pid)) price) /\ 0 <= fee <= mul (Z.abs (mul (ap_amount (pos_of a pid)) price)) (ec_fee_max (vc_exchange c));
  af_ppF : vp_positions (s_pool s) !! pid = Some ppF /\ pp_oi_long ppF = pp_oi_long pp0 - Z.max 0 (ap_amount (pos_of a pid)) /\ pp_oi_short ppF = pp_oi_short pp0 - Z.max 0 (- ap_amount (pos_of a pid)) /\
     pp_cost ppF = pp_cost pp0 - ap_cost (pos_of a pid) /\ pp_funding_long_index ppF = pp_funding_long_index pp1 /\ pp_funding_short_index ppF = pp_funding_short_index pp1;
  af_oth : forall k, k <> pid -> vp_positions (s_pool s) !! k = vp_positions p !! k;
  af_pos : ap_amount (pos_of (s_acc s) pid) = 0; af_pos_oth : forall k, k <> pid -> pos_of (s_acc s) k = pos_of a k;
  af_vb : va_vb (s_acc s) = va_vb a + profit (vc_exchange c) pc pp1 fr price (pos_of a pid);
  af_coll : g_coll (s_acc s) = g_coll a;
  af_upf : vp_upf (s_pool s) = vp_upf p + fpd - funding_owed pp1 (pos_of a pid);
  af_base : g_base (s_pool s) = g_base p;
  af_ev : exists e fp ft frf, ev = EvAutoDeleverage e /\ ea_account e = va_addr a /\ ea_pair e = pid /\ ea_price e = price /\ ea_close e = - ap_amount (pos_of a pid) /\
     ea_pnl e = profit (vc_exchange c) pc pp1 fr price (pos_of a pid) /\ ea_funding e = - funding_owed pp1 (pos_of a pid) /\
     ea_fee_pool e = - (fee - fp - ft - frf) /\ ea_fee_protocol e = - fp /\ ea_fee_treasury e = - ft /\ ea_fee_referral e = - frf /\ ea_pnl_percent e = profit_ratio price (pos_of a pid) /\
     fp = mul fee (ec_fee_share_protocol (vc_exchange c)) /\ ft = mul fee (ec_fee_share_treasury (vc_exchange c)) /\ frf = mul (mul fee (ec_fee_share_referral (vc_exchange c))) (va_fee_share_referral a) /\
     s_fd s = mkFD (fd_protocol fd + fp) (fd_treasury fd + ft) /\ ref_bal (s_acc s) = ref_bal a + frf /\ vp_vb (s_pool s) + va_vb (s_acc s) = vp_vb p + va_vb a - fp - ft - frf }.
Lemma adl_inv now c o p a fd pid s ev : x_auto_deleverage now c o (mkS p a fd) pid = Ok (s, ev) -> exists price pc pp0 pp1 ppF fr fpd fee, adl_facts c o p a fd pid s ev price pc pp0 pp1 ppF fr fpd fee.
Proof.
  unfold x_auto_deleverage. cbn [s_pool s_acc s_fd]. cbv zeta. intros H. bd H as ([pA b] & HA & H). bd H as ([[pB aB] nf] & HB & H). bd H as (sr0 & Hsr & H). bd H as (? & Hcap & H). apply guard_Ok, Z.ltb_lt in Hcap.
  destruct (va_position aB pid) as [aR pos] eqn:Hvp. bd H as (price & Hpr & H). apply expect_Ok in Hpr. bd H as (? & Hnz & H). apply guard_Ok, negb_true_iff, Z.eqb_neq in Hnz. bd H as (value & Hval & H). apply dmul_mulq in Hval. bd H as (t & Ht & H). apply dsub_Ok in Ht as [-> _].
  bd H as (pct & Hpct & H). apply ddiv_Ok in Hpct as (Hcnz & Hpct & _). bd H as (th & Hth & H). apply adl_threshold_val in Hth as [Hanz ->]. bd H as (? & Hthr & H). apply guard_Ok, Z.ltb_lt in Hthr. bd H as (cl & Hcl & H). apply dneg_Ok in Hcl as [-> _].
  bd H as ([[pC aC] [pnl fee]] & HC & H). bd H as ([s1 [[[q0 q1] q2] q3]] & Hfee & H). bd H as (sr1 & Hsr1 & H). bd H as (? & Hlt & H). apply guard_Ok, Z.ltb_lt in Hlt. bd H as (tp & Htp & H). apply dadd_Ok in Htp as [-> _]. apply Ok_inj in H. injection H as <- <-.
  apply update_moved in HA as (pc & price' & pp0 & pp1 & fpd & Hpc & Hpr' & Hpp0 & _ & (S1 & S2 & S3 & _) & (Sn1 & Sn2) & ->). rewrite Hpr in Hpr'. injection Hpr' as <-.
  apply funding_moved in HB as (pp & Hpp & -> & -> & F1 & F2 & _ & F4 & F5 & F6 & F7 & F8).
  assert (pp = pp1) as ->. { change (vp_positions (_ <| vp_upf := _ |>)) with (vp_positions (put_snap p pid pp0 pp1)) in Hpp. rewrite put_snap_pos, decide_True in Hpp by reflexivity. congruence. }
  set (pB := put_snap p pid pp0 pp1 <| vp_upf := _ |> <| vp_upf := _ |> <| vp_vb := _ |>) in *.
  assert (pos = pos_of aB pid /\ (forall k, pos_of aR k = pos_of aB k) /\ va_vb aR = va_vb aB /\ g_coll aR = g_coll aB /\ va_ref aR = va_ref aB /\ va_addr aR = va_addr aB) as (R0 & R1 & R2 & R3 & R4 & R5).
  { unfold va_position in Hvp. unfold pos_of at 1. destruct (va_positions aB !! pid) as [q|] eqn:Hq; injection Hvp as <- <-; [repeat split|]. split; [reflexivity|]. split; [|repeat split].
    intros k. unfold pos_of. cbn. destruct (decide (k = pid)) as [->|Hne]; [rewrite lookup_insert, Hq; reflexivity|rewrite lookup_insert_ne by congruence; reflexivity]. }
  rewrite R0 in *. rewrite F1, F2 in *.
  apply close_moved in HC as (pc' & fr & price' & pp' & cost & ppF & Hpc' & Hfr & Hpr' & Hpp' & Hcost & Hf & Hfb & Hpnl & M & _); [|lia].
  rewrite Hpc in Hpc'. injection Hpc' as <-. rewrite Hpr in Hpr'. injection Hpr' as <-. assert (pp' = pp1) as -> by (assert (vp_positions pB !! pid = Some pp1) as X by exact Hpp; congruence).
  rewrite !R1, F1, F2, full_close_ratio, mulq_one in Hcost by exact Hnz. subst cost. rewrite (rebate_ref a aR) in Hfr by congruence.
  pose proof (fees_referral_frame _ _ _ _ _ Hfee) as (_ & G2 & G3 & _ & G5 & _ & _ & G8 & G9 & G10 & G11). cbn [s_acc s_pool] in G2, G3, G5, G8, G9, G10, G11.
  apply fees_referral_inv in Hfee as (fp & ft & frf & Hfp & Hft & Hfrr & P1 & P2 & P3 & -> & -> & -> & ->). cbn [s_acc s_pool s_fd] in P1, P2, P3, Hfrr.
  pose proof M as [M1 M2 M3 (M4 & M4b & M4c & M4d & M4e & _) M5 M6 M7 M8 M9 M10 M11 M12 M13 M14 M15 M16 M17]. rewrite R1, F1 in M11.
  assert (vp_positions (s_pool s1) = vp_positions pC) as Epos by (rewrite P1; reflexivity).
  assert (forall k, pos_of (s_acc s1) k = pos_of aC k) as Eacc by (intros k; apply pos_of_g; exact G2).
  assert (va_addr aC = va_addr a) as Had by congruence.
  assert (funding_owed pp1 (pos_of a pid) = funding_owed pp1 (pos_of a pid)) as _ by reflexivity. set (owed := funding_owed pp1 (pos_of a pid)) in *.
  assert (pnl - owed = profit (vc_exchange c) pc pp1 fr price (pos_of a pid)) as Hprof.
  { unfold profit. fold owed. rewrite Hpnl, mulq_neg_l, Z.opp_involutive, Hf. change mul with mulq. rewrite mulq_neg_l. reflexivity. }
  assert (sr0 = ratio (vp_skew p + (Z.abs (net_value pp0 price) - pp_skew_abs_snap pp0)) (vp_base p + vp_vb p + (vp_upf p + fpd) + (vp_pnl p + (pp_cost pp0 - net_value pp0 price - pp_pnl_snap pp0)))) as Esr.
  { apply x_skew_ratio_val in Hsr. rewrite Hsr. assert (skew_at pp1 price = net_value pp0 price) as Esk by (unfold skew_at, net_value; rewrite S1, S2; reflexivity). rewrite Esk in *.
    unfold pB, put_snap, vp_set_position. cbn. rewrite Sn1, Sn2, S3. f_equal; lia. }
  exists price, pc, pp0, pp1, ppF, fr, fpd, fee. constructor.
  - exact Hpr.
  - exact Hpc.
  - exact Hpp0.
  - exact Hfr.
  - auto.
  - auto.
  - cbv zeta. rewrite <- Esr. split; [exact Hcap|]. split.
    + unfold profit_ratio. change mul with mulq. subst pct value. exact Hthr.
    + exists sr1. auto.
  - split; [rewrite Hf; apply trading_fee_net; lia|]. change mul with mulq in *. rewrite mulq_neg_l, Z.abs_opp in Hfb. exact Hfb.
  - rewrite Epos. split; [exact M1|]. rewrite M4, M4b, M4c, M4d, M4e, S1, S2, S3. destruct (Z.ltb_spec (- ap_amount (pos_of a pid)) 0); repeat split; lia.
  - intros k Hk. rewrite Epos, M3 by exact Hk. unfold pB. change (vp_positions (_ <| vp_vb := _ |>)) with (vp_positions (put_snap p pid pp0 pp1)). rewrite put_snap_pos, decide_False by exact Hk. reflexivity.
  - rewrite Eacc, M11. lia.
  - intros k Hk. rewrite Eacc, M13, R1, F4 by exact Hk. reflexivity.
  - rewrite G5, M14, R2, F5. lia.
  - congruence.
  - rewrite G11, M7. unfold pB. cbn. reflexivity.
  - rewrite G9, M10. reflexivity.
  - eexists _, fp, ft, frf. split; [reflexivity|]. cbn [ea_account ea_pair ea_price ea_close ea_pnl ea_funding ea_fee_pool ea_fee_protocol ea_fee_treasury ea_fee_referral ea_pnl_percent].
    split; [congruence|]. do 3 (split; [reflexivity|]). split; [lia|]. do 5 (split; [reflexivity|]). split; [subst pct value; reflexivity|]. split; [exact Hfp|]. split; [exact Hft|].
    assert (va_ref aC = va_ref a) as Erf by congruence. split; [rewrite Hfrr; unfold va_fee_share_referral; rewrite Erf; reflexivity|]. split; [exact P2|]. split.
    + pose proof (reward_bal _ _ _ P3) as Hrb. assert (ref_bal aC = ref_bal a) as E7 by (unfold ref_bal; rewrite Erf; reflexivity). rewrite E7, Erf in Hrb. unfold va_fee_share_referral in Hfrr. rewrite Erf in Hfrr. rewrite Hrb. destruct (va_ref a); [reflexivity|]. rewrite Hfrr, Z.mul_0_r. reflexivity.
    + rewrite G5, P1. cbn. rewrite M6, M14, R2, F5. unfold pB. cbn. lia.
Qed.

(** The referral balance of the account's referrer after a call. *)
Lemma call_referral E w w' a acc acc' v0 ids c o l s wz w1 x : w_accounts w !! a = Some acc -> get_acc w a = Ok v0 -> starts w acc v0 ->
  ssteps E (w_now w) c o (mkS (get_pool w ids) v0 (w_fd w)) l s -> w_refs wz = w_refs w -> realize_acc wz (s_acc s) = Ok w1 -> w_accounts w' = w_accounts w1 -> w_refs w' = w_refs w1 ->
  w_accounts w1 !! a = Some acc' -> va_addr v0 = a -> ref_bal (s_acc s) = ref_bal v0 + x -> referral_balance w' a = referral_balance w a + x.
Proof.
  intros Ha Hv Hst Htr Hwz Hz T1 T6 Ha' Had Hrb. pose proof (ssteps_comp _ _ _ _ _ _ _ Htr) as (_ & _ & _ & _ & _ & Hcr & _). cbn [s_acc] in Hcr.
  apply realize_acc_inv in Hz as (acc2 & refs & Hz & ->). rewrite Hwz in Hz.
  assert (va_ref_id v0 = ac_ref acc) as Hid1. { apply get_acc_inv in Hv as (accx & Hax & _ & _ & _ & _ & _ & _ & _ & _ & _ & _ & _ & _ & _ & Hvid & _). rewrite Ha in Hax. injection Hax as <-. exact Hvid. }
  pose proof (refs_final v0 _ _ _ _ (ac_ref acc) Hz (ssteps_ref _ _ _ _ _ _ _ Htr) Hid1 (st_ref _ _ _ Hst)) as Hrf.
  assert (ac_ref acc' = ac_ref acc) as Erf.
  { pose proof (ssteps_addr _ _ _ _ _ _ _ Htr) as Hadd. cbn [s_acc] in Hadd. cbn in Ha'. rewrite Hadd, Had, lookup_insert in Ha'. injection Ha' as <-. pose proof (proj1 (va_realize_inv _ _ _ _ Hz)) as Hu. unfold acc_update in Hu. bd Hu as (r1 & _ & Hu). bd Hu as (r2 & _ & Hu). apply Ok_inj in Hu.
    rewrite <- Hu. change (ac_ref (va_comp (s_acc s)) = ac_ref acc). rewrite Hcr, (st_comp _ _ _ Hst). reflexivity. }
  unfold referral_balance. rewrite T1, T6, Ha', Ha, Erf. cbn [w_refs]. unfold ref_bal_of in Hrf. simpl. rewrite Hrf, Hrb. f_equal. unfold ref_bal. rewrite (st_ref _ _ _ Hst). destruct (ac_ref acc); reflexivity.
Qed.

(** The call as a whole. *)
Record adl_call (E : env) (w w' : world) (a : addr) (k : pair_id) (out : outp) (acc acc' : account) (fee : Z) (e : ev_adl) : Prop := {
  ad_acc : w_accounts w !! a = Some acc; ad_acc' : w_accounts w' !! a = Some acc'; ad_acc_oth : forall b, b <> a -> w_accounts w' !! b = w_accounts w !! b;
  ad_config : w_config w' = w_config w; ad_share : fee_share w' acc' = fee_share w acc;
  ad_nz : size_of w a k <> 0 /\ ap_cost (position w a k) <> 0 /\ ec_adl_a (g_exchange_config w) <> 0;
  ad_cap : ec_skew_ratio_cap (g_exchange_config w) < marked_skew_ratio w w' a k (price_of w' k);
  ad_threshold : adl_threshold (g_exchange_config w) (marked_skew_ratio w w' a k (price_of w' k)) < profit_ratio (price_of w' k) (position w a k);
  ad_lower : skew_ratio w' < marked_skew_ratio w w' a k (price_of w' k);
  ad_size : size_of w' a k = 0; ad_oth : forall k', k' <> k -> position w' a k' = position w a k';
  ad_coll : ac_coll acc' = ac_coll acc;
  ad_pair : exists pc, pair_cfg w k = Some pc /\ balance w' a = balance w a + profit (g_exchange_config w) pc (funded w w' k) (fee_share w acc) (price_of w' k) (position w a k) /\
     fee = trading_fee (g_exchange_config w) pc (pool_pair w k) (fee_share w acc) (price_of w' k) (mul (- size_of w a k) (price_of w' k));
  ad_fee : 0 <= fee <= mul (Z.abs (mul (size_of w a k) (price_of w' k))) (ec_fee_max (g_exchange_config w));
  ad_pool : pp_oi_long (pool_pair w' k) = pp_oi_long (pool_pair w k) - Z.max 0 (size_of w a k) /\ pp_oi_short (pool_pair w' k) = pp_oi_short (pool_pair w k) - Z.max 0 (- size_of w a k) /\
     pp_cost (pool_pair w' k) = pp_cost (pool_pair w k) - ap_cost (position w a k);
  ad_ev : (exists rest, o_events out = EvAutoDeleverage e :: rest) /\ ea_account e = a /\ ea_pair e = k /\ ea_price e = price_of w' k /\ ea_close e = - size_of w a k /\
     balance w' a = balance w a + ea_pnl e /\ ea_funding e = - funding_owed (pool_pair w' k) (position w a k) /\ ea_pnl_percent e = profit_ratio (price_of w' k) (position w a k) /\
     - (ea_fee_pool e + ea_fee_protocol e + ea_fee_treasury e + ea_fee_referral e) = fee /\
     fd_protocol (w_fd w') = fd_protocol (w_fd w) - ea_fee_protocol e /\ fd_treasury (w_fd w') = fd_treasury (w_fd w) - ea_fee_treasury e /\
     ea_fee_protocol e = - mul fee (ec_fee_share_protocol (g_exchange_config w)) /\ ea_fee_treasury e = - mul fee (ec_fee_share_treasury (g_exchange_config w)) /\
     ea_fee_referral e = - mul (mul fee (ec_fee_share_referral (g_exchange_config w))) (referral_share w acc) /\ referral_balance w' a = referral_balance w a - ea_fee_referral e /\
     po_vb (w_pool w') + balance w' a = po_vb (w_pool w) + balance w a + ea_fee_protocol e + ea_fee_treasury e + ea_fee_referral e }.
Lemma adl_call_intro E cx w a k upd w' out : reachable E w -> step E cx w (OAutoDeleverage a k upd) = Ok (w', out) ->
  exists acc acc' fee e, adl_call E w w' a k out acc acc' fee e.
Proof.
  intros Hr H. pose proof (step_acct _ _ _ _ _ _ a H eq_refl) as (lx & Hlx & _). pose proof (acct_call_self _ _ _ _ _ Hlx) as ((acc & Ha) & (acc0 & Ha0) & _).
  pose proof (acct_call_share _ _ _ _ _ _ _ Hlx Ha Ha0) as [Sh1 Sh2].
  apply adl_call_inv in H as (v0 & ids & c & orc & o & s & ev & w1 & Hv & Hids & Hc & Hpk & Hx & Hz & Hw' & Htok & Hev).
  pose proof (wi_nz _ (WI_reachable _ _ Hr)) as Hnz. pose proof (starts_intro _ _ _ _ Hv Ha (Hnz _ _ Ha)) as Hst. pose proof (get_acc_addr _ _ _ Hv) as Had.
  destruct (tr_auto_deleverage E (w_now w) c o _ _ _ _ Hx) as (amt0 & fee0 & Htr).
  match type of Hz with realize_acc ?x _ = _ => set (wz := x) in Hz end.
  destruct (call_finish E w a acc v0 ids c o _ s wz w1 Hr Ha Hst Had Htr eq_refl Hz) as (acc' & Ha' & Hrz & Hoth & HSI & Hsy & Hpo & Hno & Hcf & Hor & Hfd & _).
  assert (w_accounts w' = w_accounts w1 /\ w_pool w' = vp_realize (s_pool s) /\ w_config w' = w_config w /\ w_oracle w' = orc /\ w_now w' = w_now w /\ w_refs w' = w_refs w1 /\ w_fd w' = s_fd s) as (T1 & T2 & T3 & T4 & T5 & T6 & T7).
  { subst w'. split; [reflexivity|]. split; [reflexivity|]. split; [exact Hcf|]. split; [exact Hor|]. split; [exact Hno|]. split; [reflexivity|exact Hfd]. }
  rewrite T1, Ha' in Ha0. injection Ha0 as <-.
  assert (cached_ok (w_now w') (s_pool s)) as Hcache. { rewrite T5. exact (proj1 HSI). }
  destruct (adl_inv _ _ _ _ _ _ _ _ _ Hx) as (price & pc & pp0 & pp1 & ppF & fr & fpd & fee & F).
  assert (pp0 = pool_pair w k) as Epp. { pose proof (af_pp0 _ _ _ _ _ _ _ _ _ _ _ _ _ _ _ _ F) as X. rewrite (get_pool_cached w ids k) in X by (rewrite Hids; set_solver). congruence. }
  destruct (af_ppF _ _ _ _ _ _ _ _ _ _ _ _ _ _ _ _ F) as (X1 & X2 & X3 & X4 & X5 & X6). pose proof (pool_pair_cached _ _ _ _ Hcache T2 X1) as EppF.
  assert (price_of w' k = price) as Eprice. { destruct (stored_of _ _ _ _ _ _ _ w' _ _ Hpk T4 (af_price _ _ _ _ _ _ _ _ _ _ _ _ _ _ _ _ F)) as (t & Ht). unfold price_of. rewrite Ht. reflexivity. }
  assert (vc_exchange c = g_exchange_config w) as Eec by (rewrite (get_config_exchange _ _ _ Hc); reflexivity).
  assert (sees w' (fun k => default (pool_pair w k) (vp_positions (get_pool w ids) !! k)) c o (get_pool w ids)) as S.
  { eapply sees_intro; [exact Hc|rewrite T4; exact Hpk|exact T3|]. intros k0 q Hq. rewrite Hq. reflexivity. }
  assert (pair_cfg w k = Some pc) as Epc.
  { pose proof (sv_pc _ _ _ _ _ S k pc (af_pc _ _ _ _ _ _ _ _ _ _ _ _ _ _ _ _ F)) as X. unfold pair_cfg in *. rewrite T3 in X. exact X. }
  assert (position w a k = pos_of v0 k) as Epos. { unfold position. rewrite Ha. symmetry. apply (st_pos _ _ _ Hst). }
  assert (fr = fee_share w acc) as Efr by exact (rebate_share _ _ _ _ Hst (af_share _ _ _ _ _ _ _ _ _ _ _ _ _ _ _ _ F)).
  assert (balance w a = va_vb v0) as Eb0 by (unfold balance; rewrite Ha; symmetry; apply (st_vb _ _ _ Hst)).
  assert (balance w' a = va_vb (s_acc s)) as Eb1 by (unfold balance; rewrite T1, Ha'; apply (rz_vb _ _ Hrz)).
  assert (funding_owed (pool_pair w' k) (pos_of v0 k) = funding_owed pp1 (pos_of v0 k)) as Eow by (rewrite EppF; unfold funding_owed, side_index; rewrite X5, X6; reflexivity).
  destruct (vp_realize_pool (s_pool s)) as (Y1 & Y2 & Y3 & Y4 & Y5). pose proof (af_base _ _ _ _ _ _ _ _ _ _ _ _ _ _ _ _ F) as Hgb.
  assert (vp_base (s_pool s) = po_base (vp_comp (s_pool s))) as Hbb by (unfold g_base in Hgb; injection Hgb as G1 G2; rewrite G1, G2; reflexivity).
  assert (accrued w w' a k = fpd) as Eacc.
  { unfold accrued. rewrite T2, Y2, Epos, Eow, (af_upf _ _ _ _ _ _ _ _ _ _ _ _ _ _ _ _ F). change (vp_upf (get_pool w ids)) with (po_upf (w_pool w)). lia. }
  destruct (af_sr _ _ _ _ _ _ _ _ _ _ _ _ _ _ _ _ F) as (K1 & K2 & r & K3 & K4).
  match type of K1 with _ < ?z => assert (z = marked_skew_ratio w w' a k (price_of w' k)) as Esr end.
  { unfold marked_skew_ratio, marked_skew, marked_pnl. rewrite Eacc, Eprice, <- Epp. change (vp_skew (get_pool w ids)) with (po_skew (w_pool w)). change (vp_base (get_pool w ids)) with (po_base (w_pool w)). change (vp_vb (get_pool w ids)) with (po_vb (w_pool w)). change (vp_upf (get_pool w ids)) with (po_upf (w_pool w)). change (vp_pnl (get_pool w ids)) with (po_pnl (w_pool w)). f_equal; lia. }
  rewrite Esr, Eec in *.
  destruct (af_nz _ _ _ _ _ _ _ _ _ _ _ _ _ _ _ _ F) as (Z1 & Z2 & Z3). rewrite Eec in Z3. destruct (af_same _ _ _ _ _ _ _ _ _ _ _ _ _ _ _ _ F) as (S1 & S2 & S3). destruct (af_fee _ _ _ _ _ _ _ _ _ _ _ _ _ _ _ _ F) as (Q1 & Q2).
  destruct (af_ev _ _ _ _ _ _ _ _ _ _ _ _ _ _ _ _ F) as (e & fp & ft & frf & V0 & V1 & V2 & V3 & V4 & V5 & V6 & V7 & V8 & V9 & V10 & V11 & V12 & V13 & V14 & V15 & V16 & V17).
  pose proof (af_vb _ _ _ _ _ _ _ _ _ _ _ _ _ _ _ _ F) as Vb. rewrite Eec in *.
  exists acc, acc', fee, e. constructor; unfold size_of in *; rewrite ?Epos, ?Eprice in *.
  - exact Ha.
  - rewrite T1. exact Ha'.
  - intros b Hne. rewrite T1. exact (Hoth b Hne).
  - exact T3.
  - exact Sh1.
  - auto.
  - exact K1.
  - exact K2.
  - rewrite (skew_ratio_realized w' (s_pool s) r T2 Hbb K3). exact K4.
  - unfold position. rewrite T1, Ha'. rewrite (rz_amount _ _ Hrz k). exact (af_pos _ _ _ _ _ _ _ _ _ _ _ _ _ _ _ _ F).
  - intros k' Hk'. unfold position. rewrite T1, Ha', Ha, <- (st_pos _ _ _ Hst k'), <- (af_pos_oth _ _ _ _ _ _ _ _ _ _ _ _ _ _ _ _ F k' Hk').
    destruct (decide (ap_amount (pos_of (s_acc s) k') = 0)) as [H0|H0]; [|exact (proj1 (rz_pos _ _ Hrz k' H0))].
    pose proof (rz_none _ _ Hrz k' H0) as Hn. unfold held at 1. rewrite Hn. rewrite (af_pos_oth _ _ _ _ _ _ _ _ _ _ _ _ _ _ _ _ F k' Hk') in *. rewrite (st_pos _ _ _ Hst k') in *. unfold held in *.
    destruct (ac_positions acc !! k') as [x|] eqn:Hx'; [exfalso; exact (Hnz _ _ Ha _ _ Hx' H0)|reflexivity].
  - rewrite (rz_coll _ _ Hrz). pose proof (af_coll _ _ _ _ _ _ _ _ _ _ _ _ _ _ _ _ F) as X. unfold g_coll in X. injection X as G1 G2 G3. rewrite G2, (st_comp _ _ _ Hst). reflexivity.
  - exists pc. split; [exact Epc|]. split.
    + rewrite Eb0, Eb1, Vb, <- Efr. f_equal. apply profit_ext; unfold funded; cbn; rewrite <- ?Epp, ?EppF; congruence.
    + rewrite <- Efr, <- Epp. exact Q1.
  - exact Q2.
  - rewrite EppF, <- Epp. auto.
  - split; [exists (acc_events (s_acc s) ++ pool_events (s_pool s)); rewrite Hev, V0; reflexivity|]. split; [congruence|]. split; [exact V2|]. split; [exact V3|]. split; [exact V4|]. split; [rewrite Eb0, Eb1, V5; exact Vb|].
    split; [rewrite V6, Eow; reflexivity|]. split; [exact V11|]. split; [lia|]. rewrite T7, V15. cbn [fd_protocol fd_treasury]. split; [lia|]. split; [lia|]. split; [lia|]. split; [lia|]. split; [rewrite V10, V14, (referral_share_start _ _ _ Hst); reflexivity|]. split.
    + rewrite V10. replace (referral_balance w a - - frf) with (referral_balance w a + frf) by lia. exact (call_referral _ _ _ _ _ _ _ _ _ _ _ _ wz _ frf Ha Hv Hst Htr eq_refl Hz T1 T6 Ha' Had V16).
    + rewrite T2, Y1, Eb0, Eb1. change (vp_vb (get_pool w ids)) with (po_vb (w_pool w)) in V17. lia.
Qed.
