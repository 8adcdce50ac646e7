(** * What executing an order does, in closed form. *)
From Verif Require Import Base DFloat Lists Types Config Oracle Pool Account Fees Referral ExInternal Exchange System Sums Trace Frames Calls Shape SpecOracle SpecTrading SpecMargin P_Ledger P_Accounts Frames2 Trading P_Positions P_Positions2 P_Oracle P_Keeper.

Lemma mul_mulq a b : mul a b = mulq a b. Proof. reflexivity. Qed.
Lemma mulq_neg_l a b : mulq (- a) b = - mulq a b.
Proof. unfold mulq. rewrite Z.mul_opp_l, Z.quot_opp_l; [reflexivity|discriminate]. Qed.
Lemma mulq_0_l b : mulq 0 b = 0. Proof. reflexivity. Qed.
Lemma mulq_0_r a : mulq a 0 = 0. Proof. unfold mulq. rewrite Z.mul_0_r. reflexivity. Qed.
Lemma mulq_abs a b : 0 <= b -> Z.abs (mulq a b) = mulq (Z.abs a) b.
Proof.
  intros Hb. unfold mulq. destruct (Z.abs_spec a) as [[Ha ->]|[Ha ->]].
  - apply Z.abs_eq. apply Z.quot_pos; [nia|reflexivity].
  - rewrite Z.mul_opp_l, Z.quot_opp_l by discriminate. rewrite Z.abs_neq; [reflexivity|]. rewrite <- (Z.opp_involutive (a * b)), Z.quot_opp_l by discriminate.
    assert (0 <= Z.quot (- (a * b)) E18); [apply Z.quot_pos; [nia|reflexivity]|lia].
Qed.
Lemma mulq_2 x : mulq (dec 2) x = 2 * x.
Proof. unfold mulq, dec. replace (2 * E18 * x) with (2 * x * E18) by ring. apply Z.quot_mul. discriminate. Qed.
Lemma funding_due_owed pp pos f : x_funding_due pp pos = Ok f -> f = funding_owed pp pos.
Proof.
  unfold x_funding_due, funding_owed, side_index. rewrite mul_mulq. intros H; destruct (Z.ltb_spec 0 (ap_amount pos)) as [Hl|Hl].
  - bd H as (d & Hd & H). apply dsub_Ok in Hd as [-> _]. apply dmul_mulq in H. rewrite Z.abs_eq by lia. exact H.
  - bd H as (n & Hn & H). apply dneg_Ok in Hn as [-> _]. bd H as (d & Hd & H). apply dsub_Ok in Hd as [-> _]. apply dmul_mulq in H. rewrite Z.abs_neq by lia. exact H.
Qed.
Lemma calculate_fee_spec ec pc pp fr price value fee : x_calculate_fee ec pc pp fr price value = Ok fee -> fee = trading_fee ec pc pp fr price value /\ 0 <= mul (Z.abs value) (ec_fee_max ec).
Proof.
  unfold x_calculate_fee, trading_fee. intros H. bd H as (va & Hva & H). bd H as (d & Hd & H). bd H as (sk & Hsk & H). bd H as (f0 & Hf0 & H). bd H as (t0 & Ht0 & H). bd H as (t1 & Ht1 & H). bd H as (t2 & Ht2 & H).
  bd H as (f1 & Hf1 & H). bd H as (fm & Hfm & H). bd H as (s & Hs & H). bd H as (sr & Hsr & H).
  apply dabs_Ok in Hva as [-> _]. apply dsub_Ok in Hd as [-> _]. apply dadd_Ok in Ht1 as [-> _]. apply dadd_Ok in Hs as [-> _]. apply dmul_mulq in Hsk, Hf0, Ht0, Ht2, Hf1, Hfm, Hsr. subst.
  unfold dclamp in H. match type of H with (if ?b then _ else _) = _ => destruct b eqn:Hb; [|discriminate H] end. apply Ok_inj in H. subst fee. apply Z.leb_le in Hb.
  rewrite mulq_2. split; [reflexivity|exact Hb].
Qed.
Lemma pos_of_set a pid x k : pos_of (va_set_position a pid x) k = if decide (k = pid) then x else pos_of a k.
Proof.
  unfold pos_of, va_set_position. cbn. destruct (decide (k = pid)) as [->|Hne]; [rewrite lookup_insert; reflexivity|rewrite lookup_insert_ne by congruence; reflexivity].
Qed.

Lemma margin_order_inv now c o s rq s' ev : x_margin_order now c o s rq = Ok (s', ev) ->
  exists price pA b pB aB nf cl op pC aC pnl fee0 pD aD fee1 s1 q0 q1 q2 q3 aE lact aF lcan,
  vo_prices o !! ro_pair rq = Some price /\ pl_compare (ro_price_limit rq) price = true /\
  x_update_pair now c o (s_pool s) (ro_pair rq) = Ok (pA, b) /\
  x_settle_funding pA (s_acc s) (ro_pair rq) = Ok (pB, aB, nf) /\
  x_split (ap_amount (pos_of aB (ro_pair rq))) (ro_amount rq) (ro_reduce_only rq) = Ok (cl, op) /\
  (cl = 0 /\ pC = pB /\ aC = aB /\ pnl = 0 /\ fee0 = 0 \/ cl <> 0 /\ x_close_position c o pB aB (ro_pair rq) cl = Ok (pC, aC, (pnl, fee0))) /\
  (op = 0 /\ pD = pC /\ aD = aC /\ fee1 = 0 \/ op <> 0 /\ x_open_position c o pC aC (ro_pair rq) op = Ok (pD, aD, fee1)) /\
  sl_compare (ro_slippage rq) (fee0 + fee1) (mulq price (Z.abs (op + cl))) = Ok true /\
  x_settle_fees_referral c (mkS pD aD (s_fd s)) (fee0 + fee1) = Ok (s1, (q0, q1, q2, q3)) /\
  va_try_set_status (s_acc s1) (ro_activate rq) STATUS_ACTIVE = Ok (aE, lact) /\
  va_try_set_status aE (ro_cancel rq) STATUS_CANCELLED = Ok (aF, lcan) /\
  s' = s1 <| s_acc := aF |> /\
  x_assert_pool_integrity c (s_pool s1) (vp_skew (s_pool s1) - vp_skew pB) = Ok tt /\
  ev = EvMarginOrder (mkEvOrder (va_addr aF) (ro_pair rq) price (ro_price_limit rq) cl op (pnl + nf) nf q0 q1 q2 q3 lact lcan).
Proof.
  unfold x_margin_order, vo_price. intros H. cbv zeta in H. bd H as (price & Hp & H). apply expect_Ok in Hp. bd H as (? & Hpl & H). apply guard_Ok in Hpl. bd H as ([pA b] & HA & H). bd H as ([[pB aB] nf] & HB & H). bd H as ([cl op] & Hsp & H).
  bd H as ([[[pC aC] pnl] fee0] & HC & H). bd H as ([[pD aD] fee] & HD & H). bd H as (t1 & Ht1 & H). bd H as (t2 & Ht2 & H). bd H as (t3 & Ht3 & H). bd H as (ok & Hok & H). bd H as (? & Hok1 & H). apply guard_Ok in Hok1. subst ok.
  bd H as ([s1 [[[q0 q1] q2] q3]] & Hfee & H). bd H as ([aE lact] & HE & H). bd H as ([aF lcan] & HF & H). cbn [s_pool] in H. bd H as (dsk & Hdsk & H). bd H as ([] & Hint & H). bd H as (tp & Htp & H). apply Ok_inj in H. injection H as <- <-.
  apply dadd_Ok in Ht1 as [-> _]. apply dabs_Ok in Ht2 as [-> _]. apply dmul_mulq in Ht3. subst t3. apply dsub_Ok in Hdsk as [-> _]. apply dadd_Ok in Htp as [-> _].
  assert (exists fee1, fee = fee0 + fee1 /\ (op = 0 /\ pD = pC /\ aD = aC /\ fee1 = 0 \/ op <> 0 /\ x_open_position c o pC aC (ro_pair rq) op = Ok (pD, aD, fee1))) as (fee1 & -> & HD').
  { destruct (Z.eqb_spec op 0) as [H0|H0]; cbn [negb] in HD.
    - apply Ok_inj in HD. injection HD as <- <- <-. exists 0. split; [lia|]. left. auto.
    - bd HD as ([[pD' aD'] f1] & HD1 & HD). bd HD as (ff & Hff & HD). apply Ok_inj in HD. injection HD as <- <- <-. apply dadd_Ok in Hff as [-> _]. exists f1. split; [reflexivity|]. right. auto. }
  assert (ap_amount (pos_of aB (ro_pair rq)) = match va_positions aB !! ro_pair rq with Some x => ap_amount x | None => 0 end) as Hps by (unfold pos_of; destruct (va_positions aB !! ro_pair rq); reflexivity).
  rewrite <- Hps in Hsp.
  exists price, pA, b, pB, aB, nf, cl, op, pC, aC, pnl, fee0, pD, aD, fee1, s1, q0, q1, q2, q3, aE, lact, aF, lcan.
  split; [exact Hp|]. split; [exact Hpl|]. split; [exact HA|]. split; [exact HB|]. split; [exact Hsp|].
  split. { destruct (Z.eqb_spec cl 0) as [H0|H0]; cbn [negb] in HC; [apply Ok_inj in HC; injection HC as <- <- <- <-; left; auto|]. bd HC as ([[pC' aC'] [pn f0]] & HC1 & HC). apply Ok_inj in HC. injection HC as <- <- <- <-. right. auto. }
  split; [exact HD'|]. split; [exact Hok|]. split; [exact Hfee|]. split; [exact HE|]. split; [exact HF|]. split; [reflexivity|]. split; [exact Hint|reflexivity].
Qed.
Lemma split_spec size amount ro cl op : x_split size amount ro = Ok (cl, op) ->
  cl + op = order_change size amount ro /\ (ro = true -> op = 0) /\
  (cl <> 0 -> size * cl < 0 /\ Z.abs cl <= Z.abs size) /\ (op <> 0 -> cl <> 0 -> cl = - size) /\ cl = order_change size amount true.
Proof.
  unfold x_split, order_change. intros H. bd H as (k & Hk & H). bd H as (m & Hm & H). apply Ok_inj in H. injection H as <- <-.
  assert (k = if size * amount <? 0 then Z.sgn amount * Z.min (Z.abs amount) (Z.abs size) else 0) as ->.
  { destruct (Z.ltb_spec 0 size), (Z.ltb_spec amount 0); cbn [andb] in Hk.
    - bd Hk as (n & Hn & Hk). apply Ok_inj in Hk. apply dneg_Ok in Hn as [-> _]. subst k. destruct (Z.ltb_spec (size * amount) 0); nia.
    - destruct (Z.ltb_spec size 0); [lia|]. cbn [andb] in Hk. apply Ok_inj in Hk. subst k. destruct (Z.ltb_spec (size * amount) 0); nia.
    - destruct (Z.ltb_spec size 0), (Z.ltb_spec 0 amount); try lia; cbn [andb] in Hk; apply Ok_inj in Hk; subst k; destruct (Z.ltb_spec (size * amount) 0); nia.
    - destruct (Z.ltb_spec size 0), (Z.ltb_spec 0 amount); cbn [andb] in Hk; try (bd Hk as (n & Hn & Hk); apply dneg_Ok in Hn as [-> _]); apply Ok_inj in Hk; subst k; destruct (Z.ltb_spec (size * amount) 0); nia. }
  clear Hk. destruct ro; cbn [negb] in Hm.
  - apply Ok_inj in Hm. subst m. destruct (Z.ltb_spec (size * amount) 0) as [Hs|Hs]; (split; [lia|split; [reflexivity|split; [|split; [lia|reflexivity]]]]); [|lia]. intros _. split; nia.
  - apply dsub_Ok in Hm as [-> _]. destruct (Z.ltb_spec (size * amount) 0) as [Hs|Hs]; (split; [lia|split; [discriminate|split; [|split; [|reflexivity]]]]); try lia; nia.
Qed.

(** A change of one pair's position on both sides. *)
Record moved (price : Z) (pid : pair_id) (p : vpool) (a : vacc) (pp : pool_position) (p' : vpool) (a' : vacc) (pp' : pool_position) (dl ds dcost damt dvb : Z) : Prop := {
  mv_pp : vp_positions p' !! pid = Some pp'; mv_real : real p' !! pid = Some pp';
  mv_oth : forall k, k <> pid -> vp_positions p' !! k = vp_positions p !! k;
  mv_oi : pp_oi_long pp' = pp_oi_long pp + dl /\ pp_oi_short pp' = pp_oi_short pp + ds /\ pp_cost pp' = pp_cost pp + dcost /\
    pp_funding_long_index pp' = pp_funding_long_index pp /\ pp_funding_short_index pp' = pp_funding_short_index pp /\
    pp_last_update pp' = pp_last_update pp /\ pp_last_price pp' = pp_last_price pp;
  mv_snap : pp_skew_abs_snap pp' = Z.abs (skew_at pp' price) /\ pp_pnl_snap pp' = pp_cost pp' - skew_at pp' price;
  mv_vb : vp_vb p' = vp_vb p - dvb; mv_upf : vp_upf p' = vp_upf p;
  mv_skew : vp_skew p' = vp_skew p + (pp_skew_abs_snap pp' - pp_skew_abs_snap pp);
  mv_pnl : vp_pnl p' = vp_pnl p + (pp_pnl_snap pp' - pp_pnl_snap pp); mv_base : g_base p' = g_base p;
  mv_amt : ap_amount (pos_of a' pid) = ap_amount (pos_of a pid) + damt; mv_cost : ap_cost (pos_of a' pid) = ap_cost (pos_of a pid) + dcost;
  mv_pos_oth : forall k, k <> pid -> pos_of a' k = pos_of a k;
  mv_avb : va_vb a' = va_vb a + dvb; mv_coll : g_coll a' = g_coll a; mv_ref : va_ref a' = va_ref a; mv_addr : va_addr a' = va_addr a }.
Lemma moved_refl price pid p a pp : vp_positions p !! pid = Some pp -> real p !! pid = Some pp ->
  pp_skew_abs_snap pp = Z.abs (skew_at pp price) /\ pp_pnl_snap pp = pp_cost pp - skew_at pp price -> moved price pid p a pp p a pp 0 0 0 0 0.
Proof. intros H1 H2 H3. constructor; auto; try lia. Qed.
Lemma moved_trans price pid p a pp p1 a1 pp1 dl ds dc da dv p2 a2 pp2 dl' ds' dc' da' dv' :
  moved price pid p a pp p1 a1 pp1 dl ds dc da dv -> moved price pid p1 a1 pp1 p2 a2 pp2 dl' ds' dc' da' dv' ->
  moved price pid p a pp p2 a2 pp2 (dl + dl') (ds + ds') (dc + dc') (da + da') (dv + dv').
Proof.
  intros [A1 A2 A3 A4 A5 A6 A7 A8 A9 A10 A11 A12 A13 A14 A15 A16 A17] [B1 B2 B3 B4 B5 B6 B7 B8 B9 B10 B11 B12 B13 B14 B15 B16 B17]. constructor; try assumption; try lia; try congruence.
  - intros k Hk. rewrite B3, A3 by exact Hk. reflexivity.
  - intros k Hk. rewrite B13, A13 by exact Hk. reflexivity.
Qed.
Lemma put_snap_real p pid old x k : real (put_snap p pid old x) !! k = if decide (k = pid) then Some x else real p !! k.
Proof. change (real (put_snap p pid old x)) with (real (vp_set_position p pid x)). rewrite real_set. destruct (decide (k = pid)) as [->|Hne]; [apply lookup_insert|apply lookup_insert_ne; congruence]. Qed.
Lemma put_snap_pos p pid old x k : vp_positions (put_snap p pid old x) !! k = if decide (k = pid) then Some x else vp_positions p !! k.
Proof. unfold put_snap, vp_set_position. cbn. destruct (decide (k = pid)) as [->|Hne]; [apply lookup_insert|apply lookup_insert_ne; congruence]. Qed.
Lemma traded_facts pp long amount cost price : let pp' := resnap price (traded pp long amount cost) in
  pp_oi_long pp' = pp_oi_long pp + (if long then amount else 0) /\ pp_oi_short pp' = pp_oi_short pp + (if long then 0 else - amount) /\ pp_cost pp' = pp_cost pp + cost /\
  pp_funding_long_index pp' = pp_funding_long_index pp /\ pp_funding_short_index pp' = pp_funding_short_index pp /\ pp_last_update pp' = pp_last_update pp /\ pp_last_price pp' = pp_last_price pp /\
  pp_skew_abs_snap pp' = Z.abs (skew_at pp' price) /\ pp_pnl_snap pp' = pp_cost pp' - skew_at pp' price.
Proof. destruct long; simpl; unfold skew_at; simpl; repeat split; lia. Qed.
Lemma pos_of_vb x y k : pos_of (x <| va_vb := y |>) k = pos_of x k. Proof. reflexivity. Qed.
Lemma close_moved c o p a pid cl p' a' pnl fee : x_close_position c o p a pid cl = Ok (p', a', (pnl, fee)) -> cl <> 0 ->
  exists pc fr price pp cost pp', vc_pairs c !! pid = Some pc /\ va_fee_rebate a = Ok fr /\ vo_prices o !! pid = Some price /\ vp_positions p !! pid = Some pp /\
    cost = mulq (Z.quot (- cl * E18) (ap_amount (pos_of a pid))) (ap_cost (pos_of a pid)) /\ fee = trading_fee (vc_exchange c) pc pp fr price (mulq cl price) /\
    0 <= fee <= mul (Z.abs (mulq cl price)) (ec_fee_max (vc_exchange c)) /\ pnl = - mulq cl price - cost - fee /\
    moved price pid p a pp p' a' pp' (if cl <? 0 then cl else 0) (if cl <? 0 then 0 else - cl) (- cost) cl pnl /\
    ap_funding (pos_of a' pid) = ap_funding (pos_of a pid).
Proof.
  intros H Hcl. apply close_inv in H as (pc & fr & price & pp & pos & cost & pp2 & Hpc & Hfr & Hpr & Hpp & -> & Hnz & Hsg & Hab & Hfee & Hcost & Hpnl & -> & -> & ->).
  apply calculate_fee_spec in Hfee as [Hfee Hmx]. exists pc, fr, price, pp, cost, (resnap price (traded pp (cl <? 0) cl (- cost))).
  split; [exact Hpc|]. split; [exact Hfr|]. split; [exact Hpr|]. split; [exact Hpp|]. split; [exact Hcost|]. split; [exact Hfee|].
  split. { rewrite Hfee. unfold trading_fee. cbv zeta. lia. }
  split; [exact Hpnl|]. destruct (traded_facts pp (cl <? 0) cl (- cost) price) as (T1 & T2 & T3 & T4 & T5 & T6 & T7 & T8 & T9).
  split; [constructor|].
  - change (vp_positions _) with (vp_positions (put_snap p pid pp (resnap price (traded pp (cl <? 0) cl (- cost))))). rewrite put_snap_pos, decide_True by reflexivity. reflexivity.
  - change (real _) with (real (put_snap p pid pp (resnap price (traded pp (cl <? 0) cl (- cost))))). rewrite put_snap_real, decide_True by reflexivity. reflexivity.
  - intros k Hk. change (vp_positions (_ <| vp_vb := _ |>)) with (vp_positions (put_snap p pid pp (resnap price (traded pp (cl <? 0) cl (- cost))))). rewrite put_snap_pos, decide_False by exact Hk. reflexivity.
  - auto 10.
  - auto.
  - reflexivity.
  - reflexivity.
  - reflexivity.
  - reflexivity.
  - reflexivity.
  - rewrite pos_of_vb. rewrite pos_of_set, decide_True by reflexivity. reflexivity.
  - rewrite pos_of_vb. rewrite pos_of_set, decide_True by reflexivity. simpl. lia.
  - intros k Hk. rewrite pos_of_vb. rewrite pos_of_set, decide_False by exact Hk. reflexivity.
  - reflexivity.
  - reflexivity.
  - reflexivity.
  - reflexivity.
  - rewrite pos_of_vb. rewrite pos_of_set, decide_True by reflexivity. reflexivity.
Qed.
Lemma open_moved c o p a pid op p' a' fee : x_open_position c o p a pid op = Ok (p', a', fee) ->
  exists pc fr price pp pp', vc_pairs c !! pid = Some pc /\ va_fee_rebate a = Ok fr /\ vo_prices o !! pid = Some price /\ vp_positions p !! pid = Some pp /\
    fee = trading_fee (vc_exchange c) pc pp fr price (mulq op price) /\ 0 <= fee <= mul (Z.abs (mulq op price)) (ec_fee_max (vc_exchange c)) /\
    (0 < op -> pp_oi_long pp' <= pc_oi_max pc) /\ (op < 0 -> pp_oi_short pp' <= pc_oi_max pc) /\
    moved price pid p a pp p' a' pp' (if 0 <? op then op else 0) (if 0 <? op then 0 else - op) (mulq op price + fee) op 0 /\
    ap_funding (pos_of a' pid) = side_index pp' (ap_amount (pos_of a' pid)) /\
    x_assert_position_limit c a' = Ok tt /\ x_assert_account_integrity c p' a' o = Ok tt.
Proof.
  intros H. apply open_inv in H as (pc & fr & price & pp & cost & pp2 & Hpc & Hfr & Hpr & Hpp & Hsg & Hfee & Hcost & -> & Ho1 & Ho2 & -> & -> & Hl & Hi).
  apply calculate_fee_spec in Hfee as [Hfee Hmx]. subst cost. exists pc, fr, price, pp, (resnap price (traded pp (0 <? op) op (mulq op price + fee))).
  split; [exact Hpc|]. split; [exact Hfr|]. split; [exact Hpr|]. split; [exact Hpp|]. split; [exact Hfee|]. split. { rewrite Hfee. unfold trading_fee. cbv zeta. lia. }
  destruct (traded_facts pp (0 <? op) op (mulq op price + fee) price) as (T1 & T2 & T3 & T4 & T5 & T6 & T7 & T8 & T9).
  split. { intros H0. exact (Ho1 H0). } split. { intros H0. apply Ho2. lia. }
  split; [constructor|].
  - rewrite put_snap_pos, decide_True by reflexivity. reflexivity.
  - rewrite put_snap_real, decide_True by reflexivity. reflexivity.
  - intros k Hk. rewrite put_snap_pos, decide_False by exact Hk. reflexivity.
  - auto 10.
  - auto.
  - simpl. lia.
  - reflexivity.
  - reflexivity.
  - reflexivity.
  - reflexivity.
  - rewrite pos_of_set, decide_True by reflexivity. reflexivity.
  - rewrite pos_of_set, decide_True by reflexivity. reflexivity.
  - intros k Hk. rewrite pos_of_set, decide_False by exact Hk. reflexivity.
  - simpl. lia.
  - reflexivity.
  - reflexivity.
  - reflexivity.
  - split; [|split; [exact Hl|exact Hi]]. rewrite pos_of_set, decide_True by reflexivity. unfold side_index. rewrite T4, T5. reflexivity.
Qed.
Lemma funding_moved p a pid p' a' nf : x_settle_funding p a pid = Ok (p', a', nf) ->
  exists pp, vp_positions p !! pid = Some pp /\ nf = - funding_owed pp (pos_of a pid) /\
    p' = p <| vp_upf := vp_upf p - funding_owed pp (pos_of a pid) |> <| vp_vb := vp_vb p + funding_owed pp (pos_of a pid) |> /\
    ap_amount (pos_of a' pid) = ap_amount (pos_of a pid) /\ ap_cost (pos_of a' pid) = ap_cost (pos_of a pid) /\
    (ap_amount (pos_of a pid) <> 0 -> ap_funding (pos_of a' pid) = side_index pp (ap_amount (pos_of a pid))) /\
    (forall k, k <> pid -> pos_of a' k = pos_of a k) /\ va_vb a' = va_vb a - funding_owed pp (pos_of a pid) /\ g_coll a' = g_coll a /\ va_ref a' = va_ref a /\ va_addr a' = va_addr a.
Proof.
  intros H. apply settle_funding_inv in H as (pp & f & Hpp & -> & -> & Hm). exists pp. split; [exact Hpp|].
  assert (f = funding_owed pp (pos_of a pid)) as ->. { unfold pos_of. destruct (va_positions a !! pid) as [pos|]; destruct Hm as [Hm _]; [apply funding_due_owed; exact Hm|exact Hm]. }
  split; [reflexivity|]. split; [reflexivity|].
  destruct (va_positions a !! pid) as [pos|] eqn:Hp; destruct Hm as [_ ->].
  - assert (pos_of a pid = pos) as Hps by (unfold pos_of; rewrite Hp; reflexivity). rewrite Hps.
    match goal with |- ap_amount ?z = _ /\ _ => assert (z = pos <| ap_funding := side_index pp (ap_amount pos) |>) as -> by (unfold pos_of; cbn; rewrite lookup_insert; reflexivity) end.
    split; [reflexivity|]. split; [reflexivity|]. split; [reflexivity|]. split; [intros k Hk; unfold pos_of; cbn; rewrite lookup_insert_ne by congruence; reflexivity|]. repeat split.
  - assert (pos_of a pid = apos_zero) as Hps by (unfold pos_of; rewrite Hp; reflexivity). rewrite Hps.
    match goal with |- ap_amount ?z = _ /\ _ => assert (z = apos_zero) as -> by (unfold pos_of; cbn; rewrite Hp; reflexivity) end.
    split; [reflexivity|]. split; [reflexivity|]. split; [intros H0; destruct H0; reflexivity|]. split; [intros k Hk; reflexivity|]. repeat split.
Qed.

Lemma trading_fee_net ec pc pp pp' sh price v : pp_oi_long pp - pp_oi_short pp = pp_oi_long pp' - pp_oi_short pp' -> trading_fee ec pc pp sh price v = trading_fee ec pc pp' sh price v.
Proof. unfold trading_fee. intros ->. reflexivity. Qed.
Lemma trading_fee_0 ec pc pp sh price : 0 = trading_fee ec pc pp sh price 0.
Proof. unfold trading_fee. cbv zeta. change (Z.abs 0) with 0. rewrite !mul_mulq, !mulq_0_l. change (0 + 0) with 0. rewrite ?mulq_0_l. reflexivity. Qed.
(** ** The effect of an order on the session *)
Record order_data := mkOD {
  od_price : Z; od_pc : pair_config; od_share : Z;
  od_pp0 : pool_position; od_pp1 : pool_position; od_ppF : pool_position;   (* before, after the pair update, at the end *)
  od_pool_funding : Z; od_cl : Z; od_op : Z; od_cost_closed : Z; od_pnl : Z; od_fee0 : Z; od_fee1 : Z;
  od_protocol : Z; od_treasury : Z; od_referral : Z }.
Record order_facts (now : Z) (c : vconfig) (o : voracle) (s : sess) (rq : req_order) (s' : sess) (ev : event) (d : order_data) : Prop := {
  of_price : vo_prices o !! ro_pair rq = Some (od_price d);
  of_limit : pl_compare (ro_price_limit rq) (od_price d) = true;
  of_pc : vc_pairs c !! ro_pair rq = Some (od_pc d);
  of_share : od_cl d <> 0 \/ od_op d <> 0 -> va_fee_rebate (s_acc s) = Ok (od_share d);
  of_pp0 : vp_positions (s_pool s) !! ro_pair rq = Some (od_pp0 d);
  of_period : period_of now (pp_last_update (od_pp0 d)) = 0 ->
    od_pool_funding d = 0 /\ od_pp1 d = resnap (od_price d) (od_pp0 d) <| pp_last_price := od_price d |> <| pp_last_update := now |>;
  of_same : pp_oi_long (od_pp1 d) = pp_oi_long (od_pp0 d) /\ pp_oi_short (od_pp1 d) = pp_oi_short (od_pp0 d) /\ pp_cost (od_pp1 d) = pp_cost (od_pp0 d) /\
    pp_last_update (od_pp1 d) = now /\ pp_last_price (od_pp1 d) = od_price d;
  of_snap1 : pp_skew_abs_snap (od_pp1 d) = Z.abs (skew_at (od_pp1 d) (od_price d));
  of_split : od_cl d + od_op d = order_change (ap_amount (pos_of (s_acc s) (ro_pair rq))) (ro_amount rq) (ro_reduce_only rq) /\
    (ro_reduce_only rq = true -> od_op d = 0) /\ (od_cl d <> 0 -> ap_amount (pos_of (s_acc s) (ro_pair rq)) * od_cl d < 0 /\ Z.abs (od_cl d) <= Z.abs (ap_amount (pos_of (s_acc s) (ro_pair rq)))) /\
    (od_op d <> 0 -> od_cl d <> 0 -> od_cl d = - ap_amount (pos_of (s_acc s) (ro_pair rq))) /\ od_cl d = order_change (ap_amount (pos_of (s_acc s) (ro_pair rq))) (ro_amount rq) true;
  of_close : (od_cl d = 0 /\ od_cost_closed d = 0 /\ od_pnl d = 0 /\ od_fee0 d = 0) \/
    (od_cl d <> 0 /\ od_cost_closed d = mulq (Z.quot (- od_cl d * E18) (ap_amount (pos_of (s_acc s) (ro_pair rq)))) (ap_cost (pos_of (s_acc s) (ro_pair rq))) /\
     od_fee0 d = trading_fee (vc_exchange c) (od_pc d) (od_pp1 d) (od_share d) (od_price d) (mulq (od_cl d) (od_price d)) /\
     0 <= od_fee0 d <= mul (Z.abs (mulq (od_cl d) (od_price d))) (ec_fee_max (vc_exchange c)) /\
     od_pnl d = - mulq (od_cl d) (od_price d) - od_cost_closed d - od_fee0 d);
  of_open : (od_op d = 0 /\ od_fee1 d = 0) \/
    (od_op d <> 0 /\ 0 <= od_fee1 d <= mul (Z.abs (mulq (od_op d) (od_price d))) (ec_fee_max (vc_exchange c)) /\
     (0 < od_op d -> pp_oi_long (od_ppF d) <= pc_oi_max (od_pc d)) /\ (od_op d < 0 -> pp_oi_short (od_ppF d) <= pc_oi_max (od_pc d)) /\
     exists pI aI, g_ppos pI = g_ppos (s_pool s') /\ va_vb aI = va_vb (s_acc s') /\ g_pos aI = g_pos (s_acc s') /\ g_coll aI = g_coll (s_acc s') /\ va_fee_rebate aI = Ok (od_share d) /\
       x_assert_position_limit c aI = Ok tt /\ x_assert_account_integrity c pI aI o = Ok tt);
  of_fee1 : od_fee1 d = trading_fee (vc_exchange c) (od_pc d) (od_pp1 d <| pp_oi_long := pp_oi_long (od_pp1 d) + od_cl d |>) (od_share d) (od_price d) (mulq (od_op d) (od_price d));
  of_slip : sl_compare (ro_slippage rq) (od_fee0 d + od_fee1 d) (mulq (od_price d) (Z.abs (od_op d + od_cl d))) = Ok true;
  of_ppF : vp_positions (s_pool s') !! ro_pair rq = Some (od_ppF d) /\
    pp_oi_long (od_ppF d) = pp_oi_long (od_pp0 d) + (if od_cl d <? 0 then od_cl d else 0) + (if 0 <? od_op d then od_op d else 0) /\
    pp_oi_short (od_ppF d) = pp_oi_short (od_pp0 d) - (if 0 <? od_cl d then od_cl d else 0) - (if od_op d <? 0 then od_op d else 0) /\
    pp_cost (od_ppF d) = pp_cost (od_pp0 d) - od_cost_closed d + (mulq (od_op d) (od_price d) + od_fee1 d) /\
    pp_funding_long_index (od_ppF d) = pp_funding_long_index (od_pp1 d) /\ pp_funding_short_index (od_ppF d) = pp_funding_short_index (od_pp1 d) /\
    pp_last_update (od_ppF d) = now /\ pp_last_price (od_ppF d) = od_price d /\ pp_skew_abs_snap (od_ppF d) = Z.abs (skew_at (od_ppF d) (od_price d)) /\ pp_pnl_snap (od_ppF d) = pp_cost (od_ppF d) - skew_at (od_ppF d) (od_price d);
  of_real : real (s_pool s') !! ro_pair rq = Some (od_ppF d);
  of_pool_other : forall k, k <> ro_pair rq -> vp_positions (s_pool s') !! k = vp_positions (s_pool s) !! k;
  of_pos : ap_amount (pos_of (s_acc s') (ro_pair rq)) = ap_amount (pos_of (s_acc s) (ro_pair rq)) + od_cl d + od_op d /\
    ap_cost (pos_of (s_acc s') (ro_pair rq)) = ap_cost (pos_of (s_acc s) (ro_pair rq)) - od_cost_closed d + (mulq (od_op d) (od_price d) + od_fee1 d) /\
    (ap_amount (pos_of (s_acc s') (ro_pair rq)) <> 0 -> ap_funding (pos_of (s_acc s') (ro_pair rq)) = side_index (od_ppF d) (ap_amount (pos_of (s_acc s') (ro_pair rq))));
  of_pos_other : forall k, k <> ro_pair rq -> pos_of (s_acc s') k = pos_of (s_acc s) k;
  of_vb : va_vb (s_acc s') = va_vb (s_acc s) - funding_owed (od_pp1 d) (pos_of (s_acc s) (ro_pair rq)) + od_pnl d;
  of_coll : g_coll (s_acc s') = g_coll (s_acc s);
  of_pool : vp_vb (s_pool s') = vp_vb (s_pool s) + funding_owed (od_pp1 d) (pos_of (s_acc s) (ro_pair rq)) - od_pnl d - od_protocol d - od_treasury d - od_referral d /\
    vp_upf (s_pool s') = vp_upf (s_pool s) + od_pool_funding d - funding_owed (od_pp1 d) (pos_of (s_acc s) (ro_pair rq)) /\
    vp_skew (s_pool s') = vp_skew (s_pool s) + (pp_skew_abs_snap (od_ppF d) - pp_skew_abs_snap (od_pp0 d)) /\
    vp_pnl (s_pool s') = vp_pnl (s_pool s) + (pp_pnl_snap (od_ppF d) - pp_pnl_snap (od_pp0 d)) /\ g_base (s_pool s') = g_base (s_pool s);
  of_fees : od_protocol d = mul (od_fee0 d + od_fee1 d) (ec_fee_share_protocol (vc_exchange c)) /\ od_treasury d = mul (od_fee0 d + od_fee1 d) (ec_fee_share_treasury (vc_exchange c)) /\
    od_referral d = mul (mul (od_fee0 d + od_fee1 d) (ec_fee_share_referral (vc_exchange c))) (va_fee_share_referral (s_acc s)) /\
    s_fd s' = mkFD (fd_protocol (s_fd s) + od_protocol d) (fd_treasury (s_fd s) + od_treasury d);
  of_ref : ref_bal (s_acc s') = ref_bal (s_acc s) + od_referral d;
  of_integrity : exists r, x_skew_ratio (s_pool s') = Ok r /\ (r < ec_skew_ratio_cap (vc_exchange c) \/ vp_skew (s_pool s') < vp_skew (s_pool s) + (pp_skew_abs_snap (od_pp1 d) - pp_skew_abs_snap (od_pp0 d)));
  of_event : exists e, ev = EvMarginOrder e /\ eo_account e = va_addr (s_acc s') /\ eo_pair e = ro_pair rq /\ eo_price e = od_price d /\ eo_close e = od_cl d /\ eo_open e = od_op d /\
    eo_funding e = - funding_owed (od_pp1 d) (pos_of (s_acc s) (ro_pair rq)) /\ eo_pnl e = od_pnl d - funding_owed (od_pp1 d) (pos_of (s_acc s) (ro_pair rq)) /\
    eo_fee_protocol e = - od_protocol d /\ eo_fee_treasury e = - od_treasury d /\ eo_fee_referral e = - od_referral d /\
    eo_fee_pool e = - (od_fee0 d + od_fee1 d - od_protocol d - od_treasury d - od_referral d) }.
Lemma update_moved now c o p pid p' b : x_update_pair now c o p pid = Ok (p', b) ->
  exists pc price pp pp1 fpd, vc_pairs c !! pid = Some pc /\ vo_prices o !! pid = Some price /\ vp_positions p !! pid = Some pp /\
    (period_of now (pp_last_update pp) = 0 -> fpd = 0 /\ pp1 = resnap price pp <| pp_last_price := price |> <| pp_last_update := now |>) /\
    (pp_oi_long pp1 = pp_oi_long pp /\ pp_oi_short pp1 = pp_oi_short pp /\ pp_cost pp1 = pp_cost pp /\ pp_last_update pp1 = now /\ pp_last_price pp1 = price) /\
    (pp_skew_abs_snap pp1 = Z.abs (skew_at pp1 price) /\ pp_pnl_snap pp1 = pp_cost pp1 - skew_at pp1 price) /\
    p' = put_snap p pid pp pp1 <| vp_upf := vp_upf p + fpd |>.
Proof.
  intros H. apply update_pair_inv in H as (pc & price & pp & pp1 & pp2 & fpd & Hpc & Hpr & Hpp & Hp1 & Hd & -> & _). exists pc, price, pp, pp2, fpd. split; [exact Hpc|]. split; [exact Hpr|]. split; [exact Hpp|].
  assert (same_trade pp1 pp2) as (S1 & S2 & S3 & S4 & S5 & S6 & S7).
  { destruct Hd as [(_ & -> & _)|[_ Hd]]; [repeat split|]. apply funding_step_inv in Hd as [Hd _]. exact Hd. }
  split. { intros H0. destruct Hd as [(_ & -> & ->)|[Hd _]]; [auto|contradiction]. }
  rewrite S1, S2, S3, S4, S5, S6, S7. unfold skew_at. rewrite S1, S2. subst pp1. cbn. split; [repeat split|]. split; [repeat split|reflexivity].
Qed.
Lemma rebate_ref a a' : va_ref a' = va_ref a -> va_fee_rebate a' = va_fee_rebate a.
Proof. unfold va_fee_rebate. intros ->. reflexivity. Qed.
Lemma norq_vb_pos v v' : g_norq v' = g_norq v -> va_vb v' = va_vb v /\ g_pos v' = g_pos v /\ g_coll v' = g_coll v /\ va_addr v' = va_addr v.
Proof. unfold g_norq. intros H. injection H. intros. unfold g_pos, g_coll. split; [congruence|]. split; [congruence|]. split; congruence. Qed.
Lemma pos_of_g v v' k : g_pos v' = g_pos v -> pos_of v' k = pos_of v k.
Proof. unfold g_pos, pos_of. intros H. injection H as H1 _ _. rewrite H1. reflexivity. Qed.
Lemma order_effect now c o s rq s' ev : x_margin_order now c o s rq = Ok (s', ev) -> exists d, order_facts now c o s rq s' ev d.
Proof.
  intros H. apply margin_order_inv in H as (price & pA & b & pB & aB & nf & cl & op & pC & aC & pnl & fee0 & pD & aD & fee1 & s1 & q0 & q1 & q2 & q3 & aE & lact & aF & lcan & Hpr & Hpl & HA & HB & Hsp & HC & HD & Hsl & Hfee & HE & HF & -> & Hint & ->).
  apply update_moved in HA as (pc & price' & pp0 & pp1 & fpd & Hpc & Hpr' & Hpp0 & Hper & Hsame & Hsnap & ->). rewrite Hpr in Hpr'. injection Hpr' as <-.
  apply funding_moved in HB as (pp & Hpp & -> & -> & F1 & F2 & F3 & F4 & F5 & F6 & F7 & F8).
  assert (pp = pp1) as ->. { change (vp_positions (_ <| vp_upf := _ |>)) with (vp_positions (put_snap (s_pool s) (ro_pair rq) pp0 pp1)) in Hpp. rewrite put_snap_pos, decide_True in Hpp by reflexivity. congruence. }
  set (pid := ro_pair rq) in *. set (pB := put_snap (s_pool s) pid pp0 pp1 <| vp_upf := _ |> <| vp_upf := _ |> <| vp_vb := _ |>) in *.
  assert (vp_positions pB !! pid = Some pp1) as HBp by exact Hpp.
  assert (real pB !! pid = Some pp1) as HBr. { change (real pB) with (real (put_snap (s_pool s) pid pp0 pp1)). rewrite put_snap_real, decide_True by reflexivity. reflexivity. }
  rewrite F1 in Hsp. apply split_spec in Hsp.
  assert (exists share, (cl <> 0 \/ op <> 0 -> va_fee_rebate (s_acc s) = Ok share) /\ forall x, va_fee_rebate (s_acc s) = Ok x -> x = share) as (share & Hsh & Hsh2).
  { destruct (va_fee_rebate (s_acc s)) as [x|e] eqn:Hx; [exists x; split; [reflexivity|congruence]|]. exists 0. split; [|congruence]. intros [Hc|Ho].
    - destruct HC as [[? _]|[_ HC]]; [contradiction|]. apply close_inv in HC as (? & fr & ? & ? & ? & ? & ? & _ & Hfr & _). rewrite (rebate_ref (s_acc s) aB F7) in Hfr. congruence.
    - destruct HD as [[? _]|[_ HD]]; [contradiction|]. apply open_inv in HD as (? & fr & ? & ? & ? & ? & _ & Hfr & _). assert (va_ref aC = va_ref aB) as Hra.
      { destruct HC as [(_ & _ & -> & _)|[_ HC]]; [reflexivity|]. apply close_inv in HC. destruct HC as (? & ? & ? & ? & ? & ? & ? & _ & _ & _ & _ & _ & _ & _ & _ & _ & _ & _ & _ & _ & ->). reflexivity. }
      rewrite (rebate_ref (s_acc s) aC) in Hfr by congruence. congruence. }
  assert (exists cost ppC, ((cl = 0 /\ cost = 0 /\ pnl = 0 /\ fee0 = 0) \/
    (cl <> 0 /\ cost = mulq (Z.quot (- cl * E18) (ap_amount (pos_of (s_acc s) pid))) (ap_cost (pos_of (s_acc s) pid)) /\
     fee0 = trading_fee (vc_exchange c) pc pp1 share price (mulq cl price) /\ 0 <= fee0 <= mul (Z.abs (mulq cl price)) (ec_fee_max (vc_exchange c)) /\ pnl = - mulq cl price - cost - fee0)) /\
    moved price pid pB aB pp1 pC aC ppC (if cl <? 0 then cl else 0) (if cl <? 0 then 0 else - cl) (- cost) cl pnl /\ ap_funding (pos_of aC pid) = ap_funding (pos_of aB pid)) as (cost & ppC & HCd & MC & HCf).
  { destruct HC as [(-> & -> & -> & -> & ->)|[Hcl HC]].
    - exists 0, pp1. split; [left; auto|]. split; [|reflexivity]. apply moved_refl; assumption.
    - apply close_moved in HC as (pc' & fr & price' & pp' & cost & pp2 & Hpc' & Hfr & Hpr' & Hpp' & Hcost & Hf & Hfb & Hpnl & HM & Hfu); [|exact Hcl].
      rewrite Hpc in Hpc'. injection Hpc' as <-. rewrite Hpr in Hpr'. injection Hpr' as <-. rewrite HBp in Hpp'. injection Hpp' as <-. rewrite F1, F2 in Hcost.
      rewrite (rebate_ref (s_acc s) aB F7) in Hfr. apply Hsh2 in Hfr. subst fr.
      exists cost, pp2. split; [right; auto 10|]. split; [exact HM|exact Hfu]. }
  assert (exists ppF, ((op = 0 /\ fee1 = 0) \/ (op <> 0 /\ 0 <= fee1 <= mul (Z.abs (mulq op price)) (ec_fee_max (vc_exchange c)) /\ (0 < op -> pp_oi_long ppF <= pc_oi_max pc) /\ (op < 0 -> pp_oi_short ppF <= pc_oi_max pc) /\ fee1 = trading_fee (vc_exchange c) pc ppC share price (mulq op price) /\
      ap_funding (pos_of aD pid) = side_index ppF (ap_amount (pos_of aD pid)) /\ x_assert_position_limit c aD = Ok tt /\ x_assert_account_integrity c pD aD o = Ok tt)) /\ (op = 0 -> aD = aC) /\
    moved price pid pC aC ppC pD aD ppF (if 0 <? op then op else 0) (if 0 <? op then 0 else - op) (mulq op price + fee1) op 0) as (ppF & HDd & HD0 & MD).
  { destruct HD as [(-> & -> & -> & ->)|[Hop HD]].
    - exists ppC. split; [left; auto|]. split; [reflexivity|]. rewrite mulq_0_l. apply moved_refl; [exact (mv_pp _ _ _ _ _ _ _ _ _ _ _ _ _ MC)|exact (mv_real _ _ _ _ _ _ _ _ _ _ _ _ _ MC)|exact (mv_snap _ _ _ _ _ _ _ _ _ _ _ _ _ MC)].
    - apply open_moved in HD as (pc' & fr & price' & pp' & pp2 & Hpc' & Hfr & Hpr' & Hpp' & Hf & Hfb & Ho1 & Ho2 & HM & Hfu & Hl & Hi).
      rewrite Hpc in Hpc'. injection Hpc' as <-. rewrite Hpr in Hpr'. injection Hpr' as <-. rewrite (mv_pp _ _ _ _ _ _ _ _ _ _ _ _ _ MC) in Hpp'. injection Hpp' as <-.
      assert (fr = share) as ->. { rewrite (rebate_ref (s_acc s) aC) in Hfr by (rewrite (mv_ref _ _ _ _ _ _ _ _ _ _ _ _ _ MC); exact F7). apply Hsh2 in Hfr. exact Hfr. }
      exists pp2. split; [right; auto 12|]. split; [contradiction|exact HM]. }
  pose proof (moved_trans _ _ _ _ _ _ _ _ _ _ _ _ _ _ _ _ _ _ _ _ _ MC MD) as M.
  pose proof (fees_referral_frame _ _ _ _ _ Hfee) as (_ & G2 & G3 & _ & G5 & _ & _ & G8 & G9 & G10 & G11). cbn [s_acc s_pool] in G2, G3, G5, G8, G9, G10, G11.
  apply fees_referral_inv in Hfee as (fp & ft & frr & Hfp & Hft & Hfrr & P1 & P2 & P3 & -> & -> & -> & ->). cbn [s_acc s_pool s_fd] in P1, P2, P3.
  apply va_try_set_frame in HE as [HE _], HF as [HF _]. rewrite HE in HF. pose proof HF as HF0. apply norq_vb_pos in HF as (N1 & N2 & N3 & N4).
  assert (va_addr (s_acc s1) = va_addr (s_acc s)) as Had. { unfold va_reward_referral in P3. transitivity (va_addr aD); [|rewrite (mv_addr _ _ _ _ _ _ _ _ _ _ _ _ _ M); exact F8]. destruct (va_ref aD); inv_go; first [reflexivity | match goal with H : _ = s_acc s1 |- _ => rewrite <- H; reflexivity end | congruence]. }
  pose proof M as [M1 M2 M3 M4 M5 M6 M7 M8 M9 M10 M11 M12 M13 M14 M15 M16 M17].
  change (s1 <| s_acc := aF |>) with (mkS (s_pool s1) aF (s_fd s1)).
  exists (mkOD price pc share pp0 pp1 ppF fpd cl op cost pnl fee0 fee1 fp ft frr). constructor; cbn [od_price od_pc od_share od_pp0 od_pp1 od_ppF od_pool_funding od_cl od_op od_cost_closed od_pnl od_fee0 od_fee1 od_protocol od_treasury od_referral s_acc s_pool s_fd]; fold pid; rewrite ?(pos_of_g aD aF) by congruence.
  - exact Hpr.
  - exact Hpl.
  - exact Hpc.
  - exact Hsh.
  - exact Hpp0.
  - exact Hper.
  - exact Hsame.
  - exact (proj1 Hsnap).
  - exact Hsp.
  - exact HCd.
  - destruct HDd as [HDd|(Hop & Hfb & Ho1 & Ho2 & Hf1 & Hfu & Hl & Hi)]; [left; exact HDd|right]. split; [exact Hop|]. split; [exact Hfb|]. split; [exact Ho1|]. split; [exact Ho2|]. exists pD, aD.
    split; [symmetry; exact G8|]. split; [congruence|]. split; [congruence|]. split; [congruence|]. split; [|split; [exact Hl|exact Hi]].
    rewrite (rebate_ref (s_acc s) aD) by congruence. apply Hsh. right. exact Hop.
  - destruct HDd as [[-> ->]|(_ & _ & _ & _ & Hf1 & _)]; [rewrite mulq_0_l; apply trading_fee_0|]. rewrite Hf1. apply trading_fee_net. destruct (mv_oi _ _ _ _ _ _ _ _ _ _ _ _ _ MC) as (O1 & O2 & _). cbn. destruct (Z.ltb_spec cl 0); lia.
  - exact Hsl.
  - assert (vp_positions (s_pool s1) = vp_positions pD) as Hpos by (rewrite P1; reflexivity). rewrite Hpos.
    split; [exact M1|]. destruct M4 as (O1 & O2 & O3 & O4 & O5 & O6 & O7), Hsame as (S1 & S2 & S3 & S4 & S5).
    split; [rewrite O1, S1; lia|]. split. { rewrite O2, S2. destruct (Z.ltb_spec cl 0), (Z.ltb_spec 0 cl), (Z.ltb_spec 0 op), (Z.ltb_spec op 0); lia. }
    split; [rewrite O3, S3; lia|]. split; [exact O4|]. split; [exact O5|]. split; [congruence|]. split; [congruence|exact M5].
  - rewrite (real_g pD (s_pool s1)) by congruence. exact M2.
  - intros k Hk. assert (vp_positions (s_pool s1) = vp_positions pD) as -> by (rewrite P1; reflexivity). rewrite (M3 k Hk). change (vp_positions pB) with (vp_positions (put_snap (s_pool s) pid pp0 pp1)). rewrite put_snap_pos, decide_False by exact Hk. reflexivity.
  - split; [rewrite M11, F1; lia|]. split; [rewrite M12, F2; lia|]. intros Hnz. destruct HDd as [[Hop _]|(_ & _ & _ & _ & _ & Hfu & _)]; [|exact Hfu].
    rewrite (HD0 Hop) in *. rewrite HCf. rewrite M11, F1, Hop in Hnz. rewrite F3 by (intros H0; destruct Hsp as (_ & _ & Hs3 & _); destruct (Z.eq_dec cl 0) as [->|Hc]; [lia|specialize (Hs3 Hc); nia]).
    destruct M4 as (_ & _ & _ & O4 & O5 & _). unfold side_index. rewrite O4, O5, M11, F1, Hop. destruct Hsp as (_ & _ & Hs3 & _). destruct (Z.eq_dec cl 0) as [->|Hc]; [rewrite !Z.add_0_r; reflexivity|]. specialize (Hs3 Hc).
    destruct (Z.ltb_spec 0 (ap_amount (pos_of (s_acc s) pid))), (Z.ltb_spec 0 (ap_amount (pos_of (s_acc s) pid) + (cl + 0))); try reflexivity; nia.
  - intros k Hk. rewrite (pos_of_g aD aF) by congruence. rewrite (M13 k Hk). apply F4. exact Hk.
  - rewrite N1, G5, M14, F5. lia.
  - rewrite N3, G3, M15. exact F6.
  - unfold g_snap in G10. injection G10 as G10a G10b. rewrite P1 at 1. cbn. rewrite M6. cbn. split; [lia|]. split; [rewrite G11, M7; cbn; lia|]. split; [rewrite G10a, M8; cbn; lia|]. split; [rewrite G10b, M9; cbn; lia|]. rewrite G9, M10. reflexivity.
  - split; [exact Hfp|]. split; [exact Hft|]. split; [|exact P2]. unfold va_fee_share_referral in *. cbn [s_acc] in Hfrr. rewrite M16, F7 in Hfrr. exact Hfrr.
  - assert (g_ref aF = g_ref (s_acc s1)) as Hgr by (unfold g_norq in HF0; injection HF0; intros; unfold g_ref; congruence). rewrite (g_ref_bal _ _ Hgr), (reward_bal _ _ _ P3). unfold ref_bal. rewrite M16, F7. unfold va_fee_share_referral in Hfrr. cbn [s_acc] in Hfrr. rewrite M16, F7 in Hfrr. destruct (va_ref (s_acc s)); [reflexivity|]. rewrite Z.mul_0_r in Hfrr. change (Z.quot 0 E18) with 0 in Hfrr. rewrite Hfrr. reflexivity.
  - unfold x_assert_pool_integrity in Hint. bd Hint as (r & Hr & Hint). exists r. split; [exact Hr|]. apply guard_Ok in Hint. apply orb_true_iff in Hint as [Hi|Hi]; [left; apply Z.ltb_lt; exact Hi|right]. apply Z.ltb_lt in Hi. cbn in Hi. lia.
  - eexists. split; [reflexivity|]. cbn. repeat split; lia.
Qed.
