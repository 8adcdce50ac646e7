(** * C21 (continued): the referral's share of a fee and the split of liquidity fees; C48 (continued): what a trader pays. *)
From Verif Require Import Base DFloat Lists Types Config Oracle Pool Account Fees Referral ExInternal Exchange System Scenario Sums Trace Frames Calls Shape Spec SpecOracle SpecTrading SpecMargin SpecLiq P_Ledger P_Accounts Frames2 P_DFloat Witness Props_Config P_Fees P_Tokens P_Keeper P_Positions P_Positions2 Trading P_Orders P_Final P_OrderCall Props_Oracle Props_Orders P_Liq Props_Liq P_Adl Props_Adl Props_LP.

(** ** The referral's share *)
(** [referral_share]: the share set for the referral the account was opened with, 0 without one (SpecLiq). Of every trading fee,
    the part configured for referrals is multiplied by it; this is what the referral is credited with and what is reported. *)
Theorem C21_order_referral_share E cx w o w' out a r acc : reachable E w -> step E cx w o = Ok (w', out) -> executes_order w o a r -> w_accounts w !! a = Some acc ->
  exists e rest, o_events out = EvMarginOrder e :: rest /\
    - eo_fee_referral e = mul (mul (order_fee e) (ec_fee_share_referral (g_exchange_config w))) (referral_share w acc) /\
    referral_balance w' a = referral_balance w a - eo_fee_referral e.
Proof.
  intros Hr H Hx Ha. occ Hr H Hx. pose proof (oc_facts _ _ _ _ _ _ _ _ _ _ _ _ _ _ _ _ Hoc) as F. pose proof (oc_acc _ _ _ _ _ _ _ _ _ _ _ _ _ _ _ _ Hoc) as Ha0. rewrite Ha in Ha0. injection Ha0 as <-.
  destruct (oc_event _ _ _ _ _ _ _ _ _ _ _ _ _ _ _ _ Hoc) as (e & rest & He & E1 & E2 & E3 & E4 & E5 & E6 & E7 & E8 & E9 & E10 & E11). exists e, rest. split; [exact He|].
  assert (order_fee e = od_fee0 d + od_fee1 d) as -> by (unfold order_fee; lia). destruct (of_fees _ _ _ _ _ _ _ _ F) as (G1 & G2 & G3 & G4). cbn [s_acc] in G3.
  rewrite <- (oc_ec _ _ _ _ _ _ _ _ _ _ _ _ _ _ _ _ Hoc), <- (referral_share_start _ _ _ (oc_start _ _ _ _ _ _ _ _ _ _ _ _ _ _ _ _ Hoc)). change mul with mulq. rewrite E10, Z.opp_involutive. split; [exact G3|].
  rewrite (oc_refs _ _ _ _ _ _ _ _ _ _ _ _ _ _ _ _ Hoc). lia.
Qed.
Theorem C21_liquidation_referral_share E cx w a payment upd w' out acc : reachable E w -> step E cx w (OLiquidate a payment upd) = Ok (w', out) -> w_accounts w !! a = Some acc ->
  exists e, In (EvLiquidate e) (o_events out) /\
    - el_fee_referral e = mul (mul (liquidation_fee e) (ec_fee_share_referral (g_exchange_config w))) (referral_share w acc) /\
    referral_balance w' a = referral_balance w a - el_fee_referral e.
Proof.
  intros Hr H Ha. destruct (liq_call_intro _ _ _ _ _ _ _ _ Hr H) as (acc1 & acc' & paid & L). pose proof (lq_acc _ _ _ _ _ _ _ _ _ _ L) as Ha1. rewrite Ha in Ha1. injection Ha1 as <-.
  destruct (lq_ev _ _ _ _ _ _ _ _ _ _ L) as (e & E1 & _ & _ & _ & E5 & E6 & E7 & E8 & E9 & E10 & E11 & E12 & E13 & E14 & E15 & E16). exists e. split; [exact E1|].
  unfold liquidation_fee. rewrite E9, E15. split; [apply Z.opp_involutive|]. rewrite E14, E15. reflexivity.
Qed.
Theorem C21_adl_referral_share E cx w a k upd w' out acc : reachable E w -> step E cx w (OAutoDeleverage a k upd) = Ok (w', out) -> w_accounts w !! a = Some acc ->
  exists e rest, o_events out = EvAutoDeleverage e :: rest /\
    - ea_fee_referral e = mul (mul (adl_fee e) (ec_fee_share_referral (g_exchange_config w))) (referral_share w acc) /\
    referral_balance w' a = referral_balance w a - ea_fee_referral e.
Proof.
  intros Hr H Ha. destruct (adl_call_intro _ _ _ _ _ _ _ _ Hr H) as (acc1 & acc' & fee & e & D). pose proof (ad_acc _ _ _ _ _ _ _ _ _ _ D) as Ha1. rewrite Ha in Ha1. injection Ha1 as <-.
  destruct (ad_ev _ _ _ _ _ _ _ _ _ _ D) as ((rest & Hev) & V1 & V2 & V3 & V4 & V5 & V6 & V7 & V8 & V9 & V10 & V11 & V12 & V13 & V14 & V15).
  exists e, rest. split; [exact Hev|]. unfold adl_fee. rewrite V8, V13. split; [apply Z.opp_involutive|]. rewrite V14, V13. reflexivity.
Qed.

(** ** Liquidity fees *)
(** Adding liquidity: the fee, the tokens minted, who gets the fee and what is reported. *)
Theorem C21_add_liquidity_fee_split E cx w x w' out : reachable E w -> step E cx w (OAddLiquidity (BASE, x)) = Ok (w', out) ->
  let ec := g_exchange_config w in let fee := mul x (ec_fee_liquidity_add ec) in
  let fp := mul fee (ec_fee_share_protocol ec) in let ft := mul fee (ec_fee_share_treasury ec) in
  let price := if w_lp w =? 0 then 10 ^ 18 else Z.quot (Z.max (pool_value w) (10 ^ 18) * 10 ^ 18) (w_lp w) in
  let lp := Z.quot ((x - fee) * 10 ^ 18) price in
  o_tokens out = [(LP, lp)] /\ w_lp w' = w_lp w + lp /\
  fd_protocol (w_fd w') = fd_protocol (w_fd w) + fp /\ fd_treasury (w_fd w') = fd_treasury (w_fd w) + ft /\
  po_base (w_pool w') = po_base (w_pool w) + x /\ po_vb (w_pool w') = po_vb (w_pool w) - fp - ft /\
  o_events out = [EvLiquidity price lp x (- (fee - fp - ft)) (- fp) (- ft)].
Proof.
  intros Hr H. apply step_exec' in H. simpl in H. pose proof H as H2. apply call_add_liquidity in H2 as (c & fee & lp & fp & ft & Hc & Hbr & Hfee & Hfp & Hft & Htok & Hlp & Hw').
  unfold m_add_liquidity in H. rewrite Hc in H. cbn [mbind res_bind] in H. bd H as ([[[[p1 fd1] s1] lpb] ev] & Hx & H). apply Ok_inj in H. injection H as _ <-. cbn in Htok. injection Htok as ->.
  unfold x_add_liquidity in Hx. bd Hx as (? & Hg & Hx). bd Hx as (fee' & Hfee' & Hx). rewrite Hfee in Hfee'. apply Ok_inj in Hfee'. subst fee'. bd Hx as (pv & Hpv & Hx). bd Hx as ([lpa lpp] & Hlp' & Hx).
  bd Hx as (p2 & Hd & Hx). bd Hx as (? & Hmi & Hx). bd Hx as (s2 & Hs & Hx). bd Hx as ([[p3 fd3] [[q0 q1] q2]] & Hf & Hx).
  apply Ok_inj in Hx. injection Hx as -> _ _ -> <-. apply pool_value_cached in Hpv. subst pv. cbn [b_amt snd] in *.
  rewrite (get_config_exchange _ _ _ Hc) in *. change (ec_decompress (cf_exchange (w_config w))) with (g_exchange_config w) in *. apply dmul_mulq in Hfee.
  cbv zeta. change mul with mulq. rewrite <- Hfee. change (mulq fee (ec_fee_share_protocol (g_exchange_config w))) with (Z.quot (fee * ec_fee_share_protocol (g_exchange_config w)) E18). change (mulq fee (ec_fee_share_treasury (g_exchange_config w))) with (Z.quot (fee * ec_fee_share_treasury (g_exchange_config w)) E18). rewrite <- Hfp, <- Hft.
  assert (lpp = (if w_lp w =? 0 then 10 ^ 18 else Z.quot (Z.max (pool_value w) (10 ^ 18) * 10 ^ 18) (w_lp w)) /\ lp = Z.quot ((x - fee) * 10 ^ 18) lpp) as [Hp Hl].
  { destruct (w_lp w =? 0).
    - bd Hlp' as (xx & Hxx & Hlp'). apply Ok_inj in Hlp'. injection Hlp' as <- <-. apply dsub_Ok in Hxx as [-> _]. split; [reflexivity|]. change (dec 1) with (10 ^ 18). rewrite Z.quot_mul by discriminate. reflexivity.
    - bd Hlp' as (p & Hp & Hlp'). bd Hlp' as (xx & Hxx & Hlp'). bd Hlp' as (y & Hy & Hlp'). apply Ok_inj in Hlp'. injection Hlp' as <- <-. apply dsub_Ok in Hxx as [-> _]. apply ddiv_Ok in Hp as (_ & -> & _), Hy as (Hnz & -> & _). split; reflexivity. }
  rewrite <- Hp, <- Hl. cbn [b_amt snd] in *. rewrite Hw'. split; [reflexivity|]. split; [reflexivity|]. split; [reflexivity|]. split; [reflexivity|]. split; [reflexivity|]. split; [simpl; lia|].
  apply vp_deposit_inv in Hd. apply x_settle_fees_basic_inv in Hf as (fp1 & ft1 & Hfp1 & Hft1 & -> & -> & Hq0). subst p2. simpl.
  injection Hq0 as -> -> ->. rewrite (get_config_exchange _ _ _ Hc) in *. change (ec_decompress (cf_exchange (w_config w))) with (g_exchange_config w) in *. subst fp1 ft1. rewrite <- Hfp, <- Hft. reflexivity.
Qed.

(** Removing liquidity: likewise. *)
Theorem C21_remove_liquidity_fee_split E cx w l w' out : reachable E w -> step E cx w (ORemoveLiquidity (LP, l)) = Ok (w', out) ->
  let ec := g_exchange_config w in let price := Z.quot (Z.max (pool_value w) 0 * 10 ^ 18) (w_lp w) in
  let value := mul l price in let fee := mul value (ec_fee_liquidity_remove ec) in
  let fp := mul fee (ec_fee_share_protocol ec) in let ft := mul fee (ec_fee_share_treasury ec) in
  o_tokens out = [(BASE, value - fee)] /\ w_lp w' = w_lp w - l /\
  fd_protocol (w_fd w') = fd_protocol (w_fd w) + fp /\ fd_treasury (w_fd w') = fd_treasury (w_fd w) + ft /\
  po_base (w_pool w') = po_base (w_pool w) - (value - fee) /\ po_vb (w_pool w') = po_vb (w_pool w) - fp - ft /\
  o_events out = [EvLiquidity price (- l) (- (value - fee)) (- (fee - fp - ft)) (- fp) (- ft)].
Proof.
  intros Hr H. apply step_exec' in H. simpl in H. pose proof H as H2. apply call_remove_liquidity in H2 as (c & pv & price & value & fee & amt & fp & ft & Hc & Hbr & Hpv & Hpr & Hv & Hfee & Hfp & Hft & Hamt & Hab & Hle & Htok & Hw').
  unfold m_remove_liquidity in H. rewrite Hc in H. cbn [mbind res_bind] in H. bd H as ([[[[p1 fd1] s1] lpb] ev] & Hx & H). apply Ok_inj in H. injection H as _ <-. cbn in Htok. injection Htok as ->.
  unfold x_remove_liquidity in Hx. bd Hx as (? & Hg & Hx). bd Hx as (pv' & Hpv' & Hx). rewrite Hpv in Hpv'. apply Ok_inj in Hpv'. subst pv'. bd Hx as (price' & Hpr' & Hx). rewrite Hpr in Hpr'. apply Ok_inj in Hpr'. subst price'.
  bd Hx as (value' & Hv' & Hx). rewrite Hv in Hv'. apply Ok_inj in Hv'. subst value'. bd Hx as (fee' & Hfee' & Hx). rewrite Hfee in Hfee'. apply Ok_inj in Hfee'. subst fee'.
  bd Hx as (wa & Hwa & Hx). bd Hx as (? & Hg2 & Hx). bd Hx as (? & Hg3 & Hx). bd Hx as ([p2 amt2] & Hd & Hx). bd Hx as ([[p3 fd3] [[q0 q1] q2]] & Hf & Hx). bd Hx as (? & Hi & Hx). bd Hx as (nl & Hnl & Hx). bd Hx as (na & Hna & Hx).
  apply Ok_inj in Hx. injection Hx as -> _ _ -> <-. apply pool_value_cached in Hpv. subst pv. cbn [b_amt snd] in *. apply ddiv_Ok in Hpr as (_ & Hpr & _). apply dmul_mulq in Hv, Hfee. apply dneg_Ok in Hnl as [-> _], Hna as [-> _].
  apply vp_withdraw_inv in Hd as [_ ->]. apply x_settle_fees_basic_inv in Hf as (fp1 & ft1 & Hfp1 & Hft1 & -> & -> & Hq0). injection Hq0 as -> -> ->.
  rewrite (get_config_exchange _ _ _ Hc) in *. change (ec_decompress (cf_exchange (w_config w))) with (g_exchange_config w) in *. subst fp1 ft1. rewrite <- Hfp, <- Hft.
  cbv zeta. change mul with mulq. change (10 ^ 18) with E18. rewrite <- Hpr, <- Hv, <- Hfee. change (mulq fee (ec_fee_share_protocol (g_exchange_config w))) with (Z.quot (fee * ec_fee_share_protocol (g_exchange_config w)) E18). change (mulq fee (ec_fee_share_treasury (g_exchange_config w))) with (Z.quot (fee * ec_fee_share_treasury (g_exchange_config w)) E18). rewrite <- Hfp, <- Hft, <- Hamt.
  rewrite Hw'. split; [reflexivity|]. split; [reflexivity|]. split; [reflexivity|]. split; [reflexivity|]. split; [reflexivity|]. split; [simpl; lia|]. reflexivity.
Qed.
(** C26_flip_ex (Props_Orders) is an order of an account opened through a referral, with a positive referral share;
    here liquidity is added and removed with all shares positive. *)
Example C21_liquidity_ex : exists w w1 out1 w2 out2, reachable sc_env w /\ reachable sc_env w1 /\ step sc_env cx_any w (OAddLiquidity (BASE, dec 1000)) = Ok (w1, out1) /\ step sc_env cx_any w1 (ORemoveLiquidity (LP, dec 10)) = Ok (w2, out2) /\
  fd_protocol (w_fd w) < fd_protocol (w_fd w1) /\ fd_treasury (w_fd w) < fd_treasury (w_fd w1) /\ fd_protocol (w_fd w1) < fd_protocol (w_fd w2) /\ fd_treasury (w_fd w1) < fd_treasury (w_fd w2).
Proof.
  assert (match step sc_env cx_any W2 (OAddLiquidity (BASE, dec 1000)) with Ok (w1, _) => match step sc_env cx_any w1 (ORemoveLiquidity (LP, dec 10)) with Ok (w2, _) =>
     (fd_protocol (w_fd W2) <? fd_protocol (w_fd w1)) && (fd_treasury (w_fd W2) <? fd_treasury (w_fd w1)) && (fd_protocol (w_fd w1) <? fd_protocol (w_fd w2)) && (fd_treasury (w_fd w1) <? fd_treasury (w_fd w2)) | Err _ => false end | Err _ => false end = true) as Hf by (vm_compute; reflexivity).
  destruct (step sc_env cx_any W2 (OAddLiquidity (BASE, dec 1000))) as [[w1 out1]|] eqn:H1; [|exfalso; exact (Bool.diff_false_true Hf)]. destruct (step sc_env cx_any w1 (ORemoveLiquidity (LP, dec 10))) as [[w2 out2]|] eqn:H2; [|exfalso; exact (Bool.diff_false_true Hf)].
  exists W2, w1, out1, w2, out2. do 3 (apply andb_true_iff in Hf as [Hf ?]). split; [exact W2_reach|]. split; [eapply reach_step; [exact W2_reach|exact H1]|]. split; [exact H1|]. split; [exact H2|]. do 3 (split; [apply Z.ltb_lt; assumption|]). apply Z.ltb_lt; assumption.
Qed.

(** ** C48 (continued) *)
Lemma quot_sum3 x y z : Z.abs (Z.quot (x + y + z) E18 - Z.quot x E18 - Z.quot y E18 - Z.quot z E18) <= 2.
Proof. unfold E18. Z.to_euclidean_division_equations. lia. Qed.
Lemma mulq_add2 a b c p : Z.abs (mulq (a + (b + c)) p - mulq a p - mulq b p - mulq c p) <= 2.
Proof. unfold mulq. replace ((a + (b + c)) * p) with (a * p + b * p + c * p) by ring. apply quot_sum3. Qed.
(** A trade costs the trader its fee and nothing else: with no funding accruing and no price change (the pair was updated at this
    instant), the trader's side of the pair, marked at the execution price, falls by the fee reported, up to 2 units of 10^-18. *)
Theorem C48_trader_pays_only_the_fee E cx w o w' out a r : reachable E w -> step E cx w o = Ok (w', out) -> executes_order w o a r ->
  let k := ro_pair r in let p := price_of w' k in last_updated w k = Some (w_now w) ->
  exists e rest, o_events out = EvMarginOrder e :: rest /\ Z.abs (trader_value w' a k p - (trader_value w a k p - order_fee e)) <= 2.
Proof.
  intros Hr H Hx k p Hlu. pose proof (C26_order_changes_position_as_asked _ _ _ _ _ _ _ _ Hr H Hx) as [Hs26 _]. fold k in Hs26.
  pose proof (C49_order_settles_funding _ _ _ _ _ _ _ _ Hr H Hx) as (e49 & rest49 & He49 & _ & _ & _ & H49). pose proof (C21_order_fee_split_exact _ _ _ _ _ _ _ _ Hr H Hx) as (e & rest & He & Hbal & _). cbv zeta in *. fold k in H49, Hbal.
  pose proof (C20_order_fee_bounds _ _ _ _ _ _ _ _ Hr H Hx) as (e2 & rest2 & He2 & Hsz & _). rewrite He in He2. injection He2 as <- <-. fold k in Hsz.
  occ Hr H Hx. pose proof (oc_facts _ _ _ _ _ _ _ _ _ _ _ _ _ _ _ _ Hoc) as F. destruct (oc_event _ _ _ _ _ _ _ _ _ _ _ _ _ _ _ _ Hoc) as (e3 & rest3 & He3 & E1 & E2 & E3 & E4 & E5 & _). rewrite He in He3. injection He3 as <- <-.
  exists e, rest. split; [exact He|]. pose proof (oc_pp _ _ _ _ _ _ _ _ _ _ _ _ _ _ _ _ Hoc) as Hpp0. pose proof (oc_pp' _ _ _ _ _ _ _ _ _ _ _ _ _ _ _ _ Hoc) as HppF. fold k in Hpp0, HppF.
  assert (pp_last_update (od_pp0 d) = w_now w) as Hupd.
  { rewrite <- Hpp0. unfold pool_pair. unfold last_updated in Hlu. match goal with |- context[match ?t with Some _ => _ | None => _ end] => destruct t as [pp|] eqn:Hk end; [injection Hlu as Hlu'; exact Hlu'|discriminate Hlu]. }
  destruct (of_period _ _ _ _ _ _ _ _ F) as [_ Hpp1]. { rewrite Hupd. unfold period_of. rewrite Z.sub_diag. reflexivity. }
  assert (funding_owed (pool_pair w' k) (position w a k) = funding_owed (pool_pair w k) (position w a k)) as Hfo.
  { destruct (of_ppF _ _ _ _ _ _ _ _ F) as (_ & _ & _ & _ & O4 & O5 & _). unfold funding_owed, side_index. rewrite HppF, Hpp0. rewrite Hpp1 in O4, O5. cbn in O4, O5. first [rewrite O4, O5|rewrite O5, O4]. reflexivity. }
  assert (eo_price e = p) as Hp by exact E3. rewrite Hp in Hbal.
  unfold trader_value. rewrite H49. rewrite Hfo in Hbal. assert (size_of w' a k = size_of w a k + (eo_close e + eo_open e)) as -> by lia.
  pose proof (mulq_add2 (size_of w a k) (eo_close e) (eo_open e) p) as Hm. change mul with mulq in *. lia.
Qed.
