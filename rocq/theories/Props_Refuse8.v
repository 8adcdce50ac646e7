(** * C65. A call is refused only for a stated reason: auto-deleveraging. *)
From Verif Require Import Base DFloat Lists Types Config Oracle Pool Account Fees Referral ExInternal Exchange System Scenario Sums Trace Frames Calls Shape Spec SpecAuth SpecOracle SpecTrading SpecMargin SpecLiq SpecRefuse P_Ledger P_Accounts P_Fees P_Refs Frames2 P_Tokens P_Requests P_Requests2 Trading P_Positions P_Positions2 P_Oracle P_Keeper P_Orders P_Final P_Coll P_Whole P_Margin P_Liq P_Adl P_Updates P_Configured Props_Collateral Witness P_OrderCall P_Remove Props_Adl P_Refuse P_Refuse2 P_Refuse3 P_Refuse4 P_Refuse5 Props_Refuse Props_Refuse2 Props_Refuse3 Props_Refuse4 Props_Refuse5 Props_Refuse6 Props_Refuse7.

Definition totals (p : vpool) : Z * Z * Z * Z * Z := (vp_base p, vp_vb p, vp_upf p, vp_skew p, vp_pnl p).
Lemma update_same now c1 o1 p1 c2 o2 p2 k q1 b1 q2 b2 : vc_pairs c1 !! k = vc_pairs c2 !! k -> vo_prices o1 !! k = vo_prices o2 !! k -> vp_positions p1 !! k = vp_positions p2 !! k -> totals p1 = totals p2 ->
  x_update_pair now c1 o1 p1 k = Ok (q1, b1) -> x_update_pair now c2 o2 p2 k = Ok (q2, b2) -> totals q1 = totals q2.
Proof.
  intros E1 E2 E3 E4 H1 H2. unfold x_update_pair, vc_pair, vo_price, vp_position in H1, H2.
  bd H1 as (pc & Hpc & H1). bd H2 as (pc' & Hpc' & H2). apply expect_Ok in Hpc, Hpc'. assert (pc' = pc) as -> by congruence.
  bd H1 as (pr & Hpr & H1). bd H2 as (pr' & Hpr' & H2). apply expect_Ok in Hpr, Hpr'. assert (pr' = pr) as -> by congruence.
  bd H1 as (pp & Hpp & H1). bd H2 as (pp' & Hpp' & H2). apply expect_Ok in Hpp, Hpp'. assert (pp' = pp) as -> by congruence.
  Ltac sh := match goal with H1 : ?m ≫= _ = Ok ?x, H2 : ?m ≫= _ = Ok ?y |- _ => let z := fresh "z" in let Hz := fresh "Hz" in destruct m as [z|z] eqn:Hz; [|discriminate H1]; cbn [mbind res_bind] in H1, H2 end.
  cbv zeta in H1, H2. do 12 sh. sh. destruct z11 as [pp2 fpd]. unfold vp_add_skew, vp_add_pnl, vp_add_upf in *.
  bd H1 as (q3 & G1 & H1). bd H1 as (q4 & G2 & H1). bd H1 as (q5 & G3 & H1). bd H2 as (r3 & F1 & H2). bd H2 as (r4 & F2 & H2). bd H2 as (r5 & F3 & H2).
  apply Ok_inj in H1, H2. injection H1 as <- _. injection H2 as <- _.
  bd G1 as (y1 & Y1 & G1). bd G2 as (y2 & Y2 & G2). bd G3 as (y3 & Y3 & G3). bd F1 as (x1 & X1 & F1). bd F2 as (x2 & X2 & F2). bd F3 as (x3 & X3 & F3). apply Ok_inj in G1, G2, G3, F1, F2, F3. subst q3 q4 q5 r3 r4 r5.
  apply dadd_Ok in Y1 as [-> _], Y2 as [-> _], Y3 as [-> _], X1 as [-> _], X2 as [-> _], X3 as [-> _]. unfold totals in *. cbn in *. injection E4 as -> -> -> -> ->. reflexivity.
Qed.
Lemma f_skew_ratio p : fails ar (x_skew_ratio p). Proof. unfold x_skew_ratio. apply f_bind; [apply f_poolvalue|intros; apply f_ddiv]. Qed.
Lemma f_threshold ec sr : fails ar (x_adl_threshold ec sr). Proof. unfold x_adl_threshold. ar_. Qed.
(** What bringing only pair [k] up to date would leave. *)
Lemma update_one E cx0 w k upd w1 out : step E cx0 w (OUpdatePairs [k] upd) = Ok (w1, out) ->
  exists c orc o p b, get_config w {[k]} = Ok c /\ prices_ok E w upd {[k]} c orc o /\ x_update_pair (w_now w) c o (get_pool w {[k]}) k = Ok (p, b) /\
    skew_ratio w1 = ratio (vp_skew p) (vp_base p + vp_vb p + vp_upf p + vp_pnl p) /\ exists t, told E w upd k = Some (price_of w1 k, t) /\ vo_prices o !! k = Some (price_of w1 k).
Proof.
  intros H. apply update_pairs_inv in H as (c & orc & o & p & fl & Hc & Hpk & Hx & -> & _).
  assert (list_to_set [k] = ({[k]} : gset pair_id)) as El by (apply leibniz_equiv; cbn; intros j; rewrite elem_of_union, elem_of_singleton; split; [intros [H|H]; [exact H|destruct (not_elem_of_empty j H)]|auto]).
  rewrite El in *. rewrite elements_singleton in Hx. cbn [rfold] in Hx. bd Hx as ([p1 l1] & Hx & Hy). apply Ok_inj in Hy. injection Hy as -> ->. unfold upd_pair1 in Hx. bd Hx as ([p2 b] & Hx & Hy). apply Ok_inj in Hy. injection Hy as -> _.
  exists c, orc, o, p, b. split; [exact Hc|]. split; [exact Hpk|]. split; [exact Hx|]. split.
  - pose proof Hx as Hm. apply update_moved in Hm as (pc & price & pp & pp1 & fpd & _ & _ & _ & _ & _ & _ & ->). reflexivity.
  - destruct (pk_pair _ _ _ _ _ _ _ Hpk k ltac:(apply elem_of_singleton; reflexivity)) as ([pr t] & pc & _ & Hor & _ & Hvo). cbn [fst] in Hvo.
    match goal with |- context [price_of ?w1 k] => assert (price_of w1 k = pr) as -> end.
    { unfold price_of, stored_price. cbn. match goal with |- match ?tt0 with _ => _ end = _ => assert (tt0 = Some (pr, t)) as -> by exact Hor end. reflexivity. }
    exists t. split; [|exact Hvo]. assert (or_prices orc !! k = told E w upd k) as Ht. { apply (told_push E w upd orc). pose proof (pk_push _ _ _ _ _ _ _ Hpk) as Hp. destruct upd; [exact Hp|rewrite Hp; reflexivity]. } rewrite <- Ht. exact Hor.
Qed.
(** C65, auto-deleveraging. Let [w1] be what bringing the pair up to date with the same price message would leave. *)
Theorem C65_deleverage E cx cx0 w a k upd w1 out e : reachable E w -> step E cx0 w (OUpdatePairs [k] upd) = Ok (w1, out) -> step E cx w (OAutoDeleverage a k upd) = Err e ->
  at_the_gate E cx w RKeeperAdl [] e \/ e = EEngine /\ unmintable E w \/ e = EInvalidMarginAccount /\ w_accounts w !! a = None \/ price_trouble E w (OAutoDeleverage a k upd) e \/ e = EArithmetic \/
  e = EAdlSkewTooLow /\ skew_ratio w1 <= ec_skew_ratio_cap (g_exchange_config w) \/
  e = EAdlNoPosition /\ size_of w a k = 0 \/
  e = EAdlPnlBelowThreshold /\ profit_ratio (price_of w1 k) (position w a k) <= adl_threshold (g_exchange_config w) (skew_ratio w1) \/
  e = EAdlSkewNotReduced.
Proof.
  intros Hr Hu. apply update_one in Hu as (c1 & orc1 & o1 & p1 & b1 & Hc1 & Hpk1 & Hx1 & Hsk & t1 & Ht1 & Hvo1). clear out.
  revert e. match goal with |- forall e, _ -> _ \/ @?Q e => apply (f_gate E cx w _ RKeeperAdl [] Q) end; [reflexivity..|]. intros _ _. cbn [exec]. unfold m_auto_deleverage.
  match goal with |- fails ?P _ => assert (P EArithmetic) as HA by auto 10 end.
  apply f_bind; [eapply f_mono; [eapply f_get_acc; exact Hr|]; intros e (-> & He); auto|]. intros v Hv. pose proof Hv as Hv'. apply get_acc_inv in Hv' as (acc & Ha & Hcomp & _). pose proof (acc_ok_reachable _ _ Hr _ _ Ha) as Hok.
  pose proof (wi_nz _ (WI_reachable _ _ Hr)) as Hnz. pose proof (starts_intro _ _ _ _ Hv Ha (Hnz _ _ Ha)) as S. cbv zeta. rewrite (st_positions _ _ _ S). set (ids := dom (ac_positions acc) ∪ {[k]}).
  assert (k ∈ ids) as Hkin by (unfold ids; apply elem_of_union; right; apply elem_of_singleton; reflexivity).
  apply f_bind.
  { eapply f_mono; [apply f_config|]. intros e (-> & j & Hj & Hn). exfalso. unfold ids in Hj. apply elem_of_union in Hj as [Hj|Hj].
    - apply elem_of_dom in Hj as [x Hx]. destruct (configured_reachable _ _ Hr _ _ Ha _ _ Hx (Hnz _ _ Ha _ _ Hx)) as [pc Hpc]. unfold pair_cfg in Hn. match type of Hn with _ <$> ?t = _ => assert (t = Some pc) as E1 by exact Hpc; rewrite E1 in Hn end. discriminate Hn.
    - apply elem_of_singleton in Hj. subst j. destruct (vc_new_spec _ _ _ Hc1) as (_ & _ & C3 & _). destruct (C3 k ltac:(apply elem_of_singleton; reflexivity)) as (pc & Hpc & _). unfold pair_cfg in Hn. match type of Hn with _ <$> ?t = _ => assert (t = Some pc) as E1 by exact Hpc; rewrite E1 in Hn end. discriminate Hn. }
  intros c Hc. apply f_bind; [apply f_none; eapply f_feeds; exact Hc|]. intros feeds Hfd. apply f_bind.
  { eapply f_mono; [eapply (f_oracle E w ids c feeds upd (fun k => k ∈ ids)); [exact Hc|eapply feeds_age; eassumption]|]. intros e [H|[(j & age & Hj & Hb)| ->]]; [right; right; left; left; exact H| |exact HA].
    right; right; left; right. exists j, age. split; [|exact Hb]. split; [exact I|]. destruct Hj as [Hj|[Hj Hage]]; [auto|]. right. split; [|exact Hage]. cbn. unfold ids in Hj. apply elem_of_union in Hj as [Hj|Hj]; [left; apply elem_of_dom in Hj as [x Hx]; exists acc, x; auto|right; apply elem_of_singleton in Hj; exact Hj]. }
  intros [orc o] Ho. pose proof (prices_ok_feeds _ _ _ _ _ _ _ _ Hc Hfd Ho) as Hpk. destruct (have_prices _ _ _ _ _ _ _ Hc Hpk) as [Hh _]. pose proof (config_exchange _ _ _ Hc) as Hec.
  assert (vo_prices o !! k = Some (price_of w1 k)) as Hvo.
  { destruct (pk_pair _ _ _ _ _ _ _ Hpk k Hkin) as ([pr t] & pc & _ & Hor & _ & Hvo). cbn [fst] in Hvo. rewrite Hvo. assert (or_prices orc !! k = told E w upd k) as Ht. { apply (told_push E w upd orc). pose proof (pk_push _ _ _ _ _ _ _ Hpk) as Hp. destruct upd; [exact Hp|rewrite Hp; reflexivity]. }
    rewrite Ht1 in Ht. assert (Some (pr, t) = Some (price_of w1 k, t1)) as Hor' by (etransitivity; [symmetry; exact Hor|exact Ht]). clear Hor. rename Hor' into Hor. injection Hor as -> _. reflexivity. }
  apply f_bind.
  { unfold x_auto_deleverage. cbn [s_pool s_acc s_fd]. cbv zeta. apply f_bind; [apply f_arP; [exact HA|]; apply f_update; apply Hh; exact Hkin|]. intros [pA b] HuA. pose proof (have_update _ _ _ _ _ _ _ HuA k (Hh k Hkin)) as HhA.
    assert (totals pA = totals p1) as Htot.
    { eapply update_same; [| | | |exact HuA|exact Hx1].
      - destruct (vc_new_spec _ _ _ Hc) as (_ & _ & C3 & _). destruct (vc_new_spec _ _ _ Hc1) as (_ & _ & D3 & _). destruct (C3 k Hkin) as (pc & P1 & P2). destruct (D3 k ltac:(apply elem_of_singleton; reflexivity)) as (pc' & P3 & P4). rewrite P2, P4. congruence.
      - rewrite Hvo, Hvo1. reflexivity.
      - rewrite (get_pool_cached _ _ _ Hkin). symmetry. apply get_pool_cached. apply elem_of_singleton. reflexivity.
      - reflexivity. }
    apply f_bind; [apply f_arP; [exact HA|]; eapply f_settle_funding; exact HhA|]. intros [[pB aB] nf] HB. apply settle_funding_inv in HB as (pp & f & Hpp & -> & EpB & HaB).
    assert (have c o pB k) as HhB. { destruct HhA as (A1 & A2 & A3). rewrite EpB. split; [exact A1|]. split; [exact A2|exact A3]. }
    assert (ap_amount (pos_of aB k) = size_of w a k /\ ap_cost (pos_of aB k) = ap_cost (position w a k)) as [Eam Eco].
    { assert (position w a k = pos_of v k) as ->. { unfold position. rewrite Ha. symmetry. exact (st_pos _ _ _ S k). } unfold size_of. assert (position w a k = pos_of v k) as ->. { unfold position. rewrite Ha. symmetry. exact (st_pos _ _ _ S k). }
      unfold pos_of. destruct (va_positions v !! k) as [pos|] eqn:Ep; destruct HaB as [_ ->]; cbn; [rewrite lookup_insert; split; reflexivity|rewrite Ep; split; reflexivity]. }
    apply f_bind; [apply f_arP; [exact HA|apply f_skew_ratio]|]. intros sr Hsr. apply x_skew_ratio_val in Hsr.
    assert (sr = skew_ratio w1) as ->. { rewrite Hsr, Hsk. unfold totals in Htot. injection Htot as T1 T2 T3 T4 T5. rewrite EpB. cbn. rewrite T1, T2, T3, T4, T5. f_equal. lia. }
    apply f_bind. { apply f_guard. intros Hf. apply Z.ltb_ge in Hf. rewrite Hec in Hf. right; right; right; right; left. auto. }
    intros [] _. unfold vo_price. assert (exists aC, va_position aB k = (aC, pos_of aB k) /\ pos_of aC k = pos_of aB k) as (aC & EaC & EpC).
    { unfold va_position, pos_of. destruct (va_positions aB !! k) as [x|] eqn:Ex; [exists aB; rewrite Ex; split; reflexivity|]. eexists. split; [reflexivity|]. cbn. rewrite lookup_insert. reflexivity. }
    rewrite EaC. rewrite Hvo. cbn [expect mbind res_bind]. apply f_bind. { apply f_guard. intros Hf. apply negb_false_iff, Z.eqb_eq in Hf. right; right; right; right; right; left. split; [reflexivity|]. rewrite <- Eam. exact Hf. }
    intros [] _. apply f_bind; [apply f_arP; [exact HA|ar_]|]. intros value Hval. apply dmul_mulq in Hval. apply f_bind; [apply f_arP; [exact HA|ar_]|]. intros t Ht. apply dsub_Ok in Ht as [-> _]. apply f_bind; [apply f_arP; [exact HA|ar_]|]. intros pct Hpct. apply ddiv_Ok in Hpct as (_ & Hpct & _).
    apply f_bind; [apply f_arP; [exact HA|apply f_threshold]|]. intros th Hth. apply adl_threshold_val in Hth as [_ Hth]. rewrite Hec in Hth.
    apply f_bind. { apply f_guard. intros Hf. apply Z.ltb_ge in Hf. right; right; right; right; right; right; left. split; [reflexivity|]. rewrite <- Hth. unfold profit_ratio. rewrite <- Eco. change (ap_amount (position w a k)) with (size_of w a k). rewrite <- Eam. change mul with mulq. rewrite <- Hval. change (10 ^ 18) with E18. rewrite <- Hpct. exact Hf. }
    intros [] _. apply f_bind; [apply f_arP; [exact HA|ar_]|]. intros ac Hac. apply dneg_Ok in Hac as [-> _].
    apply f_bind. { apply f_arP; [exact HA|]. apply f_close; [exact HhB|rewrite EpC; rewrite Z.sgn_opp; nia|rewrite EpC, Z.abs_opp; lia]. }
    intros [[pD aD] [pnl fee]] _. apply f_bind; [apply f_arP; [exact HA|apply f_fees]|]. intros [s1 [[[x1 x2] x3] x4]] _. apply f_bind; [apply f_arP; [exact HA|apply f_skew_ratio]|]. intros sr1 _.
    apply f_bind; [apply f_guard; intros _; auto 10|]. intros [] _. apply f_bind; [apply f_arP; [exact HA|ar_]|]. intros tp _. apply f_Ok. }
  intros [s ev] Hx. apply (tr_auto_deleverage E) in Hx as (amt & fee & Hs). apply f_bind.
  { apply f_arP; [exact HA|]. destruct mv_trans_ex as (R & R1 & R2). eapply (f_realize E w a _ _ _ _ _ _ v R); [exact Hr|exact Hv| |exact Hs| |reflexivity]; [reflexivity|].
    eapply ssteps_rq; [exact R1|exact R2|exact Hs| |cbn [s_acc]; eapply rq_ok_new; [exact Hv|rewrite (st_comp _ _ _ S); exact Hok]]. repeat constructor. }
  intros w2 _. apply f_bind; [|intros [? ?] _; apply f_Ok]. eapply f_mono; [eapply f_mint2; exact Hc|]. intros e [[-> H]| ->]; [left; auto|exact HA].
Qed.
(** Refused and accepted: liquidity, debt swaps, deleveraging. *)
From Verif Require Import Props_Swap.
Definition adlw (a : addr) (p : N) : ctx * op := (cx_any, OAutoDeleverage a 1%N (msg p 2000%N 1029%N)).
Example C65_ex_liquidity : refused W3 (cx_any, OAddLiquidity (20%N, dec 1)) EInvalidPaymentToken && refused W3 (cx_any, OAddLiquidity (BASE, -1)) EEngine && okb (step sc_env cx_any W3 (OAddLiquidity (BASE, dec 1))) &&
  refused W3 (cx_any, ORemoveLiquidity (BASE, dec 1)) EInvalidLpToken && refused W3 (cx_any, ORemoveLiquidity (LP, dec 100000000)) EWithdrawalInsufficientPoolTokens && okb (step sc_env cx_any W3 (ORemoveLiquidity (LP, dec 1))) = true.
Proof. vm_compute. reflexivity. Qed.
Example C65_ex_swap : refused W3 (cx_any, OSwapDebt A2 20%N (BASE, dec 500) (msg 30000%N 2000%N 87419%N)) ESwapNoDebt && refused WD (cx_any, OSwapDebt A2 20%N (20%N, dec 500) (msg 19000%N 2000%N 87435%N)) EInvalidPaymentToken &&
  refused WD (cx_any, OSwapDebt A2 55%N (BASE, dec 500) (msg 19000%N 2000%N 87435%N)) EInvalidCollateral && okb (step sc_env cx_any WD (OSwapDebt A2 20%N (BASE, dec 500) None)) = true.
Proof. vm_compute. reflexivity. Qed.
Example C65_ex_deleverage : okb (step sc_env cx_any WB (OUpdatePairs [1%N] (msg 31000%N 2000%N 1029%N))) && refused WB (adlw A5 31000%N) EInvalidMarginAccount && okb (step sc_env cx_any WB (snd (adlw A2 31000%N))) &&
  refused W2 (cx_any, OAutoDeleverage A2 1%N (msg 31000%N 2000%N 1009%N)) EAdlSkewTooLow && refused WB (adlw A3 31000%N) EAdlSkewNotReduced && refused WB (adlw A2 30000%N) EAdlPnlBelowThreshold && refused WB (cx_any, OUpdatePairs [9%N] None) EMissingPairConfig = true.
Proof. vm_compute. reflexivity. Qed.
