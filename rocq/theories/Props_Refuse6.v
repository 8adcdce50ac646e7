(** * C65. A call is refused only for a stated reason: liquidity, bringing pairs up to date. *)
From Verif Require Import Base DFloat Lists Types Config Oracle Pool Account Fees Referral ExInternal Exchange System Scenario Sums Trace Frames Calls Spec SpecAuth SpecOracle SpecTrading SpecMargin SpecLiq SpecRefuse P_Ledger P_Accounts P_Fees P_Refs Frames2 P_Tokens Trading P_Oracle P_Keeper P_Orders P_Final P_Margin P_Updates Witness P_OrderCall Props_LP P_Adl P_Tokens Shape P_Refuse P_Refuse2 P_Refuse3 P_Refuse4 P_Refuse5 Props_Refuse Props_Refuse2 Props_Refuse3 Props_Refuse4 Props_Refuse5.

Lemma f_gate E cx w o r bs (Q : error -> Prop) : op_buckets o = bs -> op_access o = ARole r -> needs_authority o = true ->
  (forallb (bucket_ok E) bs = true -> 1 <= w_auth w -> fails Q (exec E cx w o)) -> fails (fun e => at_the_gate E cx w r bs e \/ Q e) (step E cx w o).
Proof.
  intros Hb Ha Hn H. unfold step. rewrite Hb, Ha, Hn. cbn [access_ok implb]. apply f_bind.
  { apply f_guard. intros Hf. left; right. split; [reflexivity|]. right. apply Bool.not_true_iff_false in Hf. rewrite forallb_forall in Hf.
    assert (Exists (fun b => bucket_ok E b = false) bs) as Hx. { apply neg_Forall_Exists_neg with (P := fun b => bucket_ok E b = true) in Hf || idtac. destruct (decide (Forall (fun b => bucket_ok E b = true) bs)) as [Hall|Hnot]; [exfalso; apply Hf; intros x Hx; rewrite Forall_forall in Hall; apply Hall, elem_of_list_In, Hx|].
      apply not_Forall_Exists in Hnot; [|intros x; apply _]. eapply Exists_impl; [exact Hnot|]. intros x Hx. cbn in Hx. destruct (bucket_ok E x); congruence. }
    apply Exists_exists in Hx as (b & Hin & Hbb). exists b. split; [exact Hin|]. apply bad_bucket_ok. exact Hbb. }
  intros [] Hbk. apply guard_Ok in Hbk. apply f_bind. { apply f_guard. intros Hf. left; left. split; [reflexivity|exact Hf]. }
  intros [] _. apply f_bind. { apply f_guard. intros Hf. apply Z.leb_gt in Hf. left; right. split; [reflexivity|left; lia]. }
  intros [] Hau. apply guard_Ok, Z.leb_le in Hau. eapply f_mono; [exact (H Hbk Hau)|auto].
Qed.
Lemma f_poolvalue p : fails ar (x_pool_value p). Proof. unfold x_pool_value. ar_. Qed.
Lemma f_basic c p fd x : fails ar (x_settle_fees_basic c p fd x). Proof. unfold x_settle_fees_basic. cbv zeta. ar_; first [apply f_vb|apply f_fdist]. Qed.
(** C65, adding liquidity. *)
Theorem C65_add_liquidity E cx w b e : step E cx w (OAddLiquidity b) = Err e ->
  at_the_gate E cx w RLiquidity [b] e \/ e = EInvalidPaymentToken /\ b_res b <> BASE \/ e = EEngine /\ mint_ok E LP (lp_for w (b_amt b)) = false \/ e = EArithmetic.
Proof.
  revert e. apply (f_gate E cx w _ RLiquidity [b] (fun e => e = EInvalidPaymentToken /\ b_res b <> BASE \/ e = EEngine /\ mint_ok E LP (lp_for w (b_amt b)) = false \/ e = EArithmetic)); [reflexivity..|]. intros _ _. cbn [exec].
  unfold m_add_liquidity. destruct (get_config w ∅) as [c|e] eqn:Hcf; [|destruct (f_config0 w e Hcf)]. cbn [mbind res_bind]. apply f_bind; [|intros [[[[? ?] ?] ?] ?] _; apply f_Ok].
  unfold x_add_liquidity. apply f_bind. { apply f_guard. intros Hf. left. split; [reflexivity|]. apply N.eqb_neq. exact Hf. }
  intros [] _. cbv zeta. match goal with |- fails ?P _ => assert (P EArithmetic) as HA by auto end. pose proof (config_exchange _ _ _ Hcf) as Hec.
  apply f_bind; [apply f_arP; [exact HA|apply f_dmul]|]. intros fee Hfee. apply f_bind; [apply f_arP; [exact HA|apply f_poolvalue]|]. intros pv Hpv. apply pool_value_cached in Hpv. subst pv. apply dmul_mulq in Hfee. rewrite Hec in Hfee.
  apply f_bind. { apply f_arP; [exact HA|]. ar_. }
  intros [lp price] Hlp. assert (lp = lp_for w (b_amt b)) as ->.
  { unfold lp_for. change (mul (b_amt b) (ec_fee_liquidity_add (g_exchange_config w))) with (mulq (b_amt b) (ec_fee_liquidity_add (g_exchange_config w))). rewrite <- Hfee. destruct (w_lp w =? 0).
    - bd Hlp as (x & Hx & Hlp). apply Ok_inj in Hlp. injection Hlp as <- <-. apply dsub_Ok in Hx as [-> _]. reflexivity.
    - bd Hlp as (q & Hq & Hlp). bd Hlp as (x & Hx & Hlp). bd Hlp as (y & Hy & Hlp). apply Ok_inj in Hlp. injection Hlp as <- <-. apply dsub_Ok in Hx as [-> _]. apply ddiv_Ok in Hq as (_ & -> & _), Hy as (_ & -> & _). reflexivity. }
  apply f_bind; [apply f_arP; [exact HA|apply f_deposit]|]. intros p1 _. apply f_bind. { apply f_guard. intros Hf. right; left. auto. }
  intros [] _. apply f_bind; [apply f_arP; [exact HA|apply f_dadd]|]. intros s' _. apply f_bind; [apply f_arP; [exact HA|apply f_basic]|]. intros [[? ?] [[? ?] ?]] _. apply f_Ok.
Qed.
Lemma take18_why E r s have amt : (r < 10)%N -> amt <= have -> fails (fun e => e = EEngine /\ amt < 0 \/ e = EArithmetic) (take_adv E r s have amt).
Proof.
  intros Hr H1. unfold take_adv. apply f_bind; [eapply f_mono; [apply f_round|auto]|]. intros a Ha. apply round18 in Ha; [|exact Hr]. subst a. apply f_bind; [|intros; apply f_Ok]. apply f_guard. intros Hf. left. split; [reflexivity|].
  apply andb_false_iff in Hf as [Hf|Hf]; apply Z.leb_gt in Hf; lia.
Qed.
(** C65, removing liquidity. *)
Theorem C65_remove_liquidity E cx w b e : step E cx w (ORemoveLiquidity b) = Err e ->
  at_the_gate E cx w RLiquidity [b] e \/ e = EInvalidLpToken /\ b_res b <> LP \/
  e = EWithdrawalInsufficientPoolTokens /\ po_base (w_pool w) < redeemed w (b_amt b) - redemption_fee w (b_amt b) \/
  e = EEngine /\ (w_lp w < b_amt b \/ redeemed w (b_amt b) - redemption_fee w (b_amt b) < 0) \/
  e = ESkewTooHigh /\ ec_skew_ratio_cap (g_exchange_config w) <= ratio (po_skew (w_pool w)) (value_left w (b_amt b)) \/
  e = EArithmetic.
Proof.
  revert e. match goal with |- forall e, _ -> _ \/ @?Q e => apply (f_gate E cx w _ RLiquidity [b] Q) end; [reflexivity..|]. intros _ _. cbn [exec].
  unfold m_remove_liquidity. destruct (get_config w ∅) as [c|e] eqn:Hcf; [|destruct (f_config0 w e Hcf)]. cbn [mbind res_bind]. apply f_bind; [|intros [[[[? ?] ?] ?] ?] _; apply f_Ok].
  unfold x_remove_liquidity. apply f_bind. { apply f_guard. intros Hf. left. split; [reflexivity|]. apply N.eqb_neq. exact Hf. }
  intros [] _. cbv zeta. match goal with |- fails ?P _ => assert (P EArithmetic) as HA by auto 10 end. pose proof (config_exchange _ _ _ Hcf) as Hec.
  apply f_bind; [apply f_arP; [exact HA|apply f_poolvalue]|]. intros pv Hpv. apply pool_value_cached in Hpv. subst pv.
  apply f_bind; [apply f_arP; [exact HA|apply f_ddiv]|]. intros price Hprice. apply ddiv_Ok in Hprice as (Hnz & -> & _).
  apply f_bind; [apply f_arP; [exact HA|apply f_dmul]|]. intros value Hv. apply dmul_mulq in Hv. assert (value = redeemed w (b_amt b)) as -> by exact Hv. clear Hv.
  apply f_bind; [apply f_arP; [exact HA|apply f_dmul]|]. intros fee Hf. apply dmul_mulq in Hf. rewrite Hec in Hf. assert (fee = redemption_fee w (b_amt b)) as -> by exact Hf. clear Hf.
  apply f_bind; [apply f_arP; [exact HA|apply f_dsub]|]. intros amt Hamt. apply dsub_Ok in Hamt as [-> _].
  apply f_bind. { apply f_guard. intros Hf. apply Z.leb_gt in Hf. right; left. split; [reflexivity|exact Hf]. }
  intros [] Hle. apply guard_Ok, Z.leb_le in Hle. apply f_bind. { apply f_guard. intros Hf. apply Z.leb_gt in Hf. right; right; left. split; [reflexivity|]. left. exact Hf. }
  intros [] _.
  apply f_bind. { unfold vp_withdraw, pool_withdraw. apply f_bind; [|intros [? ?] _; apply f_bind; [apply f_arP; [exact HA|apply f_dsub]|intros; apply f_Ok]]. apply f_bind; [|intros; apply f_Ok].
    eapply f_mono; [apply take18_why; [reflexivity|exact Hle]|]. intros e [[-> Hx]| ->]; [|exact HA]. right; right; left. split; [reflexivity|]. right. exact Hx. }
  intros [p1 amt] Hw. apply vp_withdraw_inv in Hw as [Ht ->]. apply take_adv18 in Ht as [-> Ht]; [|reflexivity].
  apply f_bind; [apply f_arP; [exact HA|apply f_basic]|]. intros [[p2 fd2] [[q0 q1] q2]] Hf. apply x_settle_fees_basic_inv in Hf as (fp & ft & Hfp & Hft & -> & _). rewrite Hec in Hfp, Hft.
  apply f_bind; [|intros [] _; apply f_arP; [exact HA|ar_]]. unfold x_assert_pool_integrity. apply f_bind; [apply f_arP; [exact HA|unfold x_skew_ratio; apply f_bind; [apply f_poolvalue|intros; apply f_ddiv]]|].
  intros r Hr2. apply f_guard. intros Hf. apply orb_false_iff in Hf as [Hf _]. apply Z.ltb_ge in Hf. rewrite Hec in Hf. right; right; right; left. split; [reflexivity|]. apply x_skew_ratio_val in Hr2.
  etransitivity; [exact Hf|]. apply Z.eq_le_incl. rewrite Hr2. cbn. unfold value_left, pool_value. f_equal. change mul with mulq. unfold mulq. change (10 ^ 18) with E18 in *. rewrite <- Hfp, <- Hft. lia.
Qed.
