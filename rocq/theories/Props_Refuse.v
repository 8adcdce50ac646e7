(** * C65. A call is refused only for a stated reason. *)
From Verif Require Import Base DFloat Lists Types Config Oracle Pool Account Fees Referral ExInternal Exchange System Scenario Sums Trace Frames Calls Spec SpecOracle SpecTrading SpecMargin SpecLiq SpecRefuse P_Ledger P_Accounts P_Fees P_Refs Frames2 P_Tokens P_Requests P_Requests2 Trading P_Positions P_Positions2 P_Oracle P_Keeper P_Orders P_Final P_Coll P_Whole P_Margin P_Liq P_Updates Props_Collateral Witness P_OrderCall P_Refuse.

Lemma bad_bucket_ok E b : bucket_ok E b = false -> bad_bucket E b.
Proof.
  intros H (H1 & H2). unfold bucket_ok in H. assert ((0 <=? b_amt b) = true) as E1 by (apply Z.leb_le; lia). assert ((b_amt b <=? DMAX) = true) as E2 by (apply Z.leb_le; lia). rewrite E1, E2 in H. cbn in H.
  apply Z.eqb_neq in H. apply H. apply Z.mod_divide; [pose proof (unit_pos E (b_res b)); lia|exact H2].
Qed.
Lemma mv_trans_ex : exists R : N -> N -> Prop, (forall a b, mv a b -> R a b) /\ (forall a b c, R a b -> mv b c -> R a c).
Proof. exists (fun _ _ => True). auto. Qed.
Lemma f_mint E w x : mint_ok E KEEPER_REWARD x = true -> fails ar (mint_reward E w x).
Proof. intros H. unfold mint_reward. rewrite H. apply f_bind; [apply f_Ok|]. intros _ _. ar_. Qed.

(** C65, liquidation. Let [w1] be what bringing the account's pairs up to date with the same price message would leave.
    A liquidation goes through only if the payment is in base tokens and covers the discounted value of the collateral in [w1],
    and the account's value in [w1] is below its maintenance margin; and when it is refused, then because one of these fails, with the
    error saying which, or for one of the engine's reasons (the caller's role, an impossible bucket, a reward that cannot be minted), or
    because a number left the range of decimals. *)
Theorem C65_liquidation E cx w a acc payment upd w1 : reachable E w -> w_accounts w !! a = Some acc -> up_to_date E w acc upd w1 ->
  match step E cx w (OLiquidate a payment upd) with
  | Ok _ => b_res payment = BASE /\ collateral_total cc_discount w1 acc <= b_amt payment /\ account_value w1 acc < maintenance_margin w1 acc
  | Err e =>
      e = EInvalidPaymentToken /\ b_res payment <> BASE \/
      e = ELiquidationSufficientMargin /\ maintenance_margin w1 acc <= account_value w1 acc \/
      e = EInsufficientPayment /\ b_amt payment < collateral_total cc_discount w1 acc \/
      e = EAuth /\ not_allowed cx w RKeeperLiquidate \/
      e = EEngine /\ (bad_bucket E payment \/ unmintable E w) \/
      e = EArithmetic
  end.
Proof.
  intros Hr Ha (cx0 & ps & out0 & Hps & Hu). apply fronts_intro in Hu as (c & feeds & orc & o & F). rewrite (dom_list _ _ Hps) in F.
  destruct (get_acc_reachable _ _ _ _ Hr Ha) as (v & Hv & Hcomp). pose proof (wi_nz _ (WI_reachable _ _ Hr)) as Hnz. pose proof (starts_intro _ _ _ _ Hv Ha (Hnz _ _ Ha)) as S.
  rewrite <- (st_positions _ _ _ S) in F. pose proof (coll_ok_reachable _ _ Hr _ _ Ha) as Hco. pose proof (whole_reachable _ _ Hr _ _ Ha) as Hwh.
  assert (lsum (t_coll cc_discount c o) (map_to_list (va_coll v)) = collateral_total cc_discount w1 acc) as Hcl.
  { assert (sees w1 (fun k => default (pool_pair w k) (vp_positions (get_pool w (dom (va_positions v))) !! k)) c o (get_pool w (dom (va_positions v)))) as Sv.
    { eapply sees_intro; [exact (fr_c _ _ _ _ _ _ _ _ _ F)|rewrite (fr_orc _ _ _ _ _ _ _ _ _ F); exact (fr_pk _ _ _ _ _ _ _ _ _ F)|exact (fr_cfg _ _ _ _ _ _ _ _ _ F)|]. intros k q ->. reflexivity. }
    rewrite (sees_coll _ _ _ _ _ _ _ Sv), (st_coll _ _ _ S). reflexivity. }
  assert (vc_exchange c = g_exchange_config w) as Hec by (destruct (vc_new_spec _ _ _ (fr_c _ _ _ _ _ _ _ _ _ F)) as (C1 & _); exact C1).
  unfold step. cbn [op_buckets op_access needs_authority forallb implb access_ok exec].
  destruct (bucket_ok E payment) eqn:Hb; cbn [andb guard_ mbind res_bind]; [|right; right; right; right; left; split; [reflexivity|left; apply bad_bucket_ok; exact Hb]].
  destruct (rule_sat (cx_sat cx) (role_rule w RKeeperLiquidate)) eqn:Hacc; cbn [guard_ mbind res_bind]; [|right; right; right; left; split; [reflexivity|exact Hacc]].
  rewrite (proj2 (Z.leb_le 1 (w_auth w)) (fr_auth _ _ _ _ _ _ _ _ _ F)). cbn [guard_ mbind res_bind].
  unfold m_liquidate. rewrite Hv. cbn [mbind res_bind]. cbv zeta. rewrite (fr_c _ _ _ _ _ _ _ _ _ F). cbn [mbind res_bind]. rewrite (fr_f _ _ _ _ _ _ _ _ _ F). cbn [mbind res_bind]. rewrite (fr_o _ _ _ _ _ _ _ _ _ F). cbn [mbind res_bind].
  assert (fails (lq_why (w_now w) c o (get_pool w (dom (va_positions v))) v payment) (x_liquidate E (w_now w) c o (mkS (get_pool w (dom (va_positions v))) v (w_fd w)) payment)) as Hlf.
  { apply f_liquidate.
    - intros k pos Hk. apply (fronts_have _ _ _ _ _ _ _ _ _ F). apply elem_of_dom. eauto.
    - exact (fronts_coll _ _ _ _ _ _ _ _ _ F).
    - rewrite (st_coll _ _ _ S), (st_comp _ _ _ S). reflexivity.
    - rewrite (st_comp _ _ _ S). exact Hco.
    - rewrite (st_comp _ _ _ S). exact Hwh.
    - rewrite (st_coll _ _ _ S). eapply disc_nonneg; eassumption. }
  destruct (x_liquidate E (w_now w) c o (mkS (get_pool w (dom (va_positions v))) v (w_fd w)) payment) as [[[s toks] evs]|e] eqn:Hx; cbn [mbind res_bind].
  2: { destruct (Hlf e eq_refl) as [He|[[-> Hn]|[[-> (fr & p1 & Q1 & Q2 & Q3 & Q4)]|[-> Hn]]]].
       - right; right; right; right; right. exact He.
       - left. auto.
       - right; left. split; [reflexivity|]. destruct (fronts_totals _ _ _ _ _ _ _ _ _ _ _ _ F S Q1 Q2 Q3) as [<- <-]. exact Q4.
       - right; right; left. split; [reflexivity|]. rewrite <- Hcl. exact Hn. }
  assert (b_res payment = BASE /\ collateral_total cc_discount w1 acc <= b_amt payment /\ account_value w1 acc < maintenance_margin w1 acc) as Hgood.
  { pose proof Hx as Hx'. apply liquidate_inv in Hx' as (fr & p1 & p2 & p3 & tp & tm & tf & tfe & rc & aw & bs & paid & ev & fp & ft & frf & Hbb & Hfr & Hup & Hlq & Hsn & Hrc & Hbelow & Hpaid & Hpb & _).
    assert (NoDup (map fst (map_to_list (va_positions v)))) as Hnd by apply NoDup_fst_map_to_list. destruct (liq_fold _ _ _ _ _ _ _ _ _ _ Hlq Hnd) as (p2' & Er & Hpriced & _). injection Er as <- -> -> -> ->. rewrite !Z.add_0_l in Hbelow.
    destruct (liq_coll_fold _ _ _ _ _ Hrc) as (C1 & C2 & _). cbn [lc_disc lc_margin] in C1, C2. rewrite Z.add_0_l in C1, C2. split; [exact Hbb|]. split; [rewrite <- Hcl, <- C1; lia|].
    destruct (fronts_totals _ _ _ _ _ _ _ _ _ _ _ _ F S Hfr Hup Hpriced) as [<- <-]. unfold lq_value, lq_need. rewrite <- C1, <- C2. exact Hbelow. }
  match goal with |- match ?m with Ok _ => _ | Err _ => _ end => assert (fails (fun e => e = EEngine /\ (bad_bucket E payment \/ unmintable E w) \/ e = EArithmetic) m) as Hf end.
  { destruct (tr_liquidate E (w_now w) c o _ _ _ _ _ Hx) as (paid0 & bs0 & st0 & lo0 & fee0 & Htr & _ & Hlo).
    apply f_bind.
    - apply f_ar; [intros e He; right; exact He|]. destruct mv_trans_ex as (R & R1 & R2).
      eapply (f_realize E w a _ _ _ _ _ _ v R); [exact Hr|exact Hv| |exact Htr| |reflexivity]; [reflexivity|].
      eapply ssteps_rq; [exact R1|exact R2|exact Htr| |cbn [s_acc]; eapply rq_ok_new; [exact Hv|rewrite (st_comp _ _ _ S); exact (acc_ok_reachable _ _ Hr _ _ Ha)]].
      destruct Hlo as [->|[x ->]]; repeat constructor.
    - intros w2 _. apply f_bind; [|intros [w3 rew] _; apply f_Ok]. rewrite Hec. destruct (mint_ok E KEEPER_REWARD (ec_reward_keeper (g_exchange_config w))) eqn:Hm; [apply f_ar; [intros e He; right; exact He|apply f_mint; exact Hm]|].
      unfold mint_reward. rewrite Hm. cbn [guard_ mbind res_bind]. apply f_Err. left. split; [reflexivity|right; exact Hm]. }
  match goal with |- match ?m with Ok _ => _ | Err _ => _ end => destruct m as [z|e] eqn:Em end; [exact Hgood|]. destruct (Hf e eq_refl) as [H|H]; [right; right; right; right; left; exact H|right; right; right; right; right; exact H].
Qed.
