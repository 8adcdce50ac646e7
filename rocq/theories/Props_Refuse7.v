(** * C65. A call is refused only for a stated reason: the other keeper calls. *)
From Verif Require Import Base DFloat Lists Types Config Oracle Pool Account Fees Referral ExInternal Exchange System Scenario Sums Trace Frames Calls Shape Spec SpecAuth SpecOracle SpecTrading SpecMargin SpecLiq SpecRefuse P_Ledger P_Accounts P_Fees P_Refs Frames2 P_Tokens P_Requests P_Requests2 Trading P_Positions P_Positions2 P_Oracle P_Keeper P_Orders P_Final P_Coll P_Whole P_Margin P_Liq P_Adl P_Updates P_Configured Props_Config Props_Rates Props_Collateral Witness P_OrderCall P_Remove P_Refuse P_Refuse2 P_Refuse3 P_Refuse4 P_Refuse5 Props_Refuse Props_Refuse2 Props_Refuse3 Props_Refuse4 Props_Refuse5 Props_Refuse6.

Lemma have_prices E w upd ids c orc o : get_config w ids = Ok c -> prices_ok E w upd ids c orc o -> (forall k, k ∈ ids -> have c o (get_pool w ids) k) /\ feeds_ok c o.
Proof.
  intros Hc Hpk. split.
  - intros k Hk. destruct (vc_new_spec _ _ _ Hc) as (_ & _ & C3 & _). destruct (C3 k Hk) as (pc & _ & Hpc). destruct (pk_pair _ _ _ _ _ _ _ Hpk k Hk) as (x & pc' & _ & _ & _ & Hpr). unfold have. rewrite Hpc, Hpr, (get_pool_cached _ _ _ Hk). eauto.
  - intros r [cc Hcc]. destruct (vc_new_spec _ _ _ Hc) as (_ & C2 & _). rewrite C2, lookup_fmap in Hcc. match type of Hcc with _ <$> ?t = _ => destruct t as [cc0|] eqn:Hl end; [|discriminate Hcc].
    exists (cc_pair_id cc0). rewrite (pk_res _ _ _ _ _ _ _ Hpk). split; [match goal with |- _ <$> ?t = _ => assert (t = Some cc0) as -> by exact Hl end; reflexivity|]. destruct (pk_feed _ _ _ _ _ _ _ Hpk r cc0 Hl) as (x & _ & _ & Hx). eauto.
Qed.
(** C65, bringing pairs up to date. *)
Theorem C65_update_pairs E cx w ps upd e : step E cx w (OUpdatePairs ps upd) = Err e ->
  at_the_gate E cx w RKeeperUpdatePairs [] e \/ e = EMissingPairConfig /\ (exists k, k ∈ ps /\ pair_cfg w k = None) \/ price_trouble E w (OUpdatePairs ps upd) e \/
  e = EEngine /\ 2 ^ 152 < dec (Z.of_nat (length ps)) \/ e = EArithmetic.
Proof.
  revert e. match goal with |- forall e, _ -> _ \/ @?Q e => apply (f_gate E cx w _ RKeeperUpdatePairs [] Q) end; [reflexivity..|]. intros _ _. cbn [exec]. unfold m_update_pairs. cbv zeta.
  match goal with |- fails ?P _ => assert (P EArithmetic) as HA by auto 10 end. set (ids := list_to_set ps : gset pair_id).
  apply f_bind. { eapply f_mono; [apply f_config|]. intros e (-> & k & Hk & Hn). left. split; [reflexivity|]. exists k. split; [unfold ids in Hk; apply elem_of_list_to_set in Hk; exact Hk|exact Hn]. }
  intros c Hc. apply f_bind; [apply f_none; eapply f_feeds; exact Hc|]. intros feeds Hfd. apply f_bind.
  { eapply f_mono; [eapply (f_oracle E w ids c feeds upd (fun k => k ∈ ids)); [exact Hc|eapply feeds_age; eassumption]|]. intros e [H|[(k & age & Hk & Hb)| ->]]; [right; left; left; exact H| |exact HA].
    right; left; right. exists k, age. split; [|exact Hb]. split; [exact I|]. destruct Hk as [Hk|[Hk Hage]]; [auto|]. right. split; [|exact Hage]. cbn. unfold ids in Hk. apply elem_of_list_to_set in Hk. exact Hk. }
  intros [orc o] Ho. pose proof (prices_ok_feeds _ _ _ _ _ _ _ _ Hc Hfd Ho) as Hpk. destruct (have_prices _ _ _ _ _ _ _ Hc Hpk) as [Hh _].
  apply f_bind.
  { apply f_arP; [exact HA|]. apply (f_rfold ar (fun s => forall k, k ∈ ids -> have c o (fst s) k)); [| |exact Hh].
    - intros [p l] k Hk Hi. unfold upd_pair1. apply f_bind; [|intros [? ?] _; apply f_Ok]. apply f_update. apply Hi. apply elem_of_elements. exact Hk.
    - intros [p l] k [p' l'] _ Hi H. unfold upd_pair1 in H. bd H as ([p1 b] & Hu & H). apply Ok_inj in H. injection H as <- <-. cbn [fst] in *. intros j Hj. eapply have_update; [exact Hu|]. apply Hi. exact Hj. }
  intros [p fl] Hx. apply f_bind; [apply f_arP; [exact HA|apply f_dint]|]. intros n Hn. apply dec_of_int_Ok in Hn as [-> _]. apply f_bind; [|intros [? ?] _; apply f_Ok].
  unfold mint_reward. apply f_bind; [|intros [] _; apply f_arP; [exact HA|ar_]]. apply f_guard. intros Hf. right; right; left. split; [reflexivity|].
  assert (length fl <= length ps)%nat as Hl.
  { assert (length fl = length (elements ids)) as ->. { clear - Hx. assert (forall ks q l q' l', rfold (upd_pair1 (w_now w) c o) (q, l) ks = Ok (q', l') -> length l' = (length l + length ks)%nat) as Hg.
      { induction ks as [|k ks IH]; intros q l q' l' H; cbn [rfold] in H; [apply Ok_inj in H; injection H as _ <-; cbn; lia|]. bd H as ([q1 l1] & H1 & H). apply IH in H. unfold upd_pair1 in H1. bd H1 as ([p1 b] & _ & H1). apply Ok_inj in H1. injection H1 as _ <-. rewrite app_length in H. cbn in *. lia. }
      apply Hg in Hx. cbn in Hx. exact Hx. }
    assert (NoDup (elements ids)) as Hnd by apply NoDup_elements. apply submseteq_length. apply NoDup_submseteq; [exact Hnd|]. intros k Hk. apply elem_of_elements in Hk. unfold ids in Hk. apply elem_of_list_to_set in Hk. exact Hk. }
  assert (length (List.filter (fun b : bool => b) fl) <= length fl)%nat as Hfl. { clear. induction fl as [|[] l IH]; cbn; lia. } unfold mint_ok in Hf. unfold unit_of, divis in Hf. cbn [N.ltb] in Hf. change (KEEPER_REWARD <? 10)%N with true in Hf. cbn [Z.sub] in Hf. change (10 ^ (18 - 18)) with 1 in Hf. rewrite Z.mod_1_r in Hf. cbn in Hf. rewrite andb_true_r in Hf.
  apply andb_false_iff in Hf. unfold dec in *. unfold E18 in *. destruct Hf as [Hf|Hf]; apply Z.leb_gt in Hf; change (2 ^ 152) with 5708990770823839524233143877797980545530986496 in *; lia.
Qed.

Lemma take_zero_why E r have amt : amt <= have -> fails (fun e => e = EEngine /\ amt < 0 \/ e = EArithmetic) (take_adv E r ToZero have amt).
Proof.
  intros H1. unfold take_adv. apply f_bind; [eapply f_mono; [apply f_round|auto]|]. intros a Ha. unfold round_amount in Ha. apply chk_Ok in Ha as [-> _]. fold (units E r amt). apply f_bind; [|intros; apply f_Ok]. apply f_guard. intros Hf. left. split; [reflexivity|].
  destruct (Z.lt_ge_cases amt 0) as [|Hp]; [assumption|]. exfalso. pose proof (units_nonneg E r amt Hp). assert (units E r amt <= amt). { unfold units. pose proof (unit_pos E r). rewrite Z.quot_div_nonneg by lia. rewrite Z.mul_comm. apply Z.mul_div_le. lia. }
  apply andb_false_iff in Hf as [Hf|Hf]; apply Z.leb_gt in Hf; lia.
Qed.
(** C65, swapping a debt. *)
Theorem C65_swap_debt E cx w a r b upd e : reachable E w -> step E cx w (OSwapDebt a r b upd) = Err e ->
  at_the_gate E cx w RKeeperSwapDebt [b] e \/ e = EInvalidMarginAccount /\ w_accounts w !! a = None \/ price_trouble E w (OSwapDebt a r b upd) e \/ e = EArithmetic \/
  e = EInvalidPaymentToken /\ b_res b <> BASE \/ e = EInvalidCollateral /\ coll_cfg w r = None \/ e = ESwapNoDebt /\ 0 <= balance w a \/ e = EEngine /\ collateral_of w a r = 0.
Proof.
  intros Hr. revert e. match goal with |- forall e, _ -> _ \/ @?Q e => apply (f_gate E cx w _ RKeeperSwapDebt [b] Q) end; [reflexivity..|]. intros Hb _. cbn [forallb] in Hb. apply andb_true_iff in Hb as [Hb _]. apply bucket_ok_nonneg in Hb. cbn [exec]. unfold m_swap_debt.
  match goal with |- fails ?P _ => assert (P EArithmetic) as HA by auto 10 end.
  apply f_bind; [eapply f_mono; [eapply f_get_acc; exact Hr|]; intros e (-> & He); left; auto|]. intros v Hv. pose proof Hv as Hv'. apply get_acc_inv in Hv' as (acc & Ha & Hcomp & _). pose proof (acc_ok_reachable _ _ Hr _ _ Ha) as Hok.
  pose proof (wi_nz _ (WI_reachable _ _ Hr)) as Hnz. pose proof (starts_intro _ _ _ _ Hv Ha (Hnz _ _ Ha)) as S. pose proof (coll_ok_reachable _ _ Hr _ _ Ha) as Hco.
  destruct (get_config w ∅) as [c|e] eqn:Hc; [|destruct (f_config0 w e Hc)]. cbn [mbind res_bind]. cbv zeta. apply f_bind.
  { eapply f_mono; [eapply (f_oracle E w ∅ c ∅ upd (fun k => False)); [exact Hc|intros k age Hk; rewrite lookup_empty in Hk; discriminate Hk]|]. intros e [H|[(k & age & Hk & Hbp)| ->]]; [right; left; left; exact H| |exact HA].
    right; left; right. exists k, age. split; [|exact Hbp]. split; [exact I|]. destruct Hk as [Hk|[[] _]]; auto. }
  intros [orc o] Ho. assert (prices_ok E w upd ∅ c orc o) as Hpk by (eapply prices_ok_intro; [exact Hc| |exact Ho]; intros k Hk; set_solver). destruct (have_prices _ _ _ _ _ _ _ Hc Hpk) as [_ Hfo].
  assert (fails (fun e => e = EArithmetic \/ e = EInvalidPaymentToken /\ b_res b <> BASE \/ e = EInvalidCollateral /\ coll_cfg w r = None \/ e = ESwapNoDebt /\ 0 <= balance w a \/ e = EEngine /\ collateral_of w a r = 0) (x_swap_debt E c o (get_pool w ∅) v r b)) as Hsw.
  { clear HA. match goal with |- fails ?P _ => assert (P EArithmetic) as HA by auto 10 end. unfold x_swap_debt. apply f_bind. { apply f_guard. intros Hf. right; left. split; [reflexivity|]. apply N.eqb_neq. exact Hf. }
    intros [] _. apply f_bind. { unfold x_assert_valid_collateral. apply f_guard. intros Hf. apply bool_decide_eq_false in Hf. right; right; left. split; [reflexivity|]. destruct (vc_new_spec _ _ _ Hc) as (_ & C2 & _). unfold coll_cfg, g_collateral_configs. rewrite C2 in Hf.
      match goal with |- ?t = None => destruct t as [x0|] eqn:Ht end; [|reflexivity]. exfalso. apply Hf. exists x0. reflexivity. }
    intros [] Hvc. apply guard_Ok, bool_decide_eq_true in Hvc. apply f_bind. { apply f_guard. intros Hf. apply Z.ltb_ge in Hf. right; right; right; left. split; [reflexivity|]. unfold balance. rewrite Ha, <- (st_vb _ _ _ S). exact Hf. }
    intros [] Hdebt. apply guard_Ok, Z.ltb_lt in Hdebt. apply f_bind; [apply f_some; exact Hvc|]. intros cc Hcc. apply expect_Ok in Hcc.
    apply f_bind; [apply f_arP; [exact HA|ar_]|]. intros d0 Hd0. apply f_bind; [apply f_arP; [exact HA|ar_]|]. intros disc Hdisc. apply f_bind; [apply f_arP; [exact HA|ar_]|]. intros debt Hd. apply dneg_Ok in Hd as [-> _]. cbv zeta.
    destruct (Hfo r Hvc) as (kf & K1 & K2). unfold vo_price_resource, vo_price. apply f_bind; [apply f_arP; [exact HA|]; apply f_bind; [apply f_some; eauto|]; intros k' Hk'; apply f_some; apply expect_Ok in Hk'; rewrite K1 in Hk'; injection Hk' as <-; exact K2|].
    intros pr Hpr. bd Hpr as (kx & _ & Hpr). apply expect_Ok in Hpr. assert (0 < pr) as Hpos by exact (get_oracle_pos _ _ _ _ _ _ _ Ho _ _ Hpr).
    assert (0 <= disc) as Hdisc0. { apply dmul_mulq in Hd0. apply dadd_Ok in Hdisc as [-> _]. destruct (vc_new_spec _ _ _ Hc) as (_ & C2 & _). rewrite C2 in Hcc. assert (coll_cfg w r = Some cc) as Hcfg by exact Hcc.
      pose proof (cr_discount _ (C40_collateral_rates _ _ _ _ Hr Hcfg)) as Hdr. assert (0 <= d0) by (rewrite Hd0; apply quot_nonneg; lia). lia. }
    apply f_bind; [apply f_arP; [exact HA|ar_]|]. intros price Hprice. apply dmul_mulq in Hprice. assert (0 <= price) as Hp0 by (rewrite Hprice; apply quot_nonneg; lia).
    apply f_bind; [apply f_arP; [exact HA|ar_]|]. intros amount Hamt. apply ddiv_Ok in Hamt as (Hpz & Hamt & _).
    apply f_bind; [apply f_arP; [exact HA|ar_]|]. intros [am val] Hsel. assert (0 < price) as Hpp by lia. set (m0 := Z.min (b_amt b) (- va_vb v)) in *. assert (0 <= m0 <= b_amt b) as M0 by (unfold m0; lia).
    pose proof (Props_LP.quot_bounds (m0 * E18) price ltac:(unfold E18; lia) Hpp) as [Q1 Q2]. rewrite <- Hamt in Q1, Q2.
    assert (va_collateral_amount v r = collateral_of w a r /\ 0 <= collateral_of w a r) as [Eav Hav].
    { unfold va_collateral_amount, collateral_of. rewrite Ha, (st_coll _ _ _ S). split; [destruct (ac_coll acc !! r) eqn:Eq; unfold recorded; rewrite Eq; reflexivity|]. exact (proj2 (C03_recorded_collateral_is_in_the_vault _ _ _ _ r Hr Ha)). }
    rewrite Eav in *. assert (0 <= amount) as Ham0 by (rewrite Hamt; apply Z.quot_pos; [unfold E18; lia|exact Hpp]).
    assert (0 <= val <= b_amt b /\ 0 <= am <= collateral_of w a r) as [Hval Ham].
    { destruct (Z.ltb_spec (collateral_of w a r) amount) as [Hlt|Hge].
      - bd Hsel as (vv & Hvv & Hsel). apply Ok_inj in Hsel. injection Hsel as <- <-. apply dmul_mulq in Hvv. pose proof (quot_nonneg (collateral_of w a r) price Hav Hp0) as Hq. split; [|lia]. rewrite Hvv. unfold mulq. split; [exact Hq|].
        pose proof (Z.mul_quot_le (collateral_of w a r * price) E18 ltac:(nia) ltac:(discriminate)). assert (collateral_of w a r * price <= amount * price) by nia. unfold E18 in *. nia.
      - apply Ok_inj in Hsel. injection Hsel as <- <-. lia. }
    apply f_bind. { eapply f_mono; [apply take18_why; [reflexivity|lia]|]. intros e [[-> Hx]| ->]; [lia|exact HA]. }
    intros paid _. apply f_bind; [apply f_arP; [exact HA|apply f_deposit]|]. intros p1 _. apply f_bind; [apply f_arP; [exact HA|apply f_settle]|]. intros [p2 v2] Hst. apply x_settle_account_inv in Hst as [_ ->].
    apply f_bind.
    { unfold va_withdraw. cbn [va_comp va_coll set]. rewrite (st_comp _ _ _ S), (st_coll _ _ _ S). unfold acc_withdraw. cbn [vts_take_adv_batch].
      assert (collateral_of w a r = vts_amount (ac_vaults acc) r) as Hva. { unfold collateral_of. rewrite Ha. exact (proj1 (Hco r)). }
      assert (fails (fun e => e = EArithmetic \/ e = EEngine /\ collateral_of w a r = 0) (rfold coll_sub (ac_coll acc) [])) as _ by apply f_Ok.
      assert (forall x, fails (fun e => e = EArithmetic \/ e = EInvalidPaymentToken /\ b_res b <> BASE \/ e = EInvalidCollateral /\ coll_cfg w r = None \/ e = ESwapNoDebt /\ 0 <= balance w a \/ e = EEngine /\ collateral_of w a r = 0) (rfold coll_sub (ac_coll acc) [(r, x)])) as Hcs.
      { intros x. apply f_collsub2; [exact HA|apply NoDup_singleton|]. intros q Hq. apply elem_of_list_singleton in Hq. cbn in Hq. subst q. destruct (ac_coll acc !! r) as [y|] eqn:Ey; [left; eauto|]. right. right; right; right; right. split; [reflexivity|]. unfold collateral_of. rewrite Ha. unfold recorded. rewrite Ey. reflexivity. }
      assert (fails (fun e => e = EArithmetic) (vts_take_adv E (ac_vaults acc) r am ToZero) /\ forall v' x, vts_take_adv E (ac_vaults acc) r am ToZero = Ok (v', x) -> x = (r, b_amt x)) as [Hta Htb].
      { split.
        - unfold vts_take_adv. apply f_bind; [|intros; apply f_Ok]. eapply f_mono; [apply take_zero_why; rewrite <- Hva; lia|]. intros e [[-> Hx]| ->]; [lia|reflexivity].
        - intros v' x H. unfold vts_take_adv in H. bd H as (z & _ & H). apply Ok_inj in H. injection H as _ <-. reflexivity. }
      assert (forall e, e = EArithmetic -> e = EArithmetic \/ e = EInvalidPaymentToken /\ b_res b <> BASE \/ e = EInvalidCollateral /\ coll_cfg w r = None \/ e = ESwapNoDebt /\ 0 <= balance w a \/ e = EEngine /\ collateral_of w a r = 0) as Har by auto.
      apply f_bind; [|intros [a3 bs] H; bd H as ([vt b2] & H2 & H); bd H as (c2 & _ & H); apply Ok_inj in H; injection H as _ <-; bd H2 as ([v1 x] & Hx & H2); apply Htb in Hx; apply Ok_inj in H2; injection H2 as _ <-; rewrite Hx; apply f_bind; [apply Hcs|intros; apply f_Ok]].
      apply f_bind; [apply f_bind; [eapply f_mono; [exact Hta|exact Har]|]; intros [? ?] _; apply f_Ok|]. intros [vt bs] H2. bd H2 as ([v1 x] & Hx & H2). apply Htb in Hx. apply Ok_inj in H2. injection H2 as _ <-. rewrite Hx. apply f_bind; [apply Hcs|intros; apply f_Ok]. }
    intros [v3 toks] Hwd. apply f_bind; [|intros; apply f_Ok]. apply f_some.
    unfold va_withdraw in Hwd. bd Hwd as ([a3 bs] & Hwd & H). bd H as (c9 & _ & H). apply Ok_inj in H. injection H as _ <-. unfold acc_withdraw in Hwd. bd Hwd as ([vt b2] & H2 & H). bd H as (c2 & _ & H). apply Ok_inj in H. injection H as _ <-. cbn [vts_take_adv_batch] in H2. bd H2 as ([v1 x] & _ & H2). apply Ok_inj in H2. injection H2 as _ <-. cbn. eauto. }
  apply f_bind. { eapply f_mono; [exact Hsw|]. intros e [H|[H|[H|[H|H]]]]; auto 10. }
  intros [[[[p v3] token] rest] ev] Hx. apply f_bind; [|intros; apply f_Ok]. apply f_arP; [exact HA|].
  apply (tr_swap_debt1 _ _ _ _ _ _ _ _ _ _ _ _ (w_fd w) (w_now w)) in Hx as (paid & value & Hs & _). destruct mv_trans_ex as (R & R1 & R2).
  change v3 with (s_acc (mkS p v3 (w_fd w))). eapply (f_realize E w a _ _ _ _ _ _ v R); [exact Hr|exact Hv| |exact Hs| |reflexivity]; [reflexivity|].
  eapply ssteps_rq; [exact R1|exact R2|exact Hs| |cbn [s_acc]; eapply rq_ok_new; [exact Hv|rewrite (st_comp _ _ _ S); exact Hok]]. repeat constructor.
Qed.
