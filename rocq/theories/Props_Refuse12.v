(** * C65, continued: deposits and new accounts, with or without a fee oath. *)
From Verif Require Import Base DFloat Lists Types Config Oracle Pool Account Fees Referral ExInternal Exchange System Scenario Sums Trace Frames Calls Spec SpecAuth SpecRequests SpecOracle SpecTrading SpecMargin SpecReferral SpecRefuse SpecRefuse2 P_Ledger P_Accounts P_Refs Frames2 P_Tokens P_Requests P_Requests2 P_Requests3 P_Requests4 Trading P_Positions P_Positions2 P_Oracle P_OrderCall P_Coll P_Configured Props_Collateral P_Margin P_Final Props_Orders Props_Margin Props_Referral P_Refuse P_Refuse2 P_Refuse3 P_Refuse4 Props_Requests2 Props_Deposits Props_Refuse Props_Refuse2 Props_Refuse3 Props_Refuse6 Props_Refuse10 P_Refuse6 Props_Refuse11 P_Fees P_Gen P_Gen2 P_Whole.

Lemma f_xadd w ids c v acc ts : get_config w ids = Ok c -> va_comp v = acc -> va_vb v = ac_vb acc -> va_coll v = ac_coll acc -> coll_ok acc -> Forall (fun b => 0 <= b_amt b <= DMAX) ts ->
  fails (deposit_stopped w acc ts) (x_add_collateral c (get_pool w ids) v ts).
Proof.
  intros Hcf Hc Hvb Hcl Hco Hamt. set (P := deposit_stopped w acc ts). assert (forall e, deposit_stopped w acc ts e -> P e) as HP by auto.
  assert (forall e, e = EArithmetic /\ coll_over (ac_coll acc) (List.filter (fun b => negb (is_base b)) ts) -> P e) as HPc.
  { intros e (-> & l' & b & L1 & L2 & L3). apply HP. right; right. split; [reflexivity|]. destruct (prefix_filter _ _ _ L1) as (ts' & T1 & T2). exists ts'. split; [exact T1|]. right; right; right. exists b. subst l'. apply elem_of_list_In, filter_In in L2 as [L2 L4]. split; [apply elem_of_list_In; exact L2|].
    assert (b_res b <> BASE) as Hnb by (unfold is_base in L4; apply negb_true_iff, N.eqb_neq in L4; exact L4). split; [exact Hnb|]. rewrite amount_others in L3 by exact Hnb. exact L3. }
  unfold x_add_collateral. apply f_bind.
    { eapply f_mono; [apply f_add_bases; [|reflexivity]|]. { apply Forall_forall. intros b Hb. rewrite Forall_forall in Hamt. apply Hamt. apply elem_of_list_In, filter_In in Hb as [Hb _]. apply elem_of_list_In. exact Hb. }
      intros e (-> & l' & L1 & L2). apply HP. right; right. split; [reflexivity|]. destruct (prefix_filter _ _ _ L1) as (ts' & T1 & T2). exists ts'. split; [exact T1|]. subst l'. rewrite amount_bases, Hvb in L2. cbn [get_pool vp_new vp_base vp_vb] in L2. tauto. }
    intros [p1 v1] H1. assert (va_coll v1 = va_coll v /\ va_comp v1 = va_comp v /\ va_addr v1 = va_addr v) as (B1 & B2 & _).
    { clear - H1. revert H1. generalize (get_pool w ids) v. induction (List.filter is_base ts) as [|b l IH]; intros p v0 H; cbn [rfold] in H; [apply Ok_inj in H; injection H as <- <-; auto|]. bd H as ([p2 v2] & H2 & H). destruct (IH _ _ H) as (-> & -> & ->). unfold x_add_base, x_settle_account, va_add_vb in H2. bd H2 as (q & _ & H2). bd H2 as (ng & _ & H2). bd H2 as (q1 & _ & H2). bd H2 as (u & Hu & H2). bd Hu as (y & _ & Hu). apply Ok_inj in Hu. subst u. apply Ok_inj in H2. injection H2 as <- <-. auto. }
    cbv zeta. apply f_bind.
    { apply f_rmap. intros b Hb. unfold x_assert_valid_collateral. apply f_guard. intros Hf. apply bool_decide_eq_false in Hf. apply HP. left. split; [reflexivity|]. apply elem_of_list_In, filter_In in Hb as [Hb Hb2]. exists b. split; [apply elem_of_list_In; exact Hb|]. split; [unfold is_base in Hb2; apply negb_true_iff, N.eqb_neq in Hb2; exact Hb2|].
      destruct (vc_new_spec _ _ _ Hcf) as (_ & C2 & _). unfold coll_cfg, g_collateral_configs. rewrite <- C2. apply eq_None_not_Some. exact Hf. }
    intros us _. unfold va_deposit. rewrite B1, Hcl. apply f_bind.
    { apply f_bind; [eapply f_mono; [apply f_coll_adds|exact HPc]|]. intros m Hm. apply f_bind; [|intros; apply f_Ok]. unfold acc_deposit. rewrite B2, Hc. apply f_bind; [eapply f_mono; [apply f_coll_adds|exact HPc]|]. intros m2 _. apply f_bind; [|intros; apply f_Ok].
      eapply f_mono; [apply (f_put_batch _ _ (ac_coll acc))|exact HPc]. intros r. destruct (Hco r) as [Hco1 _]. symmetry. exact Hco1. }
    intros v2 H2. bd H2 as (m & Hm & H2). bd H2 as (acc2 & _ & H2). apply Ok_inj in H2. subst v2. apply f_bind; [|intros; apply f_Ok].
    unfold x_assert_collaterals_limit. apply f_guard. intros Hf. apply N.leb_gt in Hf. apply HP. right; left. split; [reflexivity|]. rewrite (config_exchange _ _ _ Hcf) in Hf. cbn [va_coll set] in Hf. rewrite <- (size_dom m), (coll_adds_dom _ _ _ Hm) in Hf. exact Hf.
Qed.
Lemma xadd_frame c p v ts p1 v2 ev : x_add_collateral c p v ts = Ok (p1, v2, ev) -> g_rq v2 = g_rq v /\ g_ref v2 = g_ref v.
Proof.
  intros Hx.
  unfold x_add_collateral in Hx. bd Hx as ([p2 v3] & H1 & Hx). bd Hx as (us & _ & Hx). bd Hx as (v4 & H4 & Hx). bd Hx as ([] & _ & Hx). apply Ok_inj in Hx. injection Hx as <- <- <-.
        apply va_deposit_frame in H4 as (D1 & _ & D3 & _). rewrite D1, D3. clear - H1. revert H1. generalize p v. induction (List.filter is_base ts) as [|b l IH]; intros q0 v0 H; cbn [rfold] in H; [apply Ok_inj in H; injection H as <- <-; auto|]. bd H as ([p5 v5] & H2 & H). destruct (IH _ _ H) as (-> & ->).
        unfold x_add_base, x_settle_account, va_add_vb in H2. bd H2 as (q & _ & H2). bd H2 as (ng & _ & H2). bd H2 as (q1 & _ & H2). bd H2 as (u & Hu & H2). bd Hu as (y & _ & Hu). apply Ok_inj in Hu. subst u. apply Ok_inj in H2. injection H2 as <- <-. auto.
Qed.
Lemma xadd_credit c p v ts p1 v2 ev : x_add_collateral c p v ts = Ok (p1, v2, ev) -> va_vb v2 = va_vb v + amount_in BASE ts /\ forall r, r <> BASE -> default 0 (va_coll v2 !! r) = default 0 (va_coll v !! r) + amount_in r ts.
Proof.
  intros Hx. unfold x_add_collateral in Hx. bd Hx as ([p2 v3] & H1 & Hx). bd Hx as (us & _ & Hx). bd Hx as (v4 & H4 & Hx). bd Hx as ([] & _ & Hx). apply Ok_inj in Hx. injection Hx as <- <- <-.
  assert (va_vb v3 = va_vb v + lsum b_amt (List.filter is_base ts) /\ va_coll v3 = va_coll v) as [E1 E2].
  { clear - H1. revert H1. generalize p v. induction (List.filter is_base ts) as [|b l IH]; intros q0 v0 H; cbn [rfold] in H; [apply Ok_inj in H; injection H as <- <-; unfold lsum; cbn; split; [lia|reflexivity]|]. bd H as ([p5 v5] & H2 & H). destruct (IH _ _ H) as (-> & ->).
    apply x_add_base_inv in H2 as [_ ->]. rewrite lsum_cons. cbn. split; [lia|reflexivity]. }
  rewrite amount_bases in E1. unfold va_deposit in H4. bd H4 as (m & Hm & H4). bd H4 as (acc2 & _ & H4). apply Ok_inj in H4. subst v4. cbn. split; [exact E1|]. intros r Hr. rewrite (coll_adds_exact _ _ _ r Hm), E2, (amount_others _ _ Hr). reflexivity.
Qed.
Lemma f_realize_idle w v : va_rewarded v = false -> va_req_add v = [] -> va_req_upd v = ∅ -> fails none (realize_acc w v).
Proof.
  intros H1 H2 H3. unfold realize_acc, va_realize. rewrite H1. cbn [mbind res_bind]. apply f_bind; [|intros [? ?] _; apply f_Ok]. apply f_bind; [|intros; apply f_Ok]. unfold acc_update. cbv zeta. cbn [au_req_add va_updates]. rewrite H2. cbn [rfold mbind res_bind].
  apply f_bind; [|intros; apply f_Ok]. unfold va_updates. cbn. rewrite H3. rewrite map_to_list_empty. apply f_Ok.
Qed.
Lemma idle_frame w a v v2 : get_acc w a = Ok v -> g_rq v2 = g_rq v -> g_ref v2 = g_ref v -> va_rewarded v2 = false /\ va_req_add v2 = [] /\ va_req_upd v2 = ∅.
Proof.
  intros Hv G1 G2. unfold get_acc, va_new in Hv. bd Hv as (acc' & _ & Hv). bd Hv as (rd & _ & Hv). apply Ok_inj in Hv. subst v. unfold g_rq in G1. unfold g_ref in G2. injection G1 as I1 I2 I3 I4 I5 I6 I7 I8 I9 I10 I11. injection G2 as J1 J2 J3 J4. cbn in *. auto.
Qed.
(** Tokens and oath together. *)
Lemma f_add_oath E w a acc v ts oath : get_acc w a = Ok v -> starts w acc v -> coll_ok acc -> (forall k, is_Some (ac_positions acc !! k) -> is_Some (pair_cfg w k)) -> Forall (fun b => 0 <= b_amt b <= DMAX) ts ->
  fails (fun e => deposit_stopped w acc ts e \/ oath_stopped_after E w acc ts oath e) (add_collateral_oath E w v oath ts) /\
  forall w1 v1 evs, add_collateral_oath E w v oath ts = Ok (w1, v1, evs) -> forall w2, fails none (realize_acc w2 v1).
Proof.
  intros Hv S Hco Hcfg Hamt. split.
  - destruct oath as [b|]; cbn [add_collateral_oath].
    + cbv zeta. rewrite (st_positions _ _ _ S). set (ids := dom (ac_positions acc)). apply f_bind.
      { eapply f_mono; [apply f_config|]. intros e (-> & k & Hk & Hn). exfalso. apply elem_of_dom in Hk. destruct (Hcfg k Hk) as [pc Hp]. congruence. }
      intros c Hc. assert (forall acc1 e, credited acc ts acc1 -> oath_refused E w acc1 ∅ b e -> deposit_stopped w acc ts e \/ oath_stopped_after E w acc ts (Some b) e) as HP by (intros acc1 e H1 H2; right; exists b, acc1; auto).
      (* Prices are read before the tokens are credited; any account with the same positions will do. *)
      assert (exists acc0, credited acc ts acc0) as [acc0 Hacc0].
      { exists (acc <| ac_vb := ac_vb acc + amount_in BASE ts |> <| ac_coll := foldr (fun r m => <[r := default 0 (ac_coll acc !! r) + amount_in r ts]> m) (ac_coll acc) (map b_res ts) |>). split; [reflexivity|]. split; [reflexivity|]. split; [reflexivity|]. intros r _. cbn.
        assert (forall l, default 0 (foldr (fun r m => <[r := default 0 (ac_coll acc !! r) + amount_in r ts]> m) (ac_coll acc) l !! r) = default 0 (ac_coll acc !! r) + (if decide (r ∈ l) then amount_in r ts else 0)) as Hl.
        { induction l as [|x l IH]; cbn [foldr]; [rewrite decide_False by (intros Hx; inversion Hx); lia|]. destruct (decide (r = x)) as [<-|Hne]; [rewrite lookup_insert, decide_True by left; reflexivity|]. rewrite lookup_insert_ne by congruence. rewrite IH. f_equal.
          destruct (decide (r ∈ l)); [rewrite decide_True by (right; assumption); reflexivity|]. rewrite decide_False; [reflexivity|]. intros Hx. apply elem_of_cons in Hx as [Hx|Hx]; contradiction. }
        rewrite Hl. destruct (decide (r ∈ map b_res ts)) as [|Hni]; [reflexivity|]. f_equal. symmetry. clear - Hni. induction ts as [|x l IH]; [reflexivity|]. rewrite amount_cons. cbn [map] in Hni. destruct (N.eqb_spec (b_res x) r) as [Hxr|]; [exfalso; apply Hni; rewrite <- Hxr; left|]. rewrite IH; [reflexivity|]. intros Hx. apply Hni. right. exact Hx. }
      apply f_bind. { eapply f_mono; [apply f_oracle_any; exact Hc|]. intros e He. apply (HP acc0 e Hacc0). destruct He as [(k & Hk & Hb)|[H| ->]]; [right; right; left|right; right; right; left; exact H|do 5 right; reflexivity]. exists k. split; [|exact Hb]. left. destruct Hacc0 as (-> & _). apply elem_of_dom. exact Hk. }
      intros [o1 o] Ho. apply f_bind. { eapply f_mono; [eapply (f_xadd w ids c v acc); [exact Hc|exact (st_comp _ _ _ S)|exact (st_vb _ _ _ S)|exact (st_coll _ _ _ S)|exact Hco|exact Hamt]|]. intros e H. left. exact H. }
      intros [[p1 v1] ev] Hx. apply f_bind; [|intros [? ?] _; apply f_Ok]. destruct (add_collateral_frame _ _ _ _ _ _ _ Hx) as (F1 & F2 & F3 & F4 & _). destruct (xadd_credit _ _ _ _ _ _ _ Hx) as [X1 X2].
      set (acc1 := acc <| ac_vb := va_vb v1 |> <| ac_coll := va_coll v1 |>). assert (credited acc ts acc1) as Hcr. { split; [reflexivity|]. split; [reflexivity|]. rewrite (st_vb _ _ _ S) in X1. rewrite (st_coll _ _ _ S) in X2. split; [exact X1|exact X2]. }
      unfold g_pos in F1. injection F1 as F1a F1b F1c. unfold g_ref in F2. injection F2 as F2a F2b F2c F2d. eapply (f_fee_oath E w ids c o1 o p1 v1 acc1); [exact Hc|exact Ho|exact F4|reflexivity| |reflexivity| |reflexivity|].
      * rewrite F1a. exact (st_positions _ _ _ S).
      * intros x Hr. assert (va_fee_rebate v1 = va_fee_rebate v) as Ef by (unfold va_fee_rebate; rewrite F2b; reflexivity). rewrite Ef in Hr. exact (rebate_share _ _ _ _ S Hr).
      * intros e He. apply (HP acc1 e Hcr). destruct He as [H|[H|[H|H]]]; [left; exact H|right; left; exact H|do 4 right; left; exact H|do 5 right; exact H].
    + destruct (get_config w ∅) as [c|e] eqn:Hcf; [|destruct (f_config0 w e Hcf)]. cbn [mbind res_bind]. apply f_bind; [|intros [[? ?] ?] _; apply f_Ok].
      eapply f_mono; [eapply (f_xadd w ∅ c v acc); [exact Hcf|exact (st_comp _ _ _ S)|exact (st_vb _ _ _ S)|exact (st_coll _ _ _ S)|exact Hco|exact Hamt]|]. intros e H. left. exact H.
  - intros w1 v1 evs H w2. assert (g_rq v1 = g_rq v /\ g_ref v1 = g_ref v) as [G1 G2].
    { destruct oath as [b|]; cbn [add_collateral_oath] in H.
      - bd H as (c & _ & H). bd H as ([o1 o] & _ & H). bd H as ([[p1 v2] ev] & Hx & H). bd H as ([v3 s] & Hs & H). apply Ok_inj in H. injection H as _ <- _. apply x_settle_fee_oath_inv in Hs as (-> & _). destruct (xadd_frame _ _ _ _ _ _ _ Hx) as [<- <-]. split; reflexivity.
      - bd H as (c & _ & H). bd H as ([[p1 v2] ev] & Hx & H). apply Ok_inj in H. injection H as _ <- _. exact (xadd_frame _ _ _ _ _ _ _ Hx). }
    destruct (idle_frame _ _ _ _ Hv G1 G2) as (A & B & C). apply f_realize_idle; assumption.
Qed.
Lemma amounts_ok E bs : forallb (bucket_ok E) bs = true -> Forall (fun b => 0 <= b_amt b <= DMAX) bs.
Proof.
  intros Hbs. apply Forall_forall. intros b Hb. rewrite forallb_forall in Hbs. specialize (Hbs b (proj1 (elem_of_list_In _ _) Hb)). unfold bucket_ok in Hbs. apply andb_true_iff in Hbs as [Hbs _]. apply andb_true_iff in Hbs as [Hb1 Hb2]. apply Z.leb_le in Hb1, Hb2. lia.
Qed.
Lemma positions_configured E w a acc : reachable E w -> w_accounts w !! a = Some acc -> forall k, is_Some (ac_positions acc !! k) -> is_Some (pair_cfg w k).
Proof.
  intros Hr Ha k [x Hx]. pose proof (wi_nz _ (WI_reachable _ _ Hr)) as Hnz. pose proof (configured_reachable _ _ Hr _ _ Ha k x Hx (Hnz _ _ Ha _ _ Hx)) as [pc Hp]. unfold pair_cfg.
  match goal with |- is_Some (_ <$> ?t) => assert (t = Some pc) as -> by exact Hp end. eauto.
Qed.
(** C65, depositing, with or without a fee oath. *)
Theorem C65_deposit_oath E cx w oath a ts e : reachable E w -> step E cx w (OAddCollateral oath a ts) = Err e ->
  at_the_door E cx w RAccountManagement a 3 (handed oath ++ ts) e \/
  exists acc, w_accounts w !! a = Some acc /\ (deposit_stopped w acc ts e \/ oath_stopped_after E w acc ts oath e).
Proof.
  intros Hr. revert e. door Hr RAccountManagement 3%N (handed oath ++ ts). intros v acc Hv Hc Ha Hok Hbs.
  pose proof (wi_nz _ (WI_reachable _ _ Hr)) as Hnz. pose proof (starts_intro _ _ _ _ Hv Ha (Hnz _ _ Ha)) as S. apply amounts_ok in Hbs. apply Forall_app in Hbs as [_ Hbs].
  destruct (f_add_oath E w a acc v ts oath Hv S (coll_ok_reachable _ _ Hr _ _ Ha) (positions_configured _ _ _ _ Hr Ha) Hbs) as [F1 F2].
  apply f_bind; [eapply f_mono; [exact F1|]; intros e He; exists acc; auto|]. intros [[w1 v1] evs] H1. apply f_bind; [|intros; apply f_Ok]. apply f_none. eapply F2. exact H1.
Qed.
(** C65, opening an account. *)
Theorem C65_create_account E cx w oath rule ts code a e : reachable E w -> step E cx w (OCreateAccount oath rule ts code a) = Err e ->
  at_the_gate E cx w RAccountCreation (handed oath ++ ts) e \/
  e = EEngine /\ is_Some (w_accounts w !! a) \/
  (exists s, code = Some s /\
    (e = EReferralCodeNotFound /\ gn_codes (w_gen w) !! e_hash E s = None \/
     e = EReferralCodeClaimed /\ exists c, gn_codes (w_gen w) !! e_hash E s = Some c /\ (rc_max c <= rc_count c)%N)) \/
  exists paid ref, (match code with Some s => exists c, gn_codes (w_gen w) !! e_hash E s = Some c /\ paid = code_pays E c /\ ref = Some (rc_ref c) | None => paid = [] /\ ref = None end) /\
    (deposit_stopped w (acc_new rule rule rule ref) (ts ++ paid) e \/ oath_stopped_after E w (acc_new rule rule rule ref) (ts ++ paid) oath e).
Proof.
  intros Hr. revert e. match goal with |- forall e, _ -> _ \/ @?Q e => apply (f_gate E cx w _ RAccountCreation (handed oath ++ ts) Q) end; [reflexivity..|]. intros Hbs _. cbn [exec]. unfold m_create_account. match goal with |- fails ?Q _ => set (P := Q) end.
  apply amounts_ok in Hbs. apply Forall_app in Hbs as [_ Hbs]. apply f_bind. { apply f_guard. intros Hf. apply bool_decide_eq_false in Hf. left. split; [reflexivity|]. destruct (w_accounts w !! a); [eauto|congruence]. }
  intros [] Hna. apply guard_Ok, bool_decide_eq_true in Hna.
  set (cl := match code with Some s => '(g, id, more) ← gn_claim E (w_gen w) (e_hash E s); Ok (w <| w_gen := g |>, Some id, ts ++ more) | None => Ok (w, None, ts) end).
  assert (fails P cl /\ forall w1 ref ts1, cl = Ok (w1, ref, ts1) -> exists g paid, w1 = w <| w_gen := g |> /\ ts1 = ts ++ paid /\ Forall (fun b => 0 <= b_amt b <= DMAX) paid /\
    match code with Some s => exists c, gn_codes (w_gen w) !! e_hash E s = Some c /\ paid = code_pays E c /\ ref = Some (rc_ref c) | None => paid = [] /\ ref = None end) as [K1 K2].
  { unfold cl. destruct code as [s|].
    - destruct (gn_codes (w_gen w) !! e_hash E s) as [c|] eqn:Hc.
      + destruct (N.ltb_spec (rc_count c) (rc_max c)) as [Hlt|Hge].
        * destruct (C35_claim_is_served _ _ _ _ Hr Hc Hlt) as [g' Hg]. rewrite Hg. cbn [mbind res_bind]. split; [apply f_Ok|]. intros w1 ref ts1 H. apply Ok_inj in H. injection H as <- <- <-. exists g', (code_pays E c). split; [reflexivity|]. split; [reflexivity|]. split; [|exists c; auto].
          pose proof (ri_gen _ (refinv_reachable _ _ Hr)) as K. destruct (gk_code _ K _ _ Hc) as (_ & _ & Hpc & _). apply Forall_forall. intros b Hb. unfold code_pays in Hb. apply elem_of_list_In, in_map_iff in Hb as ([r x] & <- & Hb). cbn [b_amt snd fst].
          assert (amount_in r (rc_claims c) <= DMAX) as Hle. { pose proof (owe_one _ _ _ r K Hc Hlt) as Ho. etransitivity; [exact Ho|]. unfold held_by. destruct (gn_vaults (w_gen w) !! r) as [z|] eqn:Ez; [exact (gk_vault _ K _ _ Ez)|cbn; unfold DMAX; lia]. }
          assert (0 <= x <= amount_in r (rc_claims c)) as Hx. { clear - Hpc Hb. unfold pos_claims in Hpc. induction (rc_claims c) as [|y l IH]; [destruct Hb|]. inversion Hpc as [|? ? P1 P2]; subst. pose proof (amount_pos r l P2) as Hp. rewrite amount_cons. destruct Hb as [->|Hb]; [cbn [b_res b_amt fst snd] in *; rewrite N.eqb_refl; unfold b_amt in *; cbn in *; lia|]. specialize (IH P2 Hb). cbn [b_res b_amt fst snd] in *. match goal with |- context [N.eqb ?a ?b] => destruct (N.eqb a b) end; unfold b_amt in *; lia. }
          pose proof (unit_pos E r) as Hu. pose proof (Z.mul_div_le x (unit_of E r) Hu). pose proof (Z.div_pos x (unit_of E r) ltac:(lia) Hu) as Hq. cbn. rewrite Z.quot_div_nonneg by lia. pose proof (Z.mul_nonneg_nonneg _ _ Hq (Z.lt_le_incl _ _ Hu)). rewrite (Z.mul_comm (x / unit_of E r)) in *. lia.
        * split; [|intros w1 ref ts1 H; unfold gn_claim in H; rewrite Hc in H; cbn [expect mbind res_bind] in H; replace (rc_count c <? rc_max c)%N with false in H by (symmetry; apply N.ltb_ge; exact Hge); discriminate H].
          unfold gn_claim. rewrite Hc. cbn [expect mbind res_bind]. replace (rc_count c <? rc_max c)%N with false by (symmetry; apply N.ltb_ge; exact Hge). cbn. apply f_Err. right; left. exists s. split; [reflexivity|]. right. split; [reflexivity|]. exists c. auto.
      + unfold gn_claim. rewrite Hc. cbn. split; [|intros ? ? ? H; discriminate H]. apply f_Err. right; left. exists s. split; [reflexivity|]. left. auto.
    - split; [apply f_Ok|]. intros w1 ref ts1 H. apply Ok_inj in H. injection H as <- <- <-. exists (w_gen w), []. split; [destruct w; reflexivity|]. rewrite app_nil_r. split; [reflexivity|]. split; [constructor|auto]. }
  clearbody cl. apply f_bind; [exact K1|]. intros [[w1 ref] ts1] H1. destruct (K2 _ _ _ H1) as (g & paid & -> & -> & Hpaid & Hcode). clear K1 K2 H1 cl. cbv zeta.
  match goal with |- fails P (_ ← get_acc ?x _; _) => set (wn := x) end. set (acc := acc_new rule rule rule ref) in *. assert (w_accounts wn !! a = Some acc) as Ha by (unfold wn; cbn; apply lookup_insert).
  assert (forall d, ref = Some d -> is_Some (w_refs w !! d)) as Hrf.
  { intros d ->. destruct code as [s|]; [|destruct Hcode as [_ H]; discriminate H]. destruct Hcode as (c & Hc & _ & [= ->]). exact (proj2 (refs_reachable _ _ Hr) _ _ Hc). }
  apply f_bind. { unfold get_acc, va_new. rewrite Ha. cbn. destruct ref as [d|]; [|apply f_Ok]. destruct (Hrf d eq_refl) as [x Hx]. cbn. rewrite Hx. apply f_Ok. }
  intros v Hv. assert (nonzero acc) as Hnz by (intros k y Hx; cbn in Hx; rewrite lookup_empty in Hx; discriminate Hx). pose proof (starts_intro _ _ _ _ Hv Ha Hnz) as S.
  assert (coll_ok acc) as Hco. { intros r. assert (held_coll acc r = 0) as H1 by (unfold held_coll; cbn [acc acc_new ac_coll]; rewrite lookup_empty; reflexivity). assert (in_vault acc r = 0) as H2 by (unfold in_vault, acc, acc_new; cbn [ac_vaults]; change vaults with (gmap resource Z); rewrite lookup_empty; reflexivity). rewrite H1, H2. lia. }
  destruct (f_add_oath E wn a acc v (ts ++ paid) oath Hv S Hco) as [F1 F2]; [intros k [y Hy]; cbn in Hy; rewrite lookup_empty in Hy; discriminate Hy|apply Forall_app; auto|].
  apply f_bind. { eapply f_mono; [exact F1|]. intros e He. right; right. exists paid, ref. split; [exact Hcode|]. exact He. }
  intros [[w2 v2] evs] H2. apply f_bind; [|intros; apply f_Ok]. apply f_none. eapply F2. exact H2.
Qed.
