(** * C14: the initial margin holds after taking risk. *)
From Verif Require Import Base DFloat Lists Types Config Oracle Pool Account Fees Referral ExInternal Exchange System Scenario Sums Trace Frames Calls Shape Spec SpecOracle SpecTrading SpecMargin P_Ledger P_Accounts P_DFloat Witness Frames2 P_Refs P_Tokens P_Requests P_Requests2 P_Requests3 Trading P_Positions P_Positions2 P_Oracle P_Keeper P_Orders P_Final P_OrderCall P_Coll P_Remove Props_Oracle Props_Orders Props_Collateral P_Margin.

(** The fee oath a call hands in, and the account it is charged to. *)
Definition op_oath (o : op) : option bucket :=
  match o with
  | OCreateAccount oath _ _ _ _ | OAddCollateral oath _ _ | OCreateRecoveryKey oath _ | OAddAuthRule oath _ _ _ | OSetLevel1Auth oath _ _
  | OSetLevel2Auth oath _ _ | OSetLevel3Auth oath _ _ | ORemoveCollateralRequest oath _ _ _ _
  | OMarginOrderRequest oath _ _ _ _ _ _ _ _ _ _ _ | OMarginOrderTpSlRequest oath _ _ _ _ _ _ _ _ _ _ | OCancelRequests oath _ _ => oath
  | _ => None
  end.
Definition op_user (o : op) : option addr := match o with OCreateAccount _ _ _ _ a => Some a | _ => op_account o end.

(** C14, orders: whenever the position ends larger or on the other side, the account meets its initial margin. *)
Theorem C14_margin_after_opening E cx w o w' out a r acc' : reachable E w -> step E cx w o = Ok (w', out) -> executes_order w o a r -> w_accounts w' !! a = Some acc' ->
  let s := size_of w a (ro_pair r) in let s' := size_of w' a (ro_pair r) in
  Z.abs s < Z.abs s' \/ s * s' < 0 -> initial_margin w' acc' <= account_value w' acc'.
Proof.
  intros Hr H Hx Ha'' s s' Hs. pose proof H as Hst0. pose proof Hx as Hx0. occ Hr H Hx. pose proof (oc_facts _ _ _ _ _ _ _ _ _ _ _ _ _ _ _ _ Hoc) as F.
  pose proof (oc_acc' _ _ _ _ _ _ _ _ _ _ _ _ _ _ _ _ Hoc) as Ha'. rewrite Ha'' in Ha'. injection Ha' as <-.
  destruct (of_open _ _ _ _ _ _ _ _ F) as [(H0 & _)|(_ & _ & _ & _ & pI & aI & P1 & P2 & P3 & P4 & P5 & _ & P6)].
  - exfalso. pose proof (oc_size' _ _ _ _ _ _ _ _ _ _ _ _ _ _ _ _ Hoc (ro_pair r)) as [S1 _]. fold s' in S1. destruct (of_pos _ _ _ _ _ _ _ _ F) as (Q1 & _). destruct (of_split _ _ _ _ _ _ _ _ F) as (_ & _ & Q2 & _). cbn [s_acc] in *.
    pose proof (oc_pos _ _ _ _ _ _ _ _ _ _ _ _ _ _ _ _ Hoc (ro_pair r)) as Q3. assert (s = ap_amount (pos_of v (ro_pair r))) as Q4 by (unfold s, size_of; rewrite Q3; reflexivity). rewrite <- Q4 in *. rewrite Q1 in S1. rewrite H0 in S1. clear - S1 Q2 Hs.
    destruct (Z.eq_dec (od_cl d) 0) as [E0|E0]; [nia|]. specialize (Q2 E0). nia.
  - unfold g_ppos in P1. injection P1 as P1a P1b P1c. unfold g_pos in P3. injection P3 as P3a P3b P3c. unfold g_coll in P4. injection P4 as P4a P4b P4c.
    eapply (integrity_margin w' c vo pI aI (s_acc s0)); [|exact (proj2 (oc_si _ _ _ _ _ _ _ _ _ _ _ _ _ _ _ _ Hoc))|exact (oc_real _ _ _ _ _ _ _ _ _ _ _ _ _ _ _ _ Hoc)|exact (oc_sync _ _ _ _ _ _ _ _ _ _ _ _ _ _ _ _ Hoc)|exact P6|exact P3a|exact P4a|exact P2|].
    + eapply sees_intro; [exact (oc_config _ _ _ _ _ _ _ _ _ _ _ _ _ _ _ _ Hoc)|exact (oc_prices _ _ _ _ _ _ _ _ _ _ _ _ _ _ _ _ Hoc)|exact (oc_cf _ _ _ _ _ _ _ _ _ _ _ _ _ _ _ _ Hoc)|].
      intros k q Hq. apply (pool_pair_cached w' (s_pool s0)); [rewrite (oc_now _ _ _ _ _ _ _ _ _ _ _ _ _ _ _ _ Hoc); exact (proj1 (oc_si _ _ _ _ _ _ _ _ _ _ _ _ _ _ _ _ Hoc))|exact (oc_pool _ _ _ _ _ _ _ _ _ _ _ _ _ _ _ _ Hoc)|]. rewrite <- P1a. exact Hq.
    + intros x Hxx. rewrite P5 in Hxx. apply Ok_inj in Hxx. subst x.
      assert (va_fee_rebate v = Ok (od_share d)) as Hv. { destruct (Z.eq_dec (od_op d) 0) as [E0|E0]; [|exact (of_share _ _ _ _ _ _ _ _ F (or_intror E0))].
        destruct (Z.eq_dec (od_cl d) 0) as [E1|E1]; [|exact (of_share _ _ _ _ _ _ _ _ F (or_introl E1))].
        exfalso. pose proof (oc_size' _ _ _ _ _ _ _ _ _ _ _ _ _ _ _ _ Hoc (ro_pair r)) as [S1 _]. fold s' in S1. destruct (of_pos _ _ _ _ _ _ _ _ F) as (Q1 & _). cbn [s_acc] in *. pose proof (oc_pos _ _ _ _ _ _ _ _ _ _ _ _ _ _ _ _ Hoc (ro_pair r)) as Q3. assert (s = ap_amount (pos_of v (ro_pair r))) as Q4 by (unfold s, size_of; rewrite Q3; reflexivity). rewrite <- Q4 in *. rewrite Q1, E0, E1 in S1. clear - S1 Hs. nia. }
      rewrite (rebate_share _ _ _ _ (oc_start _ _ _ _ _ _ _ _ _ _ _ _ _ _ _ _ Hoc) Hv). symmetry. eapply step_share; [exact Hst0|subst o; reflexivity|exact (oc_acc _ _ _ _ _ _ _ _ _ _ _ _ _ _ _ _ Hoc)|exact Ha''].
Qed.
(** C14, removals. *)
Theorem C14_margin_after_withdrawing E cx w o w' out a r acc' : reachable E w -> step E cx w o = Ok (w', out) -> executes_removal w o a r -> w_accounts w' !! a = Some acc' ->
  initial_margin w' acc' <= account_value w' acc'.
Proof.
  intros Hr H Hx Ha''. destruct (removal_call_intro _ _ _ _ _ _ _ _ Hr H Hx) as (i & upd & acc & acc1 & ids & c & vo & v & v2 & p & toks & Ho & Hc).
  pose proof (rc_acc' _ _ _ _ _ _ _ _ _ _ _ _ _ _ _ _ Hc) as Ha'. rewrite Ha'' in Ha'. injection Ha' as <-. pose proof (rc_si _ _ _ _ _ _ _ _ _ _ _ _ _ _ _ _ Hc) as [Hsi1 Hsi2].
  eapply (integrity_margin w' c vo p v2 v2); [|exact Hsi2|exact (rc_real _ _ _ _ _ _ _ _ _ _ _ _ _ _ _ _ Hc)|exact (rc_sync _ _ _ _ _ _ _ _ _ _ _ _ _ _ _ _ Hc)|exact (rc_integrity _ _ _ _ _ _ _ _ _ _ _ _ _ _ _ _ Hc)|reflexivity..|].
  - eapply sees_intro; [exact (rc_config _ _ _ _ _ _ _ _ _ _ _ _ _ _ _ _ Hc)|exact (rc_prices _ _ _ _ _ _ _ _ _ _ _ _ _ _ _ _ Hc)|exact (rc_cf _ _ _ _ _ _ _ _ _ _ _ _ _ _ _ _ Hc)|].
    intros k q Hq. apply (pool_pair_cached w' p); [rewrite (rc_now _ _ _ _ _ _ _ _ _ _ _ _ _ _ _ _ Hc); exact Hsi1|exact (rc_pool _ _ _ _ _ _ _ _ _ _ _ _ _ _ _ _ Hc)|exact Hq].
  - intros x Hxx. destruct (rc_trace _ _ _ _ _ _ _ _ _ _ _ _ _ _ _ _ Hc) as (ks & bs & Htr & _).
    assert (g_ref v2 = g_ref v) as Hg. { apply (ssteps_frame_ref _ _ _ _ _ _ _ Htr). apply Forall_app. split; [clear; induction ks; constructor; auto; reflexivity|repeat constructor]. }
    unfold g_ref in Hg. injection Hg as G1 G2 G3 G4. assert (va_fee_rebate v2 = va_fee_rebate v) as Ef by (unfold va_fee_rebate; rewrite G2; reflexivity). rewrite Ef in Hxx.
    rewrite (rebate_share _ _ _ _ (rc_start _ _ _ _ _ _ _ _ _ _ _ _ _ _ _ _ Hc) Hxx). symmetry. eapply step_share; [exact H|subst o; reflexivity|exact (rc_acc _ _ _ _ _ _ _ _ _ _ _ _ _ _ _ _ Hc)|exact Ha''].
Qed.
(** C14, oaths. *)
Lemma settle_oath_margin E w a acc v b extra w1 v1 c v2 wx w' : w_accounts w !! a = Some acc -> nonzero acc -> get_acc w a = Ok v -> settle_oath E w v extra b = Ok (w1, v1, c) ->
  va_positions v2 = va_positions v1 -> va_pos_upd v2 = va_pos_upd v1 -> ac_positions (va_comp v2) = ac_positions (va_comp v1) -> g_coll v2 = g_coll v1 -> g_ref v2 = g_ref v1 -> va_vb v2 = va_vb v1 -> va_addr v2 = va_addr v1 ->
  realize_acc wx v2 = Ok w' -> w_config wx = w_config w -> w_oracle wx = w_oracle w -> w_refs wx = w_refs w -> w_now wx = w_now w -> w_pool wx = w_pool w ->
  exists acc', w_accounts w' !! a = Some acc' /\ initial_margin w' acc' <= account_value w' acc'.
Proof.
  intros Ha Hnz Hv Ho P1 P2 P3 P4 P5 P6 P7 Hz W1 W2 W3 W4 W5. unfold settle_oath in Ho. bd Ho as (c0 & Hc & Ho). bd Ho as ([o1 o] & Hor & Ho). bd Ho as ([v1' s] & Hs & Ho). apply Ok_inj in Ho. injection Ho as _ <- <-.
  apply x_settle_fee_oath_inv in Hs as (Hv1 & _ & _ & _ & Hi). assert (g_pos v1' = g_pos v /\ coll_sync v1' /\ g_ref v1' = g_ref v /\ va_addr v1' = a) as (G1 & G2 & G3 & G4).
  { rewrite Hv1. split; [reflexivity|]. split; [exact (get_acc_sync _ _ _ Hv)|]. split; [reflexivity|]. exact (get_acc_addr _ _ _ Hv). }
  eapply oath_margin; [exact Ha|exact Hnz|exact Hv|exact Hc|exact Hor|reflexivity|exact Hi|exact G1|exact G2|exact G3|exact P1|exact P2|exact P3|exact P4|exact P5|exact P6|congruence|exact Hz|exact W1|exact W2|exact W3|exact W4|rewrite W5; reflexivity].
Qed.
Lemma settle_oath_world E w v extra b w1 v1 c : settle_oath E w v extra b = Ok (w1, v1, c) -> exists s, w1 = w <| w_oath := s |>.
Proof. unfold settle_oath. intros Ho. bd Ho as (c0 & Hc & Ho). bd Ho as ([o1 o] & Hor & Ho). bd Ho as ([v1' s] & Hs & Ho). apply Ok_inj in Ho. injection Ho as <- _ _. eauto. Qed.
Lemma add_collateral_frame c p v ts p1 v1 ev : x_add_collateral c p v ts = Ok (p1, v1, ev) -> g_pos v1 = g_pos v /\ g_ref v1 = g_ref v /\ va_addr v1 = va_addr v /\ vp_positions p1 = vp_positions p /\ real p1 = real p /\ (coll_sync v -> coll_sync v1).
Proof.
  unfold x_add_collateral. intros H. bd H as ([p2 v2] & Hf & H). bd H as (u & _ & H). bd H as (v3 & Hd & H). bd H as (? & _ & H). apply Ok_inj in H. injection H as <- <- _.
  assert (g_pos v2 = g_pos v /\ g_ref v2 = g_ref v /\ va_addr v2 = va_addr v /\ g_ppos p2 = g_ppos p /\ va_comp v2 = va_comp v /\ va_coll v2 = va_coll v) as (A1 & A2 & A3 & A4 & A5 & A6).
  { revert p v Hf. induction (List.filter is_base ts) as [|b l IH]; intros p v Hf; cbn [rfold] in Hf; [apply Ok_inj in Hf; injection Hf as <- <-; auto 10|].
    bd Hf as ([p3 v4] & H1 & Hf). apply x_add_base_inv in H1 as [-> ->]. apply IH in Hf as (B1 & B2 & B3 & B4 & B5 & B6). rewrite B1, B2, B3, B4, B5, B6. repeat split. }
  pose proof (va_deposit_frame _ _ _ Hd) as (_ & D1 & D2 & _). pose proof (real_g _ _ A4) as A7. unfold g_ppos in A4. injection A4 as A4a A4b A4c.
  split; [congruence|]. split; [congruence|]. split; [|split; [exact A4a|split; [exact A7|]]].
  - unfold va_deposit, acc_deposit in Hd. inv_go. cbn. exact A3.
  - intros Hy. unfold coll_sync in *. unfold va_deposit, acc_deposit in Hd. bd Hd as (c1 & X2 & Hd). bd Hd as (a1 & X1 & Hd). bd X1 as (c2 & X3 & X1). bd X1 as (vv & X4 & X1). apply Ok_inj in Hd, X1. subst v3 a1. cbn. rewrite <- A5, <- A6 in Hy. rewrite Hy in X2. congruence.
Qed.
Lemma add_oath_margin E w a acc v b ts w1 v1 evs w' : w_accounts w !! a = Some acc -> nonzero acc -> get_acc w a = Ok v -> add_collateral_oath E w v (Some b) ts = Ok (w1, v1, evs) ->
  realize_acc w1 v1 = Ok w' -> exists acc', w_accounts w' !! a = Some acc' /\ initial_margin w' acc' <= account_value w' acc'.
Proof.
  intros Ha Hnz Hv Ho Hz. cbn [add_collateral_oath] in Ho. bd Ho as (c & Hc & Ho). bd Ho as ([o1 o] & Hor & Ho). bd Ho as ([[p1 v2] ev] & Hx & Ho). bd Ho as ([v3 s] & Hs & Ho). apply Ok_inj in Ho. injection Ho as <- <- _.
  apply x_settle_fee_oath_inv in Hs as (Hv1 & _ & _ & _ & Hi). destruct (add_collateral_frame _ _ _ _ _ _ _ Hx) as (F1 & F2 & F3 & F4 & F5 & F6).
  assert (g_pos v3 = g_pos v /\ coll_sync v3 /\ g_ref v3 = g_ref v /\ va_addr v3 = a) as (G1 & G2 & G3 & G4).
  { rewrite Hv1. split; [rewrite <- F1; reflexivity|]. split; [exact (F6 (get_acc_sync _ _ _ Hv))|]. split; [rewrite <- F2; reflexivity|]. rewrite <- (get_acc_addr _ _ _ Hv). exact F3. }
  eapply oath_margin; [exact Ha|exact Hnz|exact Hv|exact Hc|exact Hor|exact F4|exact Hi|exact G1|exact G2|exact G3|reflexivity|reflexivity|reflexivity|reflexivity|reflexivity|reflexivity|exact G4|exact Hz|reflexivity|reflexivity|reflexivity|reflexivity|].
  change (po_positions (vp_realize p1) = po_positions (w_pool w)). change (po_positions (vp_realize p1)) with (real p1). rewrite F5. apply real_get_pool.
Qed.
Lemma set_level_frame lvl g a rule g' a' : x_set_level_auth lvl g a rule = (g', a') -> va_positions a' = va_positions a /\ va_pos_upd a' = va_pos_upd a /\ ac_positions (va_comp a') = ac_positions (va_comp a) /\
  g_coll a' = g_coll a /\ g_ref a' = g_ref a /\ va_vb a' = va_vb a /\ va_addr a' = va_addr a.
Proof. unfold x_set_level_auth. intros H. injection H as _ <-. unfold ac_set_level, g_coll, g_ref. cbn. repeat case_match; auto 10. Qed.
Ltac oath_case H := 
  let v := fresh "v" in let w1 := fresh "w1" in let v1 := fresh "v1" in let Hv := fresh "Hv" in let Hs := fresh "Hs" in let Hs' := fresh "Hs'" in let c := fresh "c" in
  bd H as (v & Hv & H); bd H as (? & _ & H); bd H as ([w1 v1] & Hs & H); cbn [settle_oath_opt'] in Hs; 
  let w4 := fresh "w4" in let v4 := fresh "v4" in bd Hs as ([[w4 v4] c] & Hs & Hs'); apply Ok_inj in Hs'; injection Hs' as -> ->; pose proof (get_acc_comp _ _ _ Hv) as Ha.
Ltac world_eqs Hs := destruct (settle_oath_world _ _ _ _ _ _ _ _ Hs) as [?s ->].
Ltac oath_end Hnz Ha Hv Hs Hz Hq := let F1 := fresh in
  destruct (set_level_frame _ _ _ _ _ _ Hq) as (F1 & ?F2 & ?F3 & ?F4 & ?F5 & ?F6 & ?F7); pose proof Hs as ?Hs0; world_eqs Hs0;
  eapply settle_oath_margin; [exact Ha|exact (Hnz _ _ Ha)|exact Hv|exact Hs|..|exact Hz|reflexivity|reflexivity|reflexivity|reflexivity|reflexivity]; try eassumption.
Ltac norq_end Hnz Ha Hv Hs Hz Hg Hc :=
  pose proof (g_norq_split _ _ Hg Hc) as (?N1 & ?N2 & ?N3 & ?N4 & ?N5 & ?N6); pose proof Hs as ?Hs0; world_eqs Hs0; unfold g_pos in N2; injection N2 as ?N2a ?N2b ?N2c; unfold g_norq in Hg; injection Hg; intros;
  eapply settle_oath_margin; [exact Ha|exact (Hnz _ _ Ha)|exact Hv|exact Hs|..|exact Hz|reflexivity|reflexivity|reflexivity|reflexivity|reflexivity]; try eassumption.
Theorem C14_margin_after_oath E cx w o w' out a b acc' : reachable E w -> step E cx w o = Ok (w', out) -> op_oath o = Some b -> op_user o = Some a -> w_accounts w' !! a = Some acc' ->
  initial_margin w' acc' <= account_value w' acc'.
Proof.
  intros Hr H Hb Hu Ha''. cut (exists acc', w_accounts w' !! a = Some acc' /\ initial_margin w' acc' <= account_value w' acc').
  { intros (acc1 & A1 & A2). rewrite Ha'' in A1. injection A1 as <-. exact A2. }
  clear acc' Ha''. pose proof (wi_nz _ (WI_reachable _ _ Hr)) as Hnz. apply step_exec' in H.
  destruct o; try discriminate Hb; cbn in Hb, Hu; subst oath; injection Hu as ->; cbn [exec] in H.
  - unfold m_create_account in H. bd H as (? & _ & H). bd H as ([[w1 ref] ts1] & _ & H). bd H as (v & Hv & H). bd H as ([[w2 v2] evs] & Ho & H). bd H as (w3 & Hz & H). apply Ok_inj in H. injection H as <- _.
    match type of Hv with get_acc ?x _ = _ => set (wn := x) in Hv, Ho end. assert (w_accounts wn !! a = Some (acc_new rule rule rule ref)) as Ha by (unfold wn; simpl; apply lookup_insert).
    eapply add_oath_margin; [exact Ha| |exact Hv|exact Ho|exact Hz]. intros k y Hx. simpl in Hx. rewrite lookup_empty in Hx. discriminate.
  - unfold m_create_recovery_key in H. oath_case H.
    match type of H with context[x_set_level_auth ?l ?g ?v ?r] => destruct (x_set_level_auth l g v r) as [g' v2] eqn:Hq end.
    bd H as (w3 & Hz & H). apply Ok_inj in H. injection H as <- _. oath_end Hnz Ha Hv Hs Hz Hq.
  - unfold m_add_auth_rule in H. oath_case H. bd H as (? & _ & H).
    match type of H with context[x_set_level_auth ?l ?g ?v ?r] => destruct (x_set_level_auth l g v r) as [g' v2] eqn:Hq end.
    bd H as (w3 & Hz & H). apply Ok_inj in H. injection H as <- _. oath_end Hnz Ha Hv Hs Hz Hq.
  - unfold m_set_level_auth in H. oath_case H.
    match type of H with context[x_set_level_auth ?l ?g ?v ?r] => destruct (x_set_level_auth l g v r) as [g' v2] eqn:Hq end.
    bd H as (w3 & Hz & H). apply Ok_inj in H. injection H as <- _. oath_end Hnz Ha Hv Hs Hz Hq.
  - unfold m_set_level_auth in H. oath_case H.
    match type of H with context[x_set_level_auth ?l ?g ?v ?r] => destruct (x_set_level_auth l g v r) as [g' v2] eqn:Hq end.
    bd H as (w3 & Hz & H). apply Ok_inj in H. injection H as <- _. oath_end Hnz Ha Hv Hs Hz Hq.
  - unfold m_set_level_auth in H. oath_case H.
    match type of H with context[x_set_level_auth ?l ?g ?v ?r] => destruct (x_set_level_auth l g v r) as [g' v2] eqn:Hq end.
    bd H as (w3 & Hz & H). apply Ok_inj in H. injection H as <- _. oath_end Hnz Ha Hv Hs Hz Hq.
  - unfold m_add_collateral in H. bd H as (v & Hv & H). bd H as (? & _ & H). bd H as ([[w1 v1] evs] & Ho & H). bd H as (w3 & Hz & H). apply Ok_inj in H. injection H as <- _. 
    pose proof (get_acc_comp _ _ _ Hv) as Ha. eapply add_oath_margin; [exact Ha|exact (Hnz _ _ Ha)|exact Hv|exact Ho|exact Hz].
  - unfold m_remove_collateral_request in H. bd H as (v & Hv & H). bd H as (? & _ & H). bd H as ([[w1 v1] c] & Hs & H). bd H as (? & _ & H). bd H as (v2 & Hp & H). bd H as (? & _ & H). bd H as (w3 & Hz & H). apply Ok_inj in H. injection H as <- _.
    pose proof (get_acc_comp _ _ _ Hv) as Ha. apply va_push_frame in Hp as [Hg Hc]. norq_end Hnz Ha Hv Hs Hz Hg Hc.
  - unfold m_margin_order_request in H. bd H as (v & Hv & H). bd H as (? & _ & H). bd H as ([[w1 v1] c] & Hs & H). bd H as (pc & _ & H). bd H as (am & _ & H). bd H as (? & _ & H). bd H as (? & _ & H). bd H as (? & _ & H).
    bd H as (ac & _ & H). bd H as (ca & _ & H). bd H as (v2 & Hp & H). bd H as (? & _ & H). bd H as (w3 & Hz & H). apply Ok_inj in H. injection H as <- _.
    pose proof (get_acc_comp _ _ _ Hv) as Ha. apply va_push_frame in Hp as [Hg Hc]. norq_end Hnz Ha Hv Hs Hz Hg Hc.
  - unfold m_margin_order_tp_sl_request in H. bd H as (v & Hv & H). bd H as (? & _ & H). bd H as ([[w1 v1] c] & Hs & H). bd H as (pc & _ & H). bd H as (am & _ & H). bd H as (? & _ & H). 
    bd H as ([i1 itp] & _ & H). bd H as (isl & _ & H). bd H as (v2 & Hp1 & H). bd H as (v3 & Hp2 & H). bd H as (v4 & Hp3 & H). bd H as (? & _ & H). bd H as (w3 & Hz & H). apply Ok_inj in H. injection H as <- _.
    pose proof (get_acc_comp _ _ _ Hv) as Ha. apply va_push_frame in Hp1 as [Hg1 Hc1].
    assert (g_norq v3 = g_norq v2 /\ va_comp v3 = va_comp v2) as [Hg2 Hc2].
    { destruct price_tp; [bd Hp2 as (n & _ & Hp2); apply va_push_frame in Hp2; exact Hp2|apply Ok_inj in Hp2; subst v3; auto]. }
    assert (g_norq v4 = g_norq v3 /\ va_comp v4 = va_comp v3) as [Hg3 Hc3].
    { destruct price_sl; [bd Hp3 as (n & _ & Hp3); apply va_push_frame in Hp3; exact Hp3|apply Ok_inj in Hp3; subst v4; auto]. }
    assert (g_norq v4 = g_norq v1) as Hg by congruence. assert (va_comp v4 = va_comp v1) as Hc by congruence. clear Hg1 Hg2 Hg3 Hc1 Hc2 Hc3. norq_end Hnz Ha Hv Hs Hz Hg Hc.
  - unfold m_cancel_requests in H. bd H as (v & Hv & H). bd H as (? & _ & H). bd H as ([w1 v1] & Hs & H). bd H as (v2 & Hp & H). bd H as (w3 & Hz & H). apply Ok_inj in H. injection H as <- _.
    cbn [settle_oath_opt'] in Hs. bd Hs as ([[w4 v4] c] & Hs & Hs'). apply Ok_inj in Hs'. injection Hs' as -> ->.
    pose proof (get_acc_comp _ _ _ Hv) as Ha. apply va_cancel_frame in Hp as [Hg Hc]. norq_end Hnz Ha Hv Hs Hz Hg Hc.
Qed.
(** Each of the three kinds of call exists and leaves an account that needs a positive margin. *)
Definition needs_margin (w : world) (a : addr) : bool := match w_accounts w !! a with Some acc => (0 <? initial_margin w acc) && (initial_margin w acc <=? account_value w acc) | None => false end.
Example C14_opening_ex : exists w' out r, step sc_env cx_any WF (OProcessRequest A5 2%N (msg 30100%N 2000%N 1029%N)) = Ok (w', out) /\ reachable sc_env WF /\
  executes_order WF (OProcessRequest A5 2%N (msg 30100%N 2000%N 1029%N)) A5 r /\ size_of WF A5 (ro_pair r) * size_of w' A5 (ro_pair r) < 0 /\ needs_margin w' A5 = true.
Proof.
  destruct (try_true WF (cx_any, OProcessRequest A5 2%N (msg 30100%N 2000%N 1029%N)) (fun w' out =>
    match order_at WF A5 2%N with Some r => (size_of WF A5 (ro_pair r) * size_of w' A5 (ro_pair r) <? 0) | None => false end && needs_margin w' A5)) as (w' & out & H & Hf); [vm_compute; reflexivity|].
  apply andb_true_iff in Hf as [H1 H2]. destruct (order_at WF A5 2%N) as [r|] eqn:Hr; [|exfalso; exact (Bool.diff_false_true H1)]. apply Z.ltb_lt in H1.
  exists w', out, r. split; [exact H|]. split; [exact WF_reach|]. split; [apply order_at_executes; exact Hr|]. split; [exact H1|exact H2].
Qed.
Example C14_withdrawing_ex : exists w' out r, step sc_env cx_any WR (OProcessRequest A2 1%N (msg 30000%N 2000%N 1029%N)) = Ok (w', out) /\ reachable sc_env WR /\
  executes_removal WR (OProcessRequest A2 1%N (msg 30000%N 2000%N 1029%N)) A2 r /\ needs_margin w' A2 = true.
Proof.
  destruct (try_true WR (cx_any, OProcessRequest A2 1%N (msg 30000%N 2000%N 1029%N)) (fun w' _ => match removal_at WR A2 1%N with Some r => true | None => false end && needs_margin w' A2)) as (w' & out & H & Hf); [vm_compute; reflexivity|].
  apply andb_true_iff in Hf as [H1 H2]. destruct (removal_at WR A2 1%N) as [r|] eqn:Hr; [|exfalso; exact (Bool.diff_false_true H1)]. exists w', out, r. split; [exact H|]. split; [exact WR_reach|]. split; [apply removal_at_executes; exact Hr|exact H2].
Qed.
Example C14_oath_ex : exists w' out, step sc_env cx_u5 W5 (OAddCollateral (Some (FEE_OATH, dec 1)) A5 [(BASE, dec 2)]) = Ok (w', out) /\ reachable sc_env W5 /\ needs_margin w' A5 = true /\ balance w' A5 = balance W5 A5 + dec 1.
Proof.
  destruct (try_true W5 (cx_u5, OAddCollateral (Some (FEE_OATH, dec 1)) A5 [(BASE, dec 2)]) (fun w' _ => needs_margin w' A5 && (balance w' A5 =? balance W5 A5 + dec 1))) as (w' & out & H & Hf); [vm_compute; reflexivity|].
  apply andb_true_iff in Hf as [H1 H2]. apply Z.eqb_eq in H2. exists w', out. split; [exact H|]. split; [exact W5_reach|]. split; [exact H1|exact H2].
Qed.
