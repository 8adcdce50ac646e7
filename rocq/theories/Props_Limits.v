(** * C24: configured limits hold after every call that could exceed them. *)
From Verif Require Import Base DFloat Lists Types Config Oracle Pool Account Fees Referral ExInternal Exchange System Scenario Sums Trace Frames Calls Shape Spec SpecOracle SpecTrading SpecMargin P_Ledger P_Accounts P_DFloat Witness Props_Config P_Fees Frames2 Trading P_Positions P_Positions2 P_Requests2 P_Oracle P_Keeper P_Orders P_Final P_OrderCall P_Risk Props_Oracle Props_Orders.

Lemma order_acct E cx w o w' out a r : step E cx w o = Ok (w', out) -> executes_order w o a r -> exists l, acct_call E w a l w'.
Proof. intros H (i & upd & acc & kr & -> & _). apply (step_acct _ _ _ _ _ _ a) in H; [|reflexivity]. destruct H as (l & H & _). exists l. exact H. Qed.
(** Any call that raises a side's open interest of a pair leaves it within the pair's limit. *)
Theorem C24_open_interest_limit E cx w o w' out k : reachable E w -> step E cx w o = Ok (w', out) ->
  (open_interest_long w k < open_interest_long w' k -> exists pc, pair_cfg w k = Some pc /\ open_interest_long w' k <= pc_oi_max pc) /\
  (open_interest_short w k < open_interest_short w' k -> exists pc, pair_cfg w k = Some pc /\ open_interest_short w' k <= pc_oi_max pc).
Proof.
  intros Hr H. destruct (step_shrinks _ _ _ _ _ _ Hr H) as [(a & r & Hx)|[_ Hs]]; [|specialize (Hs k); split; lia].
  destruct (order_acct _ _ _ _ _ _ _ _ H Hx) as (l & Hcall). pose proof (C26_order_changes_position_as_asked _ _ _ _ _ _ _ _ Hr H Hx) as [_ Hoth].
  pose proof (acct_call_self _ _ _ _ _ Hcall) as ((acc & Ha) & (acc' & Ha') & _). destruct (call_fields _ _ _ _ _ _ _ Hcall (wi_nz _ (WI_reachable _ _ Hr)) Ha Ha') as (F & _).
  pose proof (F F_long k (or_introl eq_refl)) as FL. pose proof (F F_short k (or_intror (or_introl eq_refl))) as FS. simpl in FL, FS.
  change (fl pp_oi_long (po_positions (w_pool w')) k) with (open_interest_long w' k) in FL. change (fl pp_oi_long (po_positions (w_pool w)) k) with (open_interest_long w k) in FL.
  change (fl pp_oi_short (po_positions (w_pool w')) k) with (open_interest_short w' k) in FS. change (fl pp_oi_short (po_positions (w_pool w)) k) with (open_interest_short w k) in FS.
  rewrite <- (size_acc _ _ _ k Ha), <- (size_acc _ _ _ k Ha') in FL, FS.
  destruct (decide (k = ro_pair r)) as [->|Hne]; [|unfold size_of in FL, FS; rewrite (Hoth a k (or_intror Hne)) in FL, FS; split; lia].
  destruct (order_call_intro _ _ _ _ _ _ _ _ Hr H Hx) as (i & upd & acc0 & acc0' & ids & c & vo & v & s & d & ev & Ho & Hoc). pose proof (oc_facts _ _ _ _ _ _ _ _ _ _ _ _ _ _ _ _ Hoc) as G.
  assert (open_interest_long w' (ro_pair r) = pp_oi_long (od_ppF d) /\ open_interest_short w' (ro_pair r) = pp_oi_short (od_ppF d)) as [EL ES].
  { pose proof (of_real _ _ _ _ _ _ _ _ G) as Hre. unfold open_interest_long, open_interest_short, pair_field. rewrite (oc_pool _ _ _ _ _ _ _ _ _ _ _ _ _ _ _ _ Hoc). change (po_positions (vp_realize (s_pool s))) with (real (s_pool s)).
    match goal with |- context[match ?t with Some _ => _ | None => _ end] => assert (t = Some (od_ppF d)) as -> by exact Hre end. split; reflexivity. }
  pose proof (oc_pc _ _ _ _ _ _ _ _ _ _ _ _ _ _ _ _ Hoc) as Hpc. destruct (oc_size' _ _ _ _ _ _ _ _ _ _ _ _ _ _ _ _ Hoc (ro_pair r)) as [Z1 _].
  assert (size_of w a (ro_pair r) = ap_amount (pos_of v (ro_pair r))) as Z0 by (unfold size_of; rewrite (oc_pos _ _ _ _ _ _ _ _ _ _ _ _ _ _ _ _ Hoc); reflexivity).
  destruct (of_pos _ _ _ _ _ _ _ _ G) as (Hp & _). destruct (of_split _ _ _ _ _ _ _ _ G) as (_ & _ & Hc1 & Hc2 & _). cbn [s_acc] in *. rewrite <- Z1, <- Z0 in Hp. rewrite <- Z0 in Hc1, Hc2.
  assert (size_of w a (ro_pair r) * od_cl d <= 0 /\ Z.abs (od_cl d) <= Z.abs (size_of w a (ro_pair r))) as [Hc3 Hc4]. { destruct (Z.eq_dec (od_cl d) 0) as [->|Hne]; [lia|specialize (Hc1 Hne); lia]. }
  destruct (of_open _ _ _ _ _ _ _ _ G) as [[Ho0 _]|(Ho0 & _ & Ho1 & Ho2 & _)].
  - rewrite Ho0 in *. split; intros Hlt; exfalso; nia.
  - split; intros Hlt; exists (od_pc d); (split; [exact Hpc|]).
    + rewrite EL. apply Ho1. destruct (Z.eq_dec (od_cl d) 0) as [H0|H0]; [nia|specialize (Hc2 Ho0 H0); nia].
    + rewrite ES. apply Ho2. destruct (Z.eq_dec (od_cl d) 0) as [H0|H0]; [nia|specialize (Hc2 Ho0 H0); nia].
Qed.
(** Any call that enlarges or flips some position of an account leaves it with at most positions_max positions. *)
Theorem C24_positions_limit E cx w o w' out a k acc' : reachable E w -> step E cx w o = Ok (w', out) -> w_accounts w' !! a = Some acc' ->
  ~ ((0 <= size_of w' a k <= size_of w a k) \/ (size_of w a k <= size_of w' a k <= 0)) ->
  (N.of_nat (size (ac_positions acc')) <= ec_positions_max (g_exchange_config w))%N.
Proof.
  intros Hr H Ha' Hns. destruct (step_shrinks _ _ _ _ _ _ Hr H) as [(b & r & Hx)|[Hs _]]; [|exfalso; apply Hns; apply Hs].
  pose proof (C26_order_changes_position_as_asked _ _ _ _ _ _ _ _ Hr H Hx) as [_ Hoth].
  destruct (decide (a = b)) as [->|Hne]; [|exfalso; apply Hns; unfold size_of; rewrite (Hoth a k (or_introl Hne)); apply shrinks_refl].
  destruct (decide (k = ro_pair r)) as [->|Hne]; [|exfalso; apply Hns; unfold size_of; rewrite (Hoth b k (or_intror Hne)); apply shrinks_refl].
  destruct (order_call_intro _ _ _ _ _ _ _ _ Hr H Hx) as (i & upd & acc0 & acc0' & ids & c & vo & v & s & d & ev & Ho & Hoc). pose proof (oc_facts _ _ _ _ _ _ _ _ _ _ _ _ _ _ _ _ Hoc) as G.
  pose proof (oc_acc' _ _ _ _ _ _ _ _ _ _ _ _ _ _ _ _ Hoc) as Ha0. rewrite Ha' in Ha0. injection Ha0 as <-.
  destruct (oc_size' _ _ _ _ _ _ _ _ _ _ _ _ _ _ _ _ Hoc (ro_pair r)) as [Z1 _]. assert (size_of w b (ro_pair r) = ap_amount (pos_of v (ro_pair r))) as Z0 by (unfold size_of; rewrite (oc_pos _ _ _ _ _ _ _ _ _ _ _ _ _ _ _ _ Hoc); reflexivity).
  destruct (of_pos _ _ _ _ _ _ _ _ G) as (Hp & _). destruct (of_split _ _ _ _ _ _ _ _ G) as (_ & _ & Hc1 & Hc2 & _). cbn [s_acc] in *. rewrite <- Z1, <- Z0 in Hp. rewrite <- Z0 in Hc1, Hc2.
  destruct (of_open _ _ _ _ _ _ _ _ G) as [[Ho0 _]|(Ho0 & _ & _ & _ & pI & aI & _ & _ & Hgp & _ & _ & Hlim & _)].
  - exfalso. apply Hns. rewrite Hp, Ho0. destruct (Z.eq_dec (od_cl d) 0) as [->|Hn]; [lia|specialize (Hc1 Hn); nia].
  - unfold x_assert_position_limit in Hlim. apply guard_Ok, N.leb_le in Hlim. rewrite (oc_ec _ _ _ _ _ _ _ _ _ _ _ _ _ _ _ _ Hoc) in Hlim.
    unfold g_pos in Hgp. injection Hgp as Hgp _ _. rewrite Hgp in Hlim. etransitivity; [|exact Hlim].
    assert (size (ac_positions acc') <= size (va_positions (s_acc s)))%nat as Hsz; [|lia].
    rewrite <- !size_dom. apply subseteq_size. intros j Hj. apply elem_of_dom in Hj as [x Hj]. apply elem_of_dom. destruct (va_positions (s_acc s) !! j) as [y|] eqn:Hy; [eauto|exfalso].
    assert (pos_of (s_acc s) j = apos_zero) as Hz by (unfold pos_of; rewrite Hy; reflexivity).
    rewrite (rz_none _ _ (oc_real _ _ _ _ _ _ _ _ _ _ _ _ _ _ _ _ Hoc)) in Hj; [discriminate|rewrite Hz; reflexivity].
Qed.
(** A deposit (into an existing or a new account) leaves at most collaterals_max collaterals. *)
Lemma add_collateral_limit E w v oath ts w1 v1 evs : add_collateral_oath E w v oath ts = Ok (w1, v1, evs) -> coll_sync v -> (N.of_nat (size (ac_coll (va_comp v1))) <= ec_collaterals_max (g_exchange_config w))%N.
Proof.
  assert (forall c p a ts p' a' ev, x_add_collateral c p a ts = Ok (p', a', ev) -> coll_sync a -> coll_sync a' /\ (N.of_nat (size (va_coll a')) <= ec_collaterals_max (vc_exchange c))%N) as G.
  { intros c p a ts0 p' a' ev H Hs. unfold x_add_collateral in H. bd H as ([p1 a1] & H1 & H). bd H as (u & H2 & H). bd H as (a2 & H3 & H). bd H as (? & H4 & H). apply Ok_inj in H. injection H as <- <- <-.
    assert (coll_sync a1) as Hs1.
    { revert p a Hs H1. induction (List.filter is_base ts0) as [|b l IH]; intros p a Hs H1; cbn [rfold] in H1; [apply Ok_inj in H1; congruence|]. bd H1 as ([p2 a3] & Hb & H1). eapply IH; [|exact H1]. apply x_add_base_inv in Hb as [_ ->]. exact Hs. }
    unfold va_deposit, acc_deposit in H3. bd H3 as (c1 & H3a & H3). bd H3 as (a4 & H3b & H3). bd H3b as (c2 & H3c & H3b). bd H3b as (v2 & H3d & H3b). apply Ok_inj in H3, H3b. subst. split.
    - unfold coll_sync in *. simpl. rewrite Hs1 in H3a. congruence.
    - unfold x_assert_collaterals_limit in H4. apply guard_Ok, N.leb_le in H4. exact H4. }
  intros H Hs. unfold add_collateral_oath in H. destruct oath as [b|].
  - bd H as (c & Hc & H). bd H as ([o1 o] & Ho & H). bd H as ([[p1 v2] ev] & Hx & H). bd H as ([v3 s3] & Hf & H). apply Ok_inj in H. injection H as <- <- <-.
    destruct (G _ _ _ _ _ _ _ Hx Hs) as [G1 G2]. apply x_settle_fee_oath_inv in Hf as (-> & _). cbn. rewrite (get_config_exchange _ _ _ Hc) in G2. rewrite <- G1. exact G2.
  - bd H as (c & Hc & H). bd H as ([[p1 v2] ev] & Hx & H). apply Ok_inj in H. injection H as <- <- <-.
    destruct (G _ _ _ _ _ _ _ Hx Hs) as [G1 G2]. rewrite (get_config_exchange _ _ _ Hc) in G2. rewrite <- G1. exact G2.
Qed.
Lemma realize_coll w v w' acc' : realize_acc w v = Ok w' -> w_accounts w' !! va_addr v = Some acc' -> ac_coll acc' = ac_coll (va_comp v).
Proof.
  intros H. apply realize_acc_inv in H as (acc & refs & Hz & ->). simpl. rewrite lookup_insert. intros Ha. injection Ha as <-. apply va_realize_inv in Hz as [Hu _].
  unfold acc_update in Hu. bd Hu as (r1 & _ & Hu). bd Hu as (r2 & _ & Hu). apply Ok_inj in Hu. subst acc. reflexivity.
Qed.
Lemma add_oath_addr E w v oath ts w1 v1 evs : add_collateral_oath E w v oath ts = Ok (w1, v1, evs) -> va_addr v1 = va_addr v.
Proof.
  assert (forall c p a ts p' a' ev, x_add_collateral c p a ts = Ok (p', a', ev) -> va_addr a' = va_addr a) as G.
  { intros c p a ts0 p' a' ev H. unfold x_add_collateral in H. bd H as ([p1 a1] & H1 & H). bd H as (u & H2 & H). bd H as (a2 & H3 & H). bd H as (? & H4 & H). apply Ok_inj in H. injection H as <- <- <-.
    transitivity (va_addr a1).
    - unfold va_deposit in H3. bd H3 as (c1 & H3a & H3). bd H3 as (a4 & H3b & H3). apply Ok_inj in H3. subst a2. reflexivity.
    - clear - H1. revert p a H1. induction (List.filter is_base ts0) as [|b l IH]; intros p a H1; cbn [rfold] in H1; [apply Ok_inj in H1; congruence|]. bd H1 as ([p2 a3] & Hb & H1). rewrite (IH _ _ H1). apply x_add_base_inv in Hb as [_ ->]. reflexivity. }
  intros H. unfold add_collateral_oath in H. destruct oath as [b|].
  - bd H as (c & Hc & H). bd H as ([o1 o] & Ho & H). bd H as ([[p1 v2] ev] & Hx & H). bd H as ([v3 s3] & Hf & H). apply Ok_inj in H. injection H as <- <- <-. apply x_settle_fee_oath_inv in Hf as (-> & _). cbn. eapply G; eauto.
  - bd H as (c & Hc & H). bd H as ([[p1 v2] ev] & Hx & H). apply Ok_inj in H. injection H as <- <- <-. eapply G; eauto.
Qed.
Definition deposits_into (o : op) (a : addr) : Prop := match o with OAddCollateral _ b _ => b = a | OCreateAccount _ _ _ _ b => b = a | _ => False end.
Theorem C24_collaterals_limit E cx w o w' out a acc' : step E cx w o = Ok (w', out) -> deposits_into o a -> w_accounts w' !! a = Some acc' ->
  (N.of_nat (size (ac_coll acc')) <= ec_collaterals_max (g_exchange_config w))%N.
Proof.
  intros H Hd Ha'. apply step_exec' in H. destruct o; simpl in Hd; try contradiction; subst; simpl in H.
  - unfold m_create_account in H. bd H as (? & _ & H). bd H as ([[w0 ref] ts0] & H0 & H). cbv zeta in H. bd H as (v & Hv & H). bd H as ([[w1 v1] evs] & Hx & H). bd H as (w2 & Hz & H). apply Ok_inj in H. injection H as <- <-.
    assert (w_config w0 = w_config w) as Hcf. { match type of H0 with match ?c with _ => _ end = _ => destruct c end; [bd H0 as ([[g id] more] & _ & H0)|]; apply Ok_inj in H0; injection H0 as <- <- <-; reflexivity. }
    pose proof (add_collateral_limit _ _ _ _ _ _ _ _ Hx (get_acc_sync _ _ _ Hv)) as Hl. pose proof (add_oath_addr _ _ _ _ _ _ _ _ Hx) as Hadr. rewrite (get_acc_addr _ _ _ Hv) in Hadr. rewrite <- Hadr in Ha'.
    rewrite (realize_coll _ _ _ _ Hz Ha'). unfold g_exchange_config in *. simpl in Hl. rewrite Hcf in Hl. exact Hl.
  - unfold m_add_collateral in H. bd H as (v & Hv & H). bd H as (? & _ & H). bd H as ([[w1 v1] evs] & Hx & H). bd H as (w2 & Hz & H). apply Ok_inj in H. injection H as <- <-.
    pose proof (add_collateral_limit _ _ _ _ _ _ _ _ Hx (get_acc_sync _ _ _ Hv)) as Hl. pose proof (add_oath_addr _ _ _ _ _ _ _ _ Hx) as Hadr. rewrite (get_acc_addr _ _ _ Hv) in Hadr. rewrite <- Hadr in Ha'.
    rewrite (realize_coll _ _ _ _ Hz Ha'). exact Hl.
Qed.
(** An order that does not lower the skew (measured after re-marking its pair at the execution price)
    leaves the skew ratio below the cap; so does any removal of liquidity. *)
Lemma skew_ratio_realized w p r : w_pool w = vp_realize p -> vp_base p = po_base (vp_comp p) -> x_skew_ratio p = Ok r -> skew_ratio w = r.
Proof.
  intros Hw Hb H. unfold x_skew_ratio, x_pool_value in H. bd H as (pv & Hpv & H). bd Hpv as (x & Hx & Hpv). bd Hpv as (y & Hy & Hpv). apply dadd_Ok in Hx as [-> _], Hy as [-> _], Hpv as [-> _].
  apply ddiv_Ok in H as (_ & -> & _). unfold skew_ratio, pool_value. rewrite Hw. destruct (vp_realize_pool p) as (-> & -> & -> & -> & ->). rewrite <- Hb. reflexivity.
Qed.
Theorem C24_order_skew_limit E cx w o w' out a r : reachable E w -> step E cx w o = Ok (w', out) -> executes_order w o a r ->
  let k := ro_pair r in let pp := pool_pair w k in
  skew_ratio w' < ec_skew_ratio_cap (g_exchange_config w) \/
  po_skew (w_pool w') < po_skew (w_pool w) - pp_skew_abs_snap pp + Z.abs (net_value pp (price_of w' k)).
Proof.
  intros Hr H Hx k pp. destruct (order_call_intro _ _ _ _ _ _ _ _ Hr H Hx) as (i & upd & acc0 & acc0' & ids & c & vo & v & s & d & ev & Ho & Hoc). pose proof (oc_facts _ _ _ _ _ _ _ _ _ _ _ _ _ _ _ _ Hoc) as G.
  destruct (of_integrity _ _ _ _ _ _ _ _ G) as (q & Hq & Hor). rewrite (oc_ec _ _ _ _ _ _ _ _ _ _ _ _ _ _ _ _ Hoc) in Hor. destruct (of_pool _ _ _ _ _ _ _ _ G) as (_ & _ & _ & _ & Hb). cbn [s_pool] in *.
  rewrite (skew_ratio_realized w' (s_pool s) q (oc_pool _ _ _ _ _ _ _ _ _ _ _ _ _ _ _ _ Hoc)); [|unfold g_base in Hb; injection Hb as Hb1 Hb2; rewrite Hb1, Hb2; reflexivity|exact Hq].
  destruct Hor as [Hor|Hor]; [left; exact Hor|right]. rewrite (oc_pool _ _ _ _ _ _ _ _ _ _ _ _ _ _ _ _ Hoc). destruct (vp_realize_pool (s_pool s)) as (_ & _ & -> & _).
  assert (pp = od_pp0 d) as -> by exact (oc_pp _ _ _ _ _ _ _ _ _ _ _ _ _ _ _ _ Hoc). unfold k. rewrite (oc_price _ _ _ _ _ _ _ _ _ _ _ _ _ _ _ _ Hoc).
  assert (pp_skew_abs_snap (od_pp1 d) = Z.abs (net_value (od_pp0 d) (od_price d))) as Hsn; [|change (vp_skew (get_pool w ids)) with (po_skew (w_pool w)) in Hor; lia].
  destruct (of_same _ _ _ _ _ _ _ _ G) as (S1 & S2 & _). rewrite (of_snap1 _ _ _ _ _ _ _ _ G). unfold skew_at, net_value. rewrite S1, S2. reflexivity.
Qed.
Theorem C24_remove_liquidity_skew_limit E cx w b w' out : step E cx w (ORemoveLiquidity b) = Ok (w', out) -> skew_ratio w' < ec_skew_ratio_cap (g_exchange_config w).
Proof.
  intros H. apply step_exec' in H. simpl in H. unfold m_remove_liquidity in H. bd H as (c & Hc & H). bd H as ([[[[p1 fd1] s1] lpb] ev] & Hx & H). apply Ok_inj in H. injection H as <- <-.
  unfold x_remove_liquidity in Hx. bd Hx as (? & _ & Hx). cbv zeta in Hx. bd Hx as (pv & _ & Hx). bd Hx as (pr & _ & Hx). bd Hx as (va & _ & Hx). bd Hx as (fee & _ & Hx). bd Hx as (wa & _ & Hx). bd Hx as (? & _ & Hx). bd Hx as (? & _ & Hx).
  bd Hx as ([p2 amt] & Hw & Hx). bd Hx as ([[p3 fd3] [[q0 q1] q2]] & Hf & Hx). bd Hx as (? & Hi & Hx). bd Hx as (? & _ & Hx). bd Hx as (? & _ & Hx). apply Ok_inj in Hx. injection Hx as <- <- <- <- <-.
  unfold x_assert_pool_integrity in Hi. bd Hi as (r & Hr & Hi). apply guard_Ok, orb_true_iff in Hi as [Hi|Hi]; [|discriminate Hi]. apply Z.ltb_lt in Hi. rewrite (get_config_exchange _ _ _ Hc) in Hi.
  rewrite (skew_ratio_realized _ p3 r); [exact Hi|reflexivity| |exact Hr]. apply x_settle_fees_basic_inv in Hf as (fp & ft & _ & _ & -> & _). apply vp_withdraw_inv in Hw as [_ ->]. reflexivity.
Qed.
(** The hypotheses are met by an order raising both the short open interest and A3's position from zero, a deposit, and a removal of liquidity. *)
Example C24_ex : reachable sc_env WQ /\
  (exists w' out, step sc_env cx_any WQ (OProcessRequest A3 0%N (msg 30000%N 2000%N 1009%N)) = Ok (w', out) /\ open_interest_short WQ 1%N < open_interest_short w' 1%N /\
    ~ ((0 <= size_of w' A3 1%N <= size_of WQ A3 1%N) \/ (size_of WQ A3 1%N <= size_of w' A3 1%N <= 0))) /\
  (exists w' out acc', step sc_env cx_u2 W2 (OAddCollateral None A2 [(20%N, dec 1); (21%N, dec 1)]) = Ok (w', out) /\ w_accounts w' !! A2 = Some acc' /\ size (ac_coll acc') = 2%nat) /\
  (exists w' out, step sc_env cx_any W2 (ORemoveLiquidity (LP, dec 1000)) = Ok (w', out) /\ 0 < skew_ratio W2 < skew_ratio w').
Proof.
  split; [exact WQ_reach|]. split; [|split].
  - destruct (try_true WQ (cx_any, OProcessRequest A3 0%N (msg 30000%N 2000%N 1009%N)) (fun w' _ => (open_interest_short WQ 1%N <? open_interest_short w' 1%N) && (size_of w' A3 1%N <? 0) && (size_of WQ A3 1%N =? 0))) as (w' & out & H & Hf); [vm_compute; reflexivity|].
    apply andb_true_iff in Hf as [Hf H3]. apply andb_true_iff in Hf as [H1 H2]. apply Z.ltb_lt in H1, H2. apply Z.eqb_eq in H3. exists w', out. split; [exact H|]. split; [exact H1|]. rewrite H3. clear -H2. lia.
  - destruct (try_true W2 (cx_u2, OAddCollateral None A2 [(20%N, dec 1); (21%N, dec 1)]) (fun w' _ => match w_accounts w' !! A2 with Some acc => Nat.eqb (size (ac_coll acc)) 2 | None => false end)) as (w' & out & H & Hf); [vm_compute; reflexivity|].
    destruct (w_accounts w' !! A2) as [acc|] eqn:Ha; [|exfalso; exact (Bool.diff_false_true Hf)]. apply Nat.eqb_eq in Hf. exists w', out, acc. split; [exact H|]. split; [exact Ha|exact Hf].
  - destruct (try_true W2 (cx_any, ORemoveLiquidity (LP, dec 1000)) (fun w' _ => (0 <? skew_ratio W2) && (skew_ratio W2 <? skew_ratio w'))) as (w' & out & H & Hf); [vm_compute; reflexivity|].
    apply andb_true_iff in Hf as [H1 H2]. apply Z.ltb_lt in H1, H2. exists w', out. split; [exact H|]. split; [exact H1|exact H2].
Qed.
