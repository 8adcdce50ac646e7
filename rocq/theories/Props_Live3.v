(** * C65, continued: what an order refused for its margin would have done. *)
From Verif Require Import Base DFloat Lists Types Config Oracle Pool Account Fees Referral ExInternal Exchange System Scenario Sums Trace Frames Calls Spec SpecAuth SpecOracle SpecTrading SpecRequests SpecMargin SpecRefuse P_Ledger P_Accounts P_Fees P_Refs Frames2 P_Requests P_Requests2 P_Requests3 P_Requests4 P_Tokens Trading P_Positions P_Positions2 P_Oracle P_Keeper P_Orders P_Coll P_Remove P_Whole P_Final P_OrderCall P_Margin P_Configured Props_Orders Props_Collateral P_Refuse P_Refuse2 P_Refuse3 P_Refuse4 P_Refuse5 Props_Refuse Props_Refuse2 Props_Refuse4 Props_Margin P_Live P_Live2 Props_Live Props_Config P_Live3 Props_Live2 Witness Props_Exit.

Lemma order_err E cx w a i upd acc kr rq (G : Prop) : reachable E w -> w_accounts w !! a = Some acc -> request_at w a i = Some kr -> kr_request kr = ROrder rq ->
  (forall ids v1 c orc o pF aF price pp0 pp1 ppF fee pnl mp disc mc, ids = dom (ac_positions acc) ∪ {[ro_pair rq]} -> starts w acc v1 -> get_config w ids = Ok c -> prices_ok E w upd ids c orc o -> would_be (w_now w) c o (get_pool w ids) v1 rq pF aF price pp0 pp1 ppF fee ->
     x_value_positions c pF aF o = Ok (pnl, mp) -> x_value_collateral c aF o = Ok (disc, mc) -> pnl + disc + va_vb aF < mp + mc -> G) ->
  step E cx w (OProcessRequest a i upd) = Err EInsufficientMargin -> G.
Proof.
  intros Hr Ha Hat Hrq HG Hstep. set (Q := fun e => e = EInsufficientMargin -> G). assert (forall e, e <> EInsufficientMargin -> Q e) as HN by (intros e He E0; contradiction). assert (Q EArithmetic) as HA by (apply HN; discriminate).
  assert (fails Q (step E cx w (OProcessRequest a i upd))) as Hf; [|exact (Hf _ Hstep eq_refl)]. clear Hstep.
  unfold step. cbn [op_buckets op_access needs_authority forallb implb access_ok exec guard_ mbind res_bind].
  apply f_bind; [apply f_guard; intros _; apply HN; discriminate|]. intros [] _. apply f_bind; [apply f_guard; intros _; apply HN; discriminate|]. intros [] _.
  unfold m_process_request. destruct (get_acc_reachable _ _ _ _ Hr Ha) as (v0 & Hv & Hcomp). rewrite Hv. cbn [mbind res_bind]. pose proof (acc_ok_reachable _ _ Hr _ _ Ha) as Hok.
  assert (request_at w a i = kl_get (ac_requests acc) i) as Hra by (unfold request_at; rewrite Ha; reflexivity). rewrite Hra in Hat.
  apply f_bind. { eapply f_mono; [eapply f_process; eassumption|]. intros e [(-> & H)|[(-> & H)|(kr' & Hk & [[-> _]|[-> _]])]]; apply HN; discriminate. }
  intros [[v1 rq'] ex] Hp. pose proof Hp as Hp0. apply process_request_inv in Hp0 as (kr' & n & P1 & P2 & P3 & P4 & P5 & P6 & P7).
  pose proof (wi_nz _ (WI_reachable _ _ Hr)) as Hnz. pose proof (starts_intro _ _ _ _ Hv Ha (Hnz _ _ Ha)) as S0. pose proof Hp as Hfr. apply va_process_frame in Hfr as [Hg Hcm]. pose proof (starts_norq _ _ _ _ Hg Hcm S0) as S.
  assert (kr' = kr) as ->.
  { unfold va_keeper_request in P2. assert (va_req_upd v0 = ∅) as Hu0. { unfold get_acc, va_new in Hv. bd Hv as (acc' & _ & Hv). bd Hv as (rd & _ & Hv). apply Ok_inj in Hv. subst v0. reflexivity. }
    rewrite Hu0, lookup_empty, Hcomp in P2. apply expect_Ok in P2. congruence. }
  rewrite Hrq in P3. subst rq'. cbv zeta. assert (va_positions v1 = ac_positions acc) as Hpos by exact (st_positions _ _ _ S). rewrite Hpos. set (ids := dom (ac_positions acc) ∪ {[ro_pair rq]}) in *.
  apply f_bind. { eapply f_mono; [apply f_config|]. intros e (-> & _). apply HN; discriminate. } intros c Hc.
  assert (forall w1, fails Q (mint_reward E w1 (ec_reward_keeper (vc_exchange c)))) as Hmint. { intros w1. eapply f_mono; [eapply f_mint2; exact Hc|]. intros e [[-> H]| ->]; [apply HN; discriminate|exact HA]. }
  apply f_bind; cycle 1.
  { intros [[[w1 v2] pay] evs] Hx. assert (exists o p2 fd2 l, ssteps E (w_now w) c o (mkS (get_pool w ids) v1 (w_fd w)) l (mkS p2 v2 fd2) /\ Forall notproc l /\ w_refs w1 = w_refs w) as (o & p2 & fd2 & l & L1 & L2 & L3).
    { destruct ex; cbn [negb] in Hx.
      - apply Ok_inj in Hx. injection Hx as <- <- _ _. exists (mkVO ∅ ∅), (get_pool w ids), (w_fd w), []. split; [constructor|]. split; [constructor|reflexivity].
      - bd Hx as (feeds & Hf & Hx). bd Hx as ([orc o] & Ho & Hx). bd Hx as ([[p2 v3 fd3] ev] & Hrm & Hx). apply Ok_inj in Hx. injection Hx as <- <- _ _. apply (tr_margin_order E) in Hrm as (l0 & fee & Hrm & Hl0). exists o, p2, fd3. eexists. split; [exact Hrm|]. split; [|reflexivity].
        repeat (constructor; [exact I|]). apply Forall_app. split; [eapply Forall_impl; [exact Hl0|]; intros [] Hx; cbn in *; tauto|]. constructor; [exact I|]. constructor; [left; reflexivity|]. constructor; [right; reflexivity|constructor]. }
    apply f_bind; [|intros w2 _; apply f_bind; [apply Hmint|]; intros [w3 rew] _; apply f_Ok]. apply f_arP; [exact HA|]. change v2 with (s_acc (mkS p2 v2 fd2)). eapply (f_realize E w a _ _ _ (mkS (get_pool w ids) v0 (w_fd w)) (AProcess i :: l) _ v0 fwd); [exact Hr|exact Hv|reflexivity| | |exact L3].
    - econstructor; [eapply ss_process; exact Hp|exact L1].
    - eapply ssteps_rq; [apply mv_fwd|apply fwd_mv|exact L1|exact L2|]. cbn [s_acc]. eapply process_ok; [exact Hp|]. eapply rq_ok_new; [exact Hv|rewrite Hcomp; exact Hok]. }
  destruct ex; cbn [negb]; [apply f_Ok|]. apply f_bind; [apply f_none; eapply f_feeds; exact Hc|]. intros feeds Hfd. apply f_bind.
  { eapply f_mono; [eapply (f_oracle E w ids c feeds upd (fun k => k ∈ ids)); [exact Hc|eapply feeds_age; eassumption]|].
    intros e [(data & sig & key & _ & [[-> _]|[[-> _]|[-> _]]])|[(k & age & Hk & [[-> _]|[[-> _]|[-> _]]])| ->]]; apply HN; discriminate. }
  intros [orc o] Ho. pose proof (prices_ok_feeds _ _ _ _ _ _ _ _ Hc Hfd Ho) as Hpk.
  assert (forall k, k ∈ ids -> have c o (get_pool w ids) k) as Hhave.
  { intros k Hk. destruct (vc_new_spec _ _ _ Hc) as (_ & _ & C3 & _). destruct (C3 k Hk) as (pc & _ & Hpc). destruct (pk_pair _ _ _ _ _ _ _ Hpk k Hk) as (x & pc' & _ & _ & _ & Hpr). unfold have. rewrite Hpc, Hpr, (get_pool_cached _ _ _ Hk). eauto. }
  assert (ro_pair rq ∈ ids) as Hin by (unfold ids; apply elem_of_union; right; apply elem_of_singleton; reflexivity).
  apply f_bind; [|intros [? ?] _; apply f_Ok]. apply f_order_short; cbn [s_pool s_acc].
  - intros price Hx. destruct (pk_pair _ _ _ _ _ _ _ Hpk _ Hin) as (x & _ & _ & _ & [Hx0 _] & Hx1). rewrite Hx in Hx1. injection Hx1 as ->. apply Z.lt_le_incl. exact Hx0.
  - pose proof (ec_valid_shares _ (C40_exchange_config _ _ Hr)) as (_ & _ & _ & _ & _ & Hfm & _). rewrite <- (config_exchange _ _ _ Hc) in Hfm. exact Hfm.
  - apply Hhave. exact Hin.
  - intros k Hk. apply Hhave. unfold ids. apply elem_of_union. left. apply elem_of_dom. rewrite <- Hpos. exact Hk.
  - intros r [cc Hcc]. destruct (vc_new_spec _ _ _ Hc) as (_ & C2 & _). rewrite C2, lookup_fmap in Hcc. match type of Hcc with _ <$> ?t = _ => destruct t as [cc0|] eqn:Hl end; [|discriminate Hcc].
    exists (cc_pair_id cc0). rewrite (pk_res _ _ _ _ _ _ _ Hpk). split; [match goal with |- _ <$> ?t = _ => assert (t = Some cc0) as -> by exact Hl end; reflexivity|]. destruct (pk_feed _ _ _ _ _ _ _ Hpk r cc0 Hl) as (x & _ & _ & Hx). eauto.
  - intros pF aF price pp0 pp1 ppF fee pnl mp disc mc Q1 Q2 Q3 Q4. eapply HG; try eassumption. reflexivity.
Qed.

(** What the trader's side of pair [k] is worth at price [p]: the balance, and the position less what it cost and the funding it owes. *)
Definition worth (pp : pool_position) (acc : account) (k : pair_id) (p : Z) : Z :=
  ac_vb acc + mul (ap_amount (held acc k)) p - ap_cost (held acc k) - funding_owed pp (held acc k).
(** [acc'] is [acc] once the order [rq] has been executed at the price of [w1], and [pp'] the pool's record of the pair: the position the order asks for, the funding
    settled, everything else untouched, and a fee within the highest fee the exchange may charge (up to two units of 10^-18). *)
Record after_order (w w1 : world) (acc : account) (rq : req_order) (acc' : account) (pp' : pool_position) : Prop := {
  ao_size : ap_amount (held acc' (ro_pair rq)) = ap_amount (held acc (ro_pair rq)) + ro_amount rq;
  ao_others : forall j, j <> ro_pair rq -> held acc' j = held acc j;
  ao_collateral : ac_coll acc' = ac_coll acc; ao_referral : ac_ref acc' = ac_ref acc;
  ao_funding : funding_owed pp' (held acc' (ro_pair rq)) = 0;
  ao_indexes : pp_funding_long_index pp' = pp_funding_long_index (pool_pair w (ro_pair rq)) /\ pp_funding_short_index pp' = pp_funding_short_index (pool_pair w (ro_pair rq));
  ao_imbalance : pp_oi_long pp' - pp_oi_short pp' = open_interest_long w (ro_pair rq) - open_interest_short w (ro_pair rq) + ro_amount rq;
  ao_paid : exists fee, 0 <= fee <= mul (mul (price_of w1 (ro_pair rq)) (Z.abs (ro_amount rq))) (ec_fee_max (g_exchange_config w)) /\
    Z.abs (worth pp' acc' (ro_pair rq) (price_of w1 (ro_pair rq)) - (worth (pool_pair w (ro_pair rq)) acc (ro_pair rq) (price_of w1 (ro_pair rq)) - fee)) <= 2 }.
(** C65. An order refused for its margin would leave the account, at the prices delivered, worth less than its initial margin
    (for a pair brought up to date at this instant, so that the funding owed can be read off). *)
Theorem C65_order_refused_for_margin E cx w a i upd acc kr rq w1 : reachable E w -> w_accounts w !! a = Some acc -> request_at w a i = Some kr -> kr_request kr = ROrder rq ->
  with_prices E w upd w1 -> last_updated w (ro_pair rq) = Some (w_now w) -> step E cx w (OProcessRequest a i upd) = Err EInsufficientMargin ->
  ro_reduce_only rq = false /\
  exists acc' pp', after_order w w1 acc rq acc' pp' /\
    account_value_at (fun j => if (j =? ro_pair rq)%N then pp' else pool_pair w j) w1 acc' < initial_margin w1 acc'.
Proof.
  intros Hr Ha Hat Hrq [W1 W2 W3 W4 W5] Hlu. apply (order_err _ _ _ _ _ _ _ _ _ _ Hr Ha Hat Hrq).
  intros ids v1 c orc o pF aF price pp0 pp1 ppF fee pnl mp disc mc Hids S Hc Hpk [B1 B2 B3 B4 B5 B6 B7 B8 B9 B10 B11 B12 B13 B14 B15] Hvp Hvc Hlt. split; [exact B3|].
  set (k := ro_pair rq) in *. assert (k ∈ ids) as Hin by (rewrite Hids; apply elem_of_union; right; apply elem_of_singleton; reflexivity).
  pose proof (st_comp _ _ _ S) as Hcomp. pose proof (st_positions _ _ _ S) as Hpos. rewrite (get_pool_cached _ _ _ Hin) in B2. injection B2 as B2.
  assert (pp_last_update pp0 = w_now w) as Hupd. { rewrite <- B2. unfold pool_pair. unfold last_updated in Hlu. match goal with |- context[match ?t with Some _ => _ | None => _ end] => destruct t as [pp|] eqn:Hk end; [injection Hlu as Hlu'; exact Hlu'|discriminate Hlu]. }
  destruct B4 as [I1 I2]. { rewrite Hupd. unfold period_of. rewrite Z.sub_diag. reflexivity. }
  destruct B5 as [J1 J2]. rewrite I1 in J1. rewrite I2 in J2. assert (forall x, side_index ppF x = side_index pp0 x) as Hsi by (intros x; unfold side_index; rewrite J1, J2; reflexivity).
  set (acc' := acc <| ac_positions := va_positions aF |> <| ac_vb := va_vb aF |>).
  assert (forall j, held acc' j = pos_of aF j) as Hheld. { intros j. unfold held, pos_of. cbn. destruct (va_positions aF !! j); reflexivity. }
  assert (forall j, pos_of v1 j = held acc j) as Hv1 by exact (st_pos _ _ _ S).
  assert (forall k, or_prices orc !! k = stored_price w1 k) as Hor.
  { intros j. rewrite W5. apply told_push. pose proof (pk_push _ _ _ _ _ _ _ Hpk) as Hpu. destruct upd; [exact Hpu|rewrite Hpu; reflexivity]. }
  assert (price_of w1 k = price) as Hprice.
  { unfold price_of. rewrite <- Hor. pose proof (pk_stored _ _ _ _ _ _ _ Hpk _ _ B1) as Hst. match type of Hst with _ <$> ?t = _ => destruct t as [[x y]|]; [cbn in Hst; injection Hst as ->; reflexivity|discriminate Hst] end. }
  set (ppf := fun j => if (j =? k)%N then ppF else pool_pair w j).
  assert (sees w1 ppf c o pF) as Hs.
  { eapply sees_core; [exact Hc|exact W1| | |].
    - intros j x Hx. unfold stored_price in Hor. rewrite <- Hor. exact (pk_stored _ _ _ _ _ _ _ Hpk _ _ Hx).
    - intros r x Hx. split; [rewrite (pk_res _ _ _ _ _ _ _ Hpk r); match goal with |- _ <$> ?t = _ => assert (t = Some x) as -> by exact Hx end; reflexivity|]. destruct (pk_feed _ _ _ _ _ _ _ Hpk r x Hx) as (y & _ & _ & Hy). exists (fst y). exact Hy.
    - intros j q Hq. unfold ppf. destruct (N.eqb_spec j k) as [Ej|Hn]; [rewrite Ej in Hq; rewrite B7 in Hq; injection Hq as <-; reflexivity|]. rewrite (B8 j Hn) in Hq. destruct (decide (j ∈ ids)) as [Hk|Hk].
      + rewrite (get_pool_cached _ _ _ Hk) in Hq. injection Hq as <-. reflexivity.
      + exfalso. unfold get_pool, vp_new in Hq. simpl in Hq. unfold pool_get_positions in Hq. apply lookup_set_to_map in Hq; [|intros; simpl in *; congruence]. destruct Hq as (k' & Hk' & E0). simpl in E0. injection E0 as <- _. contradiction. }
  apply value_positions_spec in Hvp as (share & Hsh & -> & -> & Hf). unfold x_value_collateral in Hvc. apply value_collateral_fold in Hvc. injection Hvc as -> ->.
  assert (va_coll aF = ac_coll acc) as Hcoll. { unfold g_coll in B14. injection B14 as G1 G2 G3. rewrite G1. exact (st_coll _ _ _ S). }
  assert (share = fee_share w1 acc') as Eshare.
  { assert (va_fee_rebate aF = va_fee_rebate v1) as Ef by (unfold va_fee_rebate; rewrite B15; reflexivity). rewrite Ef in Hsh. rewrite (rebate_share _ _ _ _ S Hsh). unfold fee_share, acc'. cbn. rewrite W3. reflexivity. }
  subst share. change (va_positions aF) with (ac_positions acc') in Hf, Hlt. rewrite Hcoll in Hlt.
  rewrite (sees_profit _ _ _ _ _ _ _ Hs Hf), (sees_margin _ _ _ _ _ _ _ Hs Hf), !(sees_coll _ _ _ _ _ _ _ Hs) in Hlt.
  assert (funding_owed ppF (held acc' k) = 0) as Hfo0. { rewrite Hheld. unfold funding_owed. rewrite B10, Z.sub_diag. change mul with mulq. unfold mulq. rewrite Z.mul_0_r. reflexivity. }
  exists acc', ppF. split.
  - constructor; fold k.
    + rewrite Hheld, B9, Hv1. reflexivity.
    + intros j Hj. rewrite Hheld, (B11 j Hj). apply Hv1.
    + reflexivity.
    + reflexivity.
    + exact Hfo0.
    + rewrite B2. split; assumption.
    + rewrite B6, <- B2. assert (pp_oi_long (pool_pair w k) = open_interest_long w k /\ pp_oi_short (pool_pair w k) = open_interest_short w k) as [-> ->]; [|reflexivity].
      unfold pool_pair, open_interest_long, open_interest_short, pair_field. match goal with |- context [match ?t with Some _ => _ | None => _ end] => destruct t end; split; reflexivity.
    + exists fee. rewrite Hprice. split; [rewrite <- (config_exchange _ _ _ Hc); exact B12|]. unfold worth. rewrite Hfo0, Hheld. change (ac_vb acc') with (va_vb aF). rewrite <- (st_vb _ _ _ S), <- Hv1, B2.
      assert (funding_owed pp1 (pos_of v1 k) = funding_owed pp0 (pos_of v1 k)) as Hfe by (unfold funding_owed, side_index; rewrite I1, I2; reflexivity). rewrite Hfe in B13. change mul with mulq. rewrite Z.sub_0_r. exact B13.
  - fold ppf. rewrite ?Z.add_0_l in Hlt. unfold account_value_at, initial_margin, margin_required, positions_profit, positions_margin, collateral_total in *. change (ac_vb acc') with (va_vb aF). change (ac_coll acc') with (ac_coll acc). rewrite ?Z.add_0_l in Hlt. exact Hlt.
Qed.
(** ** Example. In [WX] (pair 1 brought up to date at this instant, at 23,000) A2's order 2, to buy 1 more, is refused for the margin; so after it A2 would hold 3,
    and be worth less than its initial margin. *)
Definition short_check (w : world) (a : addr) (i : N) : bool :=
  match w_accounts w !! a with
  | None => false
  | Some acc =>
    match kl_kvs (ac_requests acc) !! i with
    | None => false
    | Some kr =>
      match kr_request kr with
      | RRemove _ => false
      | ROrder rq =>
        (ro_pair rq =? 1)%N && bool_decide (last_updated w 1%N = Some (w_now w)) && (ap_amount (held acc 1%N) =? dec 2) && (ro_amount rq =? dec 1) && match step sc_env cx_any w (OProcessRequest a i None) with Err EInsufficientMargin => true | _ => false end
      end
    end
  end.
Example C65_short_check : short_check WX A2 2%N = true. Proof. vm_compute. reflexivity. Qed.
Example C65_ex_margin : exists acc rq acc' pp', w_accounts WX !! A2 = Some acc /\ step sc_env cx_any WX (OProcessRequest A2 2%N None) = Err EInsufficientMargin /\
  after_order WX WX acc rq acc' pp' /\ ap_amount (held acc' 1%N) = dec 3 /\ account_value_at (fun j => if (j =? 1)%N then pp' else pool_pair WX j) WX acc' < initial_margin WX acc'.
Proof.
  pose proof C65_short_check as H. unfold short_check in H. destruct (w_accounts WX !! A2) as [acc|] eqn:Ha; [|discriminate H]. destruct (kl_kvs (ac_requests acc) !! 2%N) as [kr|] eqn:Hk; [|discriminate H]. destruct (kr_request kr) as [rq|rq] eqn:Hq; [discriminate H|].
  repeat match type of H with (_ && _) = true => let H2 := fresh "K" in apply andb_true_iff in H as [H H2] end.
  apply N.eqb_eq in H. apply bool_decide_eq_true in K2. apply Z.eqb_eq in K0, K1.
  destruct (step sc_env cx_any WX (OProcessRequest A2 2%N None)) as [?|e] eqn:Hs; [discriminate K|]. assert (e = EInsufficientMargin) as -> by (destruct e; congruence). clear K.
  destruct (C65_order_refused_for_margin sc_env cx_any WX A2 2%N None acc kr rq WX) as (_ & acc' & pp' & X1 & X2).
  - exact WX_reach.
  - exact Ha.
  - unfold request_at. rewrite Ha. exact Hk.
  - exact Hq.
  - constructor; reflexivity.
  - rewrite H. exact K2.
  - exact Hs.
  - exists acc, rq, acc', pp'. split; [reflexivity|]. split; [reflexivity|]. split; [exact X1|]. split; [|rewrite H in X2; exact X2].
    pose proof (ao_size _ _ _ _ _ _ X1) as X3. rewrite H in X3. etransitivity; [exact X3|]. rewrite K0. first [rewrite K1|rewrite K0]. reflexivity.
Qed.
