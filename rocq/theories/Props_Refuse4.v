(** * C65, continued: processing a request is refused only for a stated reason. *)
From Verif Require Import Base DFloat Lists Types Config Oracle Pool Account Fees Referral ExInternal Exchange System Scenario Sums Trace Frames Calls Spec SpecAuth SpecOracle SpecTrading SpecRequests SpecMargin SpecRefuse P_Ledger P_Accounts P_Fees P_Refs Frames2 P_Requests P_Requests2 P_Requests3 P_Requests4 P_Tokens Trading P_Positions P_Positions2 P_Oracle P_Keeper P_Coll P_Final P_OrderCall P_Configured Props_Collateral Props_Config P_Refuse P_Refuse2 P_Refuse3 P_Refuse4 P_Refuse5 Props_Refuse Props_Refuse2.

Definition process_why (now : Z) (acc : account) (i : N) (e : error) : Prop :=
  e = EProcessBeforeValidStart /\ (i < ac_vstart acc)%N \/
  e = EMissingRequest /\ kl_get (ac_requests acc) i = None \/
  exists kr, kl_get (ac_requests acc) i = Some kr /\
   (e = EProcessNotActive /\ (if kr_expiry kr <=? now then ~ pending (kr_status kr) else kr_status kr <> STATUS_ACTIVE) \/
    e = EProcessBeforeSubmission /\ now <= kr_submission kr).
Lemma f_process w a v acc i : get_acc w a = Ok v -> va_comp v = acc -> acc_ok acc -> fails (process_why (w_now w) acc i) (va_process_request (w_now w) v i).
Proof.
  intros Hv Hc Hok. assert (rq_ok (fun _ _ => True) v) as Hrq by (eapply rq_ok_new; [exact Hv|rewrite Hc; exact Hok]).
  assert (va_vstart v = ac_vstart acc /\ va_req_upd v = ∅ /\ va_act_add v = [] /\ va_act_rem v = []) as (V1 & V2 & V3 & V4).
  { unfold get_acc, va_new in Hv. bd Hv as (acc' & Ha' & Hv). bd Hv as (rd & _ & Hv). apply Ok_inj in Hv. subst v. cbn in *. subst acc'. auto. }
  unfold va_process_request. apply f_bind; [apply f_guard; intros H; apply N.leb_gt in H; left; split; [reflexivity|rewrite <- V1; exact H]|]. intros [] Hs. apply guard_Ok, N.leb_le in Hs. rewrite V1 in Hs.
  assert (va_keeper_request v i = expect (kl_get (ac_requests acc) i) EMissingRequest) as Hk. { unfold va_keeper_request. rewrite V2, lookup_empty, Hc. reflexivity. }
  apply f_bind. { rewrite Hk. intros e He. destruct (kl_get (ac_requests acc) i) eqn:Hg; [discriminate He|]. injection He as <-. right; left. auto. }
  intros r Hr. rewrite Hk in Hr. apply expect_Ok in Hr. cbv zeta. apply f_bind.
  { destruct (kr_expiry r <=? w_now w) eqn:He.
    - apply f_bind; [|intros [] _; apply f_Ok]. apply f_guard. intros Hp. right; right. exists r. split; [exact Hr|]. left. split; [reflexivity|]. rewrite He. apply not_pending. exact Hp.
    - apply f_bind; [|intros [] _; apply f_Ok]. apply f_guard. intros Hp. right; right. exists r. split; [exact Hr|]. left. split; [reflexivity|]. rewrite He. apply N.eqb_neq. exact Hp. }
  intros st Hst. assert (pend r = true) as Hp.
  { unfold pend. destruct (kr_expiry r <=? w_now w); bd Hst as ([] & Hg & Hst); apply guard_Ok in Hg; [exact Hg|]. apply is_pending_spec. apply N.eqb_eq in Hg. unfold pendP. auto. }
  apply f_bind; [apply f_guard; intros Hg; apply Z.ltb_ge in Hg; right; right; exists r; auto|]. intros [] _.
  apply f_bind; [|intros; apply f_Ok]. unfold va_remove_active. apply f_bind; [|intros; apply f_Ok]. unfold usub. destruct (N.leb_spec 1 (va_alen v)) as [|Hl]; [apply f_Ok|]. exfalso.
  pose proof (rk_alen _ _ Hrq) as HA. rewrite V3, V4, Hc in HA. cbn [length] in HA. assert (i ∈ ac_active acc) as Hin. { apply (ok_active _ Hok). split; [exact Hs|]. eauto. }
  assert (size (ac_active acc) <> 0%nat) as Hsz. { intros H0. apply size_empty_inv in H0. apply (H0 i) in Hin. revert Hin. apply not_elem_of_empty. } lia.
Qed.
Lemma vo_told E w c feeds upd orc o k price : get_oracle E w c feeds upd = Ok (orc, o) -> vo_prices o !! k = Some price -> exists t, told E w upd k = Some (price, t).
Proof.
  intros Ho Hp. pose proof Ho as Ho'. unfold get_oracle, vo_new in Ho'. cbv zeta in Ho'. bd Ho' as (o1 & H1 & Ho'). bd Ho' as (g & _ & Ho'). bd Ho' as (pr & _ & Ho'). apply Ok_inj in Ho'. injection Ho' as -> _.
  unfold get_oracle in Ho. apply vo_new_spec in Ho as (_ & _ & O3 & _). apply O3 in Hp. rewrite (told_push _ _ _ _ H1 k) in Hp. destruct (told E w upd k) as [[p t]|]; [|discriminate Hp]. cbn in Hp. injection Hp as ->. eauto.
Qed.
Lemma f_mint2 E w w1 c ids : get_config w ids = Ok c -> fails (fun e => e = EEngine /\ unmintable E w \/ e = EArithmetic) (mint_reward E w1 (ec_reward_keeper (vc_exchange c))).
Proof.
  intros Hc. rewrite (config_exchange _ _ _ Hc). destruct (mint_ok E KEEPER_REWARD (ec_reward_keeper (g_exchange_config w))) eqn:Hm; [eapply f_mono; [apply f_mint; exact Hm|auto]|].
  unfold mint_reward. rewrite Hm. cbn [guard_ mbind res_bind]. apply f_Err. left. split; [reflexivity|exact Hm].
Qed.
(** C65, processing. *)
Theorem C65_process E cx w a i upd e : reachable E w -> step E cx w (OProcessRequest a i upd) = Err e ->
  e = EAuth /\ has_role cx w RKeeperProcess = false \/
  e = EEngine /\ (w_auth w < 1 \/ unmintable E w) \/
  e = EInvalidMarginAccount /\ w_accounts w !! a = None \/
  not_processable w a i e \/
  e = EArithmetic \/
  exists acc kr, w_accounts w !! a = Some acc /\ request_at w a i = Some kr /\
   (e = EMissingPairConfig /\ (exists rq, kr_request kr = ROrder rq /\ pair_cfg w (ro_pair rq) = None) \/
    w_now w < kr_expiry kr /\ kr_status kr = STATUS_ACTIVE /\
     (price_trouble E w (OProcessRequest a i upd) e \/
      match kr_request kr with ROrder rq => order_stopped E w a acc upd rq e | RRemove rq => withdrawal_stopped E cx w acc rq e end)).
Proof.
  intros Hr. revert e. match goal with |- forall e, step ?E ?cx ?w ?o = Err e -> @?A e => set (Q := A); change (fails Q (step E cx w o)) end.
  assert (Q EArithmetic) as HA by (unfold Q; cbv beta; tauto). unfold step. cbn [op_buckets op_access needs_authority forallb implb access_ok exec guard_ mbind res_bind].
  apply f_bind; [apply f_guard; intros Hf; left; split; [reflexivity|exact Hf]|]. intros [] _. apply f_bind; [apply f_guard; intros Hf; apply Z.leb_gt in Hf; right; left; split; [reflexivity|left; lia]|]. intros [] _.
  unfold m_process_request. apply f_bind; [eapply f_mono; [eapply f_get_acc; exact Hr|]; intros e (-> & He); right; right; left; auto|]. intros v0 Hv.
  pose proof Hv as Hv'. apply get_acc_inv in Hv' as (acc & Ha & Hcomp & _). pose proof (acc_ok_reachable _ _ Hr _ _ Ha) as Hok.
  assert (forall j, request_at w a j = kl_get (ac_requests acc) j) as Hra by (intros j; unfold request_at; rewrite Ha; reflexivity).
  assert (valid_start w a = ac_vstart acc) as Hvs by (unfold valid_start; rewrite Ha; reflexivity).
  apply f_bind. { eapply f_mono; [eapply f_process; eassumption|]. intros e He. right; right; right; left. unfold not_processable. rewrite Hra, Hvs. exact He. }
  intros [[v1 rq] ex] Hp. pose proof Hp as Hp0. apply process_request_inv in Hp0 as (kr & n & P1 & P2 & P3 & P4 & P5 & P6 & P7).
  pose proof (wi_nz _ (WI_reachable _ _ Hr)) as Hnz. pose proof (starts_intro _ _ _ _ Hv Ha (Hnz _ _ Ha)) as S0. pose proof Hp as Hfr. apply va_process_frame in Hfr as [Hg Hcm]. pose proof (starts_norq _ _ _ _ Hg Hcm S0) as S.
  assert (va_positions v1 = ac_positions acc) as Hpos by exact (st_positions _ _ _ S). cbv zeta. rewrite Hpos. set (ids := dom (ac_positions acc) ∪ match rq with ROrder r => {[ro_pair r]} | RRemove _ => ∅ end).
  assert (kl_get (ac_requests acc) i = Some kr) as Hkr.
  { unfold va_keeper_request in P2. assert (va_req_upd v0 = ∅) as Hu0. { unfold get_acc, va_new in Hv. bd Hv as (acc' & _ & Hv). bd Hv as (rd & _ & Hv). apply Ok_inj in Hv. subst v0. reflexivity. }
    rewrite Hu0, lookup_empty, Hcomp in P2. apply expect_Ok in P2. exact P2. }
  assert (request_at w a i = Some kr) as Hat by (rewrite Hra; exact Hkr). clear P1 P2 P4 P5 P6.
  apply f_bind.
  { eapply f_mono; [apply f_config|]. intros e (-> & k & Hk & Hn). right; right; right; right; right. exists acc, kr. split; [exact Ha|]. split; [exact Hat|]. left. split; [reflexivity|]. unfold ids in Hk. apply elem_of_union in Hk as [Hk|Hk].
    - exfalso. apply elem_of_dom in Hk as [x Hx]. destruct (configured_reachable _ _ Hr _ _ Ha _ _ Hx (Hnz _ _ Ha _ _ Hx)) as [pc Hpc]. unfold pair_cfg in Hn. match type of Hn with _ <$> ?t = _ => assert (t = Some pc) as E1 by exact Hpc; rewrite E1 in Hn end. discriminate Hn.
    - destruct rq as [r|r]; [exfalso; revert Hk; apply not_elem_of_empty|]. apply elem_of_singleton in Hk. subst k. exists r. auto. }
  intros c Hc. assert (fails Q (mint_reward E w (ec_reward_keeper (vc_exchange c)))) as Hmint0.
  { eapply f_mono; [eapply f_mint2; exact Hc|]. intros e [[-> H]| ->]; [right; left; auto|exact HA]. }
  assert (forall w1, fails Q (mint_reward E w1 (ec_reward_keeper (vc_exchange c)))) as Hmint. { intros w1. eapply f_mono; [eapply f_mint2; exact Hc|]. intros e [[-> H]| ->]; [right; left; auto|exact HA]. }
  assert (forall o p2 v2 fd2 l wz, ssteps E (w_now w) c o (mkS (get_pool w ids) v1 (w_fd w)) l (mkS p2 v2 fd2) -> Forall notproc l -> w_refs wz = w_refs w -> fails Q (realize_acc wz v2)) as Hreal.
  { intros o p2 v2 fd2 l wz Hst Hnp Hwz. apply f_arP; [exact HA|]. change v2 with (s_acc (mkS p2 v2 fd2)). eapply (f_realize E w a _ _ _ (mkS (get_pool w ids) v0 (w_fd w)) (AProcess i :: l) _ v0 fwd); [exact Hr|exact Hv|reflexivity| | |exact Hwz].
    - econstructor; [eapply ss_process; exact Hp|exact Hst].
    - eapply ssteps_rq; [apply mv_fwd|apply fwd_mv|exact Hst|exact Hnp|]. cbn [s_acc]. eapply process_ok; [exact Hp|]. eapply rq_ok_new; [exact Hv|rewrite Hcomp; exact Hok]. }
  apply f_bind; cycle 1.
  { intros [[[w1 v2] pay] evs] Hx.
    assert (exists o p2 fd2 l, ssteps E (w_now w) c o (mkS (get_pool w ids) v1 (w_fd w)) l (mkS p2 v2 fd2) /\ Forall notproc l /\ w_refs w1 = w_refs w) as (o & p2 & fd2 & l & L1 & L2 & L3).
    { destruct ex; cbn [negb] in Hx.
      - apply Ok_inj in Hx. injection Hx as <- <- _ _. exists (mkVO ∅ ∅), (get_pool w ids), (w_fd w), []. split; [constructor|]. split; [constructor|reflexivity].
      - bd Hx as (feeds & Hf & Hx). bd Hx as ([orc o] & Ho & Hx). destruct rq as [r|r].
        + bd Hx as ([[[p2 v3] toks] ev] & Hrm & Hx). apply Ok_inj in Hx. injection Hx as <- <- _ _. apply (tr_remove_collateral E (w_now w) c o cx (w_fd w)) in Hrm as (k & bs & Hrm & _). exists o, p2, (w_fd w). eexists. split; [exact Hrm|]. split; [|reflexivity].
          apply Forall_app. split; [|repeat constructor]. apply Forall_forall. intros x Hx. apply elem_of_list_fmap in Hx as (b & -> & _). exact I.
        + bd Hx as ([[p2 v3 fd3] ev] & Hrm & Hx). apply Ok_inj in Hx. injection Hx as <- <- _ _. apply (tr_margin_order E) in Hrm as (l0 & fee & Hrm & Hl0). exists o, p2, fd3. eexists. split; [exact Hrm|]. split; [|reflexivity].
          repeat (constructor; [exact I|]). apply Forall_app. split; [eapply Forall_impl; [exact Hl0|]; intros [] Hx; cbn in *; tauto|]. constructor; [exact I|]. constructor; [left; reflexivity|]. constructor; [right; reflexivity|constructor]. }
    apply f_bind; [eapply Hreal; eassumption|]. intros w2 _. apply f_bind; [apply Hmint|]. intros [w3 rew] _. apply f_Ok. }
  destruct ex; cbn [negb]; [apply f_Ok|]. destruct P7 as [[Hx _]|(_ & Hexp & Hact)]; [discriminate Hx|].
  assert (forall e, price_trouble E w (OProcessRequest a i upd) e \/ match kr_request kr with ROrder rq0 => order_stopped E w a acc upd rq0 e | RRemove rq0 => withdrawal_stopped E cx w acc rq0 e end -> Q e) as HQ.
  { intros e He. right; right; right; right; right. exists acc, kr. split; [exact Ha|]. split; [exact Hat|]. right. split; [exact Hexp|]. split; [exact Hact|exact He]. }
  apply f_bind; [apply f_none; eapply f_feeds; exact Hc|]. intros feeds Hfd. apply f_bind.
  { eapply f_mono; [eapply (f_oracle E w ids c feeds upd (fun k => k ∈ ids)); [exact Hc|eapply feeds_age; eassumption]|]. intros e [H|[(k & age & Hk & Hb)| ->]]; [apply HQ; left; left; exact H| |exact HA].
    apply HQ. left; right. exists k, age. split; [|exact Hb]. split; [exists acc, kr; auto|]. destruct Hk as [Hk|[Hk Hage]]; [auto|]. right. split; [|exact Hage]. unfold ids in Hk. apply elem_of_union in Hk as [Hk|Hk].
    - left. apply elem_of_dom in Hk as [x Hx]. exists acc, x. auto.
    - right. destruct rq as [r|r]; [exfalso; revert Hk; apply not_elem_of_empty|]. apply elem_of_singleton in Hk. subst k. exists acc, kr, r. auto. }
  intros [orc o] Ho. pose proof (prices_ok_feeds _ _ _ _ _ _ _ _ Hc Hfd Ho) as Hpk.
  assert (forall k, k ∈ ids -> have c o (get_pool w ids) k) as Hhave.
  { intros k Hk. destruct (vc_new_spec _ _ _ Hc) as (_ & _ & C3 & _). destruct (C3 k Hk) as (pc & _ & Hpc). destruct (pk_pair _ _ _ _ _ _ _ Hpk k Hk) as (x & pc' & _ & _ & _ & Hpr). unfold have. rewrite Hpc, Hpr, (get_pool_cached _ _ _ Hk). eauto. }
  assert (have_all c o (get_pool w ids) v1) as Hall. { intros k Hk. apply Hhave. unfold ids. apply elem_of_union. left. apply elem_of_dom. rewrite <- Hpos. exact Hk. }
  assert (feeds_ok c o) as Hfo.
  { intros r [cc Hcc]. destruct (vc_new_spec _ _ _ Hc) as (_ & C2 & _). rewrite C2, lookup_fmap in Hcc. match type of Hcc with _ <$> ?t = _ => destruct t as [cc0|] eqn:Hl end; [|discriminate Hcc].
    exists (cc_pair_id cc0). rewrite (pk_res _ _ _ _ _ _ _ Hpk). split; [match goal with |- _ <$> ?t = _ => assert (t = Some cc0) as -> by exact Hl end; reflexivity|]. destruct (pk_feed _ _ _ _ _ _ _ Hpk r cc0 Hl) as (x & _ & _ & Hx). eauto. }
  destruct rq as [r|r]; rewrite <- P3 in HQ.
  - apply f_bind; [|intros [[[? ?] ?] ?] _; apply f_Ok]. eapply f_mono; [apply f_withdraw; [rewrite (st_coll _ _ _ S), (st_comp _ _ _ S); reflexivity|rewrite (st_comp _ _ _ S); exact (coll_ok_reachable _ _ Hr _ _ Ha)|reflexivity|exact Hall|exact Hfo]|].
    intros e He. destruct He as [(-> & q & H1 & H2)|[(-> & H)|[(-> & q & H1 & H2)|[(-> & toks & H1 & H2)|[->| ->]]]]]; [| | | | |exact HA]; apply HQ; right; unfold withdrawal_stopped; cbv zeta.
    + left. split; [reflexivity|]. exists q. split; [exact H1|]. rewrite <- (st_vb _ _ _ S), <- (st_coll _ _ _ S). exact H2.
    + right; left. split; [reflexivity|exact H].
    + right; right; left. split; [reflexivity|]. eauto.
    + right; right; right; left. split; [reflexivity|]. exists toks. split; [exact H1|exact H2].
    + right; right; right; right. reflexivity.
  - assert (ro_pair r ∈ ids) as Hin by (unfold ids; apply elem_of_union; right; apply elem_of_singleton; reflexivity). assert (pp_oi_long (pool_pair w (ro_pair r)) = open_interest_long w (ro_pair r) /\ pp_oi_short (pool_pair w (ro_pair r)) = open_interest_short w (ro_pair r)) as [OI1 OI2].
    { unfold pool_pair, open_interest_long, open_interest_short, pair_field. match goal with |- context [match ?t with Some _ => _ | None => _ end] => destruct t end; split; reflexivity. }
    pose proof (ec_valid_shares _ (C40_exchange_config _ _ Hr)) as (_ & _ & _ & _ & _ & Hfm & _). rewrite <- (config_exchange _ _ _ Hc) in Hfm.
    assert (forall price, vo_prices o !! ro_pair r = Some price -> 0 <= price) as Hpp. { intros price Hx. destruct (pk_pair _ _ _ _ _ _ _ Hpk _ Hin) as (x & _ & _ & _ & [Hx0 _] & Hx1). rewrite Hx in Hx1. injection Hx1 as ->. apply Z.lt_le_incl. exact Hx0. }
    apply f_bind; [|intros [? ?] _; apply f_Ok]. eapply f_mono; [apply f_order; [exact Hpp|exact Hfm|apply Hhave; unfold ids; apply elem_of_union; right; apply elem_of_singleton; reflexivity|exact Hall|exact Hfo]|]. cbn [s_pool s_acc].
    unfold order_stop. rewrite (st_pos _ _ _ S), (st_comp _ _ _ S). intros e He. destruct He as [(-> & price & H1 & H2)|[(-> & j & H1 & H2)|[(H1 & H2 & H3)|[(-> & price & H1 & H2)|[(-> & price & pp & H1 & H2 & H3)| ->]]]]]; [| | | | |exact HA].
    + apply HQ; right; left. split; [reflexivity|]. destruct (vo_told _ _ _ _ _ _ _ _ _ Ho H1) as [t Ht]. eauto.
    + apply HQ; right; right; left. split; [reflexivity|]. exists j. rewrite Hra. auto.
    + destruct H3 as [(-> & pc & pp & G1 & G2 & G3)|[(-> & G)|[->| ->]]]; [| | |exact HA]; apply HQ; right; right; right; left; (split; [exact H1|]); (split; [exact H2|]).
      * left. split; [reflexivity|]. exists pc. destruct (vc_new_spec _ _ _ Hc) as (_ & _ & C3 & _). destruct (C3 _ Hin) as (pc0 & K1 & K2). rewrite G1 in K2. injection K2 as ->. split; [unfold pair_cfg; match goal with |- _ <$> ?t = _ => assert (t = Some pc0) as -> by exact K1 end; reflexivity|].
        rewrite (get_pool_cached _ _ _ Hin) in G2. injection G2 as <-. rewrite <- OI1, <- OI2.
        destruct G3 as [G3|[G3 G4]]; [left; exact G3|right; split; [lia|exact G4]].
      * right; left. split; [reflexivity|]. rewrite <- (config_exchange _ _ _ Hc), <- Hpos. exact G.
      * right; right. reflexivity.
    + apply HQ; right; right; right; right; left. split; [reflexivity|]. destruct (vo_told _ _ _ _ _ _ _ _ _ Ho H1) as [t Ht]. exists price, t. split; [exact Ht|]. cbv zeta. rewrite <- (config_exchange _ _ _ Hc). unfold change_of in H2. rewrite (st_pos _ _ _ S) in H2. exact H2.
    + apply HQ; right; right; right; right; right. split; [reflexivity|]. destruct (vo_told _ _ _ _ _ _ _ _ _ Ho H1) as [t Ht]. exists price, t. split; [exact Ht|]. cbv zeta. rewrite (get_pool_cached _ _ _ Hin) in H2. injection H2 as <-. rewrite <- OI1, <- OI2. unfold change_of in H3. rewrite (st_pos _ _ _ S) in H3. exact H3.
Qed.
