(** * C67. Nothing is stuck: an account without open positions and without debt can always withdraw what it holds. *)
From Verif Require Import Base DFloat Lists Types Config Oracle Pool Account Fees Referral ExInternal Exchange System Scenario Sums Trace Frames Calls Spec SpecAuth SpecOracle SpecTrading SpecRequests SpecMargin SpecRefuse P_Ledger P_Accounts P_Fees P_Refs Frames2 P_Requests P_Requests2 P_Requests3 P_Requests4 P_Tokens Trading P_Positions P_Positions2 P_Oracle P_Keeper P_Coll P_Remove P_Whole P_Final P_OrderCall P_Configured Props_Collateral P_Refuse P_Refuse2 P_Refuse3 P_Refuse4 P_Refuse5 Props_Refuse Props_Refuse2 Props_Refuse4 Props_Rates Props_Referral P_Live Witness.

(** Reading the collateral prices: no other failure than bad prices. *)
Lemma n_vo E w c upd : reachable E w -> get_config w ∅ = Ok c -> 0 <= w_now w < 2 ^ 63 ->
  fails (fun e => bad_message E w upd e \/ exists k age, feed_max_age w k age /\ bad_price E w upd k age e) (get_oracle E w c ∅ upd).
Proof.
  intros Hr Hc Hnow. unfold get_oracle, vo_new. cbv zeta.
  assert (forall r k age, vc_feeds c !! r = Some (k, age) -> feed_max_age w k age) as Hfeed.
  { intros r k age Ho. apply vc_new_spec in Hc as (_ & C2 & _). unfold vc_feeds in Ho. rewrite C2, !lookup_fmap in Ho.
    match type of Ho with context [?t] => match t with lookup r (cf_collaterals (w_config w)) => destruct t as [cc|] eqn:Hcc end end; [|discriminate Ho]. cbn in Ho. injection Ho as <- <-. exists r, cc. auto. }
  assert (forall k age, feed_max_age w k age -> 0 <= age < 65536) as Hage.
  { intros k age (r & cc & H1 & _ & <-). destruct (proj2 (rates_reachable _ _ Hr) r cc H1) as [H _ _]. exact H. }
  assert (forall k age, vo_merge_feeds (vc_feeds c) ∅ !! k = Some age -> feed_max_age w k age) as Hm.
  { intros k age H. apply merge_origin in H as [H|[r H]]; [rewrite lookup_empty in H; discriminate H|eauto]. }
  apply f_bind. { eapply f_mono; [|intros e He; left; exact He]. destruct upd; [apply f_push_msg|apply f_Ok]. }
  intros o1 Ho1. pose proof (told_push _ _ _ _ Ho1) as Ht. apply f_bind.
  { eapply f_mono; [apply f_oracle_get|]. intros e (-> & k & Hk & Hn). apply elem_of_dom in Hk as [age Hk]. right. exists k, age. split; [apply Hm; exact Hk|]. left. split; [reflexivity|]. rewrite <- Ht. exact Hn. }
  intros got Hgot. pose proof (oracle_get_spec _ _ _ Hgot) as Hg. apply f_bind; [|intros; apply f_Ok].
  apply (f_rfold _ (fun _ => True)); [|auto|exact I]. intros m [k [p t]] Hk _. apply elem_of_map_to_list in Hk. rewrite Hg in Hk. destruct (bool_decide_reflect (k ∈ dom (vo_merge_feeds (vc_feeds c) ∅))) as [Hd|Hd]; [|discriminate Hk].
  rewrite Ht in Hk. apply elem_of_dom in Hd as [age Hag]. unfold vo_price1. match goal with |- context [expect ?x _] => assert (x = Some age) as -> by exact Hag end. cbn [expect mbind res_bind]. pose proof (Hage _ _ (Hm _ _ Hag)) as Hb.
  apply f_bind; [apply f_none; apply n_ineg; exact Hb|]. intros n Hn. assert (n = - age) as ->. { unfold ineg in Hn. destruct (in_i64 (- age)); [apply Ok_inj in Hn; auto|discriminate Hn]. }
  apply f_bind; [apply f_none; apply n_iadd; lia|]. intros mt Hmt. apply iadd_Ok in Hmt as [-> _].
  apply f_bind. { apply f_guard. intros H. apply Z.ltb_ge in H. right. exists k, age. split; [apply Hm; exact Hag|]. right; left. split; [reflexivity|]. exists p, t. split; [exact Hk|lia]. }
  intros [] _. apply f_bind; [|intros; apply f_Ok]. apply f_guard. intros H. apply Z.ltb_ge in H. right. exists k, age. split; [apply Hm; exact Hag|]. right; right. split; [reflexivity|]. exists p, t. auto.
Qed.
Lemma n_realize R wz v : rq_ok R v -> va_rewarded v = false -> va_req_add v = [] -> fails none (realize_acc wz v).
Proof.
  intros Hrq Hrw Hadd. unfold realize_acc, va_realize. rewrite Hrw. apply f_bind; [|intros [? ?] _; apply f_Ok]. cbn [mbind res_bind]. apply f_bind; [|intros; apply f_Ok].
  destruct Hrq as [Ha Hl Hu _ _ _ _ _ _ _]. unfold acc_update. cbv zeta. cbn. rewrite Hadd. cbn [rfold mbind res_bind]. apply f_bind; [|intros; apply f_Ok].
  apply (f_rfold none (fun l => (kl_ptr (ac_requests (va_comp v)) <= kl_ptr l)%N)); [| |lia].
  - intros l [i r] Hi Hle. unfold kl_update. apply f_bind; [|intros; apply f_Ok]. apply f_guard. intros Hf. exfalso. apply elem_of_map_to_list in Hi. apply Hu in Hi as (r0 & Hk & _). assert (i < kl_ptr (ac_requests (va_comp v)))%N by (apply (ok_list _ Ha); unfold kl_get in Hk; eauto). cbn [fst] in Hf. apply N.ltb_ge in Hf. lia.
  - intros l [i r] l' _ Hle H. unfold kl_update in H. bd H as ([] & _ & H). apply Ok_inj in H. subst l'. exact Hle.
Qed.
Lemma remove_keeps E cx c p v o rq p' v' toks ev : x_remove_collateral E cx c p v o rq = Ok (p', v', toks, ev) -> va_req_add v' = va_req_add v /\ va_rewarded v' = va_rewarded v.
Proof.
  unfold x_remove_collateral. intros H. bd H as (m & _ & H). bd H as ([[[p1 a1] t1] r1] & Hc & H). bd H as ([a2 more] & Hw & H). cbv zeta in H. bd H as ([] & _ & H). bd H as ([] & _ & H). apply Ok_inj in H. injection H as _ <- _ _.
  assert (NoDup (map fst (map_to_list m))) as Hnd by apply NoDup_fst_map_to_list. destruct (claims_served _ _ _ _ _ _ _ _ _ _ Hc Hnd) as (_ & Hcase).
  unfold va_withdraw in Hw. bd Hw as ([ac bs] & _ & Hw). bd Hw as (c2 & _ & Hw). apply Ok_inj in Hw. injection Hw as <- _. cbn. destruct Hcase as [(_ & _ & -> & _)|(amt & x & _ & _ & _ & _ & _ & _ & ->)]; split; reflexivity.
Qed.

(** No amount is out of this world: at most 10^18 of any token in the account, 10^32 owed to or by the pool, prices up to 10^12, a million kinds of
    collateral, and room for one more keeper reward. The clock is past 1970. *)
Record sensible (E : env) (w : world) (acc : account) (upd : option price_msg) : Prop := {
  se_balance : ac_vb acc <= 10 ^ 36; se_collateral : forall r, recorded acc r <= 10 ^ 36; se_kinds : (N.of_nat (size (ac_coll acc)) <= 1000000)%N;
  se_pool : - 10 ^ 50 <= po_vb (w_pool w) <= 10 ^ 50; se_base : po_base (w_pool w) <= 10 ^ 50; se_prices : forall k p t, told E w upd k = Some (p, t) -> p <= 10 ^ 30;
  se_rewards : - 10 ^ 50 <= w_rewards w /\ w_rewards w + ec_reward_keeper (g_exchange_config w) <= DMAX; se_now : 0 <= w_now w < 2 ^ 63 }.
(** C67. A withdrawal request of an account with no open position and no debt is executed, if it is due and alive, what it claims is positive and held,
    the pool has the base tokens, the target takes the tokens and the collateral prices are good. The margin never stands in the way. *)
Theorem C67_idle_account_can_withdraw E cx w a acc i kr rq upd :
  reachable E w -> w_accounts w !! a = Some acc -> sensible E w acc upd ->
  (forall k, size_of w a k = 0) -> 0 <= balance w a ->
  request_at w a i = Some kr -> (valid_start w a <= i)%N -> kr_request kr = RRemove rq -> kr_status kr = STATUS_ACTIVE -> kr_submission kr < w_now w < kr_expiry kr ->
  Forall (fun c => 0 < snd c) (rr_claims rq) -> (forall r, r ∈ map fst (rr_claims rq) -> amount_in r (rr_claims rq) <= (if (r =? BASE)%N then balance w a else collateral_of w a r)) ->
  amount_in BASE (rr_claims rq) <= po_base (w_pool w) ->
  (forall toks, (forall r, amount_in r toks = whole_units E r (amount_in r (rr_claims rq))) -> cx_accepts cx (rr_target rq) toks = true) ->
  (forall e, ~ price_trouble E w (OProcessRequest a i upd) e) ->
  has_role cx w RKeeperProcess = true -> 1 <= w_auth w -> ~ unmintable E w ->
  exists w' out, step E cx w (OProcessRequest a i upd) = Ok (w', out).
Proof.
  intros Hr Ha [B1 B2 B3 B4 B5 B6 B7 B8] Hflat Hdebt Hat Hvs Hrq Hst Hdue Hpos Hheld Hbase Hacc Hprice Hrole Hauth Hmint.
  assert (fails none (step E cx w (OProcessRequest a i upd))) as Hn.
  2:{ destruct (step E cx w (OProcessRequest a i upd)) as [[w' out]|e] eqn:Hs; [eauto|destruct (Hn e eq_refl)]. }
  unfold step. cbn [op_buckets op_access needs_authority forallb implb access_ok exec guard_ mbind res_bind].
  apply f_bind; [apply f_guard; intros Hf; pose proof (eq_trans (eq_sym Hrole) Hf) as H0; discriminate H0|]. intros [] _. apply f_bind; [apply f_guard; intros Hf; apply Z.leb_gt in Hf; lia|]. intros [] _.
  unfold m_process_request. destruct (get_acc_reachable _ _ _ _ Hr Ha) as (v0 & Hv & Hcomp). rewrite Hv. cbn [mbind res_bind]. pose proof (acc_ok_reachable _ _ Hr _ _ Ha) as Hok.
  assert (request_at w a i = kl_get (ac_requests acc) i) as Hra by (unfold request_at; rewrite Ha; reflexivity). assert (valid_start w a = ac_vstart acc) as Hvs' by (unfold valid_start; rewrite Ha; reflexivity). rewrite Hra in Hat. rewrite Hvs' in Hvs.
  assert (balance w a = ac_vb acc) as Hbal by (unfold balance; rewrite Ha; reflexivity). rewrite Hbal in *.
  apply f_bind.
  { eapply f_mono; [eapply f_process; eassumption|]. intros e [(-> & H)|[(-> & H)|(kr' & Hk & H)]]; [lia|congruence|]. rewrite Hat in Hk. injection Hk as <-. assert ((kr_expiry kr <=? w_now w) = false) as E1 by (apply Z.leb_gt; lia). rewrite E1 in H. destruct H as [[_ H]|[_ H]]; [congruence|lia]. }
  intros [[v1 rq'] ex] Hp. pose proof Hp as Hp0. apply process_request_inv in Hp0 as (kr' & n & P1 & P2 & P3 & P4 & P5 & P6 & P7).
  pose proof (wi_nz _ (WI_reachable _ _ Hr)) as Hnz. pose proof (starts_intro _ _ _ _ Hv Ha (Hnz _ _ Ha)) as S0. pose proof Hp as Hfr. apply va_process_frame in Hfr as [Hg Hcm]. pose proof (starts_norq _ _ _ _ Hg Hcm S0) as S.
  assert (ac_positions acc = ∅) as Hemp.
  { apply map_empty. intros k. destruct (ac_positions acc !! k) as [pos|] eqn:Hk; [|reflexivity]. exfalso. apply (Hnz _ _ Ha _ _ Hk). pose proof (Hflat k) as H. unfold size_of, position in H. rewrite Ha in H. unfold held in H. rewrite Hk in H. exact H. }
  assert (va_positions v1 = ∅) as Hpos1 by (rewrite (st_positions _ _ _ S); exact Hemp).
  assert (kr' = kr) as ->.
  { unfold va_keeper_request in P2. assert (va_req_upd v0 = ∅) as Hu0. { unfold get_acc, va_new in Hv. bd Hv as (acc' & _ & Hv). bd Hv as (rd & _ & Hv). apply Ok_inj in Hv. subst v0. reflexivity. }
    rewrite Hu0, lookup_empty, Hcomp in P2. apply expect_Ok in P2. congruence. }
  rewrite Hrq in P3. subst rq'. assert (ex = false) as ->. { destruct P7 as [(-> & H)|(-> & _)]; [lia|reflexivity]. }
  cbv zeta. rewrite Hpos1, dom_empty_L, (right_id_L ∅ (∪)). cbn [negb].
  apply f_bind; [apply f_config0|]. intros c Hc. pose proof (config_exchange _ _ _ Hc) as Hec.
  assert (x_pair_feeds c ∅ = Ok ∅) as Hfd by reflexivity.
  apply f_bind; cycle 1.
  { intros [[[w1 v2] pay] evs] Hx. bd Hx as (feeds & Hf & Hx). bd Hx as ([orc o] & Ho & Hx). bd Hx as ([[[p2 v3] toks] ev] & Hrm & Hx). apply Ok_inj in Hx. injection Hx as <- <- _ _.
    destruct (remove_keeps _ _ _ _ _ _ _ _ _ _ _ Hrm) as [R1 R2]. pose proof (tr_remove_collateral E (w_now w) c o cx (w_fd w) _ _ _ _ _ _ _ Hrm) as (k & bs & Htr & _).
    apply f_bind.
    - eapply n_realize; [| |].
      + change v3 with (s_acc (mkS p2 v3 (w_fd w))). eapply ssteps_rq; [apply mv_fwd|apply fwd_mv|exact Htr| |].
        * apply Forall_app. split; [|repeat constructor]. apply Forall_forall. intros x Hx. apply elem_of_list_fmap in Hx as (b & -> & _). exact I.
        * cbn [s_acc]. eapply process_ok; [exact Hp|]. eapply rq_ok_new; [exact Hv|rewrite Hcomp; exact Hok].
      + rewrite R2. clear - Hv Hg. assert (va_rewarded v0 = false) as <-. { unfold get_acc, va_new in Hv. bd Hv as (acc' & _ & Hv). bd Hv as (rd & _ & Hv). apply Ok_inj in Hv. subst v0. reflexivity. } unfold g_norq, g_ref in Hg. congruence.
      + rewrite R1. clear - Hv Hp. assert (va_req_add v0 = []) as <-. { unfold get_acc, va_new in Hv. bd Hv as (acc' & _ & Hv). bd Hv as (rd & _ & Hv). apply Ok_inj in Hv. subst v0. reflexivity. }
        unfold va_process_request in Hp. bd Hp as ([] & _ & Hp). bd Hp as (r & _ & Hp). cbv zeta in Hp. bd Hp as (st & _ & Hp). bd Hp as ([] & _ & Hp). bd Hp as (v' & Hv' & Hp). apply Ok_inj in Hp. injection Hp as <- _ _. unfold va_remove_active in Hv'. bd Hv' as (al & _ & Hv'). apply Ok_inj in Hv'. subst v'. reflexivity.
    - intros w2 Hw2. apply f_bind; [|intros [? ?] _; apply f_Ok]. unfold mint_reward. rewrite Hec. unfold unmintable in Hmint. apply f_bind; [apply f_guard; exact Hmint|]. intros [] _. apply f_bind; [|intros; apply f_Ok].
      assert (w_rewards w2 = w_rewards w) as ->. { unfold realize_acc in Hw2. bd Hw2 as ([? ?] & _ & Hw2). apply Ok_inj in Hw2. subst w2. reflexivity. }
      apply n_chk. split; [|apply B7]. assert (0 <= ec_reward_keeper (g_exchange_config w)); [|unfold DMIN; lia].
      destruct (Z.le_gt_cases 0 (ec_reward_keeper (g_exchange_config w))); [assumption|exfalso; apply Hmint]. unfold mint_ok. assert ((0 <=? ec_reward_keeper (g_exchange_config w)) = false) as -> by (apply Z.leb_gt; lia). reflexivity. }
  rewrite Hfd. cbn [mbind res_bind].
  apply f_bind. { eapply f_mono; [apply n_vo; [exact Hr|exact Hc|exact B8]|]. intros e He. apply (Hprice e). destruct He as [H|(k & age & H1 & H2)]; [left; exact H|right; exists k, age; split; [|exact H2]]. split; [|left; exact H1].
    cbn. exists acc, kr. split; [exact Ha|]. split; [exact Hat|lia]. }
  intros [orc o] Ho. pose proof (prices_ok_feeds _ _ _ _ _ _ _ _ Hc Hfd Ho) as Hpk.
  apply f_bind; [|intros [[[? ?] ?] ?] _; apply f_Ok].
  assert (forall r, va_collateral_amount v1 r = recorded acc r) as Hca. { intros r. unfold va_collateral_amount. rewrite (st_coll _ _ _ S). reflexivity. }
  apply n_withdraw.
  - rewrite (st_coll _ _ _ S), (st_comp _ _ _ S). reflexivity.
  - rewrite (st_comp _ _ _ S). exact (coll_ok_reachable _ _ Hr _ _ Ha).
  - reflexivity.
  - intros r [cc Hcc]. destruct (vc_new_spec _ _ _ Hc) as (_ & C2 & _). rewrite C2, lookup_fmap in Hcc. match type of Hcc with _ <$> ?t = _ => destruct t as [cc0|] eqn:Hl end; [|discriminate Hcc].
    exists (cc_pair_id cc0). rewrite (pk_res _ _ _ _ _ _ _ Hpk). split; [match goal with |- _ <$> ?t = _ => assert (t = Some cc0) as -> by exact Hl end; reflexivity|]. destruct (pk_feed _ _ _ _ _ _ _ Hpk r cc0 Hl) as (x & _ & _ & Hx). eauto.
  - exact Hpos.
  - intros r Hin. rewrite Hca, (st_vb _ _ _ S). pose proof (Hheld r Hin) as H. unfold collateral_of in H. rewrite Ha in H. exact H.
  - split; [exact Hbase|]. cbn. unfold DMAX. lia.
  - exact Hacc.
  - exact Hpos1.
  - intros d Hd. rewrite (st_ref _ _ _ S) in Hd. destruct (ac_ref acc) as [id|]; [|discriminate Hd]. destruct (C36_fee_shares _ _ _ _ Hr Hd) as [_ H]. clear - H. assert (E18 / 10 <= 10 ^ 18) by (vm_compute; discriminate). lia.
  - rewrite (st_vb _ _ _ S). lia.
  - cbn. exact B4.
  - rewrite (st_coll _ _ _ S). intros r x Hx. pose proof (B2 r) as H. destruct (C03_recorded_collateral_is_in_the_vault _ _ _ _ r Hr Ha) as [_ H']. unfold recorded in *. rewrite Hx in *. cbn in *. lia.
  - intros r k p Hrk Hk. destruct (vo_told _ _ _ _ _ _ _ _ _ Ho Hk) as [t Ht]. split; [|exact (B6 _ _ _ Ht)]. rewrite (pk_res _ _ _ _ _ _ _ Hpk) in Hrk. match type of Hrk with _ <$> ?t = _ => destruct t as [cc0|] eqn:Hl end; [|discriminate Hrk]. cbn in Hrk. injection Hrk as <-. destruct (pk_feed _ _ _ _ _ _ _ Hpk r cc0 Hl) as (x & _ & [Hx _] & Hx'). pose proof (eq_trans (eq_sym Hx') Hk) as E1. injection E1 as <-. lia.
  - intros r cc Hcc. destruct (vc_new_spec _ _ _ Hc) as (_ & C2 & _). apply (C40_collateral_rates _ _ r cc Hr). unfold coll_cfg, g_collateral_configs. rewrite C2 in Hcc. exact Hcc.
  - rewrite (st_coll _ _ _ S). exact B3.
Qed.
(** The hypotheses, decided: a state of the test history in which A2, with base tokens and one other collateral, asks for part of both. *)
Definition idle_check (w : world) (a : addr) (i : N) : bool :=
  match w_accounts w !! a with
  | None => false
  | Some acc =>
    match kl_kvs (ac_requests acc) !! i with
    | None => false
    | Some kr =>
      match kr_request kr with
      | ROrder _ => false
      | RRemove rq =>
        (ac_vb acc <=? 10 ^ 36) && bool_decide (map_Forall (fun _ x => x <= 10 ^ 36) (ac_coll acc)) && (N.of_nat (size (ac_coll acc)) <=? 1000000)%N &&
        (- 10 ^ 50 <=? po_vb (w_pool w)) && (po_vb (w_pool w) <=? 10 ^ 50) && (po_base (w_pool w) <=? 10 ^ 50) &&
        bool_decide (map_Forall (fun _ x => fst x <= 10 ^ 30) (or_prices (w_oracle w))) &&
        (- 10 ^ 50 <=? w_rewards w) && (w_rewards w + ec_reward_keeper (g_exchange_config w) <=? DMAX) && (0 <=? w_now w) && (w_now w <? 2 ^ 63) &&
        bool_decide (size (ac_positions acc) = 0%nat) && (0 <=? ac_vb acc) && (ac_vstart acc <=? i)%N && (kr_status kr =? STATUS_ACTIVE)%N && (kr_submission kr <? w_now w) && (w_now w <? kr_expiry kr) &&
        bool_decide (Forall (fun c => 0 < snd c) (rr_claims rq)) && bool_decide (Forall (fun r => amount_in r (rr_claims rq) <= (if (r =? BASE)%N then ac_vb acc else recorded acc r)) (map fst (rr_claims rq))) &&
        (amount_in BASE (rr_claims rq) <=? po_base (w_pool w)) &&
        bool_decide (map_Forall (fun _ cc => match or_prices (w_oracle w) !! cc_pair_id cc with Some (p, t) => (w_now w <? t + cc_price_age_max cc) && (0 <? p) | None => false end = true) (cf_collaterals (w_config w))) &&
        has_role cx_any w RKeeperProcess && (1 <=? w_auth w) && mint_ok sc_env KEEPER_REWARD (ec_reward_keeper (g_exchange_config w))
      end
    end
  end.
Definition sc_idle : res world := go sc_env sc_w1 [(cx_u2, ORemoveCollateralRequest None 600%N A2 500%N [(BASE, dec 9000); (20%N, dec 2)]); (cx_any, OAdvance 1030); (cx_any, OUpdatePairs [1%N; 2%N] (msg 30000%N 2000%N 1029%N))].
Definition WI := get sc_idle.
Lemma WI_ok : sc_idle = Ok WI. Proof. apply okb_get. vm_compute. reflexivity. Qed.
Lemma WI_reach : reachable sc_env WI. Proof. apply go_reachable; [vm_compute; reflexivity|]. intros w H. rewrite W1_ok in H. apply Ok_inj in H. subst w. exact W1_reach. Qed.
Example C67_ex_check : idle_check WI A2 0%N = true. Proof. vm_compute. reflexivity. Qed.
Global Opaque WI.
(** Whatever passes the check meets the hypotheses of the theorem, so its conclusion holds there. *)
Example C67_ex : exists w' out, step sc_env cx_any WI (OProcessRequest A2 0%N None) = Ok (w', out).
Proof.
  pose proof C67_ex_check as H. unfold idle_check in H. destruct (w_accounts WI !! A2) as [acc|] eqn:Ha; [|discriminate H]. destruct (kl_kvs (ac_requests acc) !! 0%N) as [kr|] eqn:Hk; [|discriminate H]. destruct (kr_request kr) as [rq|rq] eqn:Hq; [|discriminate H].
  repeat match type of H with (_ && _) = true => let H2 := fresh "K" in apply andb_true_iff in H as [H H2] end.
  repeat match goal with X : (_ <=? _) = true |- _ => apply Z.leb_le in X | X : (_ <? _) = true |- _ => apply Z.ltb_lt in X | X : (_ <=? _)%N = true |- _ => apply N.leb_le in X | X : (_ =? _)%N = true |- _ => apply N.eqb_eq in X | X : bool_decide _ = true |- _ => apply bool_decide_eq_true in X end.
  match goal with X : size (ac_positions acc) = 0%nat |- _ => apply map_size_empty_inv in X end.
  apply (C67_idle_account_can_withdraw sc_env cx_any WI A2 acc 0%N kr rq None).
  - exact WI_reach.
  - exact Ha.
  - constructor; try assumption; try (split; assumption).
    + intros r. unfold recorded. destruct (ac_coll acc !! r) as [x|] eqn:Hx; [|lia]. match goal with X : map_Forall _ (ac_coll acc) |- _ => exact (X r x Hx) end.
    + intros k p t Ht. cbn in Ht. unfold stored_price in Ht. match goal with X : map_Forall _ (or_prices _) |- _ => exact (X k (p, t) Ht) end.
  - intros k. unfold size_of, position. rewrite Ha. unfold held. match goal with X : ac_positions acc = ∅ |- _ => rewrite X end. rewrite lookup_empty. reflexivity.
  - unfold balance. rewrite Ha. assumption.
  - unfold request_at. rewrite Ha. exact Hk.
  - unfold valid_start. rewrite Ha. assumption.
  - exact Hq.
  - assumption.
  - split; assumption.
  - assumption.
  - intros r Hr. unfold balance, collateral_of. rewrite Ha. match goal with X : Forall _ (map fst _) |- _ => exact (proj1 (Forall_forall _ _) X r Hr) end.
  - assumption.
  - intros toks _. reflexivity.
  - intros e [(data & sig & key & Hu & _)|(k & age & Hn & Hb)]; [discriminate Hu|]. destruct Hn as [_ [(r & cc & H1 & <- & <-)|[Hn _]]].
    + match goal with X : map_Forall _ (cf_collaterals _) |- _ => pose proof (X r cc H1) as Hx end. cbn beta in Hx. cbn [message_of] in Hb. unfold bad_price, told, stored_price in Hb.
      match type of Hx with match ?t with _ => _ end = _ => destruct t as [[p t0]|] eqn:Hp end; [|discriminate Hx]. apply andb_true_iff in Hx as [X1 X2]. apply Z.ltb_lt in X1, X2.
      destruct Hb as [[_ Hb]|[(_ & p' & t' & Hb & Hl)|(_ & p' & t' & Hb & Hl)]]; [discriminate Hb| |]; injection Hb as <- <-; lia.
    + cbn in Hn. destruct Hn as [(acc' & pos & H1 & H2)|(acc' & kr' & r & H1 & H2 & H3 & _)]; rewrite Ha in H1; injection H1 as <-.
      * match goal with X : ac_positions acc = ∅ |- _ => rewrite X in H2 end. rewrite lookup_empty in H2. discriminate H2.
      * rewrite Hk in H2. injection H2 as <-. rewrite Hq in H3. discriminate H3.
  - assumption.
  - assumption.
  - unfold unmintable. intros Hm. match goal with X : mint_ok _ _ _ = true |- _ => rewrite X in Hm end. discriminate Hm.
Qed.
