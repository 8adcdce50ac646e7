(** * C67, continued: with open positions, only the margin stands in the way of a withdrawal. *)
From Verif Require Import Base DFloat Lists Types Config Oracle Pool Account Fees Referral ExInternal Exchange System Scenario Sums Trace Frames Calls Spec SpecAuth SpecOracle SpecTrading SpecRequests SpecMargin SpecRefuse P_Ledger P_Accounts P_Fees P_Refs Frames2 P_Requests P_Requests2 P_Requests3 P_Requests4 P_Tokens Trading P_Positions P_Positions2 P_Oracle P_Keeper P_Orders P_Coll P_Remove P_Whole P_Final P_OrderCall P_Margin P_Configured Props_Orders Props_Collateral P_Refuse P_Refuse2 P_Refuse3 P_Refuse4 P_Refuse5 Props_Refuse Props_Refuse2 Props_Refuse4 Props_Margin P_Live P_Live2 Props_Live Witness.

(** [w1] is [w] once the price message has been delivered. *)
Record with_prices (E : env) (w : world) (upd : option price_msg) (w1 : world) : Prop := {
  wp_config : w_config w1 = w_config w; wp_pool : w_pool w1 = w_pool w; wp_refs : w_refs w1 = w_refs w; wp_now : w_now w1 = w_now w;
  wp_prices : forall k, stored_price w1 k = told E w upd k }.
(** [acc'] is [acc] less what the withdrawal pays out: whole units of each token claimed. *)
Record withdrawn (E : env) (acc : account) (rq : req_remove) (acc' : account) : Prop := {
  wd_positions : ac_positions acc' = ac_positions acc; wd_referral : ac_ref acc' = ac_ref acc;
  wd_balance : ac_vb acc' = ac_vb acc - whole_units E BASE (amount_in BASE (rr_claims rq));
  wd_recorded : forall r, r <> BASE -> recorded acc' r = recorded acc r - whole_units E r (amount_in r (rr_claims rq));
  wd_base : recorded acc' BASE = recorded acc BASE }.
Lemma withdraw_err E cx w a i upd acc kr rq (G : Prop) : reachable E w -> w_accounts w !! a = Some acc -> request_at w a i = Some kr -> kr_request kr = RRemove rq ->
  (forall ids v1 c orc o p1 a2 pnl mp disc mc, ids = dom (ac_positions acc) -> starts w acc v1 -> get_config w ids = Ok c -> prices_ok E w upd ids c orc o -> vp_positions p1 = vp_positions (get_pool w ids) -> left_with E v1 rq a2 ->
     x_value_positions c p1 a2 o = Ok (pnl, mp) -> x_value_collateral c a2 o = Ok (disc, mc) -> pnl + disc + va_vb a2 < mp + mc -> G) ->
  step E cx w (OProcessRequest a i upd) = Err EInsufficientMargin -> G.
Proof.
  intros Hr Ha Hat Hrq HG Hstep. set (Q := fun e => e = EInsufficientMargin -> G). assert (forall e, e <> EInsufficientMargin -> Q e) as HN by (intros e He E0; contradiction). assert (Q EArithmetic) as HA by (apply HN; discriminate).
  assert (fails Q (step E cx w (OProcessRequest a i upd))) as Hf; [|exact (Hf _ Hstep eq_refl)]. clear Hstep.
  unfold step. cbn [op_buckets op_access needs_authority forallb implb access_ok exec guard_ mbind res_bind].
  apply f_bind; [apply f_guard; intros _; apply HN; discriminate|]. intros [] _. apply f_bind; [apply f_guard; intros _; apply HN; discriminate|]. intros [] _.
  unfold m_process_request. destruct (get_acc_reachable _ _ _ _ Hr Ha) as (v0 & Hv & Hcomp). rewrite Hv. cbn [mbind res_bind]. pose proof (acc_ok_reachable _ _ Hr _ _ Ha) as Hok.
  assert (request_at w a i = kl_get (ac_requests acc) i) as Hra by (unfold request_at; rewrite Ha; reflexivity). rewrite Hra in Hat.
  apply f_bind. { eapply f_mono; [eapply f_process; eassumption|]. intros e [(-> & H)|[(-> & H)|(kr' & Hk & [[-> _]|[-> _]])]]; apply HN; discriminate. }
  intros [[v1 rq'] ex] Hp. pose proof Hp as Hp0. apply process_request_inv in Hp0 as (kr' & n & P1 & P2 & P3 & P4 & P5 & P6 & P7).
  pose proof (wi_nz _ (WI_reachable _ _ Hr)) as Hnz. pose proof (starts_intro _ _ _ _ Hv Ha (Hnz _ _ Ha)) as S0. pose proof Hp as Hfr. apply va_process_frame in Hfr as [Hg Hcm]. pose proof (starts_norq _ _ _ _ Hg Hcm S0) as S.
  assert (kr' = kr) as ->.
  { unfold va_keeper_request in P2. assert (va_req_upd v0 = ∅) as Hu0. { unfold get_acc, va_new in Hv. bd Hv as (acc' & _ & Hv). bd Hv as (rd & _ & Hv). apply Ok_inj in Hv. subst v0. reflexivity. }
    rewrite Hu0, lookup_empty, Hcomp in P2. apply expect_Ok in P2. congruence. }
  rewrite Hrq in P3. subst rq'. cbv zeta. assert (va_positions v1 = ac_positions acc) as Hpos by exact (st_positions _ _ _ S). rewrite Hpos, (right_id_L ∅ (∪)). set (ids := dom (ac_positions acc)) in *.
  apply f_bind. { eapply f_mono; [apply f_config|]. intros e (-> & _). apply HN; discriminate. } intros c Hc.
  assert (forall w1, fails Q (mint_reward E w1 (ec_reward_keeper (vc_exchange c)))) as Hmint. { intros w1. eapply f_mono; [eapply f_mint2; exact Hc|]. intros e [[-> H]| ->]; [apply HN; discriminate|exact HA]. }
  apply f_bind; cycle 1.
  { intros [[[w1 v2] pay] evs] Hx. assert (exists o p2 fd2 l, ssteps E (w_now w) c o (mkS (get_pool w ids) v1 (w_fd w)) l (mkS p2 v2 fd2) /\ Forall notproc l /\ w_refs w1 = w_refs w) as (o & p2 & fd2 & l & L1 & L2 & L3).
    { destruct ex; cbn [negb] in Hx.
      - apply Ok_inj in Hx. injection Hx as <- <- _ _. exists (mkVO ∅ ∅), (get_pool w ids), (w_fd w), []. split; [constructor|]. split; [constructor|reflexivity].
      - bd Hx as (feeds & Hf & Hx). bd Hx as ([orc o] & Ho & Hx). bd Hx as ([[[p2 v3] toks] ev] & Hrm & Hx). apply Ok_inj in Hx. injection Hx as <- <- _ _. apply (tr_remove_collateral E (w_now w) c o cx (w_fd w)) in Hrm as (k & bs & Hrm & _). exists o, p2, (w_fd w). eexists. split; [exact Hrm|]. split; [|reflexivity].
        apply Forall_app. split; [|repeat constructor]. apply Forall_forall. intros x Hx. apply elem_of_list_fmap in Hx as (b & -> & _). exact I. }
    apply f_bind; [|intros w2 _; apply f_bind; [apply Hmint|]; intros [w3 rew] _; apply f_Ok]. apply f_arP; [exact HA|]. change v2 with (s_acc (mkS p2 v2 fd2)). eapply (f_realize E w a _ _ _ (mkS (get_pool w ids) v0 (w_fd w)) (AProcess i :: l) _ v0 fwd); [exact Hr|exact Hv|reflexivity| | |exact L3].
    - econstructor; [eapply ss_process; exact Hp|exact L1].
    - eapply ssteps_rq; [apply mv_fwd|apply fwd_mv|exact L1|exact L2|]. cbn [s_acc]. eapply process_ok; [exact Hp|]. eapply rq_ok_new; [exact Hv|rewrite Hcomp; exact Hok]. }
  destruct ex; cbn [negb]; [apply f_Ok|]. apply f_bind; [apply f_none; eapply f_feeds; exact Hc|]. intros feeds Hfd. apply f_bind.
  { eapply f_mono; [eapply (f_oracle E w ids c feeds upd (fun k => k ∈ ids)); [exact Hc|eapply feeds_age; eassumption]|].
    intros e [(data & sig & key & _ & [[-> _]|[[-> _]|[-> _]]])|[(k & age & Hk & [[-> _]|[[-> _]|[-> _]]])| ->]]; apply HN; discriminate. }
  intros [orc o] Ho. pose proof (prices_ok_feeds _ _ _ _ _ _ _ _ Hc Hfd Ho) as Hpk.
  apply f_bind; [|intros [[[? ?] ?] ?] _; apply f_Ok]. apply f_withdraw_short.
  - rewrite (st_coll _ _ _ S), (st_comp _ _ _ S). reflexivity.
  - rewrite (st_comp _ _ _ S). exact (coll_ok_reachable _ _ Hr _ _ Ha).
  - intros k Hk. rewrite Hpos in Hk. assert (k ∈ ids) as Hk' by (apply elem_of_dom; exact Hk). destruct (vc_new_spec _ _ _ Hc) as (_ & _ & C3 & _). destruct (C3 k Hk') as (pc & _ & Hpc). destruct (pk_pair _ _ _ _ _ _ _ Hpk k Hk') as (x & pc' & _ & _ & _ & Hpr). unfold have. rewrite Hpc, Hpr, (get_pool_cached _ _ _ Hk'). eauto.
  - intros r [cc Hcc]. destruct (vc_new_spec _ _ _ Hc) as (_ & C2 & _). rewrite C2, lookup_fmap in Hcc. match type of Hcc with _ <$> ?t = _ => destruct t as [cc0|] eqn:Hl end; [|discriminate Hcc].
    exists (cc_pair_id cc0). rewrite (pk_res _ _ _ _ _ _ _ Hpk). split; [match goal with |- _ <$> ?t = _ => assert (t = Some cc0) as -> by exact Hl end; reflexivity|]. destruct (pk_feed _ _ _ _ _ _ _ Hpk r cc0 Hl) as (x & _ & _ & Hx). eauto.
  - reflexivity.
  - intros p1 a2 pnl mp disc mc Q1 Q2 Q3 Q4 Q5. eapply HG; try eassumption. reflexivity.
Qed.
(** C67. A withdrawal refused for its margin would leave the account, at the prices delivered, worth less than its initial margin. *)
Theorem C67_refused_for_margin E cx w a i upd acc kr rq w1 : reachable E w -> w_accounts w !! a = Some acc -> request_at w a i = Some kr -> kr_request kr = RRemove rq ->
  with_prices E w upd w1 -> step E cx w (OProcessRequest a i upd) = Err EInsufficientMargin ->
  exists acc', withdrawn E acc rq acc' /\ account_value w1 acc' < initial_margin w1 acc'.
Proof.
  intros Hr Ha Hat Hrq [W1 W2 W3 W4 W5]. apply (withdraw_err _ _ _ _ _ _ _ _ _ _ Hr Ha Hat Hrq).
  intros ids v1 c orc o p1 a2 pnl mp disc mc -> S Hc Hpk Hpp [L1 L2 L3 L4 L5 L6 L7 L8 L9] Hvp Hvc Hlt. pose proof (wi_nz _ (WI_reachable _ _ Hr) _ _ Ha) as Hnz.
  pose proof (st_comp _ _ _ S) as Hcomp. pose proof (st_positions _ _ _ S) as Hpos.
  set (acc' := va_comp a2 <| ac_vb := va_vb a2 |>). assert (ac_positions acc' = ac_positions acc) as Ep by (unfold acc'; cbn; rewrite L4, Hcomp; reflexivity).
  assert (va_positions a2 = ac_positions acc') as Ep2 by (rewrite L1, Hpos, Ep; reflexivity).
  assert (forall k, held acc' k = pos_of a2 k) as Hheld. { intros k. unfold held, pos_of. rewrite Ep2. destruct (ac_positions acc' !! k); reflexivity. }
  assert (realized a2 acc') as Hrz.
  { constructor; try reflexivity; intros k; rewrite ?Hheld; try reflexivity.
    - intros H. split; [reflexivity|]. unfold pos_of in *. rewrite Ep2 in *. destruct (ac_positions acc' !! k); [reflexivity|]. destruct H. reflexivity.
    - intros H. rewrite <- Hheld in H. destruct (ac_positions acc' !! k) as [q|] eqn:Hq; [|reflexivity]. exfalso. unfold held in H. rewrite Hq in H. rewrite Ep in Hq. exact (Hnz _ _ Hq H). }
  assert (acc_si a2) as Hsi. { destruct (st_si _ _ _ S) as [S1 S2 S3]. constructor; rewrite ?L1, ?L2, ?L4; assumption. }
  assert (forall k, or_prices orc !! k = stored_price w1 k) as Hor.
  { intros k. rewrite W5. apply told_push. pose proof (pk_push _ _ _ _ _ _ _ Hpk) as Hpu. destruct upd; [exact Hpu|rewrite Hpu; reflexivity]. }
  assert (sees w1 (pool_pair w1) c o p1) as Hs.
  { eapply sees_core; [exact Hc|exact W1| | |].
    - intros k x Hx. unfold stored_price in Hor. rewrite <- Hor. exact (pk_stored _ _ _ _ _ _ _ Hpk _ _ Hx).
    - intros r x Hx. split; [rewrite (pk_res _ _ _ _ _ _ _ Hpk r); match goal with |- _ <$> ?t = _ => assert (t = Some x) as -> by exact Hx end; reflexivity|]. destruct (pk_feed _ _ _ _ _ _ _ Hpk r x Hx) as (y & _ & _ & Hy). exists (fst y). exact Hy.
    - intros k q Hq. rewrite Hpp in Hq. destruct (decide (k ∈ dom (ac_positions acc))) as [Hk|Hk].
      + rewrite (get_pool_cached _ _ _ Hk) in Hq. injection Hq as <-. unfold pool_pair. rewrite W2, W4. reflexivity.
      + exfalso. unfold get_pool, vp_new in Hq. simpl in Hq. unfold pool_get_positions in Hq. apply lookup_set_to_map in Hq; [|intros; simpl in *; congruence]. destruct Hq as (k' & Hk' & E0). simpl in E0. injection E0 as <- _. contradiction. }
  apply value_positions_spec in Hvp as (share & Hsh & -> & -> & Hf). unfold x_value_collateral in Hvc. apply value_collateral_fold in Hvc. injection Hvc as -> ->.
  assert (share = fee_share w1 acc') as Eshare.
  { assert (va_fee_rebate a2 = va_fee_rebate v1) as Ef by (unfold va_fee_rebate; rewrite L3; reflexivity). rewrite Ef in Hsh. rewrite (rebate_share _ _ _ _ S Hsh). unfold fee_share. unfold acc'. cbn. rewrite L5, Hcomp, W3. reflexivity. }
  destruct (valued _ _ _ _ _ _ _ _ Hs Hsi Hrz L6 Hf Eshare) as (V1 & V2 & V3). rewrite V1, V2, !V3 in Hlt.
  exists acc'. split.
  - constructor.
    + exact Ep.
    + unfold acc'. cbn. rewrite L5, Hcomp. reflexivity.
    + unfold acc'. cbn. rewrite L7, (st_vb _ _ _ S). reflexivity.
    + intros r Hne. unfold recorded, acc'. cbn. unfold coll_sync in L6. rewrite <- L6, <- (st_coll _ _ _ S). exact (L8 r Hne).
    + unfold recorded, acc'. cbn. unfold coll_sync in L6. rewrite <- L6, <- (st_coll _ _ _ S). exact L9.
  - unfold account_value, account_value_at, initial_margin, margin_required. change (ac_vb acc') with (va_vb a2). lia.
Qed.
(** C67. For any account: a withdrawal that is due and alive, of positive amounts held, with the pool's tokens and an accepting target and good prices,
    is refused only for its margin (or for an amount outside the decimals). *)
Theorem C67_only_the_margin E cx w a acc i kr rq upd w1 e :
  reachable E w -> w_accounts w !! a = Some acc -> with_prices E w upd w1 ->
  request_at w a i = Some kr -> (valid_start w a <= i)%N -> kr_request kr = RRemove rq -> kr_status kr = STATUS_ACTIVE -> kr_submission kr < w_now w < kr_expiry kr ->
  Forall (fun c => 0 < snd c) (rr_claims rq) -> (forall r, r ∈ map fst (rr_claims rq) -> amount_in r (rr_claims rq) <= (if (r =? BASE)%N then balance w a else collateral_of w a r)) ->
  amount_in BASE (rr_claims rq) <= po_base (w_pool w) ->
  (forall toks, (forall r, amount_in r toks = whole_units E r (amount_in r (rr_claims rq))) -> cx_accepts cx (rr_target rq) toks = true) ->
  (forall e, ~ price_trouble E w (OProcessRequest a i upd) e) ->
  has_role cx w RKeeperProcess = true -> 1 <= w_auth w -> ~ unmintable E w ->
  step E cx w (OProcessRequest a i upd) = Err e ->
  e = EArithmetic \/ e = EInsufficientMargin /\ exists acc', withdrawn E acc rq acc' /\ account_value w1 acc' < initial_margin w1 acc'.
Proof.
  intros Hr Ha Hw1 Hat Hvs Hrq Hst Hdue Hpos Hheld Hbase Hacc Hprice Hrole Hauth Hmint Hs.
  assert (e = EInsufficientMargin -> exists acc', withdrawn E acc rq acc' /\ account_value w1 acc' < initial_margin w1 acc') as HM. { intros ->. eapply C67_refused_for_margin; eassumption. }
  assert (forall r, r ∈ map fst (rr_claims rq) -> 0 < amount_in r (rr_claims rq)) as Hp.
  { clear - Hpos. induction (rr_claims rq) as [|[q x] l IH]; intros r Hin; [inversion Hin|]. inversion Hpos as [|? ? Hx Hl]; subst. cbn in Hx. rewrite amount_cons. cbn [b_res b_amt fst snd].
    assert (forall r, 0 <= amount_in r l) as Hn. { clear - Hl. intros r. induction Hl as [|[q x] l Hx Hl IH]; [unfold amount_in; cbn; lia|]. rewrite amount_cons. cbn [b_res b_amt fst snd] in *. destruct (q =? r)%N; lia. }
    cbn [map fst] in Hin. destruct (N.eqb_spec q r) as [->|Hne]; [pose proof (Hn r); lia|]. apply elem_of_cons in Hin as [->|Hin]; [congruence|]. pose proof (IH Hl r Hin). lia. }
  destruct (C65_process _ _ _ _ _ _ _ Hr Hs) as [[_ H]|[[_ [H|H]]|[[_ H]|[H|[->|(acc0 & kr0 & H1 & H2 & H)]]]]]; try congruence; try lia; try contradiction; [|auto|].
  - exfalso. unfold not_processable in H. destruct H as [[_ H]|[[_ H]|(kr' & Hk & H)]]; [lia|congruence|]. rewrite Hat in Hk. injection Hk as <-. assert ((kr_expiry kr <=? w_now w) = false) as E1 by (apply Z.leb_gt; lia). rewrite E1 in H. destruct H as [[_ H]|[_ H]]; [congruence|lia].
  - rewrite Ha in H1. injection H1 as <-. rewrite Hat in H2. injection H2 as <-. rewrite Hrq in H. destruct H as [(_ & r & H & _)|(_ & _ & [H|H])]; [discriminate H|exfalso; exact (Hprice _ H)|].
    assert (balance w a = ac_vb acc) as Hbal by (unfold balance; rewrite Ha; reflexivity). assert (forall r, collateral_of w a r = recorded acc r) as Hcol by (intros r; unfold collateral_of; rewrite Ha; reflexivity).
    unfold withdrawal_stopped in H. cbv zeta in H. destruct H as [(_ & r & Hin & H)|[(_ & H)|[(_ & r & Hin & H)|[(_ & toks & H1 & H2)|H]]]].
    + exfalso. pose proof (Hheld r Hin) as H0. rewrite Hbal, Hcol in H0. unfold recorded in H0. destruct (r =? BASE)%N; exact (Z.lt_irrefl _ (Z.le_lt_trans _ _ _ H0 H)).
    + lia.
    + exfalso. pose proof (Hp r Hin). lia.
    + exfalso. rewrite (Hacc toks H2) in H1. discriminate H1.
    + right. split; [exact H|]. exact (HM H).
Qed.
(** A2, long 2, asks for nearly all its base tokens: refused for the margin. *)
Definition sc_greedy : res world := go sc_env sc_w2 [(cx_u2, ORemoveCollateralRequest None 600%N A2 500%N [(BASE, dec 9000)]); (cx_any, OAdvance 1030); (cx_any, OUpdatePairs [1%N; 2%N] (msg 30000%N 2000%N 1029%N))].
Definition WG := get sc_greedy.
Lemma WG_ok : sc_greedy = Ok WG. Proof. apply okb_get. vm_compute. reflexivity. Qed.
Lemma WG_reach : reachable sc_env WG. Proof. apply go_reachable; [vm_compute; reflexivity|]. intros w H. rewrite W2_ok in H. apply Ok_inj in H. subst w. exact W2_reach. Qed.
Definition greedy_check (w : world) (a : addr) (i : N) : bool :=
  match w_accounts w !! a with
  | None => false
  | Some acc =>
    match kl_kvs (ac_requests acc) !! i with
    | None => false
    | Some kr =>
      match kr_request kr with
      | ROrder _ => false
      | RRemove rq =>
        (ac_vstart acc <=? i)%N && (kr_status kr =? STATUS_ACTIVE)%N && (kr_submission kr <? w_now w) && (w_now w <? kr_expiry kr) &&
        bool_decide (Forall (fun c => 0 < snd c) (rr_claims rq)) && bool_decide (Forall (fun r => amount_in r (rr_claims rq) <= (if (r =? BASE)%N then ac_vb acc else recorded acc r)) (map fst (rr_claims rq))) &&
        (amount_in BASE (rr_claims rq) <=? po_base (w_pool w)) &&
        bool_decide (map_Forall (fun _ cc => match or_prices (w_oracle w) !! cc_pair_id cc with Some (p, t) => (w_now w <? t + cc_price_age_max cc) && (0 <? p) | None => false end = true) (cf_collaterals (w_config w))) &&
        bool_decide (map_Forall (fun _ pc => match or_prices (w_oracle w) !! 1%N with Some (p, t) => (w_now w <? t + pc_price_age_max pc) && (0 <? p) | None => false end = true) (hl_kvs (cf_pairs (w_config w)))) &&
        bool_decide (map_Forall (fun k _ => k = 1%N) (ac_positions acc)) && negb (bool_decide (size (ac_positions acc) = 0%nat)) &&
        has_role cx_any w RKeeperProcess && (1 <=? w_auth w) && mint_ok sc_env KEEPER_REWARD (ec_reward_keeper (g_exchange_config w)) &&
        match step sc_env cx_any w (OProcessRequest a i None) with Err EInsufficientMargin => true | _ => false end
      end
    end
  end.
Example C67_greedy_check : greedy_check WG A2 1%N = true. Proof. vm_compute. reflexivity. Qed.
Global Opaque WG.
Example C67_greedy_ex : exists acc rq acc', w_accounts WG !! A2 = Some acc /\ ac_positions acc <> ∅ /\ step sc_env cx_any WG (OProcessRequest A2 1%N None) = Err EInsufficientMargin /\ withdrawn sc_env acc rq acc' /\ account_value WG acc' < initial_margin WG acc'.
Proof.
  pose proof C67_greedy_check as H. unfold greedy_check in H. destruct (w_accounts WG !! A2) as [acc|] eqn:Ha; [|discriminate H]. destruct (kl_kvs (ac_requests acc) !! 1%N) as [kr|] eqn:Hk; [|discriminate H]. destruct (kr_request kr) as [rq|rq] eqn:Hq; [|discriminate H].
  repeat match type of H with (_ && _) = true => let H2 := fresh "K" in apply andb_true_iff in H as [H H2] end.
  repeat match goal with X : (_ <=? _) = true |- _ => apply Z.leb_le in X | X : (_ <? _) = true |- _ => apply Z.ltb_lt in X | X : (_ <=? _)%N = true |- _ => apply N.leb_le in X | X : (_ =? _)%N = true |- _ => apply N.eqb_eq in X | X : negb _ = true |- _ => apply negb_true_iff in X | X : bool_decide _ = true |- _ => apply bool_decide_eq_true in X | X : bool_decide _ = false |- _ => apply bool_decide_eq_false in X end.
  destruct (step sc_env cx_any WG (OProcessRequest A2 1%N None)) as [?|e] eqn:Hs; [discriminate|]. assert (e = EInsufficientMargin) as -> by (destruct e; congruence). exists acc, rq.
  assert (exists acc', withdrawn sc_env acc rq acc' /\ account_value WG acc' < initial_margin WG acc') as (acc' & X1 & X2).
  { assert (EInsufficientMargin = EArithmetic \/ EInsufficientMargin = EInsufficientMargin /\ exists acc', withdrawn sc_env acc rq acc' /\ account_value WG acc' < initial_margin WG acc') as [H0|[_ H0]]; [|discriminate H0|exact H0].
    apply (C67_only_the_margin sc_env cx_any WG A2 acc 1%N kr rq None WG EInsufficientMargin).
    - exact WG_reach.
    - exact Ha.
    - constructor; reflexivity.
    - unfold request_at. rewrite Ha. exact Hk.
    - unfold valid_start. rewrite Ha. assumption.
    - exact Hq.
    - assumption.
    - split; assumption.
    - assumption.
    - intros r Hr. unfold balance, collateral_of. rewrite Ha. match goal with X : Forall _ (map fst _) |- _ => exact (proj1 (Forall_forall _ _) X r Hr) end.
    - assumption.
    - intros toks _. reflexivity.
    - intros e [(data & sig & key & Hu & _)|(k & age & Hn & Hb)]; [discriminate Hu|]. cbn [message_of] in Hb. unfold bad_price, told, stored_price in Hb. destruct Hn as [_ [(r & cc & H1 & <- & <-)|[Hn Hag]]].
      + match goal with X : map_Forall _ (cf_collaterals _) |- _ => pose proof (X r cc H1) as Hx end. cbn beta in Hx.
        match type of Hx with match ?t with _ => _ end = _ => destruct t as [[p t0]|] eqn:Hp end; [|discriminate Hx]. apply andb_true_iff in Hx as [X1 X2]. apply Z.ltb_lt in X1, X2.
        destruct Hb as [[_ Hb]|[(_ & p' & t' & Hb & Hl)|(_ & p' & t' & Hb & Hl)]]; [discriminate Hb| |]; injection Hb as <- <-; lia.
      + cbn in Hn. destruct Hn as [(acc' & pos & H2 & H3)|(acc' & kr' & r & H2 & H3 & H4 & _)]; rewrite Ha in H2; injection H2 as <-.
        * match goal with X : map_Forall _ (ac_positions acc) |- _ => pose proof (X k pos H3) as -> end. unfold pair_max_age in Hag. match type of Hag with _ <$> ?t = _ => destruct t as [pc|] eqn:H1 end; [|discriminate Hag]. cbn in Hag. injection Hag as <-.
          match goal with X : map_Forall _ (hl_kvs _) |- _ => pose proof (X _ pc H1) as Hx end. cbn beta in Hx. match type of Hx with match ?t with _ => _ end = _ => destruct t as [[p t0]|] eqn:Hp end; [|discriminate Hx]. apply andb_true_iff in Hx as [X1 X2]. apply Z.ltb_lt in X1, X2.
          destruct Hb as [[_ Hb]|[(_ & p' & t' & Hb & Hl)|(_ & p' & t' & Hb & Hl)]]; pose proof (eq_trans (eq_sym Hp) Hb) as Hpb; clear Hb; [discriminate Hpb| |]; injection Hpb as <- <-; clear - X1 X2 Hl; lia.
        * rewrite Hk in H3. injection H3 as <-. rewrite Hq in H4. discriminate H4.
    - assumption.
    - assumption.
    - unfold unmintable. intros Hm. match goal with X : mint_ok _ _ _ = true |- _ => rewrite X in Hm end. discriminate Hm.
    - exact Hs. }
  exists acc'. split; [reflexivity|]. split; [|split; [exact eq_refl|split; assumption]]. intros E0. match goal with X : size (ac_positions acc) <> 0%nat |- _ => apply X; rewrite E0; apply map_size_empty end.
Qed.
