(** * C70: every stored request is well formed: its pair is configured, it links and claims no more than allowed. *)
From Verif Require Import Base DFloat Lists Types Config Oracle Pool Account Fees Referral ExInternal Exchange System Sums Trace Frames Calls Shape Spec P_Ledger P_Accounts Frames2 Scenario Witness Props_Config P_Fees P_Coll P_Refs P_Rules P_Requests P_Requests2 P_Requests3 P_Requests4 P_Keeper SpecRequests SpecOracle SpecTrading SpecMargin SpecAuth SpecReferral Trading P_Oracle P_Configured Props_Auth Props_Ledger Props_Collateral Props_Referral Props_Requests Props_Requests2 Props_Requests3 P_Access Props_Access Props_Deposits Props_Submit Props_Orders Props_Provenance SpecRefuse Props_Refuse4.

(** A withdrawal claims at most ten resources; an order names a configured pair, has an amount whose sign can be changed, and links at most two
    requests to activate and two to cancel. *)
Definition well_formed (w : world) (q : request) : Prop :=
  match q with
  | RRemove q => (length (rr_claims q) <= 10)%nat
  | ROrder q => is_Some (pair_cfg w (ro_pair q)) /\ Z.abs (ro_amount q) <= DMAX /\ (length (ro_activate q) <= 2)%nat /\ (length (ro_cancel q) <= 2)%nat
  end.
Lemma has_pair_cfg w k : has_cfg w k <-> is_Some (pair_cfg w k).
Proof. unfold has_cfg, pair_cfg. split; intros [x Hx]. - match goal with |- is_Some (_ <$> ?t) => assert (t = Some x) as E1 by exact Hx; rewrite E1 end. cbn. eauto. - apply fmap_Some in Hx as (y & Hy & _). eauto. Qed.
Lemma vc_pair_has w ids c k pc : get_config w ids = Ok c -> vc_pair c k = Ok pc -> has_cfg w k.
Proof.
  intros Hcf Hk. apply expect_Ok in Hk. unfold get_config in Hcf. apply vc_new_spec in Hcf as (_ & _ & C3 & C4). destruct (decide (k ∈ ids)) as [Hi|Hi]; [destruct (C3 _ Hi) as (x & Hx & _); exists x; exact Hx|rewrite (C4 _ Hi) in Hk; discriminate Hk].
Qed.
Lemma dabs_bound x y : dabs x = Ok y -> Z.abs x <= DMAX.
Proof. unfold dabs. intros H. apply chk_Ok in H as (-> & _ & H). exact H. Qed.

(** What an accepted submission checked. *)
Lemma remove_checked E cx w oath ex a t cs w' out : step E cx w (ORemoveCollateralRequest oath ex a t cs) = Ok (w', out) -> (length cs <= 10)%nat.
Proof.
  intros H. apply step_exec_inv in H as (_ & _ & _ & H). cbn in H. unfold m_remove_collateral_request in H. bd H as (v & _ & H). bd H as (u & _ & H). bd H as (q & _ & H). destruct q as [[w1 v1] c]. bd H as (u2 & Hg & _). apply guard_Ok in Hg. apply N.leb_le in Hg. lia.
Qed.
Lemma order_checked E cx w oath d ex a p amt ro pl sl act can st w' out : step E cx w (OMarginOrderRequest oath d ex a p amt ro pl sl act can st) = Ok (w', out) ->
  has_cfg w p /\ Z.abs amt <= DMAX /\ (length act <= 2)%nat /\ (length can <= 2)%nat.
Proof.
  intros H. apply step_exec_inv in H as (_ & _ & _ & H). cbn in H. unfold m_margin_order_request in H. bd H as (v & _ & H). bd H as (u & _ & H). bd H as (q & Hq & H). destruct q as [[w1 v1] c]. bd H as (pc & Hpc & H). bd H as (ab & Hab & H). bd H as (u1 & _ & H). bd H as (u2 & Hg & H). bd H as (u3 & Hg' & _).
  apply settle_opt_facts in Hq as (_ & _ & ids & Hc). apply guard_Ok in Hg, Hg'. apply N.leb_le in Hg, Hg'. split; [exact (vc_pair_has _ _ _ _ _ Hc Hpc)|]. split; [exact (dabs_bound _ _ Hab)|]. lia.
Qed.
Lemma tpsl_checked E cx w oath d ex a p amt ro pl sl tp sl' w' out : step E cx w (OMarginOrderTpSlRequest oath d ex a p amt ro pl sl tp sl') = Ok (w', out) ->
  has_cfg w p /\ Z.abs amt <= DMAX.
Proof.
  intros H. apply step_exec_inv in H as (_ & _ & _ & H). cbn in H. unfold m_margin_order_tp_sl_request in H. bd H as (v & _ & H). bd H as (u & _ & H). bd H as (q & Hq & H). destruct q as [[w1 v1] c]. bd H as (pc & Hpc & H). bd H as (ab & Hab & H).
  apply settle_opt_facts in Hq as (_ & _ & ids & Hc). split; [exact (vc_pair_has _ _ _ _ _ Hc Hpc)|exact (dabs_bound _ _ Hab)].
Qed.
Lemma appears_checked E cx w o w' out a i r : reachable E w -> step E cx w o = Ok (w', out) -> request_at w a i = None -> request_at w' a i = Some r -> well_formed w (kr_request r).
Proof.
  intros Hr Hs Hn Hi. destruct (request_appears _ _ _ _ _ _ _ _ _ Hr Hs Hn Hi) as [Hask _]. destruct o; cbn in Hask; try contradiction.
  - destruct Hask as (_ & Hq & _). rewrite Hq. cbn. exact (remove_checked _ _ _ _ _ _ _ _ _ _ Hs).
  - destruct Hask as (_ & _ & _ & act' & can' & L1 & L2 & Hq). rewrite Hq. cbn. rewrite L1, L2. destruct (order_checked _ _ _ _ _ _ _ _ _ _ _ _ _ _ _ _ _ Hs) as (H1 & H2). split; [apply has_pair_cfg; exact H1|exact H2].
  - destruct Hask as (-> & _). destruct (tpsl_checked _ _ _ _ _ _ _ _ _ _ _ _ _ _ _ _ Hs) as (H1 & H2). apply has_pair_cfg in H1.
    destruct (tpsl_submit _ _ _ _ _ _ _ _ _ _ _ _ _ _ _ _ Hr Hs) as (Hap & _). apply appended_at in Hap as (_ & Hcnt & Hnew & _).
    pose proof (reach_step _ _ _ _ _ _ Hr Hs) as Hr'. destruct (request_at_inv _ _ _ _ Hi) as (acc' & Ha' & _).
    assert (exists k, i = request_count w a + N.of_nat k)%N as (k & E1).
    { assert (request_count w a <= i)%N as Hge. 2: exists (N.to_nat (i - request_count w a)); lia. destruct (N.lt_ge_cases i (request_count w a)) as [Hc|Hc]; [|exact Hc]. exfalso. destruct (w_accounts w !! a) as [acc|] eqn:Ha.
      - apply (C06_indexes_exist _ _ _ _ _ Hr Ha) in Hc as [x Hx]. congruence.
      - unfold request_count in Hc. rewrite Ha in Hc. lia. }
    rewrite E1, Hnew in Hi. apply elem_of_list_lookup_2 in Hi. unfold tpsl_news in Hi.
    assert (forall n tp, (length (option_list (tp_index n tp)) <= 1)%nat) as L1 by (intros n tp; destruct (tp_index n tp); cbn; lia).
    assert (forall n tp sl, (length (option_list (sl_index n tp sl)) <= 1)%nat) as L2 by (intros n x y; destruct (sl_index n x y); cbn; lia).
    apply elem_of_app in Hi as [Hi|Hi]; [|apply elem_of_app in Hi as [Hi|Hi]].
    + apply elem_of_list_singleton in Hi. subst r. cbn [kr_request well_formed ro_pair ro_amount ro_activate ro_cancel]. rewrite app_length. specialize (L1 (request_count w a) price_tp). specialize (L2 (request_count w a) price_tp price_sl). split; [exact H1|]. split; [exact H2|]. unfold count_of in *. split; [|cbn; lia]. unfold request_count, kl_len in *. lia.
    + destruct price_tp as [price|]; [|inversion Hi]. apply elem_of_list_singleton in Hi. subst r. cbn [kr_request well_formed ro_pair ro_amount ro_activate ro_cancel]. rewrite Z.abs_opp. split; [exact H1|]. split; [exact H2|]. split; [cbn; lia|]. etransitivity; [apply L2|lia].
    + destruct price_sl as [price|]; [|inversion Hi]. apply elem_of_list_singleton in Hi. subst r. cbn [kr_request well_formed ro_pair ro_amount ro_activate ro_cancel]. rewrite Z.abs_opp. split; [exact H1|]. split; [exact H2|]. split; [cbn; lia|]. etransitivity; [apply L1|lia].
Qed.
(** C70. In every reachable state every stored request is well formed. *)
Theorem C70_stored_requests_well_formed E w a i r : reachable E w -> request_at w a i = Some r -> well_formed w (kr_request r).
Proof.
  intros Hr. revert r. induction Hr as [owner auth keys now w Ha Hn Hg|w cx o w' out Hr IH Hs]; intros r Hi.
  - apply genesis_inv in Hg as (c & Hc & ->). unfold request_at in Hi. cbn in Hi. rewrite lookup_empty in Hi. discriminate Hi.
  - assert (well_formed w (kr_request r)) as H.
    { destruct (request_at w a i) as [r0|] eqn:H0; [|exact (appears_checked _ _ _ _ _ _ _ _ _ Hr Hs H0 Hi)].
      destruct (C04_requests_only_move_forward _ _ _ _ _ _ _ _ _ Hr Hs H0) as (r1 & H1 & E1 & _). assert (r1 = r) as -> by congruence. rewrite E1. exact (IH _ eq_refl). }
    destruct (kr_request r) as [q|q]; [exact H|]. destruct H as (H1 & H2). split; [|exact H2]. apply has_pair_cfg. apply has_pair_cfg in H1. exact (has_cfg_step _ _ _ _ _ _ _ Hr Hs H1).
Qed.
(** So processing a request never finds its pair unconfigured: the reasons of [C65_process], less that one. *)
Theorem C65_process_configured E cx w a i upd e : reachable E w -> step E cx w (OProcessRequest a i upd) = Err e ->
  e = EAuth /\ has_role cx w RKeeperProcess = false \/
  e = EEngine /\ (w_auth w < 1 \/ unmintable E w) \/
  e = EInvalidMarginAccount /\ w_accounts w !! a = None \/
  not_processable w a i e \/
  e = EArithmetic \/
  exists acc kr, w_accounts w !! a = Some acc /\ request_at w a i = Some kr /\ w_now w < kr_expiry kr /\ kr_status kr = STATUS_ACTIVE /\
   (price_trouble E w (OProcessRequest a i upd) e \/
    match kr_request kr with ROrder rq => order_stopped E w a acc upd rq e | RRemove rq => withdrawal_stopped E cx w acc rq e end).
Proof.
  intros Hr H. destruct (C65_process _ _ _ _ _ _ _ Hr H) as [H1|[H1|[H1|[H1|[H1|(acc & kr & Ha & Hk & [(_ & rq & Hq & Hn)|(H1 & H2 & H3)])]]]]]; try tauto.
  - exfalso. pose proof (C70_stored_requests_well_formed _ _ _ _ _ Hr Hk) as Hw. rewrite Hq in Hw. destruct Hw as ([pc Hpc] & _). congruence.
  - do 5 right. exists acc, kr. auto.
Qed.
(** C70. Processing a request never stops for want of a pair's configuration: what is submitted can be processed whatever the owner does later,
    because pair configurations are replaced but never taken away. *)
Corollary C70_configuration_always_found E cx w a i upd : reachable E w -> step E cx w (OProcessRequest a i upd) <> Err EMissingPairConfig.
Proof.
  intros Hr H. destruct (C65_process_configured _ _ _ _ _ _ _ Hr H) as [[H1 _]|[[H1 _]|[[H1 _]|[H1|[H1|(acc & kr & _ & _ & _ & _ & H1)]]]]]; try discriminate H1.
  - destruct H1 as [[H1 _]|[[H1 _]|(kr & _ & [[H1 _]|[H1 _]])]]; discriminate H1.
  - destruct H1 as [[(d & s & k & _ & [[H1 _]|[[H1 _]|[H1 _]]])|(k & age & _ & [[H1 _]|[[H1 _]|[H1 _]]])]|H1]; try discriminate H1. destruct (kr_request kr).
    + destruct H1 as [[H1 _]|[[H1 _]|[[H1 _]|[[H1 _]|H1]]]]; discriminate H1.
    + destruct H1 as [[H1 _]|[[H1 _]|[(_ & _ & [[H1 _]|[[H1 _]|H1]])|[[H1 _]|[H1 _]]]]]; discriminate H1.
Qed.
(** ** Example: after an order with a take-profit and a stop-loss, a request with two links is stored; its pair is configured, and a later
    change of that configuration leaves the request processable. *)
Example C70_ex : exists w' out, step sc_env cx_u2 W3 (snd tpsl_op) = Ok (w', out) /\ reachable sc_env w' /\
  match request_at w' A2 2%N with Some r => match kr_request r with ROrder q => is_Some (pair_cfg w' (ro_pair q)) /\ length (ro_activate q) = 2%nat | _ => False end | None => False end.
Proof.
  destruct (step sc_env cx_u2 W3 (snd tpsl_op)) as [[w' out]|e] eqn:Hs; [|exfalso; revert Hs; assert (tst (step sc_env cx_u2 W3 (snd tpsl_op)) (fun _ => true) = true) as Ht by (vm_compute; reflexivity); apply tst_true in Ht as (r & Ht & _); rewrite Ht; discriminate].
  exists w', out. split; [reflexivity|]. assert (reachable sc_env w') as Hr by (eapply reach_step; [exact W3_reach|exact Hs]). split; [exact Hr|].
  assert (tst (step sc_env cx_u2 W3 (snd tpsl_op)) (fun r => match request_at (fst r) A2 2%N with Some r => match kr_request r with ROrder q => (length (ro_activate q) =? 2)%nat | _ => false end | None => false end) = true) as Ht by (vm_compute; reflexivity).
  apply tst_true in Ht as (r & Ht & Hq). rewrite Hs in Ht. apply Ok_inj in Ht. subst r. cbn [fst] in Hq. destruct (request_at w' A2 2%N) as [r|] eqn:Hi; [|exfalso; exact (Bool.diff_false_true Hq)].
  pose proof (C70_stored_requests_well_formed _ _ _ _ _ Hr Hi) as Hw. destruct (kr_request r) as [q|q]; [exact (Bool.diff_false_true Hq)|]. split; [exact (proj1 Hw)|apply Nat.eqb_eq; exact Hq].
Qed.
