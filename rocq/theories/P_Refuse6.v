(** * Why a fee oath is refused (for C65). *)
From Verif Require Import Base DFloat Lists Types Config Oracle Pool Account Fees Referral ExInternal Exchange System Scenario Sums Trace Frames Calls Spec SpecAuth SpecRequests SpecOracle SpecTrading SpecMargin SpecRefuse SpecRefuse2 P_Ledger P_Accounts P_Refs Frames2 P_Tokens P_Requests P_Requests2 P_Requests3 P_Requests4 Trading P_Positions P_Positions2 P_Oracle P_OrderCall P_Margin P_Final P_Configured Props_Orders P_Refuse P_Refuse2 P_Refuse3 P_Refuse4 Props_Requests2 Props_Refuse Props_Refuse2.

Lemma f_integrity2 w c o p v acc : sees w (pool_pair w) c o p -> have_all c o p v -> feeds_ok c o -> va_positions v = ac_positions acc -> va_coll v = ac_coll acc -> (forall x, va_fee_rebate v = Ok x -> x = fee_share w acc) ->
  fails (fun e => e = EInsufficientMargin /\ account_value w acc - ac_vb acc + va_vb v < initial_margin w acc \/ e = EArithmetic) (x_assert_account_integrity c p v o).
Proof.
  intros S H1 H2 Hp Hcl Hfs. unfold x_assert_account_integrity. apply f_bind; [apply f_arP; [auto|apply f_value; exact H1]|]. intros [pnl mp] Hv. apply value_positions_spec in Hv as (share & Hsh & -> & -> & Hpr). apply Hfs in Hsh. subst share.
  apply f_bind; [apply f_arP; [auto|apply f_value_coll; exact H2]|]. intros [d mc] Hc. unfold x_value_collateral in Hc. apply value_collateral_fold in Hc. injection Hc as -> ->.
  apply f_bind; [apply f_arP; [auto|apply f_dadd]|]. intros t Ht. apply dadd_Ok in Ht as [-> _]. apply f_bind; [apply f_arP; [auto|apply f_dadd]|]. intros t Ht. apply dadd_Ok in Ht as [-> _]. apply f_bind; [apply f_arP; [auto|apply f_dadd]|]. intros t Ht. apply dadd_Ok in Ht as [-> _].
  apply f_guard. intros Hf. apply Z.leb_gt in Hf. left. split; [reflexivity|]. rewrite Hp in Hpr.
  rewrite Hp, Hcl, (sees_profit _ _ _ _ _ _ _ S Hpr), (sees_margin _ _ _ _ _ _ _ S Hpr), !(sees_coll _ _ _ _ _ _ _ S) in Hf.
  unfold account_value, account_value_at, initial_margin, margin_required, positions_profit, positions_margin, collateral_total in *. lia.
Qed.
Lemma no_age_feed ids k age : x_pair_feeds_no_max_age ids !! k = Some age -> k ∈ ids /\ age = any_age.
Proof. unfold x_pair_feeds_no_max_age. intros H. apply lookup_set_to_map in H as (k' & Hk & E); [|auto]. injection E as <- <-. split; [exact Hk|reflexivity]. Qed.
Lemma no_age_all ids k : k ∈ ids -> x_pair_feeds_no_max_age ids !! k = Some I64MAX.
Proof. intros Hk. unfold x_pair_feeds_no_max_age. apply lookup_set_to_map; [auto|]. exists k. auto. Qed.
Lemma f_oracle_any E w ids c : get_config w ids = Ok c ->
  fails (fun e => (exists k, k ∈ ids /\ bad_price E w None k any_age e) \/ (exists k age, feed_max_age w k age /\ bad_price E w None k age e) \/ e = EArithmetic) (get_oracle E w c (x_pair_feeds_no_max_age ids) None).
Proof.
  intros Hc. unfold get_oracle. eapply f_mono; [apply f_vo|]. intros e [(? & ? & ? & H & _)|[(k & age & Ho & Hb)|H]]; [discriminate H| |auto].
  destruct Ho as [Ho|[r Ho]]; [apply no_age_feed in Ho as [Hk ->]; left; eauto|]. right; left. exists k, age. split; [|exact Hb]. apply vc_new_spec in Hc as (_ & C2 & _). unfold vc_feeds in Ho. rewrite C2, !lookup_fmap in Ho.
  match type of Ho with context [?t] => match t with lookup r (cf_collaterals (w_config w)) => destruct t as [cc|] eqn:Hcc end end; [|discriminate Ho]. cbn in Ho. injection Ho as <- <-. exists r, cc. auto.
Qed.
Lemma any_have E w ids c o1 o p : get_config w ids = Ok c -> get_oracle E w c (x_pair_feeds_no_max_age ids) None = Ok (o1, o) -> vp_positions p = vp_positions (get_pool w ids) ->
  (forall k, k ∈ ids -> have c o p k) /\ feeds_ok c o /\ sees w (pool_pair w) c o p.
Proof.
  intros Hc Ho Hp. pose proof Ho as Ho'. unfold get_oracle in Ho'. apply vo_new_spec in Ho' as (O1 & O2 & O3 & O4 & O5). destruct (vc_new_spec _ _ _ Hc) as (_ & C2 & C3 & _). split; [|split].
  - intros k Hk. destruct (C3 k Hk) as (pc & _ & Hpc). destruct (O4 k _ (no_age_all _ _ Hk)) as (x & _ & _ & Hx). unfold have. rewrite Hpc, Hx, Hp, (get_pool_cached _ _ _ Hk). eauto.
  - intros r [cc Hcc]. destruct (O5 r (cc_pair_id cc) (cc_price_age_max cc)) as (x & _ & _ & X3). { unfold vc_feeds. rewrite lookup_fmap. match goal with |- _ <$> ?t = _ => assert (t = Some cc) as -> by exact Hcc end. reflexivity. }
    exists (cc_pair_id cc). split; [|eauto]. rewrite O2. unfold vc_feeds. rewrite !lookup_fmap. match goal with |- context [fmap _ ?t] => assert (t = Some cc) as -> by exact Hcc end. reflexivity.
  - eapply sees_oracle; [exact Hc|exact Ho|reflexivity|reflexivity|]. intros k q Hq. rewrite Hp in Hq. destruct (decide (k ∈ ids)) as [Hk|Hk].
    + rewrite (get_pool_cached _ _ _ Hk) in Hq. injection Hq as <-. reflexivity.
    + exfalso. unfold get_pool, vp_new in Hq. simpl in Hq. unfold pool_get_positions in Hq. apply lookup_set_to_map in Hq; [|intros; simpl in *; congruence]. destruct Hq as (k' & Hk' & E0). simpl in E0. injection E0 as <- _. contradiction.
Qed.
Lemma f_fee_oath E w ids c o1 o p v acc b (P : error -> Prop) : get_config w ids = Ok c -> get_oracle E w c (x_pair_feeds_no_max_age ids) None = Ok (o1, o) -> vp_positions p = vp_positions (get_pool w ids) -> dom (ac_positions acc) ⊆ ids ->
  va_positions v = ac_positions acc -> va_coll v = ac_coll acc -> (forall x, va_fee_rebate v = Ok x -> x = fee_share w acc) -> va_vb v = ac_vb acc ->
  (forall e, e = EInvalidFeeOath /\ b_res b <> FEE_OATH \/ e = EEngine /\ w_oath w < b_amt b \/ e = EInsufficientMargin /\ cannot_afford w acc (b_amt b) \/ e = EArithmetic -> P e) ->
  fails P (x_settle_fee_oath c p v o (w_oath w) b).
Proof.
  intros Hc Ho Hp Hd H1 H2 H3 H4 HP. destruct (any_have _ _ _ _ _ _ _ Hc Ho Hp) as (B1 & B2 & B3). unfold x_settle_fee_oath. apply f_bind; [apply f_guard; intros Hf; apply N.eqb_neq in Hf; apply HP; auto|]. intros [] _.
  apply f_bind; [apply f_arP; [apply HP; auto 10|apply f_dneg]|]. intros n Hn. apply dneg_Ok in Hn as [-> _]. apply f_bind; [apply f_arP; [apply HP; auto 10|apply f_avb]|]. intros v1 Hv1. unfold va_add_vb in Hv1. bd Hv1 as (x & Hx & Hv1). apply dadd_Ok in Hx as [-> _]. apply Ok_inj in Hv1. subst v1.
  apply f_bind; [apply f_guard; intros Hf; apply Z.leb_gt in Hf; apply HP; auto|]. intros [] _. apply f_bind; [|intros; apply f_Ok]. eapply f_mono; [eapply (f_integrity2 w c o p _ acc)|].
  - exact B3.
  - intros k Hk. apply B1. apply Hd. apply elem_of_dom. rewrite <- H1. exact Hk.
  - exact B2.
  - exact H1.
  - exact H2.
  - exact H3.
  - intros e [[-> He]| ->]; apply HP; [|auto 10]. right; right; left. split; [reflexivity|]. unfold cannot_afford. cbn in He. rewrite H4 in He. lia.
Qed.
Lemma f_oath E w a acc v extra b : reachable E w -> w_accounts w !! a = Some acc -> get_acc w a = Ok v ->
  fails (fun e => oath_refused E w acc extra b e \/ e = EMissingPairConfig /\ exists k, k ∈ extra /\ pair_cfg w k = None) (settle_oath E w v extra b).
Proof.
  intros Hr Ha Hv. pose proof (wi_nz _ (WI_reachable _ _ Hr)) as Hnz. pose proof (starts_intro _ _ _ _ Hv Ha (Hnz _ _ Ha)) as S. unfold settle_oath. cbv zeta. rewrite (st_positions _ _ _ S). set (ids := dom (ac_positions acc) ∪ extra).
  apply f_bind. { eapply f_mono; [apply f_config|]. intros e (-> & k & Hk & Hn). right. split; [reflexivity|]. exists k. split; [|exact Hn]. apply elem_of_union in Hk as [Hk|Hk]; [|exact Hk]. exfalso.
    apply elem_of_dom in Hk as [x Hx]. pose proof (configured_reachable _ _ Hr _ _ Ha k x Hx (Hnz _ _ Ha _ _ Hx)) as [pc Hp]. unfold pair_cfg in Hn. match type of Hn with _ <$> ?t = _ => assert (t = Some pc) as Ex by exact Hp; rewrite Ex in Hn; discriminate Hn end. }
  intros c Hc. apply f_bind. { eapply f_mono; [apply f_oracle_any; exact Hc|]. intros e [(k & Hk & Hb)|[H| ->]]; left; [right; right; left|right; right; right; left; exact H|do 5 right; reflexivity]. exists k. split; [|exact Hb]. apply elem_of_union in Hk as [Hk|Hk]; [left; apply elem_of_dom; exact Hk|auto]. }
  intros [o1 o] Ho. apply f_bind; [|intros [? ?] _; apply f_Ok]. eapply (f_fee_oath E w ids c o1 o _ v acc); [exact Hc|exact Ho|reflexivity|unfold ids; set_solver|exact (st_positions _ _ _ S)|exact (st_coll _ _ _ S)| |exact (st_vb _ _ _ S)|].
  - intros x Hx. exact (rebate_share _ _ _ _ S Hx).
  - intros e [H|[H|[H|H]]]; left; [left; exact H|right; left; exact H|do 4 right; left; exact H|do 5 right; exact H].
Qed.
Lemma oath_opt_out E w v extra oath w1 v1 c : settle_oath_opt E w v extra oath = Ok (w1, v1, c) -> exists s x ids, w1 = w <| w_oath := s |> /\ v1 = v <| va_vb := x |> /\ get_config w ids = Ok c /\ extra ⊆ ids.
Proof.
  destruct oath as [b|]; cbn [settle_oath_opt]; intros H.
  - unfold settle_oath in H. bd H as (c0 & Hc & H). bd H as ([o1 o] & _ & H). bd H as ([v2 s] & Hs & H). apply Ok_inj in H. injection H as <- <- <-. apply x_settle_fee_oath_inv in Hs as (-> & _). do 3 eexists. split; [reflexivity|]. split; [reflexivity|]. split; [exact Hc|set_solver].
  - bd H as (c0 & Hc & H). apply Ok_inj in H. injection H as <- <- <-. exists (w_oath w), (va_vb v), extra. split; [destruct w; reflexivity|]. split; [destruct v; reflexivity|]. auto.
Qed.
Lemma f_oath_opt E w a acc v extra oath : reachable E w -> w_accounts w !! a = Some acc -> get_acc w a = Ok v ->
  fails (fun e => oath_stopped E w a extra oath e \/ e = EMissingPairConfig /\ exists k, k ∈ extra /\ pair_cfg w k = None) (settle_oath_opt E w v extra oath).
Proof.
  intros Hr Ha Hv. destruct oath as [b|]; cbn [settle_oath_opt].
  - eapply f_mono; [eapply f_oath; eassumption|]. intros e [H|H]; [left; exists b, acc; auto|auto].
  - apply f_bind; [|intros; apply f_Ok]. eapply f_mono; [apply f_config|]. intros e H. auto.
Qed.
Lemma f_oath_opt' E w a acc v oath : reachable E w -> w_accounts w !! a = Some acc -> get_acc w a = Ok v -> fails (oath_stopped E w a ∅ oath) (settle_oath_opt' E w v oath).
Proof.
  intros Hr Ha Hv. destruct oath as [b|]; cbn [settle_oath_opt']; [|apply f_Ok]. apply f_bind; [|intros [[? ?] ?] _; apply f_Ok]. eapply f_mono; [eapply f_oath; eassumption|]. intros e [H|(_ & k & Hk & _)]; [exists b, acc; auto|]. exfalso. revert Hk. apply not_elem_of_empty.
Qed.
Lemma oath_opt'_out E w v oath w1 v1 : settle_oath_opt' E w v oath = Ok (w1, v1) -> exists s x, w1 = w <| w_oath := s |> /\ v1 = v <| va_vb := x |>.
Proof.
  destruct oath as [b|]; cbn [settle_oath_opt']; intros H.
  - bd H as ([[w2 v2] c] & Hs & H). apply Ok_inj in H. injection H as <- <-. destruct (oath_opt_out E w v ∅ (Some b) _ _ _ Hs) as (s & x & _ & -> & -> & _). eauto.
  - apply Ok_inj in H. injection H as <- <-. exists (w_oath w), (va_vb v). destruct w, v; auto.
Qed.
