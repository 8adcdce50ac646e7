(** * C40, continued: the rates of every stored pair and collateral configuration are within their validated bounds in every reachable state. *)
From Verif Require Import Base DFloat Lists Types Config Oracle Pool Account Fees Referral ExInternal Exchange System Trace Shape P_Ledger P_DFloat Scenario Witness SpecMargin Props_Config.

(** The bounds an administrator's update is checked against, apart from the two durations being positive and the order of the two margins (refuted in Props_Config.v). *)
Record pair_rates (c : pair_config) : Prop := {
  pr_oi : 0 <= pc_oi_max c; pr_trade : 0 <= pc_trade_size_min c; pr_delta : 0 < pc_update_price_delta_ratio c;
  pr_age : 0 <= pc_price_age_max c < 65536; pr_period : 0 <= pc_update_period_seconds c < 65536;
  pr_initial : 0 <= pc_margin_initial c <= 10 ^ 18; pr_maintenance : 0 <= pc_margin_maintenance c <= 10 ^ 18;
  pr_funding_1 : 0 <= pc_funding_1 c <= 2 * 10 ^ 18; pr_funding_2 : 0 <= pc_funding_2 c <= 4 * 10 ^ 18;
  pr_funding_2_delta : 0 <= pc_funding_2_delta c <= 10000 * 10 ^ 18; pr_funding_2_decay : 0 <= pc_funding_2_decay c;
  pr_funding_pool_0 : 0 <= pc_funding_pool_0 c <= 10 ^ 18; pr_funding_pool_1 : 0 <= pc_funding_pool_1 c <= 2 * 10 ^ 18;
  pr_funding_share : 0 <= pc_funding_share c <= 10 ^ 17; pr_fee_0 : 0 <= pc_fee_0 c <= 15 * 10 ^ 15; pr_fee_1 : 0 <= pc_fee_1 c <= 10 ^ 12 }.
Record collateral_rates (c : collateral_config) : Prop := {
  cr_age : 0 <= cc_price_age_max c < 65536; cr_discount : 8 * 10 ^ 17 <= cc_discount c <= 10 ^ 18; cr_margin : 0 <= cc_margin c <= 10 ^ 17 }.
Lemma pc_rates p cp : pc_validate p = true -> pc_compress p = Ok cp -> pair_rates (pc_decompress cp).
Proof.
  unfold pc_validate, pc_compress. intros Hv H. split_andb.
  repeat match type of H with (_ ≫= _) = Ok _ => let x := fresh "f" in let Hf := fresh "Hf" in bd H as (x & Hf & H) end.
  apply Ok_inj in H. subst cp.
  repeat match goal with H : (_ <=? _) = true |- _ => apply Z.leb_le in H | H : (_ <? _) = true |- _ => apply Z.ltb_lt in H end.
  unfold dec, E18 in *. rewrite ?Z.mul_1_l in *.
  constructor; cbn; try (split; fld); try fld; try (unfold i64_as_u16; apply Z.mod_pos_bound; reflexivity).
Qed.
Lemma cc_rates p cp : cc_validate p = true -> cc_compress p = Ok cp -> collateral_rates (cc_decompress cp).
Proof.
  unfold cc_validate, cc_compress. intros Hv Hce. split_andb. bd Hce as (f1 & HF1 & Hce). bd Hce as (f2 & HF2 & Hce). apply Ok_inj in Hce. subst cp.
  repeat match goal with H : (_ <=? _) = true |- _ => apply Z.leb_le in H | H : (_ <? _) = true |- _ => apply Z.ltb_lt in H end. unfold dec, E18 in *.
  constructor; cbn.
  - unfold i64_as_u16. apply Z.mod_pos_bound. reflexivity.
  - split; [|fld]. change 800000000000000000 with (8 * 10 ^ 17) in *. eapply field_ge; eauto; lia.
  - split; fld.
Qed.
Definition pairs_ok (c : config) : Prop := forall k cp, hl_kvs (cf_pairs c) !! k = Some cp -> pair_rates (pc_decompress cp).
Definition colls_ok (c : config) : Prop := forall r cc, cf_collaterals c !! r = Some cc -> collateral_rates (cc_decompress cc).
Lemma rates_reachable E w : reachable E w -> pairs_ok (w_config w) /\ colls_ok (w_config w).
Proof.
  induction 1 as [owner auth keys now w Ha Hn Hg|w cx o w' out Hr IH Hs].
  - apply genesis_inv in Hg. destruct Hg as (c & Hc & ->). unfold config_new in Hc. bd Hc as (e & H1 & Hc). apply Ok_inj in Hc. subst c. split; intros k x Hx; [|cbn in Hx; rewrite lookup_empty in Hx; discriminate Hx].
    unfold hl_new in Hx. cbn in Hx. rewrite lookup_empty in Hx. discriminate Hx.
  - apply step_gstep in Hs. destruct Hs; try exact IH.
    + destruct H0 as (l & [c0 o0 idsc ids v0 s1 acc' refs' K1 K2 K3 K4 K5 Hw] & _). rewrite Hw. exact IH.
    + destruct H1 as [c0 o0 idsc ids v0 s1 acc' refs' K1 K2 K3 K4 K5 Hw]. rewrite Hw. exact IH.
    + unfold config_update_exchange in H. bd H as (? & Hv & H). bd H as (ce & Hc & H). apply Ok_inj in H. subst cf. exact IH.
    + cbn [w_config]. change (w_config (w <| w_config := cf |>)) with cf. revert IH. unfold config_update_pairs in H. revert H. generalize (w_config w) as c0. induction cs as [|p cs IHc]; intros c0 H IH; cbn [rfold] in H; [apply Ok_inj in H; subst; exact IH|].
      bd H as (c1 & H1 & H). apply (IHc _ H). apply update_pair1_inv in H1 as (Hv & cp & Hcp & Hk & Hc & _). destruct IH as [I1 I2]. split.
      * intros k x Hx. rewrite Hk in Hx. destruct (decide (k = pc_pair_id p)) as [->|Hne]; [rewrite lookup_insert in Hx; injection Hx as <-; exact (pc_rates _ _ Hv Hcp)|rewrite lookup_insert_ne in Hx by congruence; exact (I1 _ _ Hx)].
      * intros r x Hx. rewrite Hc in Hx. exact (I2 _ _ Hx).
    + change (w_config (w <| w_config := cf |>)) with cf. revert IH. unfold config_update_collaterals in H. bd H as (u0 & Hv & H). apply guard_Ok in Hv. revert H. generalize (w_config w) as c0. induction cs as [|[r0 x] cs IHc]; intros c0 H IH; cbn [rfold] in H; [apply Ok_inj in H; subst; exact IH|].
      bd H as (c1 & H1 & H). cbn [forallb] in Hv. apply andb_true_iff in Hv as [Hv Hvs]. apply (IHc Hvs _ H). bd H1 as (ce & Hce & H1). apply Ok_inj in H1. subst c1. destruct IH as [I1 I2]. split; [exact I1|].
      intros r y Hy. cbn in Hy. destruct (decide (r = r0)) as [->|Hne]; [rewrite lookup_insert in Hy; injection Hy as <-; exact (cc_rates _ _ Hv Hce)|rewrite lookup_insert_ne in Hy by congruence; exact (I2 _ _ Hy)].
    + destruct IH as [I1 I2]. split; [exact I1|]. intros r0 x Hx. cbn in Hx. apply lookup_delete_Some in Hx as [_ Hx]. exact (I2 _ _ Hx).
Qed.
Theorem C40_pair_rates E w k c : reachable E w -> pair_cfg w k = Some c -> pair_rates c.
Proof. intros Hr H. unfold pair_cfg in H. apply fmap_Some in H as (cp & H & ->). exact (proj1 (rates_reachable _ _ Hr) _ _ H). Qed.
Theorem C40_collateral_rates E w r c : reachable E w -> coll_cfg w r = Some c -> collateral_rates c.
Proof. intros Hr H. unfold coll_cfg, g_collateral_configs in H. rewrite lookup_fmap in H. apply fmap_Some in H as (cp & H & ->). exact (proj2 (rates_reachable _ _ Hr) _ _ H). Qed.
Example C40_rates_ex : (exists c, pair_cfg W2 1%N = Some c) /\ (exists c, coll_cfg W2 20%N = Some c).
Proof. split; [destruct (pair_cfg W2 1%N) eqn:H|destruct (coll_cfg W2 20%N) eqn:H]; try (eexists; reflexivity); exfalso; vm_compute in H; discriminate H. Qed.
