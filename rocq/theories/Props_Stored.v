(** * C39, C40 (continued): what a configuration call stores, field by field, and what every reachable state holds. *)
From Verif Require Import Base DFloat Lists Types Config Oracle Pool Account Fees Referral ExInternal Exchange System Scenario Sums Trace Frames Calls Shape Spec SpecOracle SpecTrading SpecMargin P_Ledger P_DFloat Witness Props_Config.

(** ** Specification *)
(** A decimal [v] given by the owner reads back as [r] (see C39_sign_magnitude_and_error for what that means). *)
Definition reads_as (v r : Z) : Prop := dfloat_round v = Ok r.
(** A duration in seconds is kept in 16 bits. *)
Definition wraps_to (v r : Z) : Prop := r = v mod 65536.
(** The exchange configuration [r] is what [c] reads back as. *)
Record exchange_stored (c r : exchange_config) : Prop := {
  es_positions : ec_positions_max r = ec_positions_max c; es_collaterals : ec_collaterals_max r = ec_collaterals_max c; es_requests : ec_active_requests_max r = ec_active_requests_max c;
  es_cap : reads_as (ec_skew_ratio_cap c) (ec_skew_ratio_cap r); es_off : reads_as (ec_adl_offset c) (ec_adl_offset r); es_a : reads_as (ec_adl_a c) (ec_adl_a r); es_b : reads_as (ec_adl_b c) (ec_adl_b r);
  es_add : reads_as (ec_fee_liquidity_add c) (ec_fee_liquidity_add r); es_rem : reads_as (ec_fee_liquidity_remove c) (ec_fee_liquidity_remove r);
  es_protocol : reads_as (ec_fee_share_protocol c) (ec_fee_share_protocol r); es_treasury : reads_as (ec_fee_share_treasury c) (ec_fee_share_treasury r); es_referral : reads_as (ec_fee_share_referral c) (ec_fee_share_referral r);
  es_max : reads_as (ec_fee_max c) (ec_fee_max r); es_burn : reads_as (ec_protocol_burn_amount c) (ec_protocol_burn_amount r); es_reward : reads_as (ec_reward_keeper c) (ec_reward_keeper r) }.
Record pair_stored (c r : pair_config) : Prop := {
  ps_id : pc_pair_id r = pc_pair_id c; ps_age : wraps_to (pc_price_age_max c) (pc_price_age_max r); ps_period : wraps_to (pc_update_period_seconds c) (pc_update_period_seconds r);
  ps_oi : reads_as (pc_oi_max c) (pc_oi_max r); ps_min : reads_as (pc_trade_size_min c) (pc_trade_size_min r); ps_delta : reads_as (pc_update_price_delta_ratio c) (pc_update_price_delta_ratio r);
  ps_mi : reads_as (pc_margin_initial c) (pc_margin_initial r); ps_mm : reads_as (pc_margin_maintenance c) (pc_margin_maintenance r);
  ps_f1 : reads_as (pc_funding_1 c) (pc_funding_1 r); ps_f2 : reads_as (pc_funding_2 c) (pc_funding_2 r); ps_f2d : reads_as (pc_funding_2_delta c) (pc_funding_2_delta r); ps_f2y : reads_as (pc_funding_2_decay c) (pc_funding_2_decay r);
  ps_fp0 : reads_as (pc_funding_pool_0 c) (pc_funding_pool_0 r); ps_fp1 : reads_as (pc_funding_pool_1 c) (pc_funding_pool_1 r); ps_fs : reads_as (pc_funding_share c) (pc_funding_share r);
  ps_fee0 : reads_as (pc_fee_0 c) (pc_fee_0 r); ps_fee1 : reads_as (pc_fee_1 c) (pc_fee_1 r) }.
Record collateral_stored (c r : collateral_config) : Prop := {
  cs_pair : cc_pair_id r = cc_pair_id c; cs_age : wraps_to (cc_price_age_max c) (cc_price_age_max r);
  cs_discount : reads_as (cc_discount c) (cc_discount r); cs_margin : reads_as (cc_margin c) (cc_margin r) }.
(** The last entry of a list for a key: later entries of one call replace earlier ones. *)
Definition last_pair (cs : list pair_config) (k : N) : option pair_config := find (fun c => pc_pair_id c =? k)%N (rev cs).
Definition last_coll (cs : list (N * collateral_config)) (r : N) : option collateral_config := snd <$> find (fun x => fst x =? r)%N (rev cs).
(** Nothing outside the configuration. *)
Definition same_but_config (w w' : world) : Prop := w' = w <| w_config := w_config w' |>.

(** ** Storing *)
Ltac steps_of H := repeat match type of H with (_ ≫= _) = Ok _ => let x := fresh "f" in let Hf := fresh "Hf" in bd H as (x & Hf & H) end.
Lemma ec_stored_intro e ce : ec_compress e = Ok ce -> exchange_stored e (ec_decompress ce).
Proof. unfold ec_compress. intros H. steps_of H. apply Ok_inj in H. subst ce. constructor; cbn; try reflexivity; eapply field_round; eassumption. Qed.
Lemma pc_stored_intro p cp : pc_compress p = Ok cp -> pair_stored p (pc_decompress cp).
Proof. unfold pc_compress. intros H. steps_of H. apply Ok_inj in H. subst cp. constructor; cbn; try reflexivity; eapply field_round; eassumption. Qed.
Lemma cc_stored_intro c cc : cc_compress c = Ok cc -> collateral_stored c (cc_decompress cc).
Proof. unfold cc_compress. intros H. steps_of H. apply Ok_inj in H. subst cc. constructor; cbn; try reflexivity; eapply field_round; eassumption. Qed.

Theorem C39_exchange_config_read_back E cx w c w' out : step E cx w (OUpdateExchangeConfig c) = Ok (w', out) ->
  ec_validate c = true /\ exchange_stored c (g_exchange_config w') /\ (forall k, pair_cfg w' k = pair_cfg w k) /\ (forall r, coll_cfg w' r = coll_cfg w r) /\ same_but_config w w'.
Proof.
  intros H. apply step_gstep in H. remember (OUpdateExchangeConfig c) as o eqn:Eo. destruct H; try discriminate Eo; try (subst; discriminate). injection Eo as ->.
  unfold config_update_exchange in H. bd H as (? & Hv & H). bd H as (ce & Hc & H). apply Ok_inj in H. subst cf. apply guard_Ok in Hv. split; [exact Hv|]. split; [exact (ec_stored_intro _ _ Hc)|]. split; [reflexivity|]. split; [reflexivity|]. reflexivity.
Qed.
Lemma update_pairs_inv cs : forall c c', config_update_pairs c cs = Ok c' ->
  Forall (fun p => pc_validate p = true) cs /\ cf_exchange c' = cf_exchange c /\ cf_collaterals c' = cf_collaterals c /\
  forall k, match last_pair cs k with Some p => exists cp, hl_kvs (cf_pairs c') !! k = Some cp /\ pc_compress p = Ok cp | None => hl_kvs (cf_pairs c') !! k = hl_kvs (cf_pairs c) !! k end.
Proof.
  unfold config_update_pairs, last_pair. induction cs as [|p cs IH]; intros c c' H; cbn [rfold] in H.
  - apply Ok_inj in H. subst c'. split; [constructor|]. split; [reflexivity|]. split; [reflexivity|]. intros k. reflexivity.
  - bd H as (c1 & H1 & H). apply update_pair1_inv in H1 as (Hv & cp & Hc & Hk & Hcc & Hce). destruct (IH _ _ H) as (A1 & A2 & A3 & A4). split; [constructor; assumption|]. split; [congruence|]. split; [congruence|].
    intros k. specialize (A4 k). cbn [rev]. assert (find (fun c0 : pair_config => pc_pair_id c0 =? k)%N (rev cs ++ [p]) = match find (fun c0 : pair_config => pc_pair_id c0 =? k)%N (rev cs) with Some x => Some x | None => if (pc_pair_id p =? k)%N then Some p else None end) as ->.
    { clear. induction (rev cs) as [|x l IHl]; cbn; [reflexivity|]. destruct (pc_pair_id x =? k)%N; [reflexivity|exact IHl]. }
    destruct (find (fun c0 : pair_config => pc_pair_id c0 =? k)%N (rev cs)) as [x|]; [exact A4|]. rewrite A4, Hk. destruct (N.eqb_spec (pc_pair_id p) k) as [<-|Hne]; [exists cp; split; [apply lookup_insert|exact Hc]|apply lookup_insert_ne; exact Hne].
Qed.
Theorem C39_pair_configs_read_back E cx w cs w' out : step E cx w (OUpdatePairConfigs cs) = Ok (w', out) ->
  Forall (fun c => pc_validate c = true) cs /\
  (forall k, match last_pair cs k with Some c => exists r, pair_cfg w' k = Some r /\ pair_stored c r | None => pair_cfg w' k = pair_cfg w k end) /\
  g_exchange_config w' = g_exchange_config w /\ (forall r, coll_cfg w' r = coll_cfg w r) /\ same_but_config w w'.
Proof.
  intros H. apply step_gstep in H. remember (OUpdatePairConfigs cs) as o eqn:Eo. destruct H; try discriminate Eo; try (subst; discriminate). injection Eo as ->.
  apply update_pairs_inv in H as (A1 & A2 & A3 & A4). split; [exact A1|]. split.
  - intros k. specialize (A4 k). unfold pair_cfg. cbn. destruct (last_pair cs k) as [c|].
    + destruct A4 as (cp & Hk & Hc). exists (pc_decompress cp). split; [exact (f_equal (fmap pc_decompress) Hk)|exact (pc_stored_intro _ _ Hc)].
    + exact (f_equal (fmap pc_decompress) A4).
  - unfold g_exchange_config, coll_cfg, g_collateral_configs. cbn. rewrite A2, A3. split; [reflexivity|]. split; [reflexivity|]. reflexivity.
Qed.
Lemma update_colls_inv (cs : list (N * collateral_config)) : forall c c', config_update_collaterals c cs = Ok c' ->
  Forall (fun x => cc_validate (snd x) = true) cs /\ cf_exchange c' = cf_exchange c /\ cf_pairs c' = cf_pairs c /\
  forall r, match last_coll cs r with Some x => exists cc, cf_collaterals c' !! r = Some cc /\ cc_compress x = Ok cc | None => cf_collaterals c' !! r = cf_collaterals c !! r end.
Proof.
  intros c c' H. unfold config_update_collaterals in H. bd H as (u0 & Hv & H). apply guard_Ok in Hv. split. { apply Forall_forall. intros x Hx. rewrite forallb_forall in Hv. apply Hv. apply elem_of_list_In. exact Hx. }
  clear Hv. revert c c' H. unfold last_coll. induction cs as [|p cs IH]; intros c c' H; cbn [rfold] in H.
  - apply Ok_inj in H. subst c'. split; [reflexivity|]. split; [reflexivity|]. intros k. reflexivity.
  - bd H as (c1 & H1 & H). bd H1 as (ce & Hce & H1). apply Ok_inj in H1. subst c1. destruct (IH _ _ H) as (A2 & A3 & A4). split; [exact A2|]. split; [exact A3|].
    intros k. specialize (A4 k). cbn [rev]. assert (find (fun c0 : N * collateral_config => fst c0 =? k)%N (rev cs ++ [p]) = match find (fun c0 : N * collateral_config => fst c0 =? k)%N (rev cs) with Some x => Some x | None => if (fst p =? k)%N then Some p else None end) as ->.
    { clear. induction (rev cs) as [|x l IHl]; cbn; [reflexivity|]. destruct (fst x =? k)%N; [reflexivity|exact IHl]. }
    destruct (find (fun c0 : N * collateral_config => fst c0 =? k)%N (rev cs)) as [x|]; [exact A4|]. cbn [fmap option_fmap option_map] in A4. rewrite A4. destruct p as [r0 x0]. cbn [fst snd] in *. cbn. destruct (N.eqb_spec r0 k) as [<-|Hne]; cbn; [exists ce; split; [apply lookup_insert|exact Hce]|apply lookup_insert_ne; exact Hne].
Qed.
Theorem C39_collateral_configs_read_back E cx w (cs : list (N * collateral_config)) w' out : step E cx w (OUpdateCollateralConfigs cs) = Ok (w', out) ->
  Forall (fun x => cc_validate (snd x) = true) cs /\
  (forall r, match last_coll cs r with Some c => exists q, coll_cfg w' r = Some q /\ collateral_stored c q | None => coll_cfg w' r = coll_cfg w r end) /\
  g_exchange_config w' = g_exchange_config w /\ (forall k, pair_cfg w' k = pair_cfg w k) /\ same_but_config w w'.
Proof.
  intros H. apply step_gstep in H. remember (OUpdateCollateralConfigs cs) as o eqn:Eo. destruct H; try discriminate Eo; try (subst; discriminate). injection Eo as ->.
  apply update_colls_inv in H as (A1 & A2 & A3 & A4). split; [exact A1|]. split.
  - intros r. specialize (A4 r). unfold coll_cfg, g_collateral_configs. cbn. rewrite !lookup_fmap. destruct (last_coll cs r) as [c|].
    + destruct A4 as (cp & Hk & Hc). exists (cc_decompress cp). split; [exact (f_equal (fmap cc_decompress) Hk)|exact (cc_stored_intro _ _ Hc)].
    + exact (f_equal (fmap cc_decompress) A4).
  - unfold g_exchange_config, pair_cfg. cbn. rewrite A2, A3. split; [reflexivity|]. split; [reflexivity|]. reflexivity.
Qed.
Theorem C39_collateral_config_removed E cx w r w' out : step E cx w (ORemoveCollateralConfig r) = Ok (w', out) ->
  coll_cfg w' r = None /\ (forall q, q <> r -> coll_cfg w' q = coll_cfg w q) /\ g_exchange_config w' = g_exchange_config w /\ (forall k, pair_cfg w' k = pair_cfg w k) /\ same_but_config w w'.
Proof.
  intros H. apply step_gstep in H. remember (ORemoveCollateralConfig r) as o eqn:Eo. destruct H; try discriminate Eo; try (subst; discriminate). injection Eo as ->.
  unfold coll_cfg, g_collateral_configs. cbn. split; [rewrite lookup_fmap, lookup_delete; reflexivity|]. split; [intros q Hq; rewrite !lookup_fmap, lookup_delete_ne by congruence; reflexivity|]. split; [reflexivity|]. split; reflexivity.
Qed.
(** Nothing else changes the configuration. *)
Theorem C39_config_changes_only_so E cx w o w' out : step E cx w o = Ok (w', out) ->
  match o with OUpdateExchangeConfig _ | OUpdatePairConfigs _ | OUpdateCollateralConfigs _ | ORemoveCollateralConfig _ => True | _ => w_config w' = w_config w end.
Proof.
  intros H. apply step_gstep in H. destruct H; try reflexivity; try exact I.
  - destruct H0 as (l & [c0 o0 idsc ids v0 s1 acc' refs' K1 K2 K3 K4 K5 Hw] & _). assert (w_config w' = w_config w) as Hc by (rewrite Hw; reflexivity). destruct o; try exact I; exact Hc.
  - destruct H1 as [c0 o0 idsc ids v0 s1 acc' refs' K1 K2 K3 K4 K5 Hw]. rewrite Hw. reflexivity.
  - destruct o; try exact I; reflexivity.
  - destruct o; try exact I; reflexivity.
Qed.

(** ** C40: the configuration in every reachable state *)
(** Every stored pair or collateral configuration is the read-back of one that passed validation (at the time it was set). *)
Lemma stored_reachable E w : reachable E w ->
  (forall k cp, hl_kvs (cf_pairs (w_config w)) !! k = Some cp -> exists p, pc_pair_id p = k /\ pc_validate p = true /\ pc_compress p = Ok cp) /\
  (forall r cc, cf_collaterals (w_config w) !! r = Some cc -> exists c, cc_validate c = true /\ cc_compress c = Ok cc).
Proof.
  induction 1 as [owner auth keys now w Ha Hn Hg|w cx o w' out Hr IH Hs].
  - apply genesis_inv in Hg as (c & Hc & ->). unfold config_new in Hc. bd Hc as (e & _ & Hc). apply Ok_inj in Hc. subst c. split; intros k x Hx; cbn in Hx; rewrite lookup_empty in Hx; discriminate.
  - pose proof (C39_config_changes_only_so _ _ _ _ _ _ Hs) as Hso. apply step_gstep in Hs. destruct IH as [I1 I2].
    destruct o; try (cbn [w_config] in Hso; rewrite Hso; split; assumption); clear Hso.
    + remember (OUpdateExchangeConfig c) as o eqn:Eo. destruct Hs; try discriminate Eo; try (subst; discriminate). injection Eo as ->. unfold config_update_exchange in H. bd H as (? & Hv & H). bd H as (ce & Hc & H). apply Ok_inj in H. subst cf. split; assumption.
    + remember (OUpdatePairConfigs cs) as o eqn:Eo. destruct Hs; try discriminate Eo; try (subst; discriminate). injection Eo as ->. apply update_pairs_inv in H as (A1 & A2 & A3 & A4). cbn. rewrite A3. split; [|exact I2].
      intros k cp Hk. specialize (A4 k). destruct (last_pair cs k) as [p|] eqn:Hl.
      * destruct A4 as (cp' & Hk' & Hc). exists p. unfold last_pair in Hl. apply find_some in Hl as [Hin He]. apply N.eqb_eq in He. split; [exact He|]. rewrite Forall_forall in A1. split; [apply A1; apply elem_of_list_In; apply in_rev; exact Hin|].
        rewrite Hc. f_equal. assert (Some cp' = Some cp) as Hx by (rewrite <- Hk; symmetry; exact Hk'). injection Hx as ->. reflexivity.
      * apply I1. rewrite <- Hk. symmetry. exact A4.
    + remember (OUpdateCollateralConfigs cs) as o eqn:Eo. destruct Hs; try discriminate Eo; try (subst; discriminate). injection Eo as ->. apply update_colls_inv in H as (A1 & A2 & A3 & A4). cbn. rewrite A3. split; [exact I1|].
      intros k cp Hk. specialize (A4 k). destruct (last_coll cs k) as [p|] eqn:Hl.
      * destruct A4 as (cp' & Hk' & Hc). exists p. unfold last_coll in Hl. apply fmap_Some in Hl as (x & Hl & ->). apply find_some in Hl as [Hin _]. rewrite Forall_forall in A1. split; [apply A1; apply elem_of_list_In; apply in_rev; exact Hin|].
        rewrite Hc. f_equal. assert (Some cp' = Some cp) as Hx by (rewrite <- Hk; symmetry; exact Hk'). injection Hx as ->. reflexivity.
      * apply (I2 k cp). rewrite <- Hk. symmetry. exact A4.
    + remember (ORemoveCollateralConfig r) as o eqn:Eo. destruct Hs; try discriminate Eo; try (subst; discriminate). injection Eo as ->. split; [exact I1|]. cbn. intros k cc Hk. apply lookup_delete_Some in Hk as [_ Hk]. eapply I2. exact Hk.
Qed.
(** So a pair configuration that is read back passes validation exactly when the durations did not wrap to 0 and the
    rounded margins kept their order; everything else in it is always within the bounds. *)
Theorem C40_pair_config_in_every_state E w k r : reachable E w -> pair_cfg w k = Some r ->
  pc_pair_id r = k /\ (exists c, pc_validate c = true /\ pair_stored c r) /\
  (pc_validate r = true <-> pc_price_age_max r <> 0 /\ pc_update_period_seconds r <> 0 /\ pc_margin_maintenance r <= pc_margin_initial r) /\
  100 * pc_margin_initial r >= 99 * pc_margin_maintenance r.
Proof.
  intros Hr Hk. unfold pair_cfg in Hk. apply fmap_Some in Hk as (cp & Hk & ->). destruct (proj1 (stored_reachable _ _ Hr) _ _ Hk) as (p & Hid & Hv & Hc). pose proof (pc_stored_intro _ _ Hc) as Hst.
  split; [rewrite <- Hid; apply (ps_id _ _ Hst)|]. split; [exists p; split; assumption|].
  unfold pc_validate in Hv |- *. split_andb. repeat match goal with H : (_ <=? _) = true |- _ => apply Z.leb_le in H | H : (_ <? _) = true |- _ => apply Z.ltb_lt in H end.
  assert (0 <= pc_price_age_max (pc_decompress cp) /\ 0 <= pc_update_period_seconds (pc_decompress cp)) as [Hx1 Hx2]. { rewrite (ps_age _ _ Hst), (ps_period _ _ Hst). split; apply Z.mod_pos_bound; lia. }
  assert (forall v x, reads_as v x -> 0 <= v -> 0 <= x <= v) as Hnn by (intros v x Hx Hv0; apply (proj1 (C39_sign_magnitude_and_error _ _ Hx) Hv0)).
  assert (forall v x, reads_as v x -> 0 < v -> 0 < x) as Hpp. { intros v x Hx Hv0. destruct (C39_sign_magnitude_and_error _ _ Hx) as (S1 & _ & S3 & _). specialize (S1 ltac:(lia)). destruct (Z.eq_dec x 0) as [E0|]; [apply S3 in E0; lia|lia]. }
  pose proof (Hnn _ _ (ps_oi _ _ Hst) ltac:(assumption)) as B1. pose proof (Hnn _ _ (ps_min _ _ Hst) ltac:(assumption)) as B2. pose proof (Hpp _ _ (ps_delta _ _ Hst) ltac:(assumption)) as B3.
  pose proof (Hnn _ _ (ps_mi _ _ Hst) ltac:(assumption)) as B4. pose proof (Hnn _ _ (ps_mm _ _ Hst) ltac:(assumption)) as B5. pose proof (Hnn _ _ (ps_f1 _ _ Hst) ltac:(assumption)) as B6. pose proof (Hnn _ _ (ps_f2 _ _ Hst) ltac:(assumption)) as B7.
  pose proof (Hnn _ _ (ps_f2d _ _ Hst) ltac:(assumption)) as B8. pose proof (Hnn _ _ (ps_f2y _ _ Hst) ltac:(assumption)) as B9. pose proof (Hnn _ _ (ps_fp0 _ _ Hst) ltac:(assumption)) as B10. pose proof (Hnn _ _ (ps_fp1 _ _ Hst) ltac:(assumption)) as B11.
  pose proof (Hnn _ _ (ps_fs _ _ Hst) ltac:(assumption)) as B12. pose proof (Hnn _ _ (ps_fee0 _ _ Hst) ltac:(assumption)) as B13. pose proof (Hnn _ _ (ps_fee1 _ _ Hst) ltac:(assumption)) as B14.
  split.
  - split.
    + intros Hv. split_andb. repeat match goal with H : (_ <=? _) = true |- _ => apply Z.leb_le in H | H : (_ <? _) = true |- _ => apply Z.ltb_lt in H end. split; [lia|]. split; [lia|assumption].
    + intros (N1 & N2 & N3). repeat (apply andb_true_iff; split); try (apply Z.leb_le; lia); try (apply Z.ltb_lt; lia).
  - pose proof (C39_monotone_up_to_rounding _ _ _ _ (ps_mm _ _ Hst) (ps_mi _ _ Hst) ltac:(lia)) as (_ & _ & Hm). lia.
Qed.
Theorem C40_collateral_config_in_every_state E w r q : reachable E w -> coll_cfg w r = Some q ->
  (exists c, cc_validate c = true /\ collateral_stored c q) /\ (cc_validate q = true <-> cc_price_age_max q <> 0).
Proof.
  intros Hr Hk. unfold coll_cfg, g_collateral_configs in Hk. rewrite lookup_fmap in Hk. apply fmap_Some in Hk as (cc & Hk & ->). destruct (proj2 (stored_reachable _ _ Hr) _ _ Hk) as (c & Hv & Hc). pose proof (cc_stored_intro _ _ Hc) as Hst.
  split; [exists c; split; assumption|]. unfold cc_validate in Hv |- *. split_andb. repeat match goal with H : (_ <=? _) = true |- _ => apply Z.leb_le in H | H : (_ <? _) = true |- _ => apply Z.ltb_lt in H end.
  assert (0 <= cc_price_age_max (cc_decompress cc)) as Hx1. { rewrite (cs_age _ _ Hst). apply Z.mod_pos_bound; lia. }
  pose proof (proj1 (C39_sign_magnitude_and_error _ _ (cs_margin _ _ Hst)) ltac:(assumption)) as B1. pose proof (proj1 (C39_sign_magnitude_and_error _ _ (cs_discount _ _ Hst)) ltac:(lia)) as B2.
  assert (800000000000000000 <= cc_discount (cc_decompress cc)) as B3.
  { change 800000000000000000 with (8 * 10 ^ 17) in *. unfold cc_compress in Hc. bd Hc as (f1 & HF1 & Hc). bd Hc as (f2 & HF2 & Hc). apply Ok_inj in Hc. subst cc. cbn. eapply field_ge; eauto; lia. }
  split.
  - intros Hv. split_andb. repeat match goal with H : (_ <=? _) = true |- _ => apply Z.leb_le in H | H : (_ <? _) = true |- _ => apply Z.ltb_lt in H end. lia.
  - intros N1. repeat (apply andb_true_iff; split); try (apply Z.leb_le; lia); try (apply Z.ltb_lt; lia).
Qed.
Example C39_C40_ex : exists w, reachable sc_env w /\ (exists r, pair_cfg w 1%N = Some r /\ pc_validate r = true) /\ (exists q, coll_cfg w 20%N = Some q /\ cc_validate q = true).
Proof.
  exists W2. split; [exact W2_reach|].
  assert (match pair_cfg W2 1%N with Some r => pc_validate r | None => false end = true) as H1 by (vm_compute; reflexivity). assert (match coll_cfg W2 20%N with Some r => cc_validate r | None => false end = true) as H2 by (vm_compute; reflexivity).
  destruct (pair_cfg W2 1%N) as [r|]; [|exfalso; exact (Bool.diff_false_true H1)]. destruct (coll_cfg W2 20%N) as [q|]; [|exfalso; exact (Bool.diff_false_true H2)]. split; [exists r; auto|exists q; auto].
Qed.
