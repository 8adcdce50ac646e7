(** * What update_pairs does to each pair (for C19, C41). *)
From Verif Require Import Base DFloat Lists Types Config Oracle Pool Account Fees Referral ExInternal Exchange System Scenario Sums Trace Frames Calls Shape Spec SpecOracle SpecTrading SpecMargin SpecFunding P_Ledger P_DFloat Witness Props_Config Props_Rates P_Fees P_Tokens P_Oracle P_Keeper Trading P_Positions P_Positions2 P_Orders P_Final P_OrderCall Props_Positions Props_LP.

Definition upd1 (now : Z) (pc : pair_config) (price : Z) (pp pp2 : pool_position) (fpd : Z) : Prop :=
  let pp1 := resnap price pp <| pp_last_price := price |> <| pp_last_update := now |> in
  period_of now (pp_last_update pp) = 0 /\ pp2 = pp1 /\ fpd = 0 \/
  period_of now (pp_last_update pp) <> 0 /\ x_funding_step pc pp1 (skew_at pp price) (Z.abs (skew_at pp price)) price (period_of now (pp_last_update pp)) = Ok (pp2, fpd).
Definition due1 (now : Z) (c : vconfig) (o : voracle) (m : gmap pair_id pool_position) (k : pair_id) : bool :=
  match vc_pairs c !! k, vo_prices o !! k, m !! k with
  | Some pc, Some price, Some pp => (pc_update_period_seconds pc <=? now - pp_last_update pp) || (pc_update_price_delta_ratio pc <=? Z.quot (Z.abs (price - pp_last_price pp) * E18) (pp_last_price pp))
  | _, _, _ => false end.
Lemma upd_list now c o ks : forall p l0 p' fls, rfold (upd_pair1 now c o) (p, l0) ks = Ok (p', fls) -> NoDup ks ->
  vp_comp p' = vp_comp p /\ vp_vb p' = vp_vb p /\ vp_base p' = vp_base p /\ (forall k, k ∉ ks -> vp_positions p' !! k = vp_positions p !! k /\ real p' !! k = real p !! k) /\
  fls = l0 ++ map (due1 now c o (vp_positions p)) ks /\
  exists F, vp_upf p' = vp_upf p + lsum F ks /\
    forall k, k ∈ ks -> exists pc price pp pp2, vc_pairs c !! k = Some pc /\ vo_prices o !! k = Some price /\ vp_positions p !! k = Some pp /\ vp_positions p' !! k = Some pp2 /\ upd1 now pc price pp pp2 (F k).
Proof.
  induction ks as [|k ks IH]; intros p l0 p' fls H Hn; cbn [rfold] in H.
  - apply Ok_inj in H. injection H as <- <-. do 3 (split; [reflexivity|]). split; [intros; split; reflexivity|]. split; [rewrite app_nil_r; reflexivity|]. exists (fun _ => 0). split; [unfold lsum; simpl; lia|]. intros k Hk. inversion Hk.
  - bd H as ([p1 l1] & H1 & H). inversion Hn as [|? ? Hni Hn']; subst. destruct (IH _ _ _ _ H Hn') as (I1 & I2 & I3 & I4 & I5 & F & I6 & I7).
    unfold upd_pair1 in H1. bd H1 as ([q b] & Hq & H1). apply Ok_inj in H1. injection H1 as <- <-. apply update_pair_inv in Hq as (pc & price & pp & pp1 & pp2 & fpd & Hpc & Hpr & Hpp & Epp1 & Hcase & Hq & Hb). subst pp1.
    assert (vp_positions q = <[k := pp2]> (vp_positions p)) as E1 by (rewrite Hq; reflexivity).
    assert (real q = <[k := pp2]> (real p)) as E2. { rewrite Hq. rewrite (real_g (put_snap p k pp pp2)) by reflexivity. apply P_Positions.put_snap_real. }
    split; [rewrite I1, Hq; reflexivity|]. split; [rewrite I2, Hq; reflexivity|]. split; [rewrite I3, Hq; reflexivity|]. split; [|split].
    + intros j Hj. destruct (I4 j) as [A B]; [intros Hj'; apply Hj; right; exact Hj'|]. assert (k <> j) by (intros ->; apply Hj; left). rewrite A, B, E1, E2, !lookup_insert_ne by assumption. split; reflexivity.
    + rewrite I5, <- app_assoc. f_equal. cbn [map app]. f_equal.
      * rewrite Hb. unfold due1. rewrite Hpc, Hpr, Hpp. reflexivity.
      * apply map_ext_in. intros j Hj. unfold due1. rewrite E1, lookup_insert_ne; [reflexivity|]. intros ->. apply Hni. apply elem_of_list_In. exact Hj.
    + exists (fun j => if decide (j = k) then fpd else F j). split.
      * rewrite I6, Hq, lsum_cons. cbn [vp_upf]. rewrite decide_True by reflexivity. rewrite (lsum_ext (fun j => if decide (j = k) then fpd else F j) F ks); [simpl; lia|]. intros j Hj. rewrite decide_False; [reflexivity|]. intros ->. contradiction.
      * intros j Hj. apply elem_of_cons in Hj as [->|Hj].
        -- exists pc, price, pp, pp2. split; [exact Hpc|]. split; [exact Hpr|]. split; [exact Hpp|]. split; [rewrite (proj1 (I4 k Hni)), E1; apply lookup_insert|]. rewrite decide_True by reflexivity. exact Hcase.
        -- assert (k <> j) by (intros ->; contradiction). destruct (I7 j Hj) as (pcj & prj & ppj & ppj2 & J1 & J2 & J3 & J4 & J5). rewrite E1, lookup_insert_ne in J3 by assumption. exists pcj, prj, ppj, ppj2. rewrite decide_False by congruence. auto.
Qed.

Lemma period_zero_iff now last : period_of now last = 0 <-> now = last.
Proof.
  unfold period_of. split; [|intros ->; rewrite Z.sub_diag; reflexivity]. intros H. destruct (Z.eq_dec now last) as [|Hne]; [assumption|]. exfalso.
  assert (0 < E18) as HE by reflexivity. rewrite Z.quot_mul_cancel_r in H by (unfold E18; lia).
  destruct (Z.lt_ge_cases last now) as [Hl|Hl].
  - pose proof (quot_bounds ((now - last) * E18) 31536000 ltac:(nia) ltac:(lia)) as [_ B]. rewrite H in B. unfold E18 in B. lia.
  - replace ((now - last) * E18) with (- ((last - now) * E18)) in H by lia. rewrite Z.quot_opp_l in H by lia. pose proof (quot_bounds ((last - now) * E18) 31536000 ltac:(nia) ltac:(lia)) as [_ B]. unfold E18 in *. lia.
Qed.
(** One call. *)
Record updates (w w' : world) (ps : list pair_id) (fls : list bool) (F : pair_id -> Z) : Prop := {
  ud_upf : po_upf (w_pool w') = po_upf (w_pool w) + lsum F (distinct ps);
  ud_same : po_base (w_pool w') = po_base (w_pool w) /\ po_vb (w_pool w') = po_vb (w_pool w) /\ w_now w' = w_now w /\ w_config w' = w_config w /\ w_accounts w' = w_accounts w;
  ud_out : forall k, k ∉ ps -> po_positions (w_pool w') !! k = po_positions (w_pool w) !! k;
  ud_flags : fls = map (is_due w w') (distinct ps);
  ud_in : forall k, k ∈ ps -> exists pc, pair_cfg w k = Some pc /\ 0 < price_of w' k /\ po_positions (w_pool w') !! k = Some (pool_pair w' k) /\ upd1 (w_now w) pc (price_of w' k) (pool_pair w k) (pool_pair w' k) (F k) }.
Lemma updates_intro E cx w ps upd w' out : step E cx w (OUpdatePairs ps upd) = Ok (w', out) -> exists F, updates w w' ps (o_flags out) F.
Proof.
  intros H. pose proof H as Hpos. apply step_exec' in Hpos. simpl in Hpos. unfold m_update_pairs in Hpos. cbv zeta in Hpos. bd Hpos as (c0 & Hc0 & Hpos). bd Hpos as (feeds & Hf & Hpos). bd Hpos as ([orc o] & Ho & Hpos). assert (oracle_pos o) as Hop by (eapply get_oracle_pos; eauto).
  pose proof (prices_ok_feeds _ _ _ _ _ _ _ _ Hc0 Hf Ho) as Hpk. bd Hpos as ([p fls] & Hx & Hpos). bd Hpos as (n & Hn & Hpos). bd Hpos as ([w2 rew] & Hm & Hpos). apply Ok_inj in Hpos. injection Hpos as Ew2 <-. apply mint_reward_inv in Hm as (_ & Em & _). rewrite <- Ew2, Em. clear dependent w'.
  destruct (upd_list _ _ _ _ _ _ _ _ Hx (NoDup_elements _)) as (A1 & A2 & A3 & A4 & A5 & F & A6 & A7). exists F.
  match goal with |- updates _ ?y _ _ _ => set (w' := y) end. assert (w_pool w' = vp_realize p) as Ew by reflexivity. assert (w_oracle w' = orc) as Eo by reflexivity.
  assert (cached_ok (w_now w') p) as Hcached. { pose proof (upd_pairs_rel _ _ _ _ _ _ _ _ Hx) as Hrel. exact (proj1 (Hrel (cached_new _ _ _))). }
  destruct (vp_realize_pool p) as (R1 & R2 & R3 & R4 & R5).
  assert (forall k, k ∈ ps <-> k ∈ elements (list_to_set ps : gset pair_id)) as Hmem by (intros k; rewrite elem_of_elements, elem_of_list_to_set; reflexivity).
  assert (forall k, k ∈ ps -> vp_positions (get_pool w (list_to_set ps)) !! k = Some (pool_pair w k)) as Hget by (intros k Hk; apply get_pool_cached, elem_of_list_to_set; exact Hk).
  assert (forall k price, vo_prices o !! k = Some price -> price_of w' k = price) as Hprice.
  { intros k price Hk. pose proof (pk_stored _ _ _ _ _ _ _ Hpk _ _ Hk) as Hs. unfold price_of, stored_price. rewrite Eo. destruct (or_prices orc !! k) as [[p0 t0]|]; [|discriminate Hs]. cbn in Hs. injection Hs as ->. reflexivity. }
  assert (forall k pc, k ∈ ps -> vc_pairs c0 !! k = Some pc -> pair_cfg w k = Some pc) as Hcfg.
  { intros k pc Hk Hpc. destruct (vc_new_spec _ _ _ Hc0) as (_ & _ & V3 & _). destruct (V3 k) as (pcc & V4 & V5); [apply elem_of_list_to_set; exact Hk|]. unfold pair_cfg. rewrite V4. cbn. rewrite Hpc in V5. injection V5 as ->. reflexivity. }
  constructor.
  - rewrite Ew, R2, A6. unfold distinct. reflexivity.
  - rewrite Ew, R5, R1, A1, A2. split; [reflexivity|]. split; [reflexivity|]. split; [reflexivity|]. split; reflexivity.
  - intros k Hk. destruct (A4 k) as [_ B]; [rewrite <- Hmem; exact Hk|]. rewrite Ew. change (po_positions (vp_realize p)) with (real p). rewrite B, real_get_pool. reflexivity.
  - cbn [o_flags]. change (fls = map (is_due w w') (distinct ps)). rewrite A5. cbn [app]. unfold distinct. apply map_ext_in. intros k Hk. apply elem_of_list_In in Hk. destruct (A7 k Hk) as (pc & price & pp & pp2 & J1 & J2 & J3 & J4 & J5). apply Hmem in Hk.
    unfold due1, is_due. rewrite J1, J2, J3, (Hcfg _ _ Hk J1). unfold due, elapsed. rewrite (Hget k Hk) in J3. injection J3 as <-. rewrite (Hprice _ _ J2). reflexivity.
  - intros k Hk. apply Hmem in Hk as Hk2. destruct (A7 k Hk2) as (pc & price & pp & pp2 & J1 & J2 & J3 & J4 & J5). rewrite (Hget k Hk) in J3. injection J3 as <-. exists pc. split; [exact (Hcfg _ _ Hk J1)|]. rewrite (Hprice _ _ J2). split; [exact (Hop _ _ J2)|].
    pose proof (pool_pair_cached w' p k pp2 Hcached Ew J4) as Epp. rewrite Epp. split; [|exact J5].
    rewrite Ew. change (po_positions (vp_realize p)) with (real p). destruct (Hcached _ _ J4) as [->|[Hnone _]]; [reflexivity|]. exfalso.
    (* an updated pair is written back *)
    assert (is_Some (real p !! k)) as [? Hs]; [|congruence].
    clear - Hx Hk2. revert Hx Hk2. generalize (get_pool w (list_to_set ps)) as q0, (@nil bool) as l0. generalize (elements (list_to_set ps : gset pair_id)) as ks.
    assert (forall ks q0 l0 p fls k, rfold (upd_pair1 (w_now w) c0 o) (q0, l0) ks = Ok (p, fls) -> (k ∈ ks \/ is_Some (real q0 !! k)) -> is_Some (real p !! k)) as Hg; [|intros; eapply Hg; eauto].
    induction ks as [|j ks IH]; intros q0 l0 p1 f1 k1 H Hor; cbn [rfold] in H; [apply Ok_inj in H; injection H as <- <-; destruct Hor as [Hin|Hs]; [inversion Hin|exact Hs]|].
    bd H as ([q l1] & H1 & H). apply (IH _ _ _ _ _ H). unfold upd_pair1 in H1. bd H1 as ([q' b] & Hq & H1). apply Ok_inj in H1. injection H1 as <- <-. apply update_pair_inv in Hq as (pc & price & pp & pp1 & pp2 & fpd & _ & _ & _ & _ & _ & Hq & _).
    assert (real q' = <[j := pp2]> (real q0)) as E2. { rewrite Hq. rewrite (real_g (put_snap q0 j pp pp2)) by reflexivity. apply P_Positions.put_snap_real. }
    rewrite E2. destruct (decide (k1 = j)) as [->|Hne]; [right; rewrite lookup_insert; eauto|]. destruct Hor as [Hin|Hs]; [apply elem_of_cons in Hin as [->|Hin]; [congruence|left; exact Hin]|right; rewrite lookup_insert_ne by congruence; exact Hs].
Qed.
