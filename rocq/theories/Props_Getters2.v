(** * Reports about the pool, the pairs, referrals and requests (C57). *)
From Verif Require Import Base DFloat Lists Types Config Oracle Pool Account Fees Referral ExInternal Exchange System Getters Scenario Sums Trace Frames Calls Shape Spec SpecRequests SpecOracle SpecTrading SpecMargin P_Ledger P_Accounts Witness Trading P_Requests P_Requests2 P_Oracle P_Orders P_Final Props_Config Props_LP Props_Requests Props_Getters.

(** The LP price the pool details quote: the pool's value, at least 1, per LP token; 1 while none exist. *)
Definition quoted_price (w : world) : Z :=
  if w_lp w =? 0 then 10 ^ 18 else Z.quot (Z.max (pool_value w) (10 ^ 18) * 10 ^ 18) (w_lp w).
(** get_pool_details reports the stored amounts, the skew ratio with its cap, the LP supply and that price. *)
Theorem C57_pool_details w d : g_pool_details w = Ok d ->
  pd_base d = po_base (w_pool w) /\ pd_vb d = po_vb (w_pool w) /\ pd_upf d = po_upf (w_pool w) /\ pd_pnl_snap d = po_pnl (w_pool w) /\
  pd_skew_ratio d = skew_ratio w /\ pd_skew_ratio_cap d = ec_skew_ratio_cap (g_exchange_config w) /\ pd_lp_supply d = w_lp w /\ pd_lp_price d = quoted_price w.
Proof.
  unfold g_pool_details. intros H. bd H as (c & Hc & H). cbv zeta in H. bd H as (pv & Hpv & H). bd H as (lp & Hlp & H). bd H as (sr & Hsr & H). apply Ok_inj in H. subst d. cbn [pd_base pd_vb pd_upf pd_pnl_snap pd_skew_ratio pd_skew_ratio_cap pd_lp_supply pd_lp_price].
  apply pool_value_cached in Hpv. subst pv. unfold x_skew_ratio in Hsr. bd Hsr as (v & Hv & Hsr). apply pool_value_cached in Hv. subst v. apply ddiv_Ok in Hsr as (_ & -> & _).
  do 4 (split; [reflexivity|]). split; [reflexivity|]. split; [rewrite (get_config_exchange _ _ _ Hc); reflexivity|]. split; [reflexivity|]. unfold quoted_price.
  destruct (w_lp w =? 0); [apply Ok_inj in Hlp; rewrite <- Hlp; reflexivity|]. apply ddiv_Ok in Hlp as (_ & -> & _). reflexivity.
Qed.
(** The quoted price is the one charged: adding liquidity mints what is paid, less the fee, divided by it. *)
Theorem C57_quoted_price_is_charged E cx w x w' out : reachable E w -> step E cx w (OAddLiquidity (BASE, x)) = Ok (w', out) ->
  o_tokens out = [(LP, Z.quot ((x - mul x (ec_fee_liquidity_add (g_exchange_config w))) * 10 ^ 18) (quoted_price w))].
Proof.
  intros Hr H. destruct (add_inv _ _ _ _ _ _ Hr H) as (lp & fee & fp & ft & Ht & _ & L). destruct L as [L1 _ L3 _ _ _]. cbn [b_amt snd] in *. rewrite Ht. f_equal. f_equal. rewrite <- L1. unfold quoted_price. destruct (w_lp w =? 0).
  - rewrite L3. symmetry. apply Z.quot_mul. discriminate.
  - destruct L3 as (p & -> & _ & ->). reflexivity.
Qed.
(** And removing liquidity pays it, less the fee, as long as the pool is worth at least 1. (A pool worth less pays its
    actual value, which is less than the quote.) *)
Theorem C57_quoted_price_is_paid E cx w l w' out : reachable E w -> step E cx w (ORemoveLiquidity (LP, l)) = Ok (w', out) ->
  exists paid value, o_tokens out = [(BASE, paid)] /\ paid = value - mul value (ec_fee_liquidity_remove (g_exchange_config w)) /\
    (10 ^ 18 <= pool_value w -> value = mul l (quoted_price w)) /\ value <= mul l (quoted_price w).
Proof.
  intros Hr H. destruct (remove_inv _ _ _ _ _ _ Hr H) as (amt & value & fee & fp & ft & Ht & _ & L). destruct L as [(p & Hp & Hz & Hv) L2 _ [La _] L5 _ _]. cbn [b_amt snd] in *. exists amt, value. split; [exact Ht|]. split; [rewrite La, L2; reflexivity|].
  assert (0 < w_lp w) as Hpos by lia. unfold quoted_price. destruct (Z.eqb_spec (w_lp w) 0) as [|_]; [contradiction|].
  split.
  - intros Hge. rewrite Hv, Hp. change E18 with (10 ^ 18). rewrite !Z.max_l by lia. reflexivity.
  - rewrite Hv. unfold mul. apply Z.quot_le_mono; [lia|]. apply Z.mul_le_mono_nonneg_l; [lia|]. rewrite Hp. change E18 with (10 ^ 18). apply Z.quot_le_mono; [exact Hpos|]. apply Z.mul_le_mono_nonneg_r; lia.
Qed.
(** get_pair_details reports, for the requested pairs in the order asked, the pool's record and the configuration of each;
    it fails exactly when one of them is not configured. *)
Lemma rmap_in {A B} (f : A -> res B) (P : A -> B -> Prop) l ys : rmap f l = Ok ys -> (forall x y, x ∈ l -> f x = Ok y -> P x y) -> Forall2 P l ys.
Proof.
  intros H. apply rmap_Forall2 in H. induction H as [|x y l ys Hx _ IH]; intros HP; constructor; [apply HP; [left|exact Hx]|apply IH; intros; apply HP; [right|]; assumption].
Qed.
Theorem C57_pair_details w ks l : g_pair_details w ks = Ok l ->
  Forall2 (fun k x => exists pc, pair_cfg w k = Some pc /\ x = (k, pool_pair w k, pc)) ks l.
Proof.
  unfold g_pair_details. cbv zeta. intros H. bd H as (c & Hc & H). unfold get_config in Hc. apply vc_new_spec in Hc as (_ & _ & C3 & _).
  apply (rmap_in _ _ _ _ H). intros k x Hk Hx. assert (k ∈ (list_to_set ks : gset pair_id)) as Hin by (apply elem_of_list_to_set; exact Hk).
  destruct (C3 _ Hin) as (pc & P1 & P2). unfold vc_pair in Hx. rewrite P2 in Hx. cbn [expect mbind res_bind] in Hx. unfold vp_position in Hx. rewrite (get_pool_cached _ _ _ Hin) in Hx. cbn [expect mbind res_bind] in Hx. apply Ok_inj in Hx. subst x.
  exists (pc_decompress pc). split; [unfold pair_cfg; rewrite P1; reflexivity|reflexivity].
Qed.
Theorem C57_pair_details_available w ks : (forall k, k ∈ ks -> is_Some (pair_cfg w k)) <-> exists l, g_pair_details w ks = Ok l.
Proof.
  split.
  - intros H. unfold g_pair_details. cbv zeta. destruct (vc_new_ok (w_config w) (list_to_set ks)) as [c Hc].
    { intros k Hk. apply elem_of_list_to_set in Hk. apply H in Hk. unfold pair_cfg in Hk. apply fmap_is_Some in Hk. exact Hk. }
    unfold get_config. rewrite Hc. cbn [mbind res_bind]. apply vc_new_spec in Hc as (_ & _ & C3 & _).
    assert (forall l, (forall k, k ∈ l -> k ∈ ks) -> exists ys, rmap (fun k => pc ← vc_pair c k; pp ← vp_position (get_pool w (list_to_set ks)) k; Ok (k, pp, pc)) l = Ok ys) as G; [|apply G; auto].
    induction l as [|k l IH]; intros Hl; [exists []; reflexivity|]. assert (k ∈ (list_to_set ks : gset pair_id)) as Hin by (apply elem_of_list_to_set, Hl; left).
    cbn [rmap]. destruct (C3 _ Hin) as (pc & P1 & P2). assert (vc_pair c k = Ok (pc_decompress pc)) as -> by (unfold vc_pair; rewrite P2; reflexivity). cbn [mbind res_bind]. assert (vp_position (get_pool w (list_to_set ks)) k = Ok (pool_pair w k)) as -> by (unfold vp_position; rewrite (get_pool_cached _ _ _ Hin); reflexivity). cbn [mbind res_bind].
    destruct IH as [ys ->]; [intros j Hj; apply Hl; right; exact Hj|]. cbn [mbind res_bind]. eauto.
  - intros [l H] k Hk. apply C57_pair_details in H. apply elem_of_list_lookup in Hk as [i Hi]. destruct (Forall2_lookup_l _ _ _ _ _ H Hi) as (x & _ & pc & Hpc & _). eauto.
Qed.
(** get_referral_details reports the referral's data and its allocations. *)
Theorem C57_referral_details w id l d : g_referral_details w id = Ok (l, d) <-> w_refs w !! id = Some d /\ l = default [] (gn_allocs (w_gen w) !! id).
Proof.
  unfold g_referral_details, gn_get_allocations. destruct (w_refs w !! id) as [d'|]; cbn [expect mbind res_bind].
  - split; [intros H; apply Ok_inj in H; injection H as -> ->; split; reflexivity|intros [H ->]; injection H as ->; reflexivity].
  - split; [discriminate|intros [H _]; discriminate H].
Qed.
(** get_collaterals lists every configured collateral once. *)
Theorem C57_collaterals w : NoDup (g_collaterals w) /\ forall r, r ∈ g_collaterals w <-> is_Some (coll_cfg w r).
Proof.
  unfold g_collaterals, coll_cfg, g_collateral_configs. split; [apply NoDup_fst_map_to_list|]. intros r. rewrite lookup_fmap, fmap_is_Some. split.
  - intros H. apply elem_of_list_fmap in H as ([k x] & -> & H). apply elem_of_map_to_list in H. exists x. exact H.
  - intros [x H]. apply elem_of_list_fmap. exists (r, x). split; [reflexivity|]. apply elem_of_map_to_list. exact H.
Qed.
(** The request getters of an account: one request, several by index (missing ones as such), and their number. *)
Theorem C57_requests w a acc is_ : w_accounts w !! a = Some acc ->
  (forall i, acc_get_request acc i = request_at w a i) /\ acc_get_requests_len acc = request_count w a /\
  (forall i, acc_get_requests_by_indexes acc is_ !! i = if decide (i ∈ is_) then Some (request_at w a i) else None).
Proof.
  intros Ha. unfold request_at, request_count. rewrite Ha. split; [reflexivity|]. split; [reflexivity|]. intros i. unfold acc_get_requests_by_indexes. induction is_ as [|j l IH]; cbn [map list_to_map foldr].
  - destruct (decide _) as [H|_]; [apply elem_of_nil in H; contradiction|reflexivity].
  - cbn [fst snd uncurry]. destruct (decide (i = j)) as [->|Hn].
    + rewrite lookup_insert. destruct (decide (j ∈ j :: l)) as [_|H]; [reflexivity|exfalso; apply H; left].
    + rewrite lookup_insert_ne by congruence. change (foldr _ ∅ _) with (list_to_map (map (fun i0 => (i0, acc_get_request acc i0)) l) : gmap N (option keeper_request)). rewrite IH.
      destruct (decide (i ∈ l)) as [H|H], (decide (i ∈ j :: l)) as [K|K]; try reflexivity; [exfalso; apply K; right; exact H|exfalso; apply elem_of_cons in K as [K|K]; [exact (Hn K)|exact (H K)]].
Qed.
Example C57_ex : reachable sc_env W3 /\ exists d l, g_pool_details W3 = Ok d /\ 0 < pd_lp_supply d /\ 10 ^ 18 < pd_lp_price d /\ g_pair_details W3 [1; 2]%N = Ok l /\ length l = 2%nat.
Proof.
  split; [exact W3_reach|].
  assert (match g_pool_details W3, g_pair_details W3 [1; 2]%N with Ok d, Ok l => (0 <? pd_lp_supply d) && (10 ^ 18 <? pd_lp_price d) && Nat.eqb (length l) 2 | _, _ => false end = true) as H by (vm_compute; reflexivity).
  destruct (g_pool_details W3) as [d|]; [|exfalso; exact (Bool.diff_false_true H)]. destruct (g_pair_details W3 _) as [l|]; [|exfalso; exact (Bool.diff_false_true H)].
  apply andb_true_iff in H as [H H3]. apply andb_true_iff in H as [H1 H2]. apply Z.ltb_lt in H1, H2. apply Nat.eqb_eq in H3. exists d, l. do 2 (split; [first [reflexivity|exact H1]|]). split; [exact H2|]. split; [reflexivity|exact H3].
Qed.
