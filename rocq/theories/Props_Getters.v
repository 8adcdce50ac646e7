(** * Reports (C52): the account details say what is stored. *)
From Verif Require Import Base DFloat Lists Types Config Oracle Pool Account Fees Referral ExInternal Exchange System Scenario Sums Trace Frames Calls Shape Spec SpecLists SpecRequests SpecOracle SpecTrading SpecMargin P_Ledger P_Accounts Witness Frames2 Props_Config P_Fees P_Requests P_Requests2 P_Lists P_Oracle Trading P_Orders P_Final P_Refs P_Positions P_Positions2 Props_Lists P_Configured P_Coll Props_Requests Props_Collateral.
From Coq Require Import Sorting.Sorted.

(** A report built from the entries of a map, one item per entry. *)
Lemma report_spec {X Y} (key : Y -> N) (f : N * X -> res Y) (m : gmap N X) ys :
  (forall k x y, f (k, x) = Ok y -> key y = k) -> rmap f (map_to_list m) = Ok ys ->
  NoDup (map key ys) /\ (forall y, y ∈ ys <-> exists x, m !! key y = Some x /\ f (key y, x) = Ok y) /\
  (forall k x, m !! k = Some x -> exists y, y ∈ ys /\ key y = k).
Proof.
  intros Hk H. apply rmap_Forall2 in H.
  assert (map key ys = map fst (map_to_list m)) as Hkeys.
  { clear -H Hk. induction H as [|[k x] y l l' Hy _ IH]; [reflexivity|]. cbn. rewrite IH, (Hk _ _ _ Hy). reflexivity. }
  assert (forall y, y ∈ ys <-> exists x, m !! key y = Some x /\ f (key y, x) = Ok y) as Hin.
  { intros y. split.
    - intros Hy. apply elem_of_list_lookup in Hy as [i Hi]. destruct (Forall2_lookup_r _ _ _ _ _ H Hi) as ([k x] & Hx & Hf). pose proof (Hk _ _ _ Hf) as <-. exists x. split; [|exact Hf]. apply elem_of_map_to_list. apply elem_of_list_lookup. eauto.
    - intros (x & Hx & Hf). apply elem_of_map_to_list in Hx. apply elem_of_list_lookup in Hx as [i Hi]. destruct (Forall2_lookup_l _ _ _ _ _ H Hi) as (y' & Hy' & Hf'). rewrite Hf in Hf'. apply Ok_inj in Hf'. subst y'. apply elem_of_list_lookup. eauto. }
  split; [rewrite Hkeys; apply NoDup_fst_map_to_list|]. split; [exact Hin|].
  intros k x Hx. apply elem_of_map_to_list in Hx. apply elem_of_list_lookup in Hx as [i Hi]. destruct (Forall2_lookup_l _ _ _ _ _ H Hi) as (y & Hy & Hf). exists y. split; [apply elem_of_list_lookup; eauto|exact (Hk _ _ _ Hf)].
Qed.

Lemma details_inv w a n start d : g_account_details w a n start = Ok d -> exists acc v c, w_accounts w !! a = Some acc /\ get_acc w a = Ok v /\ get_config w (dom (ac_positions acc)) = Ok c /\
  rmap (position_details1 c (get_pool w (dom (ac_positions acc)))) (map_to_list (ac_positions acc)) = Ok (ad_positions d) /\
  rmap (collateral_details1 v) (map_to_list (vc_collaterals c)) = Ok (ad_collaterals d) /\
  (exists act, acc_get_active acc = Ok act /\ ad_active d = sort_desc act) /\ acc_get_requests_tail acc n start = Ok (ad_history d) /\
  ad_vb d = ac_vb acc /\ ad_vstart d = ac_vstart acc /\ ad_rlen d = kl_len (ac_requests acc) /\
  ad_referral d = (match ac_ref acc with Some id => match w_refs w !! id with Some r => Some (id, r) | None => None end | None => None end).
Proof.
  unfold g_account_details. intros H. bd H as (v & Hv & H). pose proof (get_acc_inv _ _ _ Hv) as (acc & Ha & Hc & _ & Hp & _ & Hvb & Hvs & Hrl & _ & _ & _ & _ & _ & _ & Hid & _ & Href & _). cbv zeta in H.
  bd H as (c & Hcf & H). bd H as (ps & Hps & H). bd H as (cs & Hcs & H). bd H as (act & Hact & H). bd H as (hist & Hh & H). apply Ok_inj in H. subst d.
  rewrite Hp in *. rewrite Hc in *. exists acc, v, c. cbn [ad_positions ad_collaterals ad_active ad_history ad_vb ad_vstart ad_rlen ad_referral]. rewrite Hvb, Hvs, Hrl, Hid, Href.
  do 5 (split; [assumption|]). split; [exists act; split; [exact Hact|reflexivity]|]. split; [exact Hh|]. do 3 (split; [reflexivity|]). destruct (ac_ref acc); reflexivity.
Qed.

(** The account exists, and its balance, the number of its requests and the first valid one are the stored ones; the
    referral is the one of the account, with its current data. *)
Theorem C52_balance_and_referral E w a n start d : reachable E w -> g_account_details w a n start = Ok d ->
  exists acc, w_accounts w !! a = Some acc /\ ad_vb d = ac_vb acc /\ ad_rlen d = request_count w a /\ ad_vstart d = valid_start w a /\
    forall id r, ad_referral d = Some (id, r) <-> ac_ref acc = Some id /\ w_refs w !! id = Some r.
Proof.
  intros _ H. apply details_inv in H as (acc & v & c & Ha & _ & _ & _ & _ & _ & _ & H1 & H2 & H3 & H4). exists acc. split; [exact Ha|]. split; [exact H1|]. unfold request_count, valid_start. rewrite Ha.
  split; [exact H3|]. split; [exact H2|]. intros id r. rewrite H4. destruct (ac_ref acc) as [id'|]; [|split; [intros K; discriminate K|intros [K _]; discriminate K]].
  destruct (w_refs w !! id') as [r'|] eqn:Hr.
  - split; [intros K; injection K as -> ->; split; [reflexivity|exact Hr]|intros [K1 K2]; injection K1 as ->; rewrite Hr in K2; injection K2 as ->; reflexivity].
  - split; [intros K; discriminate K|intros [K1 K2]; injection K1 as ->; rewrite Hr in K2; discriminate K2].
Qed.
(** Every stored position is reported, once, with its amount and cost, the funding it owes at the pool's current
    indexes, and its size times the two margin rates. *)
Theorem C52_positions E w a acc n start d : reachable E w -> w_accounts w !! a = Some acc -> g_account_details w a n start = Ok d ->
  NoDup (map ps_pair (ad_positions d)) /\
  (forall k, k ∈ map ps_pair (ad_positions d) <-> is_Some (ac_positions acc !! k)) /\
  (forall x, x ∈ ad_positions d -> exists pos pc, ac_positions acc !! ps_pair x = Some pos /\ pair_cfg w (ps_pair x) = Some pc /\
     ps_amount x = ap_amount pos /\ ps_cost x = ap_cost pos /\ ps_funding x = funding_owed (pool_pair w (ps_pair x)) pos /\
     ps_margin_initial x = mul (Z.abs (ap_amount pos)) (pc_margin_initial pc) /\ ps_margin_maintenance x = mul (Z.abs (ap_amount pos)) (pc_margin_maintenance pc)).
Proof.
  intros _ Ha H. apply details_inv in H as (acc' & v & c & Ha' & _ & Hc & Hps & _). rewrite Ha in Ha'. injection Ha' as <-.
  assert (forall k pos y, position_details1 c (get_pool w (dom (ac_positions acc))) (k, pos) = Ok y -> ps_pair y = k) as Hkey.
  { intros k pos y Hy. unfold position_details1 in Hy. bd Hy as (pc & _ & Hy). bd Hy as (pp & _ & Hy). bd Hy as (f & _ & Hy). bd Hy as (ab & _ & Hy). bd Hy as (mi & _ & Hy). bd Hy as (mm & _ & Hy). apply Ok_inj in Hy. subst y. reflexivity. }
  destruct (report_spec _ _ _ _ Hkey Hps) as (N1 & N2 & N3). split; [exact N1|]. split.
  - intros k. split.
    + intros Hk. apply elem_of_list_fmap in Hk as (y & -> & Hy). apply N2 in Hy as (x & Hx & _). eauto.
    + intros [x Hx]. destruct (N3 _ _ Hx) as (y & Hy & <-). apply elem_of_list_fmap. eauto.
  - intros x Hx. apply N2 in Hx as (pos & Hpos & Hf). exists pos. set (k := ps_pair x) in *. unfold position_details1 in Hf. unfold get_config in Hc. apply vc_new_spec in Hc as (_ & _ & C3 & _).
    assert (k ∈ dom (ac_positions acc)) as Hin by (apply elem_of_dom; eauto). destruct (C3 _ Hin) as (pcc & P1 & P2).
    bd Hf as (pc & Hpc & Hf). bd Hf as (pp & Hpp & Hf). bd Hf as (f & Hfu & Hf). bd Hf as (ab & Hab & Hf). bd Hf as (mi & Hmi & Hf). bd Hf as (mm & Hmm & Hf). apply Ok_inj in Hf.
    unfold vc_pair in Hpc. apply expect_Ok in Hpc. rewrite P2 in Hpc. injection Hpc as <-. unfold vp_position in Hpp. apply expect_Ok in Hpp. rewrite (get_pool_cached _ _ _ Hin) in Hpp. injection Hpp as <-.
    apply funding_due_owed in Hfu. apply dabs_Ok in Hab as [-> _]. apply dmul_mulq in Hmi, Hmm. exists (pc_decompress pcc). split; [exact Hpos|]. split; [unfold pair_cfg; rewrite P1; reflexivity|].
    rewrite <- Hf. cbn [ps_amount ps_cost ps_funding ps_margin_initial ps_margin_maintenance]. change mul with mulq. do 2 (split; [reflexivity|]). split; [exact Hfu|]. split; [exact Hmi|exact Hmm].
Qed.
(** Every configured collateral is reported, once, with what the account's vault holds of it, the configured discount and
    feed, and the margin it adds. *)
Theorem C52_collaterals E w a acc n start d : reachable E w -> w_accounts w !! a = Some acc -> g_account_details w a n start = Ok d ->
  NoDup (map cd_resource (ad_collaterals d)) /\
  (forall r, r ∈ map cd_resource (ad_collaterals d) <-> is_Some (coll_cfg w r)) /\
  (forall x, x ∈ ad_collaterals d -> exists cc, coll_cfg w (cd_resource x) = Some cc /\ cd_amount x = vault_of acc (cd_resource x) /\
     cd_discount x = cc_discount cc /\ cd_pair x = cc_pair_id cc /\ cd_margin x = mul (vault_of acc (cd_resource x)) (cc_margin cc)).
Proof.
  intros Hr Ha H. apply details_inv in H as (acc' & v & c & Ha' & Hv & Hc & _ & Hcs & _). rewrite Ha in Ha'. injection Ha' as <-.
  assert (forall k cc y, collateral_details1 v (k, cc) = Ok y -> cd_resource y = k) as Hkey.
  { intros k cc y Hy. unfold collateral_details1 in Hy. cbv zeta in Hy. bd Hy as (m & _ & Hy). apply Ok_inj in Hy. subst y. reflexivity. }
  unfold get_config in Hc. apply vc_new_spec in Hc as (_ & C2 & _). change (cc_decompress <$> cf_collaterals (w_config w)) with (g_collateral_configs w) in C2. rewrite C2 in Hcs.
  destruct (report_spec _ _ _ _ Hkey Hcs) as (N1 & N2 & N3). split; [exact N1|]. split.
  - intros k. split.
    + intros Hk. apply elem_of_list_fmap in Hk as (y & -> & Hy). apply N2 in Hy as (x & Hx & _). exists x. exact Hx.
    + intros [x Hx]. destruct (N3 _ _ Hx) as (y & Hy & <-). apply elem_of_list_fmap. eauto.
  - intros x Hx. apply N2 in Hx as (cc & Hcc & Hf). exists cc. set (k := cd_resource x) in *. split; [exact Hcc|]. unfold collateral_details1 in Hf. cbv zeta in Hf. bd Hf as (m & Hm & Hf). apply Ok_inj in Hf.
    apply get_acc_inv in Hv as (acc' & Ha' & _ & _ & _ & Hcl & _). rewrite Ha in Ha'. injection Ha' as <-.
    destruct (C03_recorded_collateral_is_in_the_vault _ _ _ _ k Hr Ha) as [Hrec _].
    assert (va_collateral_amount v k = vault_of acc k) as Hamt. { rewrite <- Hrec. unfold va_collateral_amount, recorded. rewrite Hcl. destruct (ac_coll acc !! k); reflexivity. }
    rewrite Hamt in *. apply dmul_mulq in Hm. rewrite <- Hf. cbn [cd_amount cd_discount cd_pair cd_margin]. change mul with mulq. do 3 (split; [reflexivity|]). exact Hm.
Qed.
(** The active requests are exactly the live pending ones, strictly newest first. *)
Theorem C52_active_requests E w a n start d : reachable E w -> g_account_details w a n start = Ok d ->
  StronglySorted (fun x y => (fst y < fst x)%N) (ad_active d) /\
  (forall i r, (i, r) ∈ ad_active d <-> (valid_start w a <= i)%N /\ request_at w a i = Some r /\ pending (kr_status r)).
Proof.
  intros Hr H. apply details_inv in H as (acc & v & c & Ha & _ & _ & _ & _ & (act & Hact & ->) & _).
  pose proof (C06_active_set_exact _ _ _ _ Hr Ha) as Hset. unfold active_set in Hset. rewrite Ha in Hset.
  unfold acc_get_active in Hact. apply rmap_Forall2 in Hact.
  assert (map fst act = elements (ac_active acc)) as Hk.
  { clear -Hact. induction Hact as [|i y l l' Hy _ IH]; [reflexivity|]. bd Hy as (r & _ & Hy). apply Ok_inj in Hy. subst y. cbn. rewrite IH. reflexivity. }
  assert (forall i r, (i, r) ∈ act <-> i ∈ ac_active acc /\ kl_get (ac_requests acc) i = Some r) as Hin.
  { intros i r. split.
    - intros Hy. apply elem_of_list_lookup in Hy as [j Hj]. destruct (Forall2_lookup_r _ _ _ _ _ Hact Hj) as (i' & Hi & Hf). bd Hf as (r' & Hr' & Hf). apply Ok_inj in Hf. injection Hf as -> ->. apply expect_Ok in Hr'. split; [|exact Hr']. apply elem_of_elements, elem_of_list_lookup. eauto.
    - intros [Hi Hg]. apply elem_of_elements, elem_of_list_lookup in Hi as [j Hj]. destruct (Forall2_lookup_l _ _ _ _ _ Hact Hj) as (y & Hy & Hf). bd Hf as (r' & Hr' & Hf). apply Ok_inj in Hf. apply expect_Ok in Hr'. rewrite Hg in Hr'. injection Hr' as <-. subst y. apply elem_of_list_lookup. eauto. }
  pose proof (merge_sort_Permutation newer act) as Hperm. fold (sort_desc act) in Hperm. split.
  - assert (Transitive newer) as Htr by (intros ? ? ?; unfold newer; lia). assert (Total newer) as Hto by (intros ? ?; unfold newer; lia).
    pose proof (StronglySorted_merge_sort newer act) as Hs. fold (sort_desc act) in Hs.
    assert (NoDup (map fst (sort_desc act))) as Hnd. { rewrite (Permutation_map fst Hperm). rewrite Hk. apply NoDup_elements. }
    clear -Hs Hnd. induction Hs as [|x l _ IH Hx]; [constructor|]. cbn in Hnd. apply NoDup_cons in Hnd as [Hn Hnd]. constructor; [apply IH; exact Hnd|]. apply Forall_forall. intros y Hy. rewrite Forall_forall in Hx. specialize (Hx y Hy). unfold newer in Hx.
    assert (fst y <> fst x) as Hne. { intros He. apply Hn. rewrite <- He. apply elem_of_list_fmap. eauto. } lia.
  - intros i r. rewrite (elem_of_Permutation_proper _ _ _ Hperm). rewrite Hin, Hset. unfold request_at. rewrite Ha. split.
    + intros [(Hv & r' & H1 & H2) Hg]. unfold kl_get in Hg. rewrite H1 in Hg. injection Hg as ->. split; [exact Hv|]. split; [exact H1|exact H2].
    + intros (Hv & Hg & Hp). split; [|exact Hg]. split; [exact Hv|]. exists r. split; [exact Hg|exact Hp].
Qed.
(** The history is the page of the newest [n] requests up to the given index (or to the end), newest first. *)
Theorem C52_history E w a n start d : reachable E w -> g_account_details w a n start = Ok d ->
  exists acc xs, w_accounts w !! a = Some acc /\ stands_for (ac_requests acc) xs /\
    let upto := match start with Some e => N.min (e + 1) (request_count w a) | None => request_count w a end in
    ad_history d = rev (page (numbered xs) (upto - n) upto).
Proof.
  intros Hr H. apply details_inv in H as (acc & v & c & Ha & _ & _ & _ & _ & _ & Hh & _). destruct (C45_request_pages _ _ _ _ Hr Ha) as (xs & Hx & _ & T1 & T2).
  exists acc, xs. split; [exact Ha|]. split; [exact Hx|]. cbv zeta. assert (request_count w a = N.of_nat (length xs)) as Hrc. { unfold request_count. rewrite Ha. exact (proj1 Hx). } rewrite Hrc.
  destruct start as [e|]; [|rewrite T1 in Hh; apply Ok_inj in Hh; congruence].
  assert (e < 18446744073709551615)%N as He. { unfold acc_get_requests_tail in Hh. cbv zeta in Hh. bd Hh as (e1 & He1 & _). bd He1 as (e2 & He2 & _). apply uadd_Ok in He2 as [_ He2]. clear -He2. apply N.le_succ_l. rewrite <- N.add_1_r. exact He2. }
  rewrite (T2 n e He) in Hh. apply Ok_inj in Hh. congruence.
Qed.

(** The details of an existing account can always be read, unless a computed amount does not fit the decimal type (or the
    history start is the largest integer). *)
Lemma rmap_Err {A B} (f : A -> res B) l e : rmap f l = Err e -> exists x, x ∈ l /\ f x = Err e.
Proof.
  induction l as [|x l IH]; cbn [rmap]; [discriminate|]. destruct (f x) as [y|e0] eqn:Hx; cbn [mbind res_bind].
  - destruct (rmap f l) as [ys|e1] eqn:Hl; cbn [mbind res_bind]; [discriminate|]. intros [= <-]. destruct (IH eq_refl) as (z & Hz & Hf). exists z. split; [right; exact Hz|exact Hf].
  - intros [= <-]. exists x. split; [left|exact Hx].
Qed.
Lemma chk_Err x e : chk x = Err e -> e = EArithmetic.
Proof. unfold chk. destruct (in_dec x); congruence. Qed.
Lemma bind_Err {A B} (m : res A) (f : A -> res B) e : (x ← m; f x) = Err e -> m = Err e \/ exists x, m = Ok x /\ f x = Err e.
Proof. destruct m as [x|e0]; cbn [mbind res_bind]; [right; eauto|left; congruence]. Qed.
Lemma vc_new_ok c ids : (forall k, k ∈ ids -> is_Some (hl_kvs (cf_pairs c) !! k)) -> exists v, vc_new c ids = Ok v.
Proof.
  intros H. unfold vc_new.
  assert (forall l (m : gmap pair_id pair_config), (forall k, k ∈ l -> is_Some (hl_kvs (cf_pairs c) !! k)) -> exists m', rfold (fun (m : gmap pair_id pair_config) p => pc ← expect (config_get_pair c p) EMissingPairConfig; Ok (<[p := pc_decompress pc]> m)) m l = Ok m') as G.
  { clear. induction l as [|p l IH]; intros m H; [exists m; reflexivity|]. cbn [rfold]. destruct (H p) as [pc Hpc]; [left|]. assert (config_get_pair c p = Some pc) as -> by exact Hpc. cbn [expect mbind res_bind]. apply IH. intros k Hk. apply H. right. exact Hk. }
  destruct (G (elements ids) ∅) as [m' ->]; [intros k Hk; apply H, elem_of_elements, Hk|]. cbn [mbind res_bind]. eauto.
Qed.
Theorem C52_available E w a acc n start e : reachable E w -> w_accounts w !! a = Some acc -> g_account_details w a n start = Err e -> e = EArithmetic.
Proof.
  intros Hr Ha H. destruct (get_acc_reachable _ _ _ _ Hr Ha) as (v & Hv & _). unfold g_account_details in H. rewrite Hv in H. cbn [mbind res_bind] in H. cbv zeta in H.
  pose proof (get_acc_inv _ _ _ Hv) as (acc0 & Ha0 & Hc & _ & Hp & _). rewrite Ha in Ha0. injection Ha0 as <-. rewrite Hp, Hc in H.
  assert (forall k, k ∈ dom (ac_positions acc) -> has_cfg w k) as Hcfg.
  { intros k Hk. apply elem_of_dom in Hk as [x Hx]. eapply (configured_reachable _ _ Hr _ _ Ha); [exact Hx|]. exact (nonzero_reachable _ _ Hr _ _ Ha _ _ Hx). }
  destruct (vc_new_ok (w_config w) (dom (ac_positions acc)) Hcfg) as [c Hcf]. unfold get_config in H. rewrite Hcf in H. cbn [mbind res_bind] in H. apply vc_new_spec in Hcf as (_ & _ & C3 & _).
  apply bind_Err in H as [H|(ps & _ & H)].
  { apply rmap_Err in H as ([k pos] & Hin & H). apply elem_of_map_to_list in Hin. assert (k ∈ dom (ac_positions acc)) as Hk by (apply elem_of_dom; eauto). unfold position_details1 in H.
    destruct (C3 _ Hk) as (pcc & _ & Hpc). unfold vc_pair in H. rewrite Hpc in H. cbn [expect mbind res_bind] in H. unfold vp_position in H. rewrite (get_pool_cached _ _ _ Hk) in H. cbn [expect mbind res_bind] in H.
    apply bind_Err in H as [H|(f & _ & H)]. { unfold x_funding_due in H. destruct (0 <? ap_amount pos); repeat (apply bind_Err in H as [H|(? & _ & H)]; [eapply chk_Err; exact H|]); eapply chk_Err; exact H. }
    repeat (apply bind_Err in H as [H|(? & _ & H)]; [eapply chk_Err; exact H|]). discriminate H. }
  apply bind_Err in H as [H|(cs & _ & H)].
  { apply rmap_Err in H as ([r cc] & _ & H). unfold collateral_details1 in H. cbv zeta in H. apply bind_Err in H as [H|(? & _ & H)]; [eapply chk_Err; exact H|discriminate H]. }
  apply bind_Err in H as [H|(act & _ & H)].
  { unfold acc_get_active in H. apply rmap_Err in H as (i & Hi & H). apply elem_of_elements in Hi. apply (ok_active _ (acc_ok_reachable _ _ Hr _ _ Ha)) in Hi as (_ & r & Hg & _). rewrite Hg in H. discriminate H. }
  apply bind_Err in H as [H|(hist & _ & H)]; [|discriminate H]. unfold acc_get_requests_tail in H. cbv zeta in H.
  apply bind_Err in H as [H|(e1 & _ & H)].
  { destruct start as [s|]; [|discriminate H]. apply bind_Err in H as [H|(? & _ & H)]; [|discriminate H]. unfold uadd in H. destruct (_ <=? _)%N; congruence. }
  apply bind_Err in H as [H|(s & _ & H)]; [|discriminate H]. unfold usub in H. destruct (_ <=? _)%N; congruence.
Qed.
(** Positions exist only in configured pairs. *)
Theorem C52_positions_configured E w a acc k pos : reachable E w -> w_accounts w !! a = Some acc -> ac_positions acc !! k = Some pos -> is_Some (pair_cfg w k).
Proof. intros Hr Ha Hk. unfold pair_cfg. apply fmap_is_Some. eapply (configured_reachable _ _ Hr _ _ Ha); [exact Hk|]. exact (nonzero_reachable _ _ Hr _ _ Ha _ _ Hk). Qed.

(** Not vacuous: a day into the scenario the details of A2 show its long position of 1, both collaterals and its two requests, newest first. *)
Example C52_ex : reachable sc_env W3 /\ exists d, g_account_details W3 A2 2 None = Ok d /\
  map (fun x => (ps_pair x, ps_amount x)) (ad_positions d) = [(1%N, dec 1)] /\ length (ad_collaterals d) = 2%nat /\ map fst (ad_history d) = [1%N; 0%N].
Proof.
  split; [exact W3_reach|].
  assert (match g_account_details W3 A2 2 None with Ok d => bool_decide (map (fun x => (ps_pair x, ps_amount x)) (ad_positions d) = [(1%N, dec 1)] /\ length (ad_collaterals d) = 2%nat /\ map fst (ad_history d) = [1%N; 0%N]) | Err _ => false end = true) as H by (vm_compute; reflexivity).
  destruct (g_account_details W3 A2 2 None) as [d|e]; [|exfalso; exact (Bool.diff_false_true H)]. exists d. split; [reflexivity|]. exact (bool_decide_eq_true_1 _ H).
Qed.
