(** * Requests: exactly what a submission appends. *)
From Verif Require Import Base DFloat Lists Types Config Oracle Pool Account Fees Referral ExInternal Exchange System Sums Trace Frames Calls Shape Spec P_Ledger P_Accounts Frames2 P_Fees P_Requests P_Requests2 P_Requests3.

Definition pushed_all (v : vacc) (l : list keeper_request) (v' : vacc) : Prop :=
  rq_ok fwd v' /\ va_comp v' = va_comp v /\ va_rlen v' = va_rlen v /\ va_req_add v' = va_req_add v ++ l /\ va_req_upd v' = va_req_upd v /\
  va_act_rem v' = va_act_rem v /\ va_vstart v' = va_vstart v /\ va_addr v' = va_addr v.
Lemma pushed_nil v : rq_ok fwd v -> pushed_all v [] v.
Proof. intros H. unfold pushed_all. rewrite app_nil_r. auto 10. Qed.
Lemma pushed_one now v l v1 r d e st eff v' : pushed_all v l v1 -> va_push_request now v1 r d e st eff = Ok v' ->
  pushed_all v (l ++ [mkKReq r (now + u64_as_i64 d) (now + u64_as_i64 d + u64_as_i64 e) st eff]) v'.
Proof.
  intros (A1 & A2 & A3 & A4 & A5 & A6 & A7 & A8) H. split; [eapply push_ok; eauto|]. apply push_inv in H as (kr & i & -> & _ & _ & _ & _ & ->). simpl.
  rewrite A4, app_assoc. auto 10.
Qed.
Lemma submit_core E w a v0 acc ids oath w1 v1 c news v2 w2 :
  get_acc w a = Ok v0 -> w_accounts w !! a = Some acc -> acc_ok acc -> settle_oath_opt E w v0 ids oath = Ok (w1, v1, c) ->
  pushed_all v1 news v2 -> x_assert_active_requests_limit c v2 = Ok tt -> realize_acc w1 v2 = Ok w2 ->
  exists acc', w_accounts w2 !! a = Some acc' /\ kl_len (ac_requests acc') = (kl_len (ac_requests acc) + N.of_nat (length news))%N /\
    (forall j, kl_get (ac_requests acc') j = if (j <? kl_len (ac_requests acc))%N then kl_get (ac_requests acc) j else news !! N.to_nat (j - kl_len (ac_requests acc))) /\
    ac_vstart acc' = ac_vstart acc /\ (N.of_nat (size (ac_active acc')) <= ec_active_requests_max (cf_exchange (w_config w)))%N.
Proof.
  intros Hv Ha Hok Hs Hp Hlim Hr.
  pose proof (get_acc_inv _ _ _ Hv) as (acc0 & Ha0 & Hc0 & Had & _ & _ & _ & Hvs & Hrl & Hal & _ & Hra & Hru & Haa & Har & _).
  rewrite Ha in Ha0. injection Ha0 as <-.
  apply (settle_oath_opt_tr _ _ _ _ _ _ _ _ (w_fd w)) in Hs as (o & ids1 & idsc & Hcf & _ & Hss & Hw1 & _).
  assert (g_rq v1 = g_rq v0) as Hg. { apply (ssteps_frame_rq _ _ _ _ _ _ _ Hss). destruct oath; repeat constructor. }
  pose proof (ssteps_comp _ _ _ _ _ _ _ Hss) as C. cbn [s_acc] in C.
  unfold g_rq in Hg. injection Hg as G1 G2 G3 G4 G5 G6 G7 G8 G9 G10 G11.
  destruct Hp as (B1 & B2 & B3 & B4 & B5 & B6 & B7 & B8).
  apply realize_acc_inv in Hr as (acc' & refs & Hre & ->). unfold va_realize in Hre. bd Hre as (refs1 & _ & Hre). bd Hre as (a1 & Hu & Hre). apply Ok_inj in Hre. injection Hre as <- <-.
  apply (acc_update_rq fwd) in Hu; [|unfold fwd, pendP; tauto|exact B1]. destruct Hu as (U1 & U2 & U3 & U4 & U5).
  exists a1. simpl. split; [rewrite B8, G1, Had; apply lookup_insert|].
  assert (va_rlen v2 = kl_len (ac_requests acc)) as E1 by congruence. assert (va_req_add v2 = news) as E2 by (rewrite B4, G8, Hra; reflexivity).
  assert (va_req_upd v2 = ∅) as E3 by congruence. assert (va_vstart v2 = ac_vstart acc) as E4 by congruence.
  split; [rewrite U2, E1, E2; reflexivity|]. split.
  { intros j. rewrite U3. unfold rview. rewrite E3, lookup_empty, E1, E2, B2, G2, Hc0. reflexivity. }
  split; [congruence|]. rewrite U5; [|rewrite B2, G4, Hc0; congruence|congruence]. unfold x_assert_active_requests_limit in Hlim. apply guard_Ok, N.leb_le in Hlim.
  rewrite (get_config_exchange _ _ _ Hcf) in Hlim. exact Hlim.
Qed.
Lemma step_exec_inv E cx w o w' out : step E cx w o = Ok (w', out) ->
  forallb (bucket_ok E) (op_buckets o) = true /\ access_ok cx w (op_access o) = true /\ implb (needs_authority o) (1 <=? w_auth w) = true /\ exec E cx w o = Ok (w', out).
Proof. unfold step. intros H. bd H as (? & H1 & H). bd H as (? & H2 & H). bd H as (? & H3 & H). apply guard_Ok in H1, H2, H3. auto. Qed.
(** What the account looks like after requests [news] were appended. *)
Definition appended (w : world) (a : addr) (news : list keeper_request) (w' : world) : Prop :=
  exists acc acc', w_accounts w !! a = Some acc /\ w_accounts w' !! a = Some acc' /\
    kl_len (ac_requests acc') = (kl_len (ac_requests acc) + N.of_nat (length news))%N /\
    (forall j, kl_get (ac_requests acc') j = if (j <? kl_len (ac_requests acc))%N then kl_get (ac_requests acc) j else news !! N.to_nat (j - kl_len (ac_requests acc))) /\
    ac_vstart acc' = ac_vstart acc /\ (N.of_nat (size (ac_active acc')) <= ec_active_requests_max (cf_exchange (w_config w)))%N.
Definition count_of (w : world) (a : addr) : N := match w_accounts w !! a with Some acc => kl_len (ac_requests acc) | None => 0%N end.
Lemma settle_opt_facts E w v ids oath w1 v1 c : settle_oath_opt E w v ids oath = Ok (w1, v1, c) -> g_rq v1 = g_rq v /\ w_now w1 = w_now w /\ exists idsc, get_config w idsc = Ok c.
Proof.
  intros Hs. apply (settle_oath_opt_tr _ _ _ _ _ _ _ _ (w_fd w)) in Hs as (o & ids1 & idsc & Hcf & _ & Hss & -> & _).
  split; [|split; [reflexivity|eauto]]. apply (ssteps_frame_rq _ _ _ _ _ _ _ Hss). destruct oath; repeat constructor.
Qed.
Lemma submit_start E w a v0 acc ids oath w1 v1 c :
  get_acc w a = Ok v0 -> w_accounts w !! a = Some acc -> acc_ok acc -> settle_oath_opt E w v0 ids oath = Ok (w1, v1, c) ->
  rq_ok fwd v1 /\ va_rlen v1 = kl_len (ac_requests acc) /\ w_now w1 = w_now w.
Proof.
  intros Hv Ha Hok Hs. apply settle_opt_facts in Hs as (Hg & Hn & _). pose proof (get_acc_inv _ _ _ Hv) as (acc0 & Ha0 & Hc0 & _ & _ & _ & _ & _ & Hrl & _).
  rewrite Ha in Ha0. injection Ha0 as <-. split; [|split; [|exact Hn]].
  - eapply rq_ok_frame; [|exact Hg]. eapply rq_ok_new; [exact Hv|]. rewrite Hc0. exact Hok.
  - unfold g_rq in Hg. injection Hg as G1 G2 G3 G4 G5 G6 G7 G8 G9 G10 G11. congruence.
Qed.
Lemma get_acc_some w a v : get_acc w a = Ok v -> exists acc, w_accounts w !! a = Some acc.
Proof. intros H. apply get_acc_inv in H as (acc & H & _). eauto. Qed.

Lemma remove_submit E cx w oath ex a t cs w' out : reachable E w -> step E cx w (ORemoveCollateralRequest oath ex a t cs) = Ok (w', out) ->
  appended w a [mkKReq (RRemove (mkReqRemove t cs)) (w_now w) (w_now w + u64_as_i64 ex) STATUS_ACTIVE [t]] w' /\ o_indexes out = [Some (count_of w a)] /\ (length cs <= 10)%nat.
Proof.
  intros Hr Hs. apply step_exec_inv in Hs as (_ & _ & _ & H). simpl in H. unfold m_remove_collateral_request in H.
  bd H as (v & Hv & H). bd H as (? & _ & H). bd H as ([[w1 v1] c] & Hse & H). bd H as (? & Hg & H). bd H as (v2 & Hp & H). bd H as ([] & Hl & H). bd H as (w2 & Hre & H). apply Ok_inj in H. injection H as <- <-.
  destruct (get_acc_some _ _ _ Hv) as [acc Ha]. pose proof (acc_ok_reachable _ _ Hr _ _ Ha) as Hok.
  destruct (submit_start _ _ _ _ _ _ _ _ _ _ Hv Ha Hok Hse) as (Hok1 & Hlen & Hn). apply (pushed_one _ _ _ _ _ _ _ _ _ _ (pushed_nil _ Hok1)) in Hp.
  assert (u64_as_i64 0 = 0) as E0 by reflexivity. rewrite E0, Z.add_0_r, Hn in Hp.
  destruct (submit_core _ _ _ _ _ _ _ _ _ _ _ _ _ Hv Ha Hok Hse Hp Hl Hre) as (acc' & R). split; [exists acc, acc'; auto|]. unfold count_of. rewrite Ha. simpl.
  split; [congruence|]. apply guard_Ok, N.leb_le in Hg. lia.
Qed.
Lemma order_submit E cx w oath d ex a p amt ro pl sl act can st w' out : reachable E w ->
  step E cx w (OMarginOrderRequest oath d ex a p amt ro pl sl act can st) = Ok (w', out) ->
  exists act' can', appended w a [mkKReq (ROrder (mkReqOrder p amt ro pl sl act' can')) (w_now w + u64_as_i64 d) (w_now w + u64_as_i64 d + u64_as_i64 ex) st []] w' /\
    rmap (fun r => ir_resolve r (count_of w a)) act = Ok act' /\ rmap (fun r => ir_resolve r (count_of w a)) can = Ok can' /\
    o_indexes out = [Some (count_of w a)] /\ (length act <= 2)%nat /\ (length can <= 2)%nat /\ is_pending st = true.
Proof.
  intros Hr Hs. apply step_exec_inv in Hs as (_ & _ & _ & H). simpl in H. unfold m_margin_order_request in H.
  bd H as (v & Hv & H). bd H as (? & _ & H). bd H as ([[w1 v1] c] & Hse & H). bd H as (pc & _ & H). bd H as (ab & _ & H). bd H as (? & _ & H). bd H as (? & G1 & H). bd H as (? & G2 & H).
  bd H as (act' & Hac & H). bd H as (can' & Hca & H). bd H as (v2 & Hp & H). bd H as ([] & Hl & H). bd H as (w2 & Hre & H). apply Ok_inj in H. injection H as <- <-.
  destruct (get_acc_some _ _ _ Hv) as [acc Ha]. pose proof (acc_ok_reachable _ _ Hr _ _ Ha) as Hok.
  destruct (submit_start _ _ _ _ _ _ _ _ _ _ Hv Ha Hok Hse) as (Hok1 & Hlen & Hn).
  assert (is_pending st = true) as Hst by (apply push_inv in Hp as (kr & i & -> & _ & Hp & _); exact Hp).
  apply (pushed_one _ _ _ _ _ _ _ _ _ _ (pushed_nil _ Hok1)) in Hp.
  rewrite Hn in Hp. destruct (submit_core _ _ _ _ _ _ _ _ _ _ _ _ _ Hv Ha Hok Hse Hp Hl Hre) as (acc' & R). exists act', can'.
  assert (count_of w a = va_rlen v1) as -> by (unfold count_of; rewrite Ha; congruence).
  split; [exists acc, acc'; auto|]. split; [exact Hac|]. split; [exact Hca|]. split; [reflexivity|].
  apply guard_Ok, N.leb_le in G1, G2. split; [lia|]. split; [lia|exact Hst].
Qed.
(** The requests of a take-profit / stop-loss submission. *)
Definition tp_index (n : N) (tp : option Z) : option N := match tp with Some _ => Some (n + 1)%N | None => None end.
Definition sl_index (n : N) (tp sl : option Z) : option N := match sl, tp with Some _, Some _ => Some (n + 2)%N | Some _, None => Some (n + 1)%N | None, _ => None end.
Definition tpsl_news (w : world) (n : N) (d ex : N) (p : pair_id) (amt : Z) (ro : bool) (pl : price_limit) (sl : slippage_limit) (tp sl' : option Z) : list keeper_request :=
  let sub := w_now w + u64_as_i64 d in
  let mk := fun st r => mkKReq (ROrder r) sub (sub + u64_as_i64 ex) st [] in
  [mk STATUS_ACTIVE (mkReqOrder p amt ro pl sl (option_list (tp_index n tp) ++ option_list (sl_index n tp sl')) [])] ++
  match tp with Some price => [mk STATUS_DORMANT (mkReqOrder p (- amt) true (if 0 <? amt then PLGte price else PLLte price) sl [] (option_list (sl_index n tp sl')))] | None => [] end ++
  match sl' with Some price => [mk STATUS_DORMANT (mkReqOrder p (- amt) true (if 0 <? amt then PLLte price else PLGte price) sl [] (option_list (tp_index n tp)))] | None => [] end.
Lemma tpsl_submit E cx w oath d ex a p amt ro pl sl tp sl' w' out : reachable E w ->
  step E cx w (OMarginOrderTpSlRequest oath d ex a p amt ro pl sl tp sl') = Ok (w', out) ->
  appended w a (tpsl_news w (count_of w a) d ex p amt ro pl sl tp sl') w' /\
  o_indexes out = [Some (count_of w a); tp_index (count_of w a) tp; sl_index (count_of w a) tp sl'].
Proof.
  intros Hr Hs. apply step_exec_inv in Hs as (_ & _ & _ & H). simpl in H. unfold m_margin_order_tp_sl_request in H.
  bd H as (v & Hv & H). bd H as (? & _ & H). bd H as ([[w1 v1] c] & Hse & H). bd H as (pc & _ & H). bd H as (ab & _ & H). bd H as (? & _ & H).
  bd H as ([i1 itp] & Hi1 & H). bd H as (isl & Hi2 & H). bd H as (v2 & P1 & H). bd H as (v3 & P2 & H). bd H as (v4 & P3 & H).
  bd H as ([] & Hl & H). bd H as (w2 & Hre & H). apply Ok_inj in H. injection H as <- <-.
  destruct (get_acc_some _ _ _ Hv) as [acc Ha]. pose proof (acc_ok_reachable _ _ Hr _ _ Ha) as Hok.
  destruct (submit_start _ _ _ _ _ _ _ _ _ _ Hv Ha Hok Hse) as (Hok1 & Hlen & Hn).
  assert (count_of w a = va_rlen v1) as -> by (unfold count_of; rewrite Ha; congruence).
  assert (itp = tp_index (va_rlen v1) tp /\ isl = sl_index (va_rlen v1) tp sl') as [-> ->].
  { unfold tp_index, sl_index. destruct tp as [price0|].
    - bd Hi1 as (i & Hi & Hi1). inv_step Hi. apply Ok_inj in Hi1. injection Hi1 as <- <-. split; [congruence|]. destruct sl'; [|apply Ok_inj in Hi2; congruence].
      bd Hi2 as (i2 & Hi & Hi2). inv_step Hi. apply Ok_inj in Hi2. subst. f_equal. lia.
    - apply Ok_inj in Hi1. injection Hi1 as <- <-. split; [reflexivity|]. destruct sl'; [|apply Ok_inj in Hi2; congruence].
      bd Hi2 as (i2 & Hi & Hi2). inv_step Hi. apply Ok_inj in Hi2. subst. f_equal. }
  apply (pushed_one _ _ _ _ _ _ _ _ _ _ (pushed_nil _ Hok1)) in P1. rewrite Hn in *.
  set (n := va_rlen v1) in *.
  assert (pushed_all v1 (tpsl_news w n d ex p amt ro pl sl tp sl') v4) as Hall.
  { unfold tpsl_news. set (itp := tp_index n tp) in *. set (isl := sl_index n tp sl') in *. clearbody itp isl.
    rewrite app_assoc. match type of P1 with pushed_all _ ?l _ => set (l0 := l) in * end.
    assert (forall q, dneg amt = Ok q -> q = - amt) as Hneg by (intros q Hq; inv_step Hq; lia).
    assert (exists l1, pushed_all v1 (l0 ++ l1) v3 /\ l1 = match tp with Some price => [mkKReq (ROrder (mkReqOrder p (- amt) true (if 0 <? amt then PLGte price else PLLte price) sl [] (option_list isl))) (w_now w + u64_as_i64 d) (w_now w + u64_as_i64 d + u64_as_i64 ex) STATUS_DORMANT []] | None => [] end) as (l1 & Hl1 & ->).
    { destruct tp as [price0|].
      - bd P2 as (q & Hq & P2). apply Hneg in Hq. subst q. apply (pushed_one _ _ _ _ _ _ _ _ _ _ P1) in P2. eexists. split; [exact P2|]. reflexivity.
      - apply Ok_inj in P2. subst v3. exists []. rewrite app_nil_r. auto. }
    destruct sl' as [price1|].
    - bd P3 as (q & Hq & P3). apply Hneg in Hq. subst q. apply (pushed_one _ _ _ _ _ _ _ _ _ _ Hl1) in P3. exact P3.
    - apply Ok_inj in P3. subst v4. rewrite app_nil_r. exact Hl1. }
  destruct (submit_core _ _ _ _ _ _ _ _ _ _ _ _ _ Hv Ha Hok Hse Hall Hl Hre) as (acc' & R). split; [exists acc, acc'; auto|reflexivity].
Qed.
