(** * C65, continued: the same calls when they carry a fee oath. *)
From Verif Require Import Base DFloat Lists Types Config Oracle Pool Account Fees Referral ExInternal Exchange System Scenario Sums Trace Frames Calls Spec SpecAuth SpecRequests SpecOracle SpecTrading SpecMargin SpecRefuse SpecRefuse2 P_Ledger P_Accounts P_Refs Frames2 P_Requests P_Requests2 P_Requests3 P_Requests4 P_Oracle P_OrderCall P_Coll Props_Collateral P_Refuse P_Refuse2 P_Refuse3 P_Refuse4 Props_Requests2 Props_Deposits Props_Refuse Props_Refuse2 Props_Refuse3 Props_Refuse10 P_Refuse6.

Lemma rq_ok_vb R v x : rq_ok R v -> rq_ok R (v <| va_vb := x |>). Proof. intros []. constructor; assumption. Qed.
Lemma pushing_vb acc n v x : pushing acc n v -> pushing acc n (v <| va_vb := x |>). Proof. intros (A1 & A2 & A3 & A4 & A5 & A6). split; [apply rq_ok_vb; exact A1|]. auto. Qed.
Lemma config_pair_at w ids k c : get_config w ids = Ok c -> k ∈ ids -> exists pc, vc_pairs c !! k = Some pc /\ pair_cfg w k = Some pc.
Proof.
  intros H Hk. destruct (vc_new_spec _ _ _ H) as (_ & _ & C3 & _). destruct (C3 k Hk) as (pc & P1 & P2). exists (pc_decompress pc). split; [exact P2|]. unfold pair_cfg.
  match goal with |- _ <$> ?t = _ => assert (t = Some pc) as -> by exact P1 end. reflexivity.
Qed.
(** C65, cancelling, with or without a fee oath. *)
Theorem C65_cancel_oath E cx w oath a is_ e : reachable E w -> step E cx w (OCancelRequests oath a is_) = Err e ->
  at_the_door E cx w RCancelRequest a 3 (handed oath) e \/
  oath_stopped E w a ∅ oath e \/
  e = EMissingRequest /\ (exists i, i ∈ is_ /\ request_at w a i = None) \/
  e = ECancelNotActiveOrDormant /\ (exists i r, i ∈ is_ /\ request_at w a i = Some r /\ ~ pending (kr_status r)) \/
  e = EArithmetic /\ (exists i r, i ∈ is_ /\ request_at w a i = Some r /\ (i < valid_start w a)%N).
Proof.
  intros Hr. revert e. door Hr RCancelRequest 3%N (handed oath).
  intros v0 acc Hv Hc0 Ha Hok _. apply f_bind; [eapply f_mono; [eapply f_oath_opt'; eassumption|auto]|]. intros [w1 v] Hso. apply oath_opt'_out in Hso as (s & x & -> & Ev). assert (va_comp v = acc) as Hc by (rewrite Ev; exact Hc0).
  assert (forall i, request_at w a i = kl_get (ac_requests acc) i) as Hra by (intros i; unfold request_at; rewrite Ha; reflexivity).
  assert (valid_start w a = ac_vstart acc) as Hvs by (unfold valid_start; rewrite Ha; reflexivity).
  pose proof Hv as Hv'. unfold get_acc, va_new in Hv'. bd Hv' as (acc' & _ & Hv'). bd Hv' as (rd & _ & Hv'). apply Ok_inj in Hv'.
  assert (cancelling acc is_ v) as Hcn. { split; [rewrite Ev; apply rq_ok_vb; eapply rq_ok_new; [exact Hv|rewrite Hc0; exact Hok]|]. split; [exact Hc|]. subst v v0. cbn. repeat split. intros j Hj. inversion Hj. }
  assert (va_req_upd v = ∅) as Hu by (subst v v0; reflexivity). clear Hv'.
  destruct (f_cancel acc v is_ Hok Hcn Hu) as [F1 F2]. apply f_bind.
  - eapply f_mono; [exact F1|]. intros e [(-> & i & Hi & H)|[(-> & i & r & Hi & H & Hp)|(-> & i & r & Hi & H & Hp)]].
    + right; left. split; [reflexivity|]. exists i. rewrite Hra. auto.
    + right; right; left. split; [reflexivity|]. exists i, r. rewrite Hra. split; [exact Hi|]. split; [exact H|]. apply not_pending. exact Hp.
    + right; right; right. split; [reflexivity|]. exists i, r. rewrite Hra, Hvs. auto.
  - intros v' H'. destruct (F2 v' H') as (G1 & G2 & G3 & G4 & G5 & _). apply f_bind; [|intros; apply f_Ok]. unfold realize_acc, va_realize. rewrite G5. cbn [mbind res_bind].
    apply f_bind; [|intros [? ?] _; apply f_Ok]. apply f_bind; [|intros; apply f_Ok]. apply f_none. unfold acc_update. cbv zeta. cbn [au_req_add va_updates]. rewrite G4. cbn [rfold mbind res_bind]. apply f_bind; [|intros; apply f_Ok].
    apply (f_rfold none (fun l => (kl_ptr (ac_requests (va_comp v')) <= kl_ptr l)%N)); [| |lia].
    + intros l [i r] Hi Hle. unfold kl_update. apply f_bind; [|intros; apply f_Ok]. apply f_guard. intros Hf. exfalso. apply elem_of_map_to_list in Hi. apply (rk_upd _ _ G1) in Hi as (r0 & Hk & _). assert (i < kl_ptr (ac_requests (va_comp v')))%N by (apply (ok_list _ (rk_acc _ _ G1)); unfold kl_get in Hk; eauto). cbn [fst] in Hf. apply N.ltb_ge in Hf. lia.
    + intros l [i r] l' _ Hle H. unfold kl_update in H. bd H as ([] & _ & H). apply Ok_inj in H. subst l'. exact Hle.
Qed.
(** C65, asking for a withdrawal, with or without a fee oath. *)
Theorem C65_withdrawal_request_oath E cx w oath expiry a target cs e : reachable E w -> step E cx w (ORemoveCollateralRequest oath expiry a target cs) = Err e ->
  at_the_door E cx w RRemoveCollateralRequest a 2 (handed oath) e \/
  oath_stopped E w a ∅ oath e \/
  e = EClaimsTooMany /\ (10 < length cs)%nat \/
  e = EActiveRequestsTooMany /\ (ec_active_requests_max (g_exchange_config w) < N.of_nat (size (active_set w a)) + 1)%N \/
  e = EArithmetic /\ (no_time (after (w_now w) 0) \/ no_time (after (after (w_now w) 0) expiry) \/ no_index_left w a 1).
Proof.
  intros Hr. revert e. door Hr RRemoveCollateralRequest 2%N (handed oath).
  intros v0 acc Hv Hc Ha Hok _. pose proof (pushing_new _ _ _ _ Hv Hc Hok) as P00. unfold no_index_left. rewrite <- (active_of _ _ _ Ha), <- (count_of _ _ _ Ha).
  match goal with |- fails ?Q _ => assert (forall e, oath_stopped E w a ∅ oath e -> Q e) as HQ0 by auto end. match goal with |- fails (fun e => _ \/ @?Q e) _ => assert (forall {A} (m : res A), fails Q m -> fails (fun e => oath_stopped E w a ∅ oath e \/ Q e) m) as HQ1 by (intros A m Hm; eapply f_mono; [exact Hm|auto]) end.
  apply f_bind; [eapply f_mono; [eapply f_oath_opt; eassumption|]; intros e [H|(_ & k & Hk & _)]; [auto|exfalso; revert Hk; apply not_elem_of_empty]|].
  intros [[w1 v] c] Hso. apply oath_opt_out in Hso as (s & y & ids & -> & Ev & Hcf & _). assert (pushing acc 0 v) as P0 by (rewrite Ev; apply pushing_vb; exact P00). apply HQ1. apply f_bind; [apply f_guard; intros H; apply N.leb_gt in H; left; split; [reflexivity|lia]|]. intros [] _.
  match goal with |- context [va_push_request ?n ?v ?r ?d ?x ?st ?ef] => destruct (f_push n acc 0 v r d x st ef P0) as [F1 F2] end. apply f_bind.
  { eapply f_mono; [exact F1|]. intros e [(-> & H)|(-> & H)]; [discriminate H|]. right; right. split; [reflexivity|]. replace (N.of_nat 0) with 0%N in H by reflexivity. rewrite N.add_0_r in H. exact H. }
  intros v1 H1. specialize (F2 v1 H1). apply f_bind. { eapply f_mono; [eapply f_active; [exact F2|exact (config_exchange _ _ _ Hcf)]|]. intros e [-> H]. right; left. split; [reflexivity|]. exact H. }
  intros [] _. apply f_bind; [|intros; apply f_Ok]. eapply f_mono; [eapply f_realize_push; exact F2|]. intros e [-> H]. right; right. split; [reflexivity|]. right; right. exact H.
Qed.
(** C65, asking for a trade, with or without a fee oath. *)
Theorem C65_order_request_oath E cx w oath delay expiry a pair amount ro pl slip act can status e : reachable E w ->
  step E cx w (OMarginOrderRequest oath delay expiry a pair amount ro pl slip act can status) = Err e ->
  at_the_door E cx w RMarginOrderRequest a 3 (handed oath) e \/
  oath_stopped E w a {[pair]} oath e \/
  e = EMissingPairConfig /\ pair_cfg w pair = None \/
  e = ETradeSizeMinNotMet /\ (exists pc, pair_cfg w pair = Some pc /\ Z.abs amount < pc_trade_size_min pc) \/
  e = EEffectedRequestsTooMany /\ (2 < length act \/ 2 < length can)%nat \/
  e = EInvalidRequestStatus /\ ~ pending status \/
  e = EActiveRequestsTooMany /\ (ec_active_requests_max (g_exchange_config w) < N.of_nat (size (active_set w a)) + 1)%N \/
  e = EArithmetic /\ (DMAX < Z.abs amount \/ (exists off, IRRelative off ∈ act ++ can /\ no_time (after off (request_count w a))) \/
    no_time (after (w_now w) delay) \/ no_time (after (after (w_now w) delay) expiry) \/ no_index_left w a 1).
Proof.
  intros Hr. revert e. door Hr RMarginOrderRequest 3%N (handed oath).
  intros v0 acc Hv Hc Ha Hok _. pose proof (pushing_new _ _ _ _ Hv Hc Hok) as P00. unfold no_index_left. rewrite <- (active_of _ _ _ Ha), <- (count_of _ _ _ Ha).
  match goal with |- fails ?Q _ => assert (forall e, oath_stopped E w a {[pair]} oath e -> Q e) as HQ0 by auto end. match goal with |- fails (fun e => _ \/ @?Q e) _ => assert (forall {A} (m : res A), fails Q m -> fails (fun e => oath_stopped E w a {[pair]} oath e \/ Q e) m) as HQ1 by (intros A m Hm; eapply f_mono; [exact Hm|auto]) end.
  apply f_bind; [eapply f_mono; [eapply f_oath_opt; eassumption|]; intros e [H|(-> & k & Hk & Hn)]; [auto|apply elem_of_singleton in Hk; subst k; right; left; auto]|].
  intros [[w1 v] c] Hso. apply oath_opt_out in Hso as (s & y & ids & -> & Ev & Hcf & Hin). assert (pushing acc 0 v) as P0 by (rewrite Ev; apply pushing_vb; exact P00). apply HQ1.
  assert (va_rlen v = kl_ptr (ac_requests acc)) as Hrl. { destruct P0 as (A1 & A2 & _). rewrite (rk_len _ _ A1), A2. reflexivity. }
  destruct (config_pair_at _ _ pair _ Hcf ltac:(set_solver)) as (pc & Hp1 & Hp2). clear P00. unfold vc_pair. match goal with |- context [expect ?t _] => assert (t = Some pc) as -> by exact Hp1 end. cbn [expect mbind res_bind].
  apply f_bind. { eapply f_mono; [apply f_dabs_big|]. intros e [-> H]. right; right; right; right; right. auto. }
  intros ab Hab. apply dabs_Ok in Hab as [-> _]. apply f_bind. { apply f_guard. intros H. apply Z.leb_gt in H. right; left. split; [reflexivity|]. exists pc. auto. }
  intros [] _. apply f_bind; [apply f_guard; intros H; apply N.leb_gt in H; right; right; left; split; [reflexivity|left; lia]|]. intros [] _. apply f_bind; [apply f_guard; intros H; apply N.leb_gt in H; right; right; left; split; [reflexivity|right; lia]|]. intros [] _.
  cbv zeta. rewrite Hrl. apply f_bind.
  { apply f_rmap. intros x Hx. eapply f_mono; [apply f_resolve|]. intros e (-> & off & -> & H). right; right; right; right; right. split; [reflexivity|]. right; left. exists off. split; [apply elem_of_app; left; exact Hx|exact H]. }
  intros act' _. apply f_bind. { apply f_rmap. intros x Hx. eapply f_mono; [apply f_resolve|]. intros e (-> & off & -> & H). right; right; right; right; right. split; [reflexivity|]. right; left. exists off. split; [apply elem_of_app; right; exact Hx|exact H]. }
  intros can' _. match goal with |- context [va_push_request ?n ?v ?r ?d ?x ?st ?ef] => destruct (f_push n acc 0 v r d x st ef P0) as [F1 F2] end. apply f_bind.
  { eapply f_mono; [exact F1|]. intros e [(-> & H)|(-> & H)]; [right; right; right; left; split; [reflexivity|apply not_pending; exact H]|]. right; right; right; right; right. split; [reflexivity|]. right; right. replace (N.of_nat 0) with 0%N in H by reflexivity. rewrite N.add_0_r in H. exact H. }
  intros v1 H1. specialize (F2 v1 H1). apply f_bind. { eapply f_mono; [eapply f_active; [exact F2|exact (config_exchange _ _ _ Hcf)]|]. intros e [-> H]. right; right; right; right; left. split; [reflexivity|]. exact H. }
  intros [] _. apply f_bind; [|intros; apply f_Ok]. eapply f_mono; [eapply f_realize_push; exact F2|]. intros e [-> H]. right; right; right; right; right. split; [reflexivity|]. right; right; right; right. exact H.
Qed.
(** C65, asking for a trade with take-profit and stop-loss, with or without a fee oath. *)
Theorem C65_tp_sl_request_oath E cx w oath delay expiry a pair amount ro pl slip tp sl e : reachable E w ->
  step E cx w (OMarginOrderTpSlRequest oath delay expiry a pair amount ro pl slip tp sl) = Err e ->
  at_the_door E cx w RMarginOrderRequest a 3 (handed oath) e \/
  oath_stopped E w a {[pair]} oath e \/
  e = EMissingPairConfig /\ pair_cfg w pair = None \/
  e = ETradeSizeMinNotMet /\ (exists pc, pair_cfg w pair = Some pc /\ Z.abs amount < pc_trade_size_min pc) \/
  e = EActiveRequestsTooMany /\ (ec_active_requests_max (g_exchange_config w) < N.of_nat (size (active_set w a)) + (1 + optn tp + optn sl))%N \/
  e = EArithmetic /\ (DMAX < Z.abs amount \/ no_time (after (w_now w) delay) \/ no_time (after (after (w_now w) delay) expiry) \/ no_index_left w a (1 + optn tp + optn sl)).
Proof.
  intros Hr. revert e. door Hr RMarginOrderRequest 3%N (handed oath).
  intros v0 acc Hv Hc Ha Hok _. pose proof (pushing_new _ _ _ _ Hv Hc Hok) as P00. unfold no_index_left. rewrite <- (active_of _ _ _ Ha), <- (count_of _ _ _ Ha).
  match goal with |- fails ?Q _ => assert (forall e, oath_stopped E w a {[pair]} oath e -> Q e) as HQ0 by auto end. match goal with |- fails (fun e => _ \/ @?Q e) _ => assert (forall {A} (m : res A), fails Q m -> fails (fun e => oath_stopped E w a {[pair]} oath e \/ Q e) m) as HQ1 by (intros A m Hm; eapply f_mono; [exact Hm|auto]) end.
  apply f_bind; [eapply f_mono; [eapply f_oath_opt; eassumption|]; intros e [H|(-> & k & Hk & Hn)]; [auto|apply elem_of_singleton in Hk; subst k; right; left; auto]|].
  intros [[w1 v] c] Hso. apply oath_opt_out in Hso as (s & y & ids & -> & Ev & Hcf & Hin). assert (pushing acc 0 v) as P0 by (rewrite Ev; apply pushing_vb; exact P00). apply HQ1.
  assert (va_rlen v = kl_ptr (ac_requests acc)) as Hrl. { destruct P0 as (A1 & A2 & _). rewrite (rk_len _ _ A1), A2. reflexivity. }
  destruct (config_pair_at _ _ pair _ Hcf ltac:(set_solver)) as (pc & Hp1 & Hp2). clear P00. unfold vc_pair. match goal with |- context [expect ?t _] => assert (t = Some pc) as -> by exact Hp1 end. cbn [expect mbind res_bind].
  set (n := (1 + optn tp + optn sl)%N).
  apply f_bind. { eapply f_mono; [apply f_dabs_big|]. intros e [-> H]. right; right; right. auto. }
  intros ab Hab. apply dabs_Ok in Hab as [-> Hab]. apply f_bind. { apply f_guard. intros H. apply Z.leb_gt in H. right; left. split; [reflexivity|]. exists pc. auto. }
  intros [] _. cbv zeta. rewrite Hrl. clear Hrl Hv.
  match goal with |- fails ?Q _ => set (P := Q) end.
  assert (forall (j : N) (m : N), (m <= n)%N -> (j + 1 <= kl_ptr (ac_requests acc) + m)%N -> fails P (uadd j 1)) as Hua.
  { intros j m Hm Hj. unfold uadd. destruct (N.leb_spec (j + 1) 18446744073709551615); [apply f_Ok|]. apply f_Err. right; right; right. split; [reflexivity|]. right; right; right. change (2 ^ 64)%N with 18446744073709551616%N. lia. }
  assert (forall k v r st, pushing acc k v -> (N.of_nat k + 1 <= n)%N -> is_pending st = true -> fails P (va_push_request (w_now w) v r delay expiry st []) /\ forall v', va_push_request (w_now w) v r delay expiry st [] = Ok v' -> pushing acc (S k) v') as Hpush.
  { intros k v1 r st Hp Hk Hst. destruct (f_push (w_now w) acc k v1 r delay expiry st [] Hp) as [F1 F2]. split; [|exact F2]. eapply f_mono; [exact F1|]. intros e [(-> & H)|(-> & H)]; [congruence|]. right; right; right. split; [reflexivity|]. destruct H as [H|[H|H]]; [auto|auto|]. right; right; right. lia. }
  assert (fails P (dneg amount)) as Hng. { eapply f_mono; [apply f_dneg_big|]. intros e [-> H]. right; right; right. auto. }
  assert (forall v', pushing acc (N.to_nat n) v' -> fails P (_ ← x_assert_active_requests_limit c v'; w0 ← realize_acc (w <| w_oath := s |>) v'; Ok w0)) as Hend.
  { intros v' Hp. apply f_bind; [eapply f_mono; [eapply f_active; [exact Hp|exact (config_exchange _ _ _ Hcf)]|]; intros e [-> H]; right; right; left; split; [reflexivity|]; rewrite N2Nat.id in H; exact H|].
    intros [] _. apply f_bind; [|intros; apply f_Ok]. eapply f_mono; [eapply f_realize_push; exact Hp|]. intros e [-> H]. right; right; right. split; [reflexivity|]. right; right; right. rewrite N2Nat.id in H. exact H. }
  assert (forall A v' (k : world -> A), pushing acc (N.to_nat n) v' -> fails P (_ ← x_assert_active_requests_limit c v'; w0 ← realize_acc (w <| w_oath := s |>) v'; Ok (k w0))) as Hend'.
  { intros A v' k Hp e He. apply (Hend v' Hp e). destruct (x_assert_active_requests_limit c v') as [[]|e1]; cbn [mbind res_bind] in *; [|injection He as <-; reflexivity]. destruct (realize_acc (w <| w_oath := s |>) v'); cbn [mbind res_bind] in *; [discriminate He|injection He as <-; reflexivity]. }
  clear Hend. set (i0 := kl_ptr (ac_requests acc)) in *.
  destruct tp as [ptp|], sl as [psl|]; cbn [optn] in n; cbn [mbind res_bind].
  - apply f_bind; [apply f_bind; [apply (Hua i0 1%N); unfold n; lia|intros; apply f_Ok]|]. intros [i1 itp] Hi. bd Hi as (z & Hz & Hi). apply uadd_Ok in Hz as [-> _]. apply Ok_inj in Hi. injection Hi as <- <-.
    apply f_bind; [apply f_bind; [apply (Hua (i0 + 1)%N 2%N); unfold n; lia|intros; apply f_Ok]|]. intros isl _.
    match goal with |- context [va_push_request ?nw ?v0 ?r ?d ?x STATUS_ACTIVE ?ef] => destruct (Hpush 0%nat v0 r STATUS_ACTIVE P0) as [F1 F2]; [unfold n; lia|reflexivity|] end. apply f_bind; [exact F1|]. intros v1 H1. specialize (F2 v1 H1).
    apply f_bind. { apply f_bind; [exact Hng|]. intros ng _. apply (Hpush 1%nat); [exact F2|unfold n; lia|reflexivity]. }
    intros v2 H2. bd H2 as (ng & _ & H2). apply (Hpush 1%nat _ _ _ F2) in H2; [|unfold n; lia|reflexivity].
    apply f_bind. { apply f_bind; [exact Hng|]. intros ng' _. apply (Hpush 2%nat); [exact H2|unfold n; lia|reflexivity]. }
    intros v3 H3. bd H3 as (ng' & _ & H3). apply (Hpush 2%nat _ _ _ H2) in H3; [|unfold n; lia|reflexivity]. apply Hend'. exact H3.
  - apply f_bind; [apply f_bind; [apply (Hua i0 1%N); unfold n; lia|intros; apply f_Ok]|]. intros [i1 itp] Hi. cbn [mbind res_bind].
    match goal with |- context [va_push_request ?nw ?v0 ?r ?d ?x STATUS_ACTIVE ?ef] => destruct (Hpush 0%nat v0 r STATUS_ACTIVE P0) as [F1 F2]; [unfold n; lia|reflexivity|] end. apply f_bind; [exact F1|]. intros v1 H1. specialize (F2 v1 H1).
    apply f_bind. { apply f_bind; [exact Hng|]. intros ng _. apply (Hpush 1%nat); [exact F2|unfold n; lia|reflexivity]. }
    intros v2 H2. bd H2 as (ng & _ & H2). apply (Hpush 1%nat _ _ _ F2) in H2; [|unfold n; lia|reflexivity]. cbn [mbind res_bind]. apply Hend'. exact H2.
  - apply f_bind; [apply f_bind; [apply (Hua i0 1%N); unfold n; lia|intros; apply f_Ok]|]. intros isl _.
    match goal with |- context [va_push_request ?nw ?v0 ?r ?d ?x STATUS_ACTIVE ?ef] => destruct (Hpush 0%nat v0 r STATUS_ACTIVE P0) as [F1 F2]; [unfold n; lia|reflexivity|] end. apply f_bind; [exact F1|]. intros v1 H1. specialize (F2 v1 H1). cbn [mbind res_bind].
    apply f_bind. { apply f_bind; [exact Hng|]. intros ng _. apply (Hpush 1%nat); [exact F2|unfold n; lia|reflexivity]. }
    intros v2 H2. bd H2 as (ng & _ & H2). apply (Hpush 1%nat _ _ _ F2) in H2; [|unfold n; lia|reflexivity]. apply Hend'. exact H2.
  - match goal with |- context [va_push_request ?nw ?v0 ?r ?d ?x STATUS_ACTIVE ?ef] => destruct (Hpush 0%nat v0 r STATUS_ACTIVE P0) as [F1 F2]; [unfold n; lia|reflexivity|] end. apply f_bind; [exact F1|]. intros v1 H1. specialize (F2 v1 H1). cbn [mbind res_bind]. apply Hend'. exact F2.
Qed.
