(** * C61: submitting, cancelling and executing change exactly the named requests. *)
From Verif Require Import Base DFloat Lists Types Config Oracle Pool Account Fees Referral ExInternal Exchange System Sums Trace Frames Calls Shape Spec P_Ledger P_Accounts Frames2 Scenario Witness Props_Config P_Fees P_Coll P_Refs P_Rules P_Requests P_Requests2 P_Requests3 P_Requests4 SpecRequests SpecTrading SpecMargin SpecAuth SpecReferral Props_Auth Props_Ledger Props_Collateral Props_Referral Props_Requests Props_Requests2 Props_Requests3 P_Access Props_Access Props_Deposits.

(** Nothing of account [a] changed but its requests and, by the value of the fee oath, its balance. *)
Definition only_requests_change (w : world) (a : addr) (cost : Z) (w' : world) : Prop :=
  balance w' a = balance w a - cost /\ (forall r, collateral_of w' a r = collateral_of w a r) /\ (forall k, position w' a k = position w a k) /\
  valid_start w' a = valid_start w a /\ (forall lvl, (1 <= lvl <= 3)%N -> rule_of w' a lvl = rule_of w a lvl) /\
  po_base (w_pool w') = po_base (w_pool w) /\ po_positions (w_pool w') = po_positions (w_pool w) /\ w_lp w' = w_lp w.

Lemma quiet_call E w a oath l w' acc : acct_call E w a (oath_acts oath ++ l) w' -> w_accounts w !! a = Some acc -> Forall is_push l \/ (exists is_, l = [ACancel is_]) ->
  exists acc', w_accounts w' !! a = Some acc' /\ ac_vb acc' = ac_vb acc - (match oath with Some b => b_amt b | None => 0 end) /\
    ac_coll acc' = ac_coll acc /\ ac_positions acc' = ac_positions acc /\ ac_vstart acc' = ac_vstart acc /\
    po_base (w_pool w') = po_base (w_pool w) /\ po_positions (w_pool w') = po_positions (w_pool w).
Proof.
  intros Hc Ha Hl.
  assert (forall t : sact -> bool, (forall b, t (AOath b) = false) -> (forall r d e s, t (APush r d e s) = false) -> (forall i, t (ACancel i) = false) -> Forall (fun x => t x = false) (oath_acts oath ++ l)) as Hno.
  { intros t T1 T2 T3. apply Forall_app. split; [apply oath_none; exact T1|]. destruct Hl as [Hl|(is_ & ->)]; [apply push_none; auto|repeat constructor; apply T3]. }
  assert (Forall (fun x => quiet x = true) (oath_acts oath ++ l)) as Hq.
  { eapply Forall_impl; [apply (Hno (fun x => negb (quiet x))); reflexivity|]. intros x. cbv beta. destruct (quiet x); [reflexivity|discriminate]. }
  destruct (acct_call_vb _ _ _ _ _ _ Hc Ha Hq) as (acc' & Ha' & Hvb).
  assert (lsum act_vb l = 0) as Hz. { destruct Hl as [Hl|(is_ & ->)]; [|reflexivity]. apply lsum_zero. rewrite Forall_forall in Hl. intros x Hx. specialize (Hl x Hx). destruct x; try destruct Hl. reflexivity. }
  exists acc'. split; [exact Ha'|]. split. { rewrite Hvb, lsum_app, Hz. destruct oath; cbn; lia. }
  split; [eapply acct_coll_same; eauto|]. split; [eapply acct_positions_same; eauto|]. split; [eapply acct_vstart_same; eauto|]. split; [|eapply acct_pool_same; eauto].
  destruct Hc as [c o idsc ids v0 s1 acc1 refs' Hc Ho Hv Hs Hz' Hw]. rewrite Hw. cbn.
  assert (forall s k s', ssteps E (w_now w) c o s k s' -> Forall (fun x => (match x with AOath _ | APush _ _ _ _ | ACancel _ => false | _ => true end) = false) k -> po_base (vp_comp (s_pool s')) = po_base (vp_comp (s_pool s))) as Hbase.
  { clear. induction 1 as [|s x s1 l s2 H1 H2 IH]; intros Hf; [reflexivity|]. apply Forall_cons in Hf as [Hx Hf]. rewrite (IH Hf). clear IH H2 Hf. destruct H1; try discriminate Hx; reflexivity. }
  apply Hbase in Hs; [exact Hs|]. apply Hno; reflexivity.
Qed.
Lemma only_requests E cx w o w' out a oath l : reachable E w -> step E cx w o = Ok (w', out) -> op_account o = Some a -> acct_call E w a (oath_acts oath ++ l) w' -> Forall is_push l \/ (exists is_, l = [ACancel is_]) ->
  (forall lvl, (1 <= lvl <= 3)%N -> forall r, rule_of w a lvl = Some r -> rule_of w' a lvl = Some r) ->
  only_requests_change w a (match oath with Some b => b_amt b | None => 0 end) w'.
Proof.
  intros Hr Hs Ho Hc Hl Hru. destruct (acct_call_self _ _ _ _ _ Hc) as ((acc & Ha) & _). destruct (quiet_call _ _ _ _ _ _ _ Hc Ha Hl) as (acc' & Ha' & Hvb & Hco & Hpos & Hvs & Hb & Hpp).
  split. { unfold balance. rewrite Ha, Ha'. exact Hvb. }
  split. { intros r. unfold collateral_of, held_coll. rewrite Ha, Ha', Hco. reflexivity. }
  split. { intros k. unfold position, held. rewrite Ha, Ha', Hpos. reflexivity. }
  split. { unfold valid_start. rewrite Ha, Ha'. exact Hvs. }
  split. { intros lvl Hlv. assert (rule_of w a lvl = Some (ac_level lvl acc)) as Hq by (unfold rule_of; rewrite Ha; reflexivity). rewrite Hq. exact (Hru _ Hlv _ Hq). }
  split; [exact Hb|]. split; [exact Hpp|]. apply acct_call_config in Hc. tauto.
Qed.
(** The live requests after a call are known from the statuses (C06). *)
Lemma live_iff E w a acc i : reachable E w -> w_accounts w !! a = Some acc -> i ∈ active_set w a <-> (valid_start w a <= i)%N /\ exists r, request_at w a i = Some r /\ pending (kr_status r).
Proof. intros Hr Ha. exact (C06_active_set_exact _ _ _ _ Hr Ha i). Qed.

(** What it means that [news] were appended to the requests of account [a]. *)
Definition requests_appended (w : world) (a : addr) (news : list keeper_request) (w' : world) : Prop :=
  let n := request_count w a in
  request_count w' a = (n + N.of_nat (length news))%N /\
  (forall k, (k < length news)%nat -> request_at w' a (n + N.of_nat k) = news !! k) /\
  (forall j, (j < n)%N -> request_at w' a j = request_at w a j) /\
  (forall j, j ∈ active_set w' a <-> j ∈ active_set w a \/ (n <= j < n + N.of_nat (length news))%N).

Lemma appended_all E w a news w' : reachable E w -> reachable E w' -> appended w a news w' -> Forall (fun r => pending (kr_status r)) news -> requests_appended w a news w'.
Proof.
  intros Hr Hr' Hap Hpn. pose proof Hap as (acc & acc' & Ha & Ha' & _ & _ & Hvs & _). apply appended_at in Hap as (Hc & Hold & Hnew & _).
  split; [exact Hc|]. split; [intros k _; exact (Hnew k)|]. split; [exact Hold|]. intros j. rewrite (live_iff _ _ _ _ j Hr Ha), (live_iff _ _ _ _ j Hr' Ha').
  assert (valid_start w' a = valid_start w a) as Hv by (unfold valid_start; rewrite Ha, Ha'; exact Hvs). rewrite Hv.
  assert (valid_start w a <= request_count w a)%N as Hle. { destruct (C55_requests_grow E w [] w a Hr (steps_nil _ _)) as (_ & _ & H). exact H. }
  destruct (N.lt_ge_cases j (request_count w a)) as [Hj|Hj].
  - rewrite (Hold j Hj). split; [intros H; left; exact H|intros [H|H]; [exact H|lia]].
  - assert (exists k, j = request_count w a + N.of_nat k)%N as (k & ->) by (exists (N.to_nat (j - request_count w a)); lia). rewrite Hnew. split.
    + intros (_ & r & Hk & _). right. apply lookup_lt_Some in Hk. lia.
    + intros [(_ & r & Hk & _)|Hk]; [|split; [lia|]].
      * exfalso. assert (is_Some (request_at w a (request_count w a + N.of_nat k))) as His by eauto. apply (C06_indexes_exist _ _ _ _ _ Hr Ha) in His. lia.
      * destruct (lookup_lt_is_Some_2 news k ltac:(lia)) as (r & Hk'). exists r. split; [exact Hk'|]. rewrite Forall_lookup in Hpn. exact (Hpn _ _ Hk').
Qed.

(** ** A withdrawal request: stored with exactly the target and claims, executable from the next second until it
    expires, returned index and all, and nothing else changes. *)
Theorem C61_withdrawal_submitted E cx w oath expiry a target cs w' out : reachable E w -> step E cx w (ORemoveCollateralRequest oath expiry a target cs) = Ok (w', out) ->
  requests_appended w a [mkKReq (RRemove (mkReqRemove target cs)) (w_now w) (after (w_now w) expiry) STATUS_ACTIVE [target]] w' /\
  o_indexes out = [Some (request_count w a)] /\ (length cs <= 10)%nat /\ only_requests_change w a (oath_value (ORemoveCollateralRequest oath expiry a target cs)) w'.
Proof.
  intros Hr Hs. destruct (remove_submit _ _ _ _ _ _ _ _ _ _ Hr Hs) as (Hap & Hi & Hlen). split; [|split; [exact Hi|split; [exact Hlen|]]].
  - rewrite after_as. apply (appended_all E); [exact Hr|exact (reach_step _ _ _ _ _ _ Hr Hs)|exact Hap|]. apply Forall_singleton. right. reflexivity.
  - pose proof (step_acct _ _ _ _ _ _ a Hs eq_refl) as (l & Hc & Hac & _). cbn in Hac. destruct Hac as [_ ->]. eapply (only_requests _ _ _ _ _ _ _ oath); [exact Hr|exact Hs|reflexivity|exact Hc|left; repeat constructor|].
    intros lvl Hl r Hru. exact (C31_rules_after _ _ _ _ _ _ _ _ _ Hs Hl Hru).
Qed.
(** ** An order request. (The resolution of relative references is C54.) *)
Theorem C61_order_submitted E cx w oath delay expiry a pair amount ro pl slip act can status w' out : reachable E w ->
  step E cx w (OMarginOrderRequest oath delay expiry a pair amount ro pl slip act can status) = Ok (w', out) ->
  exists act' can', length act' = length act /\ length can' = length can /\
    requests_appended w a [mkKReq (ROrder (mkReqOrder pair amount ro pl slip act' can')) (after (w_now w) delay) (after (after (w_now w) delay) expiry) status []] w' /\
    pending status /\ o_indexes out = [Some (request_count w a)] /\
    only_requests_change w a (oath_value (OMarginOrderRequest oath delay expiry a pair amount ro pl slip act can status)) w'.
Proof.
  intros Hr Hs. destruct (order_submit _ _ _ _ _ _ _ _ _ _ _ _ _ _ _ _ _ Hr Hs) as (act' & can' & Hap & H1 & H2 & Hi & _ & _ & Hp). apply is_pending_spec in Hp. exists act', can'.
  split; [apply rmap_Forall2, Forall2_length in H1; congruence|]. split; [apply rmap_Forall2, Forall2_length in H2; congruence|]. split; [|split; [exact Hp|split; [exact Hi|]]].
  - rewrite !after_as. apply (appended_all E); [exact Hr|exact (reach_step _ _ _ _ _ _ Hr Hs)|exact Hap|]. apply Forall_singleton. exact Hp.
  - pose proof (step_acct _ _ _ _ _ _ a Hs eq_refl) as (l & Hc & Hac & _). cbn in Hac. destruct Hac as (_ & ac & cn & ->). eapply (only_requests _ _ _ _ _ _ _ oath); [exact Hr|exact Hs|reflexivity|exact Hc|left; repeat constructor|].
    intros lvl Hl r Hru. exact (C31_rules_after _ _ _ _ _ _ _ _ _ Hs Hl Hru).
Qed.
(** ** An order with take-profit and stop-loss changes nothing else either. (Its requests are C44.) *)
Theorem C61_tp_sl_touches_nothing_else E cx w oath delay expiry a pair amount ro pl slip tp sl w' out : reachable E w ->
  step E cx w (OMarginOrderTpSlRequest oath delay expiry a pair amount ro pl slip tp sl) = Ok (w', out) ->
  only_requests_change w a (oath_value (OMarginOrderTpSlRequest oath delay expiry a pair amount ro pl slip tp sl)) w'.
Proof.
  intros Hr Hs. pose proof (step_acct _ _ _ _ _ _ a Hs eq_refl) as (l & Hc & Hac & _). cbn in Hac. destruct Hac as (_ & l' & -> & Hl'). eapply (only_requests _ _ _ _ _ _ _ oath); [exact Hr|exact Hs|reflexivity|exact Hc|left; exact Hl'|].
  intros lvl Hl r Hru. exact (C31_rules_after _ _ _ _ _ _ _ _ _ Hs Hl Hru).
Qed.
(** ** Cancelling: the listed requests, all pending before, are cancelled and no longer live; every other request is
    exactly as it was, and nothing else of the account changes. *)
Theorem C61_cancelled E cx w oath a is_ w' out : reachable E w -> step E cx w (OCancelRequests oath a is_) = Ok (w', out) ->
  (forall i, i ∈ is_ -> exists r, request_at w a i = Some r /\ pending (kr_status r) /\ request_at w' a i = Some (r <| kr_status := STATUS_CANCELLED |>)) /\
  (forall i, i ∉ is_ -> request_at w' a i = request_at w a i) /\ request_count w' a = request_count w a /\
  (forall i, i ∈ active_set w' a <-> i ∈ active_set w a /\ i ∉ is_) /\
  only_requests_change w a (oath_value (OCancelRequests oath a is_)) w'.
Proof.
  intros Hr Hs. destruct (cancel_step _ _ _ _ _ _ _ _ Hr Hs) as (acc & acc' & Ha & Ha' & Hp & Hk & Hlen & Hvs).
  assert (forall i, request_at w a i = kl_get (ac_requests acc) i) as E1 by (intros i; unfold request_at; rewrite Ha; reflexivity). assert (forall i, request_at w' a i = kl_get (ac_requests acc') i) as E2 by (intros i; unfold request_at; rewrite Ha'; reflexivity).
  assert (forall i, i ∈ is_ -> exists r, request_at w a i = Some r /\ pending (kr_status r) /\ request_at w' a i = Some (r <| kr_status := STATUS_CANCELLED |>)) as P1.
  { intros i Hi. destruct (Hp i Hi) as (r & Hri & Hpe). exists r. rewrite E1, E2. split; [exact Hri|]. split; [apply is_pending_spec; exact Hpe|]. rewrite Hk. unfold after_set. rewrite Hri. unfold try_upd. change (STATUS_CANCELLED =? 1)%N with false. cbv iota. rewrite Hpe, decide_True by exact Hi. reflexivity. }
  assert (forall i, i ∉ is_ -> request_at w' a i = request_at w a i) as P2.
  { intros i Hi. rewrite E1, E2, Hk. unfold after_set. destruct (kl_get (ac_requests acc) i) as [r|]; [|reflexivity]. destruct (try_upd STATUS_CANCELLED r); [|reflexivity]. rewrite decide_False by exact Hi. reflexivity. }
  split; [exact P1|]. split; [exact P2|]. split; [unfold request_count; rewrite Ha, Ha'; exact Hlen|]. split.
  - intros i. rewrite (live_iff _ _ _ _ i Hr Ha), (live_iff _ _ _ _ i (reach_step _ _ _ _ _ _ Hr Hs) Ha'). assert (valid_start w' a = valid_start w a) as -> by (unfold valid_start; rewrite Ha, Ha'; exact Hvs). destruct (decide (i ∈ is_)) as [Hi|Hi].
    + destruct (P1 i Hi) as (r & _ & _ & Hr'). split; [|intros [_ Hn]; contradiction]. intros (_ & r2 & Hr2 & Hpe). rewrite Hr' in Hr2. injection Hr2 as <-. cbn in Hpe. destruct Hpe as [Hpe|Hpe]; discriminate Hpe.
    + rewrite (P2 i Hi). tauto.
  - pose proof (step_acct _ _ _ _ _ _ a Hs eq_refl) as (l & Hc & Hac & _). cbn in Hac. destruct Hac as [_ ->]. eapply (only_requests _ _ _ _ _ _ _ oath); [exact Hr|exact Hs|reflexivity|exact Hc|right; eexists; reflexivity|].
    intros lvl Hl r Hru. exact (C31_rules_after _ _ _ _ _ _ _ _ _ Hs Hl Hru).
Qed.
(** ** Executing an order: its own request becomes executed, the pending requests it lists to cancel are cancelled, the
    dormant ones it lists to activate become active, and every other request of the account stays as it was. *)
Definition status_after_order (i : N) (o : req_order) (j : N) (s : N) : N :=
  if decide (j = i) then STATUS_EXECUTED
  else if decide (j ∈ ro_cancel o /\ (s = STATUS_DORMANT \/ s = STATUS_ACTIVE)) then STATUS_CANCELLED
  else if decide (j ∈ ro_activate o /\ s = STATUS_DORMANT) then STATUS_ACTIVE
  else s.
Theorem C61_order_executed E cx w a i upd w' out r o : reachable E w -> step E cx w (OProcessRequest a i upd) = Ok (w', out) ->
  request_at w a i = Some r -> kr_request r = ROrder o -> w_now w < kr_expiry r ->
  request_count w' a = request_count w a /\
  (forall j, request_at w' a j = (fun rj => rj <| kr_status := status_after_order i o j (kr_status rj) |>) <$> request_at w a j) /\
  (forall j, j ∈ ro_activate o ++ ro_cancel o -> (j < request_count w a)%N).
Proof.
  intros Hr Hs Hi Ho Hx. destruct (process_step _ _ _ _ _ _ _ _ Hr Hs) as (acc & acc' & r0 & Ha & Ha' & Hi0 & _ & _ & Hlen & _ & Hc).
  assert (forall j, request_at w a j = kl_get (ac_requests acc) j) as E1 by (intros j; unfold request_at; rewrite Ha; reflexivity). assert (forall j, request_at w' a j = kl_get (ac_requests acc') j) as E2 by (intros j; unfold request_at; rewrite Ha'; reflexivity).
  assert (r0 = r) as -> by (rewrite E1 in Hi; congruence). destruct Hc as [(He & _)|(_ & Hact & Hv)]; [lia|]. unfold exec_view in Hv. rewrite Ho in Hv. destruct Hv as [Ht Hv].
  split; [unfold request_count; rewrite Ha, Ha'; exact Hlen|]. split.
  - intros j. rewrite E1, E2, Hv. unfold after_set, mark, status_after_order. destruct (decide (j = i)) as [->|Hn].
    + rewrite Hi0. cbn. reflexivity.
    + destruct (kl_get (ac_requests acc) j) as [rj|] eqn:Hj; [|reflexivity]. cbn [fmap option_fmap option_map].
      assert (forall x, x = rj <| kr_status := kr_status rj |> -> x = rj) as Hid by (intros x ->; destruct rj; reflexivity).
      pose proof (acc_ok_reachable _ _ Hr _ _ Ha) as Hok.
      assert (try_upd STATUS_ACTIVE rj = if decide (kr_status rj = STATUS_DORMANT) then Some STATUS_ACTIVE else None) as T1 by (unfold try_upd; change (STATUS_ACTIVE =? 1)%N with true; cbv iota; destruct (N.eqb_spec (kr_status rj) 0) as [Hz|Hz]; [rewrite decide_True by exact Hz|rewrite decide_False by exact Hz]; reflexivity).
      assert (forall q, try_upd STATUS_CANCELLED q = if decide (kr_status q = STATUS_DORMANT \/ kr_status q = STATUS_ACTIVE) then Some STATUS_CANCELLED else None) as T2.
      { intros q. unfold try_upd. change (STATUS_CANCELLED =? 1)%N with false. cbv iota. destruct (pend q) eqn:Hpq; [rewrite decide_True by (apply is_pending_spec; exact Hpq)|rewrite decide_False; [reflexivity|intros Hq; apply is_pending_spec in Hq; change (pend q = true) in Hq; rewrite Hpq in Hq; discriminate]]; reflexivity. }
      rewrite T1. destruct (decide (kr_status rj = STATUS_DORMANT)) as [Hd|Hd].
      * destruct (decide (j ∈ ro_activate o)) as [A|A], (decide (j ∈ ro_cancel o)) as [C|C]; rewrite T2; cbn [set_st kr_status];
          repeat first [rewrite decide_True by (cbn; tauto)|rewrite decide_False by (cbn; tauto)]; try reflexivity.
        symmetry. f_equal. apply Hid. reflexivity.
      * rewrite T2. destruct (decide (kr_status rj = STATUS_DORMANT \/ kr_status rj = STATUS_ACTIVE)) as [P|P], (decide (j ∈ ro_cancel o)) as [C|C];
          repeat first [rewrite decide_True by tauto|rewrite decide_False by tauto]; try reflexivity; (symmetry; f_equal; apply Hid; reflexivity).
  - intros j Hj. apply Ht in Hj. unfold request_count. rewrite Ha. apply (ok_list _ (acc_ok_reachable _ _ Hr _ _ Ha)) in Hj. exact Hj.
Qed.
(** ** Executing a withdrawal, or clearing an expired request, changes that request alone. *)
Theorem C61_one_request_changes E cx w a i upd w' out r : reachable E w -> step E cx w (OProcessRequest a i upd) = Ok (w', out) -> request_at w a i = Some r ->
  (exists rr, kr_request r = RRemove rr) \/ kr_expiry r <= w_now w ->
  request_at w' a i = Some (r <| kr_status := if decide (kr_expiry r <= w_now w) then STATUS_EXPIRED else STATUS_EXECUTED |>) /\
  (forall j, j <> i -> request_at w' a j = request_at w a j) /\ request_count w' a = request_count w a.
Proof.
  intros Hr Hs Hi Hd. destruct (process_step _ _ _ _ _ _ _ _ Hr Hs) as (acc & acc' & r0 & Ha & Ha' & Hi0 & _ & _ & Hlen & _ & Hc).
  assert (forall j, request_at w a j = kl_get (ac_requests acc) j) as E1 by (intros j; unfold request_at; rewrite Ha; reflexivity). assert (forall j, request_at w' a j = kl_get (ac_requests acc') j) as E2 by (intros j; unfold request_at; rewrite Ha'; reflexivity).
  assert (r0 = r) as -> by (rewrite E1 in Hi; congruence).
  assert (forall j, kl_get (ac_requests acc') j = mark i (if decide (kr_expiry r <= w_now w) then STATUS_EXPIRED else STATUS_EXECUTED) (kl_get (ac_requests acc)) j) as Hm.
  { destruct Hc as [(He & _ & Hm)|(He & _ & Hv)]; [rewrite decide_True by exact He; exact Hm|]. rewrite decide_False by lia. destruct Hd as [(rr & Hrr)|Hd]; [|lia]. unfold exec_view in Hv. rewrite Hrr in Hv. exact Hv. }
  split; [rewrite E2, Hm; unfold mark; rewrite decide_True, Hi0 by reflexivity; reflexivity|]. split; [intros j Hj; rewrite E1, E2, Hm; unfold mark; rewrite decide_False by exact Hj; reflexivity|]. unfold request_count. rewrite Ha, Ha'. exact Hlen.
Qed.
(** After W3, A2 submits an order with take-profit and stop-loss; its execution activates both. *)
Example C61_ex : exists w1 outs w2 out, steps sc_env W3 (hist [tpsl_op; (cx_any, OAdvance 87440)] outs) w1 /\
  step sc_env cx_any w1 (OProcessRequest A2 2%N (msg 30300%N 2000%N 87439%N)) = Ok (w2, out) /\
  status_at w1 A2 2%N = Some STATUS_ACTIVE /\ status_at w1 A2 3%N = Some STATUS_DORMANT /\ status_at w1 A2 4%N = Some STATUS_DORMANT /\
  status_at w2 A2 2%N = Some STATUS_EXECUTED /\ status_at w2 A2 3%N = Some STATUS_ACTIVE /\ status_at w2 A2 4%N = Some STATUS_ACTIVE.
Proof.
  destruct (try_run_true W3 [tpsl_op; (cx_any, OAdvance 87440)] (fun w1 _ =>
    bool_decide (status_at w1 A2 2%N = Some STATUS_ACTIVE) && bool_decide (status_at w1 A2 3%N = Some STATUS_DORMANT) && bool_decide (status_at w1 A2 4%N = Some STATUS_DORMANT) &&
    try_ w1 (cx_any, OProcessRequest A2 2%N (msg 30300%N 2000%N 87439%N)) (fun w2 _ =>
      bool_decide (status_at w2 A2 2%N = Some STATUS_EXECUTED) && bool_decide (status_at w2 A2 3%N = Some STATUS_ACTIVE) && bool_decide (status_at w2 A2 4%N = Some STATUS_ACTIVE)))) as (w1 & outs & H & Hf); [vm_compute; reflexivity|].
  apply andb_true_iff in Hf as [Hf H3]. apply andb_true_iff in Hf as [Hf H2]. apply andb_true_iff in Hf as [H0 H1]. apply bool_decide_eq_true in H0, H1, H2. apply try_true in H3 as (w2 & out & H3 & Hf).
  apply andb_true_iff in Hf as [Hf H6]. apply andb_true_iff in Hf as [H4 H5]. apply bool_decide_eq_true in H4, H5, H6.
  exists w1, outs, w2, out. split; [exact H|]. split; [exact H3|]. split; [exact H0|]. split; [exact H1|]. split; [exact H2|]. split; [exact H4|]. split; [exact H5|exact H6].
Qed.
