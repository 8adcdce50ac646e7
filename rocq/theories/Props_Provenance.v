(** * C69: every request of an account was asked for, with these terms, by somebody its rules admit. *)
From Verif Require Import Base DFloat Lists Types Config Oracle Pool Account Fees Referral ExInternal Exchange System Sums Trace Frames Calls Shape Spec P_Ledger P_Accounts Frames2 Scenario Witness Props_Config P_Fees P_Coll P_Refs P_Rules P_Requests P_Requests2 P_Requests3 P_Requests4 P_Keeper SpecRequests SpecTrading SpecMargin SpecAuth SpecReferral Props_Auth Props_Ledger Props_Collateral Props_Referral Props_Requests Props_Requests2 Props_Requests3 P_Access Props_Access Props_Deposits Props_Submit Props_Orders.

(** The request [r] is one that the call [o], made at time [now], asks account [a] for: the withdrawal with its target and claims;
    the order with its pair, amount, direction, price limit and slippage limit; the order with a take-profit and a stop-loss, or one
    of those two, which undo at most what the order did. *)
Definition asks_for (now : Z) (o : op) (a : addr) (r : keeper_request) : Prop :=
  match o with
  | ORemoveCollateralRequest _ expiry b target cs =>
      b = a /\ kr_request r = RRemove (mkReqRemove target cs) /\ kr_submission r = now /\ kr_expiry r = after now expiry
  | OMarginOrderRequest _ delay expiry b p amount ro pl slip act can _ =>
      b = a /\ kr_submission r = after now delay /\ kr_expiry r = after (after now delay) expiry /\
      exists act' can', length act' = length act /\ length can' = length can /\ kr_request r = ROrder (mkReqOrder p amount ro pl slip act' can')
  | OMarginOrderTpSlRequest _ delay expiry b p amount ro pl slip tp sl =>
      b = a /\ kr_submission r = after now delay /\ kr_expiry r = after (after now delay) expiry /\
      exists act' can',
      (kr_request r = ROrder (mkReqOrder p amount ro pl slip act' can') \/
       exists price, (tp = Some price /\ kr_request r = ROrder (mkReqOrder p (- amount) true (if 0 <? amount then PLGte price else PLLte price) slip act' can')) \/
                     (sl = Some price /\ kr_request r = ROrder (mkReqOrder p (- amount) true (if 0 <? amount then PLLte price else PLGte price) slip act' can')))
  | _ => False
  end.
(** Withdrawals need the account's level 2 rule, orders its level 3 rule. *)
Definition level_for (q : request) : N := match q with RRemove _ => 2 | ROrder _ => 3 end.

(** A request that was not there before a call and is there after it was asked for by that call. *)
Lemma request_appears E cx w o w' out a i r : reachable E w -> step E cx w o = Ok (w', out) -> request_at w a i = None -> request_at w' a i = Some r ->
  asks_for (w_now w) o a r /\ needed_level o = Some (a, level_for (kr_request r)).
Proof.
  intros Hr Hs Hn Hi. pose proof (reach_step _ _ _ _ _ _ Hr Hs) as Hr'. destruct (request_at_inv _ _ _ _ Hi) as (acc' & Ha' & _).
  assert (i < request_count w' a)%N as Hlt by (apply (C06_indexes_exist _ _ _ _ _ Hr' Ha'); eauto).
  assert (forall acc, w_accounts w !! a = Some acc -> (request_count w a <= i)%N) as Hge.
  { intros acc Ha. destruct (N.lt_ge_cases i (request_count w a)) as [Hc|Hc]; [|exact Hc]. apply (C06_indexes_exist _ _ _ _ _ Hr Ha) in Hc as [x Hx]. congruence. }
  destruct (step_account _ _ _ _ _ _ a Hs) as [Heq|[[Ho (l & Hc & Hac & _)]|(oath & rule & ts & code & ref & g & more & -> & _)]].
  - exfalso. unfold request_at in Hn, Hi. rewrite Heq in Hi. congruence.
  - destruct (acct_call_self _ _ _ _ _ Hc) as ((acc & Ha) & _). specialize (Hge _ Ha). destruct (can_push o) eqn:Hp.
    2: { exfalso. pose proof (acct_count_same _ _ _ _ _ _ _ Hc (op_acts_shape _ _ _ _ Hac) Ha Ha' (acc_ok_reachable _ _ Hr _ _ Ha) (op_free_push _ _ _ _ Hac Hp)) as He.
         unfold request_count in *. rewrite Ha in Hge. rewrite Ha' in Hlt. unfold kl_len in He. lia. }
    destruct o; try discriminate Hp; cbn [op_account] in Ho; injection Ho as ->.
    + destruct (C61_withdrawal_submitted _ _ _ _ _ _ _ _ _ _ Hr Hs) as ((Hcnt & Hnew & _) & _). cbn [length] in *. assert (i = request_count w a + N.of_nat 0)%N as E1 by lia.
      rewrite E1, (Hnew 0%nat) in Hi by lia. injection Hi as <-. split; [|reflexivity]. cbn. auto.
    + destruct (C61_order_submitted _ _ _ _ _ _ _ _ _ _ _ _ _ _ _ _ _ Hr Hs) as (act' & can' & L1 & L2 & (Hcnt & Hnew & _) & _). cbn [length] in *. assert (i = request_count w a + N.of_nat 0)%N as E1 by lia.
      rewrite E1, (Hnew 0%nat) in Hi by lia. injection Hi as <-. split; [|reflexivity]. cbn. do 3 (split; [reflexivity|]). exists act', can'. auto.
    + destruct (tpsl_submit _ _ _ _ _ _ _ _ _ _ _ _ _ _ _ _ Hr Hs) as (Hap & _). apply appended_at in Hap as (_ & _ & Hnew & _).
      assert (exists k, i = request_count w a + N.of_nat k)%N as (k & E1) by (exists (N.to_nat (i - request_count w a)); lia). rewrite E1, Hnew in Hi. apply elem_of_list_lookup_2 in Hi. unfold tpsl_news in Hi.
      rewrite <- !after_as in Hi. cbn [asks_for needed_level]. apply elem_of_app in Hi as [Hi|Hi]; [|apply elem_of_app in Hi as [Hi|Hi]].
      * apply elem_of_list_singleton in Hi. subst r. split; [|reflexivity]. cbn. do 3 (split; [reflexivity|]). do 2 eexists. left. reflexivity.
      * destruct price_tp as [price|]; [|inversion Hi]. apply elem_of_list_singleton in Hi. subst r. split; [|reflexivity]. cbn. do 3 (split; [reflexivity|]). do 2 eexists. right. exists price. left. auto.
      * destruct price_sl as [price|]; [|inversion Hi]. apply elem_of_list_singleton in Hi. subst r. split; [|reflexivity]. cbn. do 3 (split; [reflexivity|]). do 2 eexists. right. exists price. right. auto.
  - exfalso. destruct (C59_create_account _ _ _ _ _ _ _ _ _ _ Hr Hs) as (_ & _ & _ & _ & _ & Hz & _). lia.
Qed.
(** Later calls never touch the terms of a request (C04). *)
Lemma asked_terms now o a r r' : asks_for now o a r -> kr_request r' = kr_request r -> kr_submission r' = kr_submission r -> kr_expiry r' = kr_expiry r -> asks_for now o a r'.
Proof. intros H H1 H2 H3. destruct o; cbn in *; try contradiction; rewrite H1, H2, H3; exact H. Qed.
Lemma terms_kept E w l w' a i r : reachable E w -> steps E w l w' -> request_at w a i = Some r ->
  exists r', request_at w' a i = Some r' /\ kr_request r' = kr_request r /\ kr_submission r' = kr_submission r /\ kr_expiry r' = kr_expiry r.
Proof.
  intros Hr Hl. revert Hr r. induction Hl as [w|w cx o out w1 l w2 Hs Hl IH]; intros Hr r Hi; [eauto 6|].
  destruct (C04_requests_only_move_forward _ _ _ _ _ _ _ _ _ Hr Hs Hi) as (r1 & H1 & E1 & E2 & E3 & _). destruct (IH (reach_step _ _ _ _ _ _ Hr Hs) _ H1) as (r2 & H2 & F1 & F2 & F3).
  exists r2. split; [exact H2|]. split; [congruence|]. split; congruence.
Qed.

(** [r] is in the account because some call of the history [l] asked for it, made by a caller who satisfied the account's rule of the level needed. *)
Definition asked_for_in (E : env) (w0 : world) (l : list (ctx * op * outp)) (a : addr) (r : keeper_request) : Prop :=
  exists l1 cx o out l2 w1, l = l1 ++ (cx, o, out) :: l2 /\ steps E w0 l1 w1 /\
    may cx w1 a (level_for (kr_request r)) /\ asks_for (w_now w1) o a r.

(** C69. Whatever the history, a request that appeared in an account during it was asked for in it, with its present terms, by a
    caller who satisfied the account's rule at that moment. *)
Theorem C69_every_request_was_asked_for E w0 l w a i r : reachable E w0 -> steps E w0 l w ->
  request_at w0 a i = None -> request_at w a i = Some r -> asked_for_in E w0 l a r.
Proof.
  intros Hr Hl. revert Hr. induction Hl as [w|w cx o out w1 l w2 Hs Hl IH]; intros Hr Hn Hi; [congruence|]. pose proof (reach_step _ _ _ _ _ _ Hr Hs) as Hr1.
  destruct (request_at w1 a i) as [r1|] eqn:H1.
  - destruct (request_appears _ _ _ _ _ _ _ _ _ Hr Hs Hn H1) as [Hask Hlv]. destruct (terms_kept _ _ _ _ _ _ _ Hr1 Hl H1) as (r2 & H2 & E1 & E2 & E3). assert (r2 = r) as -> by congruence.
    exists [], cx, o, out, l, w. split; [reflexivity|]. split; [constructor|]. split; [rewrite E1; exact (C31_level_needed _ _ _ _ _ _ _ _ Hs Hlv)|exact (asked_terms _ _ _ _ _ Hask E1 E2 E3)].
  - destruct (IH Hr1 eq_refl Hi) as (l1 & cx' & o' & out' & l2 & w3 & -> & Hl1 & Hm & Hask). exists ((cx, o, out) :: l1), cx', o', out', l2, w3. split; [reflexivity|]. split; [econstructor; eauto|]. auto.
Qed.
Corollary C69_since_instantiation E owner auth keys now w0 l w a i r : 0 <= auth <= DMAX -> I64MIN <= now <= I64MAX -> genesis owner auth keys now = Ok w0 -> steps E w0 l w ->
  request_at w a i = Some r -> asked_for_in E w0 l a r.
Proof.
  intros Ha Hn Hg Hl Hi. pose proof (reach_init E _ _ _ _ _ Ha Hn Hg) as Hr. refine (C69_every_request_was_asked_for _ _ _ _ _ i _ Hr Hl _ Hi).
  apply genesis_inv in Hg as (c & _ & ->). unfold request_at. cbn. rewrite lookup_empty. reflexivity.
Qed.

(** What processing a request does is decided by the stored request. *)
Lemma executing E w a i upd out l w' acc : reachable E w -> acct_call E w a l w' -> op_acts w (OProcessRequest a i upd) out l -> w_accounts w !! a = Some acc ->
  exists r, request_at w a i = Some r /\ ((kr_expiry r <= w_now w /\ l = [AProcess i]) \/ (w_now w < kr_expiry r /\ exists pay l', l = AProcess i :: l' /\ exec_acts false (kr_request r) pay l')).
Proof.
  intros Hr Hc Hac Ha. cbn in Hac. destruct Hac as (v0 & v1 & rq & ex & l' & Hv & Hp & He & -> & _). apply process_request_inv in Hp as (r & n & _ & Hkr & -> & _ & _ & _ & Hcs).
  exists r. split.
  - unfold request_at. rewrite Ha. pose proof Hv as Hv'. apply get_acc_inv in Hv' as Hgi. apply get_acc_comp in Hv.
    unfold va_keeper_request in Hkr. assert (va_req_upd v0 = ∅) as Hu by (destruct Hgi as (acc0 & H); tauto). rewrite Hu, lookup_empty in Hkr. apply expect_Ok in Hkr.
    assert (va_comp v0 = acc) as Hcomp by congruence. rewrite Hcomp in Hkr. exact Hkr.
  - destruct Hcs as [(-> & Hx)|(-> & Hx & _)]; [left; split; [exact Hx|]|right; split; [exact Hx|eauto]]. cbn in He. destruct He as [-> _]. reflexivity.
Qed.
(** C69. The position of an account changes only through an order somebody its rules admit asked for, a liquidation or an auto-deleveraging. *)
Theorem C69_positions_change_only_as_asked E owner auth keys now w0 l w cx o w' out a k :
  0 <= auth <= DMAX -> I64MIN <= now <= I64MAX -> genesis owner auth keys now = Ok w0 -> steps E w0 l w -> step E cx w o = Ok (w', out) ->
  position w' a k <> position w a k ->
  (exists b upd, o = OLiquidate a b upd) \/ (exists p upd, o = OAutoDeleverage a p upd) \/
  (exists i upd r q, o = OProcessRequest a i upd /\ request_at w a i = Some r /\ kr_request r = ROrder q /\ ro_pair q = k /\ w_now w < kr_expiry r /\ asked_for_in E w0 l a r).
Proof.
  intros Hau Hn Hg Hl Hs Hd. pose proof (steps_reachable _ _ _ _ Hl (reach_init E _ _ _ _ _ Hau Hn Hg)) as Hr.
  destruct (step_account _ _ _ _ _ _ a Hs) as [Heq|[[Ho (l0 & Hc & Hac & _)]|(oath & rule & ts & code & ref & g & more & -> & _)]].
  - exfalso. apply Hd. unfold position. rewrite Heq. reflexivity.
  - destruct (acct_call_self _ _ _ _ _ Hc) as ((acc & Ha) & (acc' & Ha') & _). destruct (can_positions o) eqn:Hp.
    2: { exfalso. apply Hd. unfold position, held. rewrite Ha, Ha', (acct_positions_same _ _ _ _ _ _ _ Hc Ha Ha' (op_free_pos _ _ _ _ Hac Hp)). reflexivity. }
    destruct o; try discriminate Hp; cbn [op_account] in Ho; injection Ho as ->; [|left; eauto|right; left; eauto].
    right; right. destruct (executing _ _ _ _ _ _ _ _ _ Hr Hc Hac Ha) as (r & Hri & Hcs). exists i, upd, r.
    assert (forall P : Prop, Forall (fun x => touches_pos x = false) l0 -> P) as Hno.
    { intros P Hf. exfalso. apply Hd. unfold position, held. rewrite Ha, Ha', (acct_positions_same _ _ _ _ _ _ _ Hc Ha Ha' Hf). reflexivity. }
    destruct Hcs as [(_ & ->)|(Hx & pay & l' & -> & He)]; [apply Hno; noact|]. destruct (kr_request r) as [q|q] eqn:Hq.
    + cbn in He. destruct He as (k0 & bs & -> & _). apply Hno. noact.
    + exists q. split; [reflexivity|]. split; [exact Hri|]. split; [reflexivity|]. split; [|split; [exact Hx|exact (C69_since_instantiation _ _ _ _ _ _ _ _ _ _ _ Hau Hn Hg Hl Hri)]].
      destruct (N.eq_dec (ro_pair q) k) as [Hk|Hk]; [exact Hk|]. exfalso. apply Hd.
      apply (C26_order_changes_position_as_asked _ _ _ _ _ _ a q Hr Hs); [|right; congruence]. unfold executes_order. exists i, upd, acc, r. unfold request_at in Hri. rewrite Ha in Hri. auto.
  - exfalso. apply Hd. destruct (C59_create_account _ _ _ _ _ _ _ _ _ _ Hr Hs) as (Hnone & _ & _ & Hpos & _). rewrite Hpos. unfold position. rewrite Hnone. reflexivity.
Qed.
(** C69. What an account holds beside base tokens goes down only through a withdrawal somebody its rules admit asked for - to the target
    asked for -, a debt swap or a liquidation. *)
Theorem C69_collateral_leaves_only_as_asked E owner auth keys now w0 l w cx o w' out a k :
  0 <= auth <= DMAX -> I64MIN <= now <= I64MAX -> genesis owner auth keys now = Ok w0 -> steps E w0 l w -> step E cx w o = Ok (w', out) ->
  collateral_of w' a k < collateral_of w a k ->
  (exists b upd, o = OLiquidate a b upd) \/ (exists r b upd, o = OSwapDebt a r b upd) \/
  (exists i upd r q, o = OProcessRequest a i upd /\ request_at w a i = Some r /\ kr_request r = RRemove q /\ w_now w < kr_expiry r /\ asked_for_in E w0 l a r).
Proof.
  intros Hau Hn Hg Hl Hs Hd. pose proof (steps_reachable _ _ _ _ Hl (reach_init E _ _ _ _ _ Hau Hn Hg)) as Hr. pose proof (reach_step _ _ _ _ _ _ Hr Hs) as Hr'.
  pose proof Hs as Hx. apply step_exec in Hx as (_ & Hb & _). apply buckets_nonneg in Hb.
  destruct (step_account _ _ _ _ _ _ a Hs) as [Heq|[[Ho (l0 & Hc & Hac & _)]|(oath & rule & ts & code & ref & g & more & -> & Hnone & _)]].
  - exfalso. unfold collateral_of in Hd. rewrite Heq in Hd. lia.
  - destruct (acct_call_self _ _ _ _ _ Hc) as ((acc & Ha) & (acc' & Ha') & _).
    assert (forall P : Prop, Forall (fun x => is_withdraw x = false) l0 -> P) as Hno.
    { intros P Hf. exfalso. destruct (acct_coll_moves _ _ _ _ _ _ _ Hc Ha Ha' k) as [M _]. specialize (M Hf (op_acts_pays_in _ _ _ _ Hac Hb)). unfold held_coll in M. unfold collateral_of in Hd. rewrite Ha, Ha' in Hd. lia. }
    destruct (can_withdraw o) eqn:Hp; [|apply Hno; exact (op_free_withdraw _ _ _ _ Hac Hp)].
    destruct o; try discriminate Hp; cbn [op_account] in Ho; injection Ho as ->; [|right; left; eauto|left; eauto].
    right; right. destruct (executing _ _ _ _ _ _ _ _ _ Hr Hc Hac Ha) as (r & Hri & Hcs). exists i, upd, r.
    destruct Hcs as [(_ & ->)|(Hx & pay & l' & -> & He)]; [apply Hno; noact|]. destruct (kr_request r) as [q|q] eqn:Hq.
    + exists q. split; [reflexivity|]. split; [exact Hri|]. split; [reflexivity|]. split; [exact Hx|exact (C69_since_instantiation _ _ _ _ _ _ _ _ _ _ _ Hau Hn Hg Hl Hri)].
    + cbn in He. destruct He as (l1 & fee & -> & Hl1 & _). apply Hno. noact.
  - exfalso. unfold collateral_of in Hd. rewrite Hnone in Hd. destruct (w_accounts w' !! a) as [acc'|] eqn:Ha'; [|lia]. pose proof (coll_ok_reachable _ _ Hr' _ _ Ha' k) as [C1 C2]. unfold held_coll in C1. lia.
Qed.


(** From instantiation to the first trade: A2's order is pending, asked for by its owner, and its execution changes A2's position. *)
Definition first_trade : list (ctx * op) := sc_setup ++ firstn 3 sc_trades.
Example C69_ex : exists w0 outs w w' out, genesis own_rule (dec 1) {[1%N := 77%N]} 1000 = Ok w0 /\ steps sc_env w0 (hist first_trade outs) w /\
  step sc_env cx_any w (OProcessRequest A2 0%N (msg 30000%N 2000%N 1009%N)) = Ok (w', out) /\ is_Some (request_at w A2 0%N) /\ size_of w A2 1%N = 0 /\ size_of w' A2 1%N = dec 2.
Proof.
  assert (okb sc_genesis = true) as H0 by (vm_compute; reflexivity). apply okb_get in H0.
  destruct (try_run_true (get sc_genesis) (first_trade ++ [(cx_any, OProcessRequest A2 0%N (msg 30000%N 2000%N 1009%N))]) (fun w' outs =>
    (size_of w' A2 1%N =? dec 2) && match run sc_env (get sc_genesis) first_trade with Ok (w, outs1) => (size_of w A2 1%N =? 0) && bool_decide (is_Some (request_at w A2 0%N)) && tst (step sc_env cx_any w (OProcessRequest A2 0%N (msg 30000%N 2000%N 1009%N))) (fun r => size_of (fst r) A2 1%N =? dec 2) | Err _ => false end)) as (w' & outs & _ & Hf); [vm_compute; reflexivity|].
  apply andb_true_iff in Hf as [_ Hf]. destruct (run sc_env (get sc_genesis) first_trade) as [[w outs1]|] eqn:Hrun; [|exfalso; exact (Bool.diff_false_true Hf)].
  apply andb_true_iff in Hf as [Hf Ht]. apply andb_true_iff in Hf as [Hz Hi]. apply tst_true in Ht. destruct Ht as ([w2 out] & Hs & Hd). apply bool_decide_eq_true in Hi.
  exists (get sc_genesis), outs1, w, w2, out. split; [exact H0|]. split; [apply run_steps; exact Hrun|]. split; [exact Hs|]. split; [exact Hi|]. split; [apply Z.eqb_eq; exact Hz|apply Z.eqb_eq; exact Hd].
Qed.
