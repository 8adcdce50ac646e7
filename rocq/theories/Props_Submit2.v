(** * C61, continued: an order submitted with a take-profit and a stop-loss. *)
From Verif Require Import Base DFloat Lists Types Config Oracle Pool Account Fees Referral ExInternal Exchange System Sums Trace Frames Calls Shape Spec P_Ledger P_Accounts Frames2 Scenario Witness Props_Config P_Fees P_Coll P_Refs P_Rules P_Requests P_Requests2 P_Requests3 P_Requests4 SpecRequests SpecTrading SpecMargin SpecAuth SpecReferral Props_Auth Props_Ledger Props_Collateral Props_Referral Props_Requests Props_Requests2 Props_Requests3 P_Access Props_Access Props_Deposits Props_Submit.

(** The order itself, live at once; then, dormant until it executes, the take-profit, triggering when the price moves in the order's
    favour, and the stop-loss, when it moves against it: both reduce only, trade the opposite amount, and each cancels the other. *)
Theorem C61_tp_sl_submitted E cx w oath delay expiry a pair amount ro pl slip tp sl w' out : reachable E w ->
  step E cx w (OMarginOrderTpSlRequest oath delay expiry a pair amount ro pl slip tp sl) = Ok (w', out) ->
  let n := request_count w a in
  let request status o := mkKReq (ROrder o) (after (w_now w) delay) (after (after (w_now w) delay) expiry) status [] in
  let up := if 0 <? amount then PLGte else PLLte in let down := if 0 <? amount then PLLte else PLGte in
  let news := match tp, sl with
    | Some t, Some s => [request STATUS_ACTIVE (mkReqOrder pair amount ro pl slip [n + 1; n + 2]%N []);
                         request STATUS_DORMANT (mkReqOrder pair (- amount) true (up t) slip [] [n + 2]%N);
                         request STATUS_DORMANT (mkReqOrder pair (- amount) true (down s) slip [] [n + 1]%N)]
    | Some t, None => [request STATUS_ACTIVE (mkReqOrder pair amount ro pl slip [n + 1]%N []); request STATUS_DORMANT (mkReqOrder pair (- amount) true (up t) slip [] [])]
    | None, Some s => [request STATUS_ACTIVE (mkReqOrder pair amount ro pl slip [n + 1]%N []); request STATUS_DORMANT (mkReqOrder pair (- amount) true (down s) slip [] [])]
    | None, None => [request STATUS_ACTIVE (mkReqOrder pair amount ro pl slip [] [])]
    end in
  requests_appended w a news w' /\
  o_indexes out = match tp, sl with Some _, Some _ => [Some n; Some (n + 1)%N; Some (n + 2)%N] | Some _, None => [Some n; Some (n + 1)%N; None] | None, Some _ => [Some n; None; Some (n + 1)%N] | None, None => [Some n; None; None] end.
Proof.
  intros Hr Hs n request up down news. destruct (tpsl_submit _ _ _ _ _ _ _ _ _ _ _ _ _ _ _ _ Hr Hs) as (Hap & Hi). change (count_of w a) with n in *.
  assert (tpsl_news w n delay expiry pair amount ro pl slip tp sl = news) as En.
  { unfold news, request, up, down, tpsl_news, tp_index, sl_index. rewrite !after_as. destruct tp, sl, (0 <? amount); reflexivity. }
  rewrite En in Hap. split.
  - apply (appended_all E); [exact Hr|exact (reach_step _ _ _ _ _ _ Hr Hs)|exact Hap|]. unfold news, request. destruct tp, sl; repeat constructor; cbn [kr_status]; (left; reflexivity) || (right; reflexivity).
  - rewrite Hi. unfold tp_index, sl_index. destruct tp, sl; reflexivity.
Qed.
Example C61_ex_tp_sl : reachable sc_env W3 /\ exists w' out, step sc_env cx_u2 W3 (snd tpsl_op) = Ok (w', out) /\ o_indexes out = [Some 2%N; Some 3%N; Some 4%N].
Proof. exact C44_ex. Qed.
