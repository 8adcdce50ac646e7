(** * C69, continued: the base balance. *)
From Verif Require Import Base DFloat Lists Types Config Oracle Pool Account Fees Referral ExInternal Exchange System Sums Trace Frames Calls Shape Spec P_Ledger P_Accounts Frames2 Scenario Witness Props_Config P_Fees P_Coll P_Refs P_Rules P_Requests P_Requests2 P_Requests3 P_Requests4 P_Keeper SpecRequests SpecTrading SpecMargin SpecAuth SpecReferral Props_Auth Props_Ledger Props_Collateral Props_Referral Props_Requests Props_Requests2 Props_Requests3 P_Access Props_Access Props_Deposits Props_Deposits2 Props_Submit Props_Orders Scenario Props_Swap P_Events P_Events2 Props_Events2 Props_Provenance.

(** C69. An account's base balance goes down only by executing a request that was asked for, by a fee oath handed over by a caller whom the
    account's rule of the level needed admits (and by no more than its amount), by a liquidation or by an auto-deleveraging. *)
Theorem C69_balance_leaves_only_as_asked E owner auth keys now w0 l w cx o w' out a :
  0 <= auth <= DMAX -> I64MIN <= now <= I64MAX -> genesis owner auth keys now = Ok w0 -> steps E w0 l w -> step E cx w o = Ok (w', out) ->
  is_Some (w_accounts w !! a) -> balance w' a < balance w a ->
  (exists b upd, o = OLiquidate a b upd) \/ (exists p upd, o = OAutoDeleverage a p upd) \/
  (exists i upd r, o = OProcessRequest a i upd /\ request_at w a i = Some r /\ w_now w < kr_expiry r /\ asked_for_in E w0 l a r) \/
  (exists lvl b, needed_level o = Some (a, lvl) /\ may cx w a lvl /\ oath_of o = Some b /\ balance w a - b_amt b <= balance w' a).
Proof.
  intros Hau Hn Hg Hl Hs [acc Ha] Hd. pose proof (steps_reachable _ _ _ _ Hl (reach_init E _ _ _ _ _ Hau Hn Hg)) as Hr.
  destruct (named_account o) as [b|] eqn:Ho. 2: { exfalso. unfold balance in Hd. rewrite (C50_unnamed_changes_none _ _ _ _ _ _ Hs Ho) in Hd. lia. }
  destruct (decide (b = a)) as [->|Hne]. 2: { exfalso. unfold balance in Hd. rewrite (C50_other_accounts_untouched _ _ _ _ _ _ a Hs) in Hd by congruence. lia. }
  pose proof Hs as Hx. apply step_exec in Hx as (_ & Hbk & _). apply buckets_nonneg in Hbk.
  assert (forall lvl, needed_level o = Some (a, lvl) -> balance w a - oath_value o <= balance w' a -> exists lvl b, needed_level o = Some (a, lvl) /\ may cx w a lvl /\ oath_of o = Some b /\ balance w a - b_amt b <= balance w' a) as Hoath.
  { intros lvl Hlv Hb. pose proof (C31_level_needed _ _ _ _ _ _ _ _ Hs Hlv) as Hm. unfold oath_value in Hb. destruct (oath_of o) as [b|]; [exists lvl, b; auto|lia]. }
  destruct (plain_op o) as [b|] eqn:Hp.
  { assert (b = a) as -> by (destruct o; try discriminate Hp; cbn in Hp, Ho; congruence). right; right; right. pose proof (bal_plain _ _ _ _ _ _ _ Hr Hs Hp) as Hb.
    assert (exists lvl, needed_level o = Some (a, lvl)) as [lvl Hlv] by (destruct o; try discriminate Hp; cbn in Hp; injection Hp as <-; eexists; reflexivity). apply (Hoath lvl Hlv). lia. }
  destruct o; try discriminate Ho; try discriminate Hp; cbn [named_account] in Ho; injection Ho as ->.
  - exfalso. destruct (C31_new_account _ _ _ _ _ _ _ _ _ _ 1%N Hs ltac:(lia)) as [Hnone _]. unfold rule_of in Hnone. rewrite Ha in Hnone. discriminate Hnone.
  - right; right; right. destruct (C59_add_collateral _ _ _ _ _ _ _ _ Hr Hs) as (Hb & _). apply (Hoath 3%N eq_refl).
    match goal with H : balance w' a = balance w a + ?x - ?y |- _ => assert (0 <= x) as Hx end. { apply amount_nonneg. cbn in Hbk. destruct oath; cbn in Hbk; [inversion Hbk; assumption|exact Hbk]. } lia.
  - right; right; left. pose proof (step_acct _ _ _ _ _ _ a Hs eq_refl) as (l0 & Hc & Hac & _). destruct (executing _ _ _ _ _ _ _ _ _ Hr Hc Hac Ha) as (r & Hri & _). exists i, upd, r. split; [reflexivity|]. split; [exact Hri|].
    split; [|exact (C69_since_instantiation _ _ _ _ _ _ _ _ _ _ _ Hau Hn Hg Hl Hri)]. apply Z.nle_gt. intros Hexp.
    destruct (C09_expired_changes_nothing_else _ _ _ _ _ _ _ _ _ Hr Hri Hexp Hs) as (acc2 & rqs & Hacc2 & _ & _ & -> & _). unfold balance in Hd. cbn [w_accounts set] in Hd. cbn in Hd. rewrite lookup_insert, Hacc2 in Hd. cbn in Hd. lia.
  - exfalso. destruct (C30_debt_swap _ _ _ _ _ _ _ _ _ Hr Hs) as (_ & _ & cc & price & value & x & _ & _ & _ & _ & Hv & Hb & _). lia.
  - left. eauto.
  - right; left. eauto.
Qed.
(** A2's owner asks for ten base tokens; anybody may then execute the request. *)
Definition first_withdrawal : list (ctx * op) := sc_setup ++ [(cx_u2, ORemoveCollateralRequest None 6000%N A2 500%N [(BASE, dec 10)]); (cx_any, OAdvance 1010)].
Example C69_ex_balance : exists w0 outs w w' out, genesis own_rule (dec 1) {[1%N := 77%N]} 1000 = Ok w0 /\ steps sc_env w0 (hist first_withdrawal outs) w /\
  step sc_env cx_any w (OProcessRequest A2 0%N (msg 30000%N 2000%N 1009%N)) = Ok (w', out) /\ is_Some (w_accounts w !! A2) /\ balance w' A2 < balance w A2.
Proof.
  assert (okb sc_genesis = true) as H0 by (vm_compute; reflexivity). apply okb_get in H0.
  destruct (try_run_true (get sc_genesis) (first_withdrawal ++ [(cx_any, OProcessRequest A2 0%N (msg 30000%N 2000%N 1009%N))]) (fun w' outs =>
    match run sc_env (get sc_genesis) first_withdrawal with Ok (w, outs1) => bool_decide (is_Some (w_accounts w !! A2)) && tst (step sc_env cx_any w (OProcessRequest A2 0%N (msg 30000%N 2000%N 1009%N))) (fun r => balance (fst r) A2 <? balance w A2) | Err _ => false end)) as (w' & outs & _ & Hf); [vm_compute; reflexivity|].
  destruct (run sc_env (get sc_genesis) first_withdrawal) as [[w outs1]|] eqn:Hrun; [|exfalso; exact (Bool.diff_false_true Hf)].
  apply andb_true_iff in Hf as [Hi Ht]. apply tst_true in Ht. destruct Ht as ([w2 out] & Hs & Hd). apply bool_decide_eq_true in Hi.
  exists (get sc_genesis), outs1, w, w2, out. split; [exact H0|]. split; [apply run_steps; exact Hrun|]. split; [exact Hs|]. split; [exact Hi|]. apply Z.ltb_lt in Hd. exact Hd.
Qed.
