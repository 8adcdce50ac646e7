(** * C65: cases. Each stated reason occurs, and the conditions are met by reachable states. *)
From Verif Require Import Base DFloat Types Config Oracle Pool Account Exchange System Scenario Witness SpecMargin SpecAuth SpecRequests SpecOracle Spec SpecTrading SpecRefuse P_Ledger P_Refs Props_Liq Props_Refuse Props_Refuse2 Props_Refuse3 Props_Refuse4.
Global Instance error_dec : EqDecision error.
Proof. intros x y. unfold Decision. decide equality. Defined.
Definition refused (w : world) (x : ctx * op) (e : error) : bool := match step sc_env (fst x) w (snd x) with Err e' => bool_decide (e' = e) | Ok _ => false end.
Lemma refused_true w x e : refused w x e = true -> step sc_env (fst x) w (snd x) = Err e.
Proof. unfold refused. destruct (step sc_env (fst x) w (snd x)) as [r|e'] eqn:H; [intros Hf; destruct (Bool.diff_false_true Hf)|]. intros Hd. apply bool_decide_eq_true in Hd. congruence. Qed.
Definition cancel (cx : ctx) (a : addr) (is_ : list N) : ctx * op := (cx, OCancelRequests None a is_).
Definition liq (b : bucket) (p : N) : ctx * op := (cx_any, OLiquidate A2 b (msg p 2000%N 87440%N)).
Definition wd (cx : ctx) (cs : list (resource * Z)) : ctx * op := (cx, ORemoveCollateralRequest None 600%N A2 7%N cs).

(** The door, a request that does not exist, a request already over. *)
Example C65_ex_cancel : refused W3 (cancel cx_u3 A2 []) EAuth && refused W3 (cancel cx_u2 77%N []) EInvalidMarginAccount && refused W3 (cancel cx_u2 A2 [9%N]) EMissingRequest && refused W3 (cancel cx_u2 A2 [1%N]) ECancelNotActiveOrDormant &&
  okb (step sc_env cx_u2 WL (OCancelRequests None A2 [2%N])) = true.
Proof. vm_compute. reflexivity. Qed.
Example C65_ex_requests : refused W3 (wd cx_u2 (replicate 11 (BASE, dec 1))) EClaimsTooMany && okb (step sc_env cx_u2 W3 (snd (wd cx_u2 [(BASE, dec 1)]))) &&
  refused W3 (order cx_u2 A2 9%N (dec 1) false) EMissingPairConfig && refused W3 (order cx_u2 A2 1%N 1 false) ETradeSizeMinNotMet &&
  refused W3 (cx_u2, OMarginOrderRequest None 0%N 600%N A2 1%N (dec 1) false PLNone SLNone [IRIndex 1%N; IRIndex 1%N; IRIndex 1%N] [] STATUS_ACTIVE) EEffectedRequestsTooMany &&
  refused W3 (cx_u2, OMarginOrderRequest None 0%N 600%N A2 1%N (dec 1) false PLNone SLNone [] [] STATUS_EXECUTED) EInvalidRequestStatus = true.
Proof. vm_compute. reflexivity. Qed.
Example C65_ex_deposit : refused W3 (cx_u2, OAddCollateral None A2 [(30%N, dec 1)]) EInvalidCollateral && refused W3 (cx_u2, OAddCollateral None A2 [(BASE, -1)]) EEngine &&
  okb (step sc_env cx_u2 W3 (OAddCollateral None A2 [(BASE, dec 1); (21%N, dec 1)])) = true.
Proof. vm_compute. reflexivity. Qed.
(** Liquidation: too early, too little, the wrong token; and done. *)
Example C65_ex_liquidation : refused WL (liq (BASE, dec 5000) 30300%N) ELiquidationSufficientMargin && refused WL (liq (BASE, dec 1) 17000%N) EInsufficientPayment && refused WL (liq (20%N, dec 5000) 17000%N) EInvalidPaymentToken && okb (step sc_env cx_any WL (snd (liq (BASE, dec 5000) 17000%N))) = true.
Proof. vm_compute. reflexivity. Qed.
(** ... at a state brought up to date as the theorem asks. *)
Example C65_ex_up_to_date : exists acc w1, reachable sc_env WL /\ w_accounts WL !! A2 = Some acc /\ up_to_date sc_env WL acc (msg 17000%N 2000%N 87440%N) w1 /\ account_value w1 acc < maintenance_margin w1 acc /\ 0 < collateral_total cc_discount w1 acc.
Proof.
  destruct (try_true WL (cx_any, OUpdatePairs [1%N] (msg 17000%N 2000%N 87440%N)) (fun w1 _ => match w_accounts WL !! A2 with Some acc => bool_decide (dom (ac_positions acc) = {[1%N]}) && (account_value w1 acc <? maintenance_margin w1 acc) && (0 <? collateral_total cc_discount w1 acc) | None => false end))
    as (w1 & out & H & Hf); [vm_compute; reflexivity|]. destruct (w_accounts WL !! A2) as [acc|] eqn:Ha; [|destruct (Bool.diff_false_true Hf)].
  apply andb_true_iff in Hf as [Hf H3]. apply andb_true_iff in Hf as [H1 H2]. apply bool_decide_eq_true in H1. apply Z.ltb_lt in H2, H3.
  exists acc, w1. split; [exact WL_reach|]. split; [reflexivity|]. split; [|auto]. exists cx_any, [1%N], out. split; [|exact H].
  intros k. rewrite <- elem_of_dom. rewrite H1. rewrite elem_of_list_singleton, elem_of_singleton. reflexivity.
Qed.
(** Processing: request [i] of A2 in the state left by submitting [x] and letting [dt] seconds pass. *)
Definition proc (x : ctx * op) (dt : Z) (upd : option price_msg) : res (world * outp) :=
  '(w, _) ← step sc_env (fst x) W3 (snd x); '(w, _) ← step sc_env cx_any w (OAdvance (87420 + dt)); step sc_env cx_any w (OProcessRequest A2 2%N upd).
Definition stopped (r : res (world * outp)) (e : error) : bool := match r with Err e' => bool_decide (e' = e) | Ok _ => false end.
Definition lim (pl : price_limit) (sl : slippage_limit) (amt : Z) : ctx * op := (cx_u2, OMarginOrderRequest None 5%N 600%N A2 1%N amt false pl sl [IRIndex 44%N] [] STATUS_ACTIVE).
Definition lim' (pl : price_limit) (sl : slippage_limit) (amt : Z) : ctx * op := (cx_u2, OMarginOrderRequest None 5%N 600%N A2 1%N amt false pl sl [] [] STATUS_ACTIVE).
Definition m30 := msg 30000%N 2000%N 87425%N.
Example C65_ex_process :
  stopped (proc (lim' PLNone SLNone (dec 1)) 5 m30) EProcessBeforeSubmission && stopped (proc (lim' PLNone SLNone (dec 1)) 500 None) EPriceTooOld &&
  stopped (proc (lim' (PLLte (dec 20000)) SLNone (dec 1)) 6 m30) EPriceLimit && stopped (proc (lim PLNone SLNone (dec 1)) 6 m30) EMissingRequest &&
  stopped (proc (lim' PLNone (SLPercent 0) (dec 1)) 6 m30) ESlippageLimit && stopped (proc (lim' PLNone SLNone (dec 40)) 6 m30) EInsufficientMargin && stopped (proc (lim' PLNone SLNone (dec 1000000)) 6 m30) EPairOiTooHigh &&
  okb (proc (lim' PLNone SLNone (dec 1)) 6 m30) && okb (proc (lim' (PLLte (dec 20000)) SLNone (dec 1)) 700 None) &&
  stopped (proc (wd cx_u2 [(BASE, dec 20000)]) 1 m30) EWithdrawalInsufficientBalance && stopped (proc (wd cx_u2 [(BASE, dec 9000); (20%N, dec 2)]) 1 (msg 30000%N 2000%N 87419%N)) EInsufficientMargin && okb (proc (wd cx_u2 [(20%N, dec 1)]) 1 (msg 30000%N 2000%N 87419%N)) = true.
Proof. vm_compute. reflexivity. Qed.
