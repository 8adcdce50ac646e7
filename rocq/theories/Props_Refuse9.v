(** * C65. A call is refused only for a stated reason: payouts of fees, the fee delegator, settings, the oracle's owner calls. *)
From Verif Require Import Base DFloat Lists Types Config Oracle Pool Account Fees Referral ExInternal Exchange System Getters Scenario Sums Trace Frames Calls Shape Spec SpecAuth SpecOracle SpecMargin SpecRefuse P_Ledger P_Accounts P_Fees P_Refs Props_Config Trading Witness P_Refuse P_Refuse2 P_Refuse3 P_Refuse4 Props_Refuse Props_Refuse2 Props_Refuse5 Props_Refuse6 Props_Refuse7.

Lemma f_pay E w amount : 0 <= amount -> fails (fun e => e = EWithdrawalInsufficientPoolTokens /\ po_base (w_pool w) < amount \/ e = EArithmetic) (pool_pay_out E w amount).
Proof.
  intros H0. unfold pool_pay_out. cbv zeta. apply f_bind. { apply f_guard. intros Hf. apply Z.leb_gt in Hf. left. split; [reflexivity|exact Hf]. }
  intros [] Hg. apply guard_Ok, Z.leb_le in Hg. apply f_bind; [apply f_arP; [auto|apply f_vb]|]. intros p Hp. unfold vp_add_vb in Hp. bd Hp as (y & _ & Hp). apply Ok_inj in Hp. subst p.
  apply f_bind; [|intros [? ?] _; apply f_Ok]. unfold vp_withdraw, pool_withdraw. apply f_bind.
  { apply f_bind; [|intros a _; apply f_Ok]. eapply f_mono; [apply take18_why; [reflexivity|exact Hg]|]. intros e [[_ Hx]| ->]; [lia|auto]. }
  intros [? ?] _. apply f_bind; [apply f_arP; [auto|ar_]|intros; apply f_Ok].
Qed.

(** C65, paying out what was set aside: the treasury's share, the fee delegator's, the referrer's, and the protocol's against protocol tokens. *)
Theorem C65_collect_treasury E cx w e : reachable E w -> step E cx w OCollectTreasury = Err e ->
  at_the_gate E cx w RTreasuryAdmin [] e \/ e = EWithdrawalInsufficientPoolTokens /\ po_base (w_pool w) < fd_treasury (w_fd w) \/ e = EArithmetic.
Proof.
  intros Hr. destruct (fees_reachable _ _ Hr) as [(F1 & F2 & F3 & F4) _]. revert e. match goal with |- forall e, _ -> _ \/ @?Q e => apply (f_gate E cx w _ RTreasuryAdmin [] Q) end; [reflexivity..|]. intros _ _. cbn [exec].
  unfold m_collect_treasury, fd_update_treasury. cbn [guard_ Z.leb Z.compare mbind res_bind]. apply f_bind; [|intros [? ?] _; apply f_Ok]. exact (f_pay E _ _ F2).
Qed.
Theorem C65_collect_fee_delegator E cx w e : reachable E w -> step E cx w OCollectFeeDelegator = Err e ->
  at_the_gate E cx w RFeeDelegatorAdmin [] e \/ e = EWithdrawalInsufficientPoolTokens /\ po_base (w_pool w) < dl_vb (w_dl w) \/ e = EArithmetic.
Proof.
  intros Hr. destruct (fees_reachable _ _ Hr) as [(F1 & F2 & F3 & F4) _]. revert e. match goal with |- forall e, _ -> _ \/ @?Q e => apply (f_gate E cx w _ RFeeDelegatorAdmin [] Q) end; [reflexivity..|]. intros _ _. cbn [exec].
  unfold m_collect_fee_delegator, dl_update_vb. cbn [guard_ Z.leb Z.compare mbind res_bind]. apply f_bind; [|intros [? ?] _; apply f_Ok]. exact (f_pay E _ _ F3).
Qed.
Theorem C65_collect_referral_rewards E cx w pr e : reachable E w -> step E cx w (OCollectReferralRewards pr) = Err e ->
  at_the_gate E cx w RReferralUser [] e \/ e = EEngine /\ (cx_proves cx (fst pr) (snd pr) = false \/ w_refs w !! snd pr = None) \/ e = EInvalidReferral /\ fst pr <> REFERRAL \/
  e = EWithdrawalInsufficientPoolTokens /\ (exists d, w_refs w !! snd pr = Some d /\ po_base (w_pool w) < rf_balance d) \/ e = EArithmetic.
Proof.
  intros Hr. destruct (fees_reachable _ _ Hr) as [(F1 & F2 & F3 & F4) _]. revert e. match goal with |- forall e, _ -> _ \/ @?Q e => apply (f_gate E cx w _ RReferralUser [] Q) end; [reflexivity..|]. intros _ _. cbn [exec].
  unfold m_collect_referral_rewards, check_ref_proof. apply f_bind.
  { apply f_bind; [apply f_guard; auto|]. intros [] _. apply f_bind; [apply f_guard; intros Hf; apply N.eqb_neq in Hf; auto|]. intros [] _. intros e He. unfold expect in He. destruct (w_refs w !! snd pr) eqn:Ed; [discriminate He|]. injection He as <-. left. auto. }
  intros d Hd. bd Hd as (? & _ & Hd). bd Hd as (? & _ & Hd). apply expect_Ok in Hd. cbv zeta. apply f_bind; [|intros [? ?] _; apply f_Ok]. eapply f_mono; [apply f_pay; exact (F4 _ _ Hd)|]. cbn. intros e [[-> Hx]| ->]; [right; right; left; split; [reflexivity|exists d; auto]|auto].
Qed.
Theorem C65_swap_protocol_fee E cx w b e : reachable E w -> step E cx w (OSwapProtocolFee b) = Err e ->
  at_the_gate E cx w RProtocolSwap [b] e \/ e = EInvalidProtocolToken /\ b_res b <> PROTOCOL \/ e = EInsufficientPayment /\ b_amt b < ec_protocol_burn_amount (g_exchange_config w) \/
  e = EWithdrawalInsufficientPoolTokens /\ po_base (w_pool w) < fd_protocol (w_fd w) \/ e = EArithmetic.
Proof.
  intros Hr. destruct (fees_reachable _ _ Hr) as [(F1 & F2 & F3 & F4) _]. pose proof (C40_exchange_config _ _ Hr) as Hv. apply ec_valid_shares in Hv as (_ & _ & _ & _ & _ & _ & _ & Hb & _). unfold dec in Hb.
  revert e. match goal with |- forall e, _ -> _ \/ @?Q e => apply (f_gate E cx w _ RProtocolSwap [b] Q) end; [reflexivity..|]. intros _ _. cbn [exec].
  unfold m_swap_protocol_fee. destruct (get_config w ∅) as [c|e] eqn:Hcf; [|destruct (f_config0 w e Hcf)]. cbn [mbind res_bind]. pose proof (config_exchange _ _ _ Hcf) as Hec. rewrite Hec.
  apply f_bind; [apply f_guard; intros Hf; apply N.eqb_neq in Hf; auto|]. intros [] _. cbv zeta. apply f_bind; [apply f_guard; intros Hf; apply Z.leb_gt in Hf; auto|]. intros [] Hg. apply guard_Ok, Z.leb_le in Hg.
  apply f_bind. { eapply f_mono; [apply take18_why; [reflexivity|exact Hg]|]. intros e [[_ Hx]| ->]; [unfold E18 in Hb; lia|auto]. }
  intros x _. unfold fd_update_protocol. cbn [guard_ Z.leb Z.compare mbind res_bind]. apply f_bind; [|intros [? ?] _; apply f_Ok]. eapply f_mono; [apply f_pay; exact F1|]. cbn. intros e [[-> Hx]| ->]; auto.
Qed.
(** C65, the fee delegator. *)
Definition fee_value (cx : ctx) (w : world) (amt : Z) : Z := mul (mul (cx_usd_price cx) (dl_mult (w_dl w))) amt.
Theorem C65_lock_fee E cx w amt e : step E cx w (OLockFee amt) = Err e ->
  e = EAuth /\ has_role cx w RDlUser = false \/ e = EEngine /\ (amt < 0 \/ dl_vault (w_dl w) < amt \/ mint_ok E FEE_OATH (fee_value cx w amt) = false) \/
  e = EMaxLockExceeded /\ dl_max_lock (w_dl w) < w_oath w + fee_value cx w amt \/ e = EArithmetic.
Proof.
  revert e. unfold step. cbn [op_buckets forallb guard_ mbind res_bind op_access needs_authority implb access_ok]. apply f_bind; [apply f_guard; intros Hf; left; split; [reflexivity|exact Hf]|]. intros [] _. cbn [exec]. apply f_bind; [|intros [[? ?] ?] _; apply f_Ok].
  match goal with |- fails ?P _ => assert (P EArithmetic) as HA by auto end. unfold dl_lock_fee. apply f_bind.
  { unfold take_exact. apply f_bind; [|intros; apply f_Ok]. apply f_guard. intros Hf. right; left. split; [reflexivity|]. apply andb_false_iff in Hf as [Hf|Hf]; [apply andb_false_iff in Hf as [Hf|Hf]; apply Z.leb_gt in Hf; auto|].
    exfalso. change (unit_of E XRD) with 1 in Hf. rewrite Z.mod_1_r in Hf. discriminate Hf. }
  intros a _. apply f_bind; [apply f_arP; [exact HA|ar_]|]. intros price Hp. apply dmul_mulq in Hp. apply f_bind; [apply f_arP; [exact HA|ar_]|]. intros v Hv. apply dmul_mulq in Hv. assert (v = fee_value cx w amt) as -> by (unfold fee_value; change mul with mulq; rewrite <- Hp; exact Hv).
  apply f_bind; [apply f_arP; [exact HA|ar_]|]. intros y _. apply f_bind; [apply f_guard; intros Hf; auto 10|]. intros [] _. apply f_bind; [apply f_arP; [exact HA|ar_]|]. intros s Hs. apply dadd_Ok in Hs as [-> _].
  apply f_bind; [apply f_guard; intros Hf; apply Z.leb_gt in Hf; auto|]. intros [] _. apply f_Ok.
Qed.
Theorem C65_delegator_settings E cx w x : let free := has_role cx w RDlAdmin || satisfies cx (w_owner w) in
  (forall e, step E cx w (ODlMaxLock x) = Err e -> e = EAuth /\ free = false \/ e = EEngine /\ x < 0) /\ (forall e, step E cx w (ODlMultiplier x) = Err e -> e = EAuth /\ free = false \/ e = EEngine /\ x < 0) /\
  (forall b e, step E cx w (ODlContingent b) = Err e -> e = EAuth /\ free = false) /\
  (forall b e, step E cx w (ODlDeposit b) = Err e -> e = EAuth /\ has_role cx w RDlDepositor = false \/ e = EEngine /\ (bad_bucket E b \/ b_res b <> XRD) \/ e = EArithmetic) /\
  (forall e, step E cx w (ODlWithdraw x) = Err e -> e = EAuth /\ has_role cx w RDlWithdrawer = false \/ e = EEngine /\ (x < 0 \/ dl_vault (w_dl w) < x) \/ e = EArithmetic).
Proof.
  cbv zeta. unfold step. cbn [op_buckets guard_ mbind res_bind op_access needs_authority implb access_ok].
  Ltac au := try (match goal with |- context [forallb ?f []] => change (forallb f []) with true; cbn [guard_ mbind res_bind] end); apply f_bind; [apply f_guard; intros Hf; left; split; [reflexivity|]; first [exact Hf|rewrite orb_comm in Hf; exact Hf]|].
  split; [|split; [|split; [|split]]].
  - au. intros [] _. cbn [exec]. apply f_bind; [|intros; apply f_Ok]. unfold dl_update_max_lock. apply f_bind; [|intros; apply f_Ok]. apply f_guard. intros Hf. apply Z.leb_gt in Hf. auto.
  - au. intros [] _. cbn [exec]. apply f_bind; [|intros; apply f_Ok]. unfold dl_update_mult. apply f_bind; [|intros; apply f_Ok]. apply f_guard. intros Hf. apply Z.leb_gt in Hf. auto.
  - intros b e H. cbn [exec forallb guard_ mbind res_bind] in H. destruct (rule_sat (cx_sat cx) (w_owner w) || rule_sat (cx_sat cx) (role_rule w RDlAdmin)) eqn:Hf; [discriminate H|]. injection H as <-. split; [reflexivity|]. rewrite orb_comm in Hf. exact Hf.
  - intros b. apply f_bind. { apply f_guard. intros Hf. right; left. split; [reflexivity|left]. apply bad_bucket_ok. cbn [forallb] in Hf. rewrite andb_true_r in Hf. exact Hf. }
    intros [] _. au. intros [] _. cbn [exec]. apply f_bind; [|intros; apply f_Ok]. unfold dl_deposit. apply f_bind; [apply f_guard; intros Hf; apply N.eqb_neq in Hf; auto|]. intros [] _. apply f_bind; [apply f_arP; [auto|ar_]|]. intros; apply f_Ok.
  - au. intros [] _. cbn [exec]. apply f_bind; [|intros [? ?] _; apply f_Ok]. unfold dl_withdraw. apply f_bind; [|intros; apply f_Ok]. destruct (decide (x <= dl_vault (w_dl w))) as [Hle|Hgt].
    + eapply f_mono; [apply take18_why; [reflexivity|exact Hle]|]. intros e [[-> Hx]| ->]; auto.
    + unfold take_adv. apply f_bind; [apply f_arP; [auto|apply f_round]|]. intros a _. apply f_bind; [|intros; apply f_Ok]. apply f_guard. intros _. right; left. split; [reflexivity|right; lia].
Qed.
Example C65_ex_payouts : refused W3 (cx_any, OSwapProtocolFee (BASE, dec 10000)) EInvalidProtocolToken && refused W3 (cx_any, OSwapProtocolFee (PROTOCOL, dec 9999)) EInsufficientPayment && okb (step sc_env cx_any W3 (OSwapProtocolFee (PROTOCOL, dec 10000))) &&
  refused W3 (cx_any, OCollectTreasury) EAuth && okb (step sc_env cx_owner W3 OCollectTreasury) && okb (step sc_env cx_owner W3 OCollectFeeDelegator) && refused W3 (cx_owner, ODlMaxLock (-1)) EEngine && okb (step sc_env cx_owner W3 (ODlMaxLock 0)) &&
  refused W3 (cx_any, ODlMultiplier 0) EAuth && okb (step sc_env cx_owner W3 (ODlMultiplier 0)) && refused W3 (cx_owner, OLockFee (dec 100000)) EEngine && refused W3 (cx_owner, ODlDeposit (BASE, dec 1)) EEngine = true.
Proof. vm_compute. reflexivity. Qed.
