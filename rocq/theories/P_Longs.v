(** * A long position never has a negative cost. *)
From Verif Require Import Base DFloat Lists Types Config Oracle Pool Account Fees Referral ExInternal Exchange System Sums Trace Frames Calls Shape Spec SpecTrading SpecMargin P_Ledger P_Accounts Frames2 P_Fees Trading P_Positions P_Positions2 P_Orders P_Final P_OrderCall.

Definition longs_ok (v : vacc) : Prop := forall k, 0 < ap_amount (pos_of v k) -> 0 <= ap_cost (pos_of v k).
Lemma longs_g v v' : g_pos v' = g_pos v -> longs_ok v -> longs_ok v'.
Proof. intros Hg H k. rewrite (P_Positions.pos_of_g _ _ k Hg). apply H. Qed.
Lemma close_part amt cl cost : 0 < amt -> 0 <= cost -> cl < 0 -> - amt <= cl -> mulq (Z.quot (- cl * E18) amt) cost <= cost.
Proof.
  intros Ha Hc Hn Hl. assert (0 < E18) as HE by reflexivity. assert (0 <= Z.quot (- cl * E18) amt <= E18) as [Hq1 Hq2].
  { rewrite Z.quot_div_nonneg by nia. split; [apply Z.div_pos; nia|]. apply Z.div_le_upper_bound; nia. }
  unfold mulq. set (q := Z.quot (- cl * E18) amt) in *. rewrite Z.quot_div_nonneg by nia. apply Z.div_le_upper_bound; nia.
Qed.
Lemma sstep_longs E now c o s x s' : sstep E now c o s x s' -> oracle_pos o -> (acc_si (s_acc s)) -> longs_ok (s_acc s) -> longs_ok (s_acc s').
Proof.
  intros H Ho Hsi Hk. pose proof (sstep_frames _ _ _ _ _ _ _ H) as HF. destruct (touches_pos x) eqn:Tp.
  2: { destruct HF as (_ & _ & _ & HF). revert Hk. apply longs_g. intuition. }
  clear HF. destruct H; simpl in Tp; try discriminate Tp; cbn [s_acc s_pool] in *; clear Tp.
  - apply funding_moved in H as (pp & _ & _ & _ & F1 & F2 & _ & F4 & _). intros k. destruct (decide (k = pid)) as [->|Hn]; [rewrite F1, F2|rewrite (F4 k Hn)]; apply Hk.
  - destruct q as [pnl fee]. pose proof H as Hi. apply close_inv in Hi as (_ & _ & _ & _ & pos & _ & _ & _ & _ & _ & _ & -> & Hnz & Hsg & Hab & _). apply close_moved in H as (pc & fr & price & pp & cost & pp' & _ & _ & _ & _ & Hcost & _ & _ & _ & M & _); [|assumption].
    pose proof (mv_amt _ _ _ _ _ _ _ _ _ _ _ _ _ M) as M1. pose proof (mv_cost _ _ _ _ _ _ _ _ _ _ _ _ _ M) as M2. intros k. destruct (decide (k = pid)) as [->|Hn]; [|rewrite (mv_pos_oth _ _ _ _ _ _ _ _ _ _ _ _ _ M k Hn); apply Hk].
    rewrite M1, M2. intros Hp. destruct (Z.lt_ge_cases 0 (ap_amount (pos_of a pid))) as [Hpos|Hneg].
    + assert (amt < 0) by (destruct amt; simpl in *; lia). pose proof (close_part _ amt _ Hpos (Hk pid Hpos) ltac:(assumption) ltac:(lia)). lia.
    + exfalso. lia.
  - pose proof H as Hi. apply open_inv in Hi as (_ & _ & _ & _ & _ & _ & _ & _ & _ & _ & Hsg & _). apply open_moved in H as (pc & fr & price & pp & pp' & _ & _ & Hpr & _ & _ & Hf & _ & _ & M & _). pose proof (mv_amt _ _ _ _ _ _ _ _ _ _ _ _ _ M) as M1. pose proof (mv_cost _ _ _ _ _ _ _ _ _ _ _ _ _ M) as M2.
    intros k. destruct (decide (k = pid)) as [->|Hn]; [|rewrite (mv_pos_oth _ _ _ _ _ _ _ _ _ _ _ _ _ M k Hn); apply Hk].
    rewrite M1, M2. intros Hp. assert (0 < amt) as Hamt by (destruct (ap_amount (pos_of a pid)) eqn:Ea, amt; simpl in *; lia). pose proof (Ho _ _ Hpr) as Hpp. assert (0 <= mulq amt price) by (unfold mulq; apply quot_nonneg; lia).
    assert (0 <= ap_cost (pos_of a pid)); [|lia]. assert (0 <= ap_amount (pos_of a pid)) as Hge by (destruct (ap_amount (pos_of a pid)) eqn:Ea, amt; simpl in *; lia). destruct (Z.eq_dec (ap_amount (pos_of a pid)) 0) as [Hz|Hz]; [|apply Hk; lia]. assert (ap_cost (pos_of a pid) = 0) as ->; [|lia]. revert Hz. unfold pos_of. destruct (va_positions a !! pid) as [q|] eqn:Hq; [|reflexivity]. cbn. intros Hz. exact (si_zero _ Hsi _ _ Hq Hz).
  - intros k. unfold va_position in H. destruct (va_positions a !! pid) as [q|] eqn:Hq; injection H as <- <-; [apply Hk|]. specialize (Hk k). unfold pos_of in *. cbn. destruct (decide (k = pid)) as [->|Hne]; [rewrite lookup_insert; cbn; lia|rewrite lookup_insert_ne by congruence; exact Hk].
  - apply liquidate_positions_inv in H as (fr & p1 & p2 & tp & tm & tf & tfe & _ & _ & _ & _ & -> & _). intros k. unfold pos_of, liq_rebalance, va_set_positions. cbn. rewrite lookup_fmap. destruct (va_positions a !! k); cbn; lia.
Qed.

Lemma ssteps_longs E now c o s l s' : ssteps E now c o s l s' -> oracle_pos o -> SI now s -> longs_ok (s_acc s) -> longs_ok (s_acc s').
Proof.
  induction 1 as [s|s x s1 l s2 H Hs IH]; [auto|]. intros Ho HSI Hk. apply IH; [exact Ho| |eapply sstep_longs; eauto; exact (proj2 HSI)].
  exact (proj1 (ssteps_si _ _ _ _ _ [x] _ (sss_cons _ _ _ _ _ _ _ _ _ H (sss_nil _ _ _ _ _)) HSI)).
Qed.
Lemma call_longs E w a l w' acc acc' : acct_call E w a l w' -> w_accounts w !! a = Some acc -> w_accounts w' !! a = Some acc' -> nonzero acc ->
  (forall k, 0 < ap_amount (held acc k) -> 0 <= ap_cost (held acc k)) -> forall k, 0 < ap_amount (held acc' k) -> 0 <= ap_cost (held acc' k).
Proof.
  intros H Ha Ha' Hn Hok. destruct (acct_call_out _ _ _ _ _ _ _ H Ha Ha') as (c & o & idsc & ids & v0 & s1 & refs' & _ & Hpos & Hv & Hc & Hs & _ & Hu).
  pose proof (starts_intro _ _ _ _ Hv Ha Hn) as Hst. assert (SI (w_now w) (mkS (get_pool w ids) v0 (w_fd w))) as HSI by (split; [apply cached_new|exact (st_si _ _ _ Hst)]).
  assert (longs_ok v0) as H0. { intros k. rewrite (st_pos _ _ _ Hst k). apply Hok. }
  pose proof (ssteps_longs _ _ _ _ _ _ _ Hs Hpos HSI H0) as H1. pose proof (proj1 (ssteps_si _ _ _ _ _ _ _ Hs HSI)) as HSI'.
  assert (nonzero (va_comp (s_acc s1))) as Hnz. { apply ssteps_comp in Hs as (_ & Hcp & _). intros k x Hx. rewrite Hcp in Hx. cbn [s_acc] in Hx. rewrite Hc in Hx. exact (Hn _ _ Hx). }
  pose proof (realized_intro _ _ (proj2 HSI') Hnz Hu) as Hrz. intros k. rewrite (rz_amount _ _ Hrz k), (rz_cost _ _ Hrz k). apply H1.
Qed.
Theorem longs_reachable E w : reachable E w -> forall a k, 0 < size_of w a k -> 0 <= ap_cost (position w a k).
Proof.
  intros Hr. assert (forall a acc, w_accounts w !! a = Some acc -> forall k, 0 < ap_amount (held acc k) -> 0 <= ap_cost (held acc k)) as HH.
  2: { intros a k. unfold size_of, position. destruct (w_accounts w !! a) as [acc|] eqn:Ha; [apply (HH _ _ Ha)|cbn; lia]. }
  induction Hr as [owner auth keys now w Ha Hn Hg|w cx o w' out Hr IH Hs].
  - apply genesis_inv in Hg as (c & _ & ->). simpl. intros a acc H. rewrite lookup_empty in H. discriminate.
  - intros a acc' H'. destruct (step_account _ _ _ _ _ _ a Hs) as [Heq|[[Ho Hsp]|Hcr]].
    + rewrite Heq in H'. eapply IH; eauto.
    + destruct Hsp as (l & Hl & _). pose proof (acct_call_self _ _ _ _ _ Hl) as ((acc & Hacc) & _ & _). eapply call_longs; [exact Hl|exact Hacc|exact H'|exact (wi_nz _ (WI_reachable _ _ Hr) _ _ Hacc)|eauto].
    + destruct Hcr as (oath & rule & ts & code & ref & g & more & -> & Hnone & Hcd & Hl). eapply (call_longs _ _ _ _ _ (acc_new rule rule rule ref)); [exact Hl|simpl; apply lookup_insert|exact H'| |].
      * intros k x Hx. unfold acc_new in Hx. cbn in Hx. rewrite lookup_empty in Hx. discriminate.
      * intros k. unfold held, acc_new. cbn. rewrite lookup_empty. cbn. lia.
Qed.
