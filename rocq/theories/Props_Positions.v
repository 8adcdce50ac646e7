(** * C17, C18 and the pool part of C55. *)
From Verif Require Import Base DFloat Lists Types Config Oracle Pool Account Fees Referral ExInternal Exchange System Sums Trace Frames Calls Shape Spec SpecTrading P_Ledger P_Accounts Frames2 Trading P_Positions P_Positions2 P_Snaps P_Requests2 P_Refs P_Fees Scenario Witness Props_Config.

(** ** C17: open interest and cost are the sums over accounts *)
Theorem C17_open_interest E w k : reachable E w ->
  open_interest_long w k = sum_accounts (fun acc => Z.max (ap_amount (held acc k)) 0) w /\
  open_interest_short w k = sum_accounts (fun acc => Z.max (- ap_amount (held acc k)) 0) w /\
  pool_cost w k = sum_accounts (fun acc => ap_cost (held acc k)) w.
Proof.
  intros Hr. destruct (WI_reachable E w Hr) as [_ F _ _]. split; [|split].
  - exact (F F_long k (or_introl eq_refl)).
  - exact (F F_short k (or_intror (or_introl eq_refl))).
  - exact (F F_cost k (or_intror (or_intror eq_refl))).
Qed.
(** No account stores an empty position. *)
Theorem C17_no_empty_position E w a acc k p : reachable E w -> w_accounts w !! a = Some acc -> ac_positions acc !! k = Some p -> ap_amount p <> 0.
Proof. intros Hr Ha Hk. exact (wi_nz _ (WI_reachable E w Hr) _ _ Ha _ _ Hk). Qed.
Lemma msum_nonneg {A} (f : N -> A -> Z) (m : gmap N A) : (forall k x, m !! k = Some x -> 0 <= f k x) -> 0 <= msum f m.
Proof.
  induction m as [|k x m Hk IH] using map_ind; intros H; [rewrite msum_empty; lia|]. rewrite msum_insert_new by exact Hk.
  pose proof (H k x (lookup_insert _ _ _)). assert (0 <= msum f m); [|lia]. apply IH. intros j y Hj. apply H. rewrite lookup_insert_ne by congruence. exact Hj.
Qed.
(** Open interest is never negative. *)
Theorem C17_open_interest_nonneg E w k : reachable E w -> 0 <= open_interest_long w k /\ 0 <= open_interest_short w k.
Proof.
  intros Hr. destruct (C17_open_interest E w k Hr) as (-> & -> & _). unfold sum_accounts. split; apply msum_nonneg; intros; lia.
Qed.
Definition size_at (w : world) (a : addr) (k : pair_id) : Z := match w_accounts w !! a with Some acc => ap_amount (held acc k) | None => 0 end.
(** In W3 two accounts hold opposite positions in pair 1. *)
Example C17_ex : reachable sc_env W3 /\ exists x y, open_interest_long W3 1%N = x /\ open_interest_short W3 1%N = y /\ 0 < x /\ size_at W3 A2 1%N = x /\ 0 < y /\ size_at W3 A3 1%N = - y.
Proof. split; [exact W3_reach|]. do 2 eexists. split; [vm_compute; reflexivity|]. split; [vm_compute; reflexivity|]. repeat split; vm_compute; reflexivity. Qed.

(** ** C18: the pool's snapshots *)
Theorem C18_totals E w : reachable E w ->
  po_skew (w_pool w) = sum_pairs pp_skew_abs_snap w /\ po_pnl (w_pool w) = sum_pairs pp_pnl_snap w.
Proof. intros Hr. destruct (WI_reachable E w Hr) as [_ _ S N]. split; assumption. Qed.
(** and each pair's snapshot is that of its open interest and cost at its last price *)
Theorem C18_snapshots E w k pp : reachable E w -> po_positions (w_pool w) !! k = Some pp ->
  pp_skew_abs_snap pp = Z.abs (net_value pp (pp_last_price pp)) /\ pp_pnl_snap pp = pp_cost pp - net_value pp (pp_last_price pp).
Proof. intros Hr Hk. exact (wsnaps_reachable E w Hr k pp Hk). Qed.
Corollary C18_skew E w : reachable E w ->
  po_skew (w_pool w) = sum_pairs (fun pp => Z.abs (net_value pp (pp_last_price pp))) w /\
  po_pnl (w_pool w) = sum_pairs (fun pp => pp_cost pp - net_value pp (pp_last_price pp)) w.
Proof.
  intros Hr. destruct (C18_totals E w Hr) as [-> ->]. unfold sum_pairs. split; apply msum_ext; intros k pp Hk; apply (C18_snapshots E w k pp Hr Hk).
Qed.
Example C18_ex : reachable sc_env W2 /\ exists pp, po_positions (w_pool W2) !! 1%N = Some pp /\ pp_skew_abs_snap pp <> 0 /\ pp_last_price pp <> dec 1.
Proof. split; [exact W2_reach|]. eexists. split; [vm_compute; reflexivity|]. split; vm_compute; discriminate. Qed.

(** ** C55: times of update and lifetime rewards only grow *)
Lemma step_last E cx w o w' out k t : reachable E w -> step E cx w o = Ok (w', out) -> last_updated w k = Some t -> exists t', last_updated w' k = Some t' /\ t <= t'.
Proof.
  intros Hr Hs. unfold last_updated. intros H. destruct (po_positions (w_pool w) !! k) as [pp|] eqn:Hk; [|discriminate]. simpl in H. injection H as <-.
  destruct (step_lu _ _ _ _ _ _ Hs (lu_reachable _ _ Hr)) as [_ M]. destruct (M _ _ Hk) as (pp' & Hk' & Hl). exists (pp_last_update pp'). rewrite Hk'. split; [reflexivity|exact Hl].
Qed.
Theorem C55_last_update E w l w' k t : reachable E w -> steps E w l w' -> last_updated w k = Some t ->
  exists t', last_updated w' k = Some t' /\ t <= t' /\ t' <= w_now w'.
Proof.
  intros Hr Hs Hk. assert (exists t', last_updated w' k = Some t' /\ t <= t') as (t' & Hk' & Hl).
  { revert t Hk. induction Hs as [w|w cx o out w1 l w2 H1 H2 IH]; intros t Hk; [exists t; split; [exact Hk|lia]|].
    destruct (step_last _ _ _ _ _ _ _ _ Hr H1 Hk) as (t1 & Hk1 & Hl1). destruct (IH (reach_step _ _ _ _ _ _ Hr H1) _ Hk1) as (t2 & Hk2 & Hl2). exists t2. split; [exact Hk2|lia]. }
  exists t'. split; [exact Hk'|]. split; [exact Hl|]. pose proof (lu_reachable _ _ (steps_reachable _ _ _ _ Hs Hr)) as HL. unfold last_updated in Hk'.
  destruct (po_positions (w_pool w') !! k) as [pp|] eqn:Hp; [|discriminate]. simpl in Hk'. injection Hk' as <-. exact (HL _ _ Hp).
Qed.
Definition tot_rel (s s' : sess) : Prop := forall d, va_ref (s_acc s) = Some d -> 0 <= rf_fee_referral d ->
  exists d', va_ref (s_acc s') = Some d' /\ rf_fee_referral d' = rf_fee_referral d /\ rf_total_rewarded d <= rf_total_rewarded d'.
Lemma sstep_tot E now c o s x s' : ec_validate (vc_exchange c) = true -> sstep E now c o s x s' -> tot_rel s s'.
Proof.
  intros Hv H d Hd H0. destruct (touches_ref x) eqn:Ht.
  - destruct H; try discriminate Ht. destruct q as [[[q0 q1] q2] q3]. apply fees_referral_inv in H.
    destruct H as (fp & ft & fr & -> & -> & -> & _ & Hfd & Hr & _). apply ec_valid_shares in Hv. destruct Hv as (_ & _ & _ & _ & V3 & _).
    unfold va_reward_referral, va_fee_share_referral in Hr. rewrite Hd in Hr. bd Hr as (b & Hb & Hr). bd Hr as (t & Ht' & Hr). apply Ok_inj in Hr. rewrite <- Hr. simpl. inv_step Ht'. subst t.
    eexists. split; [reflexivity|]. split; [reflexivity|]. simpl. pose proof (quot_nonneg _ _ (quot_nonneg _ _ H1 (proj1 V3)) H0). lia.
  - apply sstep_frames in H. destruct H as (H & _). destruct (H Ht) as [Hr _]. unfold g_ref in Hr. injection Hr as _ Hr _ _. exists d. rewrite Hr. split; [exact Hd|]. split; [reflexivity|lia].
Qed.
Lemma call_tot E w a l w' id d : ec_validate (g_exchange_config w) = true -> ref_shares_ok w -> acct_call E w a l w' -> w_refs w !! id = Some d ->
  exists d', w_refs w' !! id = Some d' /\ rf_total_rewarded d <= rf_total_rewarded d'.
Proof.
  intros Hval Hsh [c o idsc ids v0 s1 acc' refs' Hc Ho Hv Hs Hz Hw] Hid. rewrite Hw. unfold final_world. simpl.
  apply va_realize_inv in Hz as [_ [[_ ->]|(i & d1 & d0 & Hr & Hi & Hd & Hd0 & ->)]]; [exists d; split; [exact Hid|lia]|].
  destruct (decide (id = i)) as [->|Hne]; [|rewrite lookup_insert_ne by congruence; exists d; split; [exact Hid|lia]].
  rewrite lookup_insert. eexists. split; [reflexivity|]. simpl.
  pose proof (ssteps_ref _ _ _ _ _ _ _ Hs) as (A & _). cbn [s_acc] in A.
  assert (tot_rel (mkS (get_pool w ids) v0 (w_fd w)) s1) as HT.
  { revert Hs. apply (ssteps_rel E (w_now w) c o tot_rel).
    - intros s x Hx _. exists x. split; [exact Hx|]. split; [reflexivity|lia].
    - intros s s2 s3 R1 R2 x Hx H0. destruct (R1 x Hx H0) as (y & Hy & Hf & Hl). destruct (R2 y Hy ltac:(lia)) as (z & Hz & Hf2 & Hl2). exists z. split; [exact Hz|]. split; [congruence|lia].
    - intros s x s2. apply sstep_tot. rewrite (get_config_exchange _ _ _ Hc). exact Hval. }
  apply get_acc_inv in Hv. destruct Hv as (acc & Ha & _ & _ & _ & _ & _ & _ & _ & _ & _ & _ & _ & _ & _ & Hvid & _ & Href & _).
  assert (va_ref v0 = Some d) as Hv0 by (rewrite Href, <- Hvid, <- A, Hi; exact Hid).
  destruct (HT d Hv0) as (d' & Hd' & _ & Hl); [apply (Hsh _ _ Hid)|]. rewrite Hd in Hd'. injection Hd' as ->. exact Hl.
Qed.
Lemma step_tot E cx w o w' out id d : reachable E w -> step E cx w o = Ok (w', out) -> w_refs w !! id = Some d ->
  exists d', w_refs w' !! id = Some d' /\ rf_total_rewarded d <= rf_total_rewarded d'.
Proof.
  intros Hr Hs Hid. pose proof (C40_exchange_config E w Hr) as Hval. pose proof (fees_reachable E w Hr) as [_ Hsh]. apply step_gstep in Hs.
  destruct Hs; try (exists d; split; [exact Hid|lia]).
  - destruct H0 as (l & H0 & _). eapply call_tot; eauto.
  - eapply (call_tot E _ a _ _ _ _ _ _ H1). exact Hid. Unshelve. all: assumption.
  - simpl. destruct (decide (id = snd pr)) as [->|Hne]; [rewrite lookup_insert; eexists; split; [reflexivity|]; simpl; rewrite Hid in H1; injection H1 as ->; lia|rewrite lookup_insert_ne by congruence; exists d; split; [exact Hid|lia]].
  - simpl. destruct (decide (id = w_next w)) as [->|Hne]; [congruence|rewrite lookup_insert_ne by congruence; exists d; split; [exact Hid|lia]].
  - simpl. destruct (decide (id = w_next w)) as [->|Hne]; [congruence|rewrite lookup_insert_ne by congruence; exists d; split; [exact Hid|lia]].
  - simpl. destruct (decide (id = id0)) as [->|Hne]; [rewrite lookup_insert; eexists; split; [reflexivity|]; simpl; rewrite Hid in H; injection H as ->; lia|rewrite lookup_insert_ne by congruence; exists d; split; [exact Hid|lia]].
  - simpl. destruct (decide (id = id0)) as [->|Hne]; [rewrite lookup_insert; eexists; split; [reflexivity|]; simpl; rewrite Hid in H; injection H as ->; lia|rewrite lookup_insert_ne by congruence; exists d; split; [exact Hid|lia]].
  - simpl. destruct (decide (id = snd pr)) as [->|Hne]; [rewrite lookup_insert; eexists; split; [reflexivity|]; simpl; rewrite Hid in H1; injection H1 as ->; lia|rewrite lookup_insert_ne by congruence; exists d; split; [exact Hid|lia]].
Qed.
Theorem C55_lifetime_reward E w l w' id x : reachable E w -> steps E w l w' -> lifetime_reward w id = Some x ->
  exists x', lifetime_reward w' id = Some x' /\ x <= x'.
Proof.
  intros Hr Hs. revert x. induction Hs as [w|w cx o out w1 l w2 H1 H2 IH]; intros x Hx; [exists x; split; [exact Hx|lia]|].
  unfold lifetime_reward in Hx. destruct (w_refs w !! id) as [d|] eqn:Hd; [|discriminate]. simpl in Hx. injection Hx as <-.
  destruct (step_tot _ _ _ _ _ _ _ _ Hr H1 Hd) as (d' & Hd' & Hl). destruct (IH (reach_step _ _ _ _ _ _ Hr H1) (rf_total_rewarded d')) as (x' & Hx' & Hl'); [unfold lifetime_reward; rewrite Hd'; reflexivity|].
  exists x'. split; [exact Hx'|lia].
Qed.
Example C55_ex : exists w' outs, steps sc_env W2 (hist sc_later outs) w' /\ reachable sc_env W2 /\ last_updated W2 1%N = Some 1010 /\ last_updated w' 1%N = Some 87420.
Proof.
  destruct (try_run_true W2 sc_later (fun w' _ => bool_decide (last_updated W2 1%N = Some 1010) && bool_decide (last_updated w' 1%N = Some 87420))) as (w' & outs & H & Hf); [vm_compute; reflexivity|].
  apply andb_true_iff in Hf as [H1 H2]. apply bool_decide_eq_true in H1, H2. exists w', outs. split; [exact H|]. split; [exact W2_reach|]. split; [exact H1|exact H2].
Qed.
(** The referral's lifetime reward grows when the referred account A5 trades. *)
Example C55_reward_ex : exists w1 w2 o1 o2 x y, reachable sc_env w1 /\ steps sc_env W2 (hist (firstn 7 sc_referral) o1) w1 /\ steps sc_env w1 (hist (skipn 7 sc_referral) o2) w2 /\
  lifetime_reward w1 0%N = Some x /\ lifetime_reward w2 0%N = Some y /\ x < y.
Proof.
  destruct (try_run_true W2 (firstn 7 sc_referral) (fun w1 _ => try_run w1 (skipn 7 sc_referral) (fun w2 _ =>
    match lifetime_reward w1 0%N, lifetime_reward w2 0%N with Some x, Some y => x <? y | _, _ => false end))) as (w1 & o1 & H & Hf); [vm_compute; reflexivity|].
  apply try_run_true in Hf as (w2 & o2 & H2 & Hf). destruct (lifetime_reward w1 0%N) as [x|] eqn:Hx; [|exfalso; exact (Bool.diff_false_true Hf)].
  destruct (lifetime_reward w2 0%N) as [y|] eqn:Hy; [|exfalso; exact (Bool.diff_false_true Hf)]. apply Z.ltb_lt in Hf.
  exists w1, w2, o1, o2, x, y. split; [exact (steps_reachable _ _ _ _ H W2_reach)|]. split; [exact H|]. split; [exact H2|]. split; [exact Hx|]. split; [exact Hy|exact Hf].
Qed.
