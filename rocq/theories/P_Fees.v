(** * Fee balances never become negative, and neither does the oath supply. *)
From Verif Require Import Base DFloat Lists Types Config Oracle Pool Account Fees Referral ExInternal Exchange System Sums Trace Frames Calls Shape Spec P_Ledger P_Accounts P_DFloat Frames2 Props_Config.

Lemma ec_valid_shares c : ec_validate c = true ->
  0 <= ec_fee_liquidity_add c /\ 0 <= ec_fee_liquidity_remove c /\
  0 <= ec_fee_share_protocol c <= 300000000000000000 /\ 0 <= ec_fee_share_treasury c <= 150000000000000000 /\
  0 <= ec_fee_share_referral c <= E18 /\ 0 <= ec_fee_max c /\ 0 <= ec_reward_keeper c /\ dec 1000 <= ec_protocol_burn_amount c /\
  0 <= ec_skew_ratio_cap c /\ 0 <= ec_adl_offset c /\ 0 <= ec_adl_a c /\ 0 <= ec_adl_b c /\ (0 < ec_positions_max c)%N.
Proof.
  unfold ec_validate. rewrite !andb_true_iff, !Z.leb_le, N.ltb_lt. unfold dec. intros H. split_ands. repeat split; try assumption; lia.
Qed.
Lemma quot_nonneg a b : 0 <= a -> 0 <= b -> 0 <= Z.quot (a * b) E18.
Proof. intros. apply Z.quot_pos; [nia|reflexivity]. Qed.

Definition sess_fees (s : sess) : Prop :=
  0 <= fd_protocol (s_fd s) /\ 0 <= fd_treasury (s_fd s) /\
  match va_ref (s_acc s) with Some d => 0 <= rf_fee_referral d /\ 0 <= rf_balance d | None => True end.
Lemma sstep_fees E now c o s x s' : ec_validate (vc_exchange c) = true -> sstep E now c o s x s' -> sess_fees s -> sess_fees s'.
Proof.
  intros Hv H (H1 & H2 & H3). destruct (touches_ref x) eqn:Ht.
  - destruct H; try discriminate Ht. destruct q as [[[q0 q1] q2] q3]. apply fees_referral_inv in H.
    destruct H as (fp & ft & fr & -> & -> & -> & _ & Hfd & Hr & _). apply ec_valid_shares in Hv.
    destruct Hv as (_ & _ & V1 & V2 & V3 & _). unfold sess_fees. rewrite Hfd. simpl.
    pose proof (quot_nonneg _ _ H0 (proj1 V1)). pose proof (quot_nonneg _ _ H0 (proj1 V2)). pose proof (quot_nonneg _ _ H0 (proj1 V3)) as Q3.
    split; [lia|]. split; [lia|]. unfold va_reward_referral, va_fee_share_referral in Hr. destruct (va_ref (s_acc s)) as [d|] eqn:Hd.
    + bd Hr as (b & Hb & Hr). bd Hr as (t & _ & Hr). apply Ok_inj in Hr. rewrite <- Hr. simpl. inv_step Hb. subst b.
      pose proof (quot_nonneg _ _ Q3 (proj1 H3)). split; [apply H3|]. lia.
    + apply Ok_inj in Hr. rewrite <- Hr, Hd. exact I.
  - apply sstep_frames in H. destruct H as (H & _). destruct (H Ht) as [Hr Hf]. unfold sess_fees. rewrite Hf. unfold g_ref in Hr.
    injection Hr as _ Hr _ _. rewrite Hr. auto.
Qed.
Lemma acct_call_config E w a l w' : acct_call E w a l w' -> w_config w' = w_config w /\ w_now w' = w_now w /\ w_dl w' = w_dl w /\ w_gen w' = w_gen w /\
  w_lp w' = w_lp w /\ w_auth w' = w_auth w /\ w_burnt w' = w_burnt w /\ w_owner w' = w_owner w /\ w_roles w' = w_roles w /\ w_oath w' = w_oath w - oath_total l.
Proof. intros [c o idsc ids v0 s1 acc' refs' Hc Ho Hv Hs Hz Hw]. rewrite Hw. repeat split. Qed.

Lemma acct_call_fees E w a l w' : ec_validate (g_exchange_config w) = true -> ref_shares_ok w ->
  acct_call E w a l w' -> fees_nonneg w -> fees_nonneg w' /\ ref_shares_ok w'.
Proof.
  intros Hval Hsh H (F1 & F2 & F3 & F4). pose proof (acct_call_refs _ _ _ _ _ H) as HR.
  destruct H as [c o idsc ids v0 s1 acc' refs' Hc Ho Hv Hs Hz Hw].
  assert (sess_fees s1) as (S1 & S2 & S3).
  { refine (ssteps_inv E (w_now w) c o sess_fees _ _ _ _ Hs _).
    - intros s x s2 Hst. apply (sstep_fees E (w_now w) c o s x s2); [|exact Hst]. rewrite (get_config_exchange _ _ _ Hc). exact Hval.
    - unfold sess_fees. cbn [s_fd s_acc]. split; [exact F1|]. split; [exact F2|]. apply get_acc_inv in Hv.
      destruct Hv as (acc & Ha & _ & _ & _ & _ & _ & _ & _ & _ & _ & _ & _ & _ & _ & _ & _ & Href & Hex). rewrite Href.
      destruct (ac_ref acc) as [id|]; [|exact I]. destruct (w_refs w !! id) as [d|] eqn:Hd; [|exact I].
      split; [apply (Hsh id d Hd)|eapply F4; eauto]. }
  split.
  - rewrite Hw. unfold fees_nonneg, final_world. simpl. split; [exact S1|]. split; [exact S2|]. split; [exact F3|].
    apply va_realize_inv in Hz as [_ [[_ ->]|(id & d & d0 & Hr & Hid & Hd & Hd0 & ->)]]; [exact F4|]. intros id' d' Hl.
    destruct (decide (id' = id)) as [->|Hn].
    + rewrite lookup_insert in Hl. injection Hl as <-. simpl. rewrite Hd in S3. apply S3.
    + rewrite lookup_insert_ne in Hl by congruence. eapply F4; eauto.
  - destruct HR as [HR|(acc & id & d0 & b & t & _ & _ & Hd0 & HR)]; [unfold ref_shares_ok; rewrite HR; exact Hsh|]. intros id' d' Hl. rewrite HR in Hl.
    destruct (decide (id' = id)) as [->|Hn].
    + rewrite lookup_insert in Hl. injection Hl as <-. simpl. apply (Hsh id d0 Hd0).
    + rewrite lookup_insert_ne in Hl by congruence. eapply Hsh; eauto.
Qed.
Ltac ins_cases H id := match type of H with <[?k := _]> _ !! id = Some _ =>
  destruct (decide (id = k)) as [->|]; [rewrite lookup_insert in H; injection H as <-; simpl in *|rewrite lookup_insert_ne in H by congruence] end.

Lemma gstep_fees E cx w o out w' : ec_validate (g_exchange_config w) = true -> gstep E cx w o out w' ->
  fees_nonneg w /\ ref_shares_ok w -> fees_nonneg w' /\ ref_shares_ok w'.
Proof.
  intros Hval H ((F1 & F2 & F3 & F4) & S). pose proof (ec_valid_shares _ Hval) as (V1 & V2 & V3 & V4 & V5 & _).
  destruct H; try (split; [split; [exact F1|split; [exact F2|split; [exact F3|exact F4]]]|exact S]).
  - destruct H0 as (l & H0 & _). eapply acct_call_fees; eauto. repeat split; assumption.
  - eapply (acct_call_fees E _ a); [| |exact H1|]; auto. repeat split; assumption.
  - split; [|exact S]. repeat split; simpl; auto. lia.
  - split; [|exact S]. repeat split; simpl; auto. lia.
  - split; [|exact S]. repeat split; simpl; auto. lia.
  - split; [repeat split; simpl; auto|]; intros id d' Hl; simpl in Hl; ins_cases Hl id; eauto; lia.
  - split; [repeat split; simpl; auto|]; intros id d' Hl; simpl in Hl; ins_cases Hl id; eauto; unfold FEE_REF_MAX in *; try lia.
  - split; [repeat split; simpl; auto|]; intros id d' Hl; simpl in Hl; ins_cases Hl id; eauto; unfold FEE_REF_MAX in *; try lia.
  - pose proof (S _ _ H) as [S1 S2]. split; [repeat split; simpl; auto|]; intros id' d' Hl; simpl in Hl; ins_cases Hl id'; eauto.
    unfold FEE_REF_MAX in *. destruct fr, fb; simpl; lia.
  - split; [repeat split; simpl; auto|]; intros id' d' Hl; simpl in Hl; ins_cases Hl id'; eauto.
  - split; [repeat split; simpl; auto|]; intros id' d' Hl; simpl in Hl; ins_cases Hl id'; eauto.
  - rewrite (get_config_exchange _ _ _ H) in *. fold (g_exchange_config w) in *. inv_step H1.
    pose proof (quot_nonneg _ _ H4 V1) as Q. rewrite <- H1 in Q.
    pose proof (quot_nonneg _ _ Q (proj1 V3)). pose proof (quot_nonneg _ _ Q (proj1 V4)).
    split; [|exact S]. repeat split; simpl; auto; lia.
  - rewrite (get_config_exchange _ _ _ H) in *. fold (g_exchange_config w) in *. inv_step H4. inv_step H3. inv_step H2.
    assert (0 <= price) as Hp. { subst price. apply Z.quot_pos; [apply Z.mul_nonneg_nonneg; [lia|discriminate]|lia]. }
    pose proof (quot_nonneg _ _ (proj1 H7) Hp) as Q1. rewrite <- H3 in Q1.
    pose proof (quot_nonneg _ _ Q1 V2) as Q. rewrite <- H4 in Q.
    pose proof (quot_nonneg _ _ Q (proj1 V3)). pose proof (quot_nonneg _ _ Q (proj1 V4)).
    split; [|exact S]. repeat split; simpl; auto; lia.
  - split; [|exact S]. repeat split; simpl; auto; lia.
  - split; [|exact S]. repeat split; simpl; auto; lia.
Qed.
Lemma fees_reachable E w : reachable E w -> fees_nonneg w /\ ref_shares_ok w.
Proof.
  induction 1 as [owner auth keys now w Ha Hn Hg|w cx o w' out Hr IH Hs].
  - apply genesis_inv in Hg as (c & _ & ->). split; [repeat split; simpl; try lia|]; intros id d Hl; simpl in Hl; rewrite lookup_empty in Hl; discriminate.
  - pose proof (C40_exchange_config E w Hr). apply step_gstep in Hs. eapply gstep_fees; eauto.
Qed.

(** An oath handed to a call exists. *)
Lemma settle_oath_bound E w v ids b r : settle_oath E w v ids b = Ok r -> b_res b = FEE_OATH /\ b_amt b <= w_oath w.
Proof.
  unfold settle_oath. intros H. bd H as (c & _ & H). bd H as ([o0 o] & _ & H). bd H as ([v1 s] & Hs & H). apply x_settle_fee_oath_inv in Hs. intuition.
Qed.
Lemma settle_oath_opt_bound E w v ids b r : settle_oath_opt E w v ids (Some b) = Ok r -> b_res b = FEE_OATH /\ b_amt b <= w_oath w.
Proof. apply settle_oath_bound. Qed.
Lemma settle_oath_opt'_bound E w v b r : settle_oath_opt' E w v (Some b) = Ok r -> b_res b = FEE_OATH /\ b_amt b <= w_oath w.
Proof. simpl. intros H. bd H as (x & Hs & H). eapply settle_oath_bound; eauto. Qed.
Lemma add_collateral_oath_bound E w v b ts r : add_collateral_oath E w v (Some b) ts = Ok r -> b_res b = FEE_OATH /\ b_amt b <= w_oath w.
Proof.
  simpl. intros H. bd H as (c & _ & H). bd H as ([o0 o] & _ & H). bd H as ([[p1 v1] ev] & _ & H). bd H as ([v2 s] & Hs & H). apply x_settle_fee_oath_inv in Hs. intuition.
Qed.
Lemma step_exec E cx w o r : step E cx w o = Ok r -> exec E cx w o = Ok r /\ forallb (bucket_ok E) (op_buckets o) = true /\
  access_ok cx w (op_access o) = true /\ (needs_authority o = true -> 1 <= w_auth w).
Proof.
  unfold step. intros H. bd H as (? & H1 & H). bd H as (? & H2 & H). bd H as (? & H3 & H). apply guard_Ok in H1, H2, H3.
  split; [exact H|]. split; [exact H1|]. split; [exact H2|]. intros Hn. rewrite Hn in H3. simpl in H3. lia.
Qed.
Lemma exec_oath_bound E cx w o r b : exec E cx w o = Ok r -> oath_of o = Some b -> b_res b = FEE_OATH /\ b_amt b <= w_oath w.
Proof.
  intros H Hb. destruct o; try discriminate Hb; simpl in H, Hb; subst oath.
  - unfold m_create_account in H. bd H as (? & _ & H). bd H as ([[w1 ref] ts1] & Hc & H). bd H as (v & _ & H). bd H as ([[w2 v2] evs] & Ha & H).
    apply add_collateral_oath_bound in Ha. simpl in Ha. destruct code; inv_go; exact Ha.
  - unfold m_create_recovery_key in H. bd H as (v & _ & H). bd H as (? & _ & H). bd H as ([w1 v1] & Hs & H). apply settle_oath_opt'_bound in Hs. exact Hs.
  - unfold m_add_auth_rule in H. bd H as (v & _ & H). bd H as (? & _ & H). bd H as ([w1 v1] & Hs & H). apply settle_oath_opt'_bound in Hs. exact Hs.
  - unfold m_set_level_auth in H. bd H as (v & _ & H). bd H as (? & _ & H). bd H as ([w1 v1] & Hs & H). apply settle_oath_opt'_bound in Hs. exact Hs.
  - unfold m_set_level_auth in H. bd H as (v & _ & H). bd H as (? & _ & H). bd H as ([w1 v1] & Hs & H). apply settle_oath_opt'_bound in Hs. exact Hs.
  - unfold m_set_level_auth in H. bd H as (v & _ & H). bd H as (? & _ & H). bd H as ([w1 v1] & Hs & H). apply settle_oath_opt'_bound in Hs. exact Hs.
  - unfold m_add_collateral in H. bd H as (v & _ & H). bd H as (? & _ & H). bd H as ([[w1 v1] evs] & Hs & H). apply add_collateral_oath_bound in Hs. exact Hs.
  - unfold m_remove_collateral_request in H. bd H as (v & _ & H). bd H as (? & _ & H). bd H as ([[w1 v1] c] & Hs & H). apply settle_oath_opt_bound in Hs. exact Hs.
  - unfold m_margin_order_request in H. bd H as (v & _ & H). bd H as (? & _ & H). bd H as ([[w1 v1] c] & Hs & H). apply settle_oath_opt_bound in Hs. exact Hs.
  - unfold m_margin_order_tp_sl_request in H. bd H as (v & _ & H). bd H as (? & _ & H). bd H as ([[w1 v1] c] & Hs & H). apply settle_oath_opt_bound in Hs. exact Hs.
  - unfold m_cancel_requests in H. bd H as (v & _ & H). bd H as (? & _ & H). bd H as ([w1 v1] & Hs & H). apply settle_oath_opt'_bound in Hs. exact Hs.
Qed.
Definition oath_amt (o : option bucket) : Z := match o with Some b => b_amt b | None => 0 end.
Lemma oath_total_oath o : oath_total (oath_acts o) = oath_amt o.
Proof. destruct o; simpl; lia. Qed.
Lemma op_acts_oath w o out l : op_acts w o out l -> oath_total l = oath_amt (oath_of o).
Proof.
  destruct o; simpl; try tauto.
  - intros (acc & _ & _ & ->). rewrite oath_total_app, oath_total_oath. simpl. lia.
  - intros (acc & _ & _ & _ & ->). rewrite oath_total_app, oath_total_oath. simpl. lia.
  - intros (_ & ->). rewrite oath_total_app, oath_total_oath. simpl. lia.
  - intros (_ & ->). rewrite oath_total_app, oath_total_oath. simpl. lia.
  - intros (_ & ->). rewrite oath_total_app, oath_total_oath. simpl. lia.
  - intros (_ & ->). rewrite oath_total_app, oath_total_adds, oath_total_oath. lia.
  - intros (_ & ->). rewrite oath_total_app, oath_total_oath. simpl. lia.
  - intros (_ & act & can & ->). rewrite oath_total_app, oath_total_oath. simpl. lia.
  - intros (_ & l' & -> & Hp). rewrite oath_total_app, oath_total_oath, oath_total_push by exact Hp. lia.
  - intros (_ & ->). rewrite oath_total_app, oath_total_oath. simpl. lia.
  - intros (v0 & v1 & rq & ex & l' & _ & _ & He & -> & _). simpl. apply no_oath_total, (exec_acts_no_oath _ _ _ _ He).
  - intros (_ & paid & value & token & -> & _). reflexivity.
  - intros (_ & paid & bs & st & lo & fee & -> & Hlo & _). destruct Hlo as [->|[x ->]]; reflexivity.
  - intros (amt & fee & -> & _). reflexivity.
Qed.
(** How a call changes the oath supply. *)
Lemma step_oath_supply E cx w o w' out : step E cx w o = Ok (w', out) ->
  (exists amt value, o = OLockFee amt /\ 0 <= value /\ w_oath w' = w_oath w + value /\ w_oath w' <= dl_max_lock (w_dl w') /\ o_tokens out = [(FEE_OATH, value)]) \/
  (w_oath w' = w_oath w - oath_amt (oath_of o) /\ oath_amt (oath_of o) <= w_oath w \/ oath_of o = None /\ w_oath w' = w_oath w).
Proof.
  intros H. pose proof (step_gstep _ _ _ _ _ _ H) as G. apply step_exec in H as [H _].
  assert (forall b, oath_of o = Some b -> b_amt b <= w_oath w) as Hb by (intros b Hb; eapply exec_oath_bound; eauto). clear H.
  destruct G; try (right; right; split; reflexivity).
  - right. destruct H0 as (l & Hl & Ha & _). apply op_acts_oath in Ha. apply acct_call_config in Hl. destruct Hl as (_ & _ & _ & _ & _ & _ & _ & _ & _ & Hl).
    rewrite Hl, Ha. destruct (oath_of o) as [b|]; simpl; [left; split; [reflexivity|apply Hb; reflexivity]|right; split; [reflexivity|lia]].
  - right. apply acct_call_config in H1. destruct H1 as (_ & _ & _ & _ & _ & _ & _ & _ & _ & Hl). rewrite Hl, oath_total_app, oath_total_adds, oath_total_oath.
    simpl in *. destruct oath as [b|]; simpl; [left; split; [lia|apply Hb; reflexivity]|right; split; [reflexivity|lia]].
  - left. exists amt, value. simpl. auto 10.
  - right; right. split; [|reflexivity]. destruct o; try discriminate H; reflexivity.
  - right; right. split; [|reflexivity]. destruct o; try discriminate H; reflexivity.
Qed.
Lemma oath_reachable E w : reachable E w -> 0 <= w_oath w.
Proof.
  induction 1 as [owner auth keys now w Ha Hn Hg|w cx o w' out Hr IH Hs].
  - apply genesis_inv in Hg as (c & _ & ->). simpl. lia.
  - apply step_oath_supply in Hs. destruct Hs as [(amt & v & _ & Hv & -> & _)|[[-> Hb]|[_ ->]]]; lia.
Qed.
