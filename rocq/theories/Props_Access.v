(** * Every effect needs the role that grants it (C58). *)
From Verif Require Import Base DFloat Lists Types Config Oracle Pool Account Fees Referral ExInternal Exchange System Sums Trace Frames Calls Shape Spec P_Ledger P_Accounts Frames2 Scenario Witness Props_Config P_Fees P_Coll P_Requests P_Requests2 P_Requests3 SpecRequests SpecTrading SpecMargin SpecAuth P_Rules Props_Auth Props_LP Props_Positions Props_Collateral P_Access.

(** The caller satisfies the rule of one of the roles. *)
Definition one_of (cx : ctx) (w : world) (rs : list role) : Prop := exists r, In r rs /\ has_role cx w r = true.
(** The recorded amount of a collateral token of an account. *)
Definition collateral_of (w : world) (a : addr) (r : resource) : Z := match w_accounts w !! a with Some acc => default 0 (ac_coll acc !! r) | None => 0 end.
(** The caller showed a proof of the referral NFT. *)
Definition shows_referral (cx : ctx) (id : N) : Prop := cx_proves cx REFERRAL id = true.

Lemma role_of E cx w o w' out r : step E cx w o = Ok (w', out) -> op_access o = ARole r -> has_role cx w r = true.
Proof. intros H Hr. apply step_exec in H as (_ & _ & Ha & _). rewrite Hr in Ha. exact Ha. Qed.
Ltac role Hs := match goal with |- one_of _ _ _ => eexists; split; [|exact (role_of _ _ _ _ _ _ _ Hs eq_refl)]; simpl; tauto end.

(** ** Fees, fee delegator, LP tokens *)
Theorem C58_funds E cx w o w' out : reachable E w -> step E cx w o = Ok (w', out) ->
  (fd_treasury (w_fd w') < fd_treasury (w_fd w) -> one_of cx w [RTreasuryAdmin]) /\
  (fd_protocol (w_fd w') < fd_protocol (w_fd w) -> one_of cx w [RProtocolSwap]) /\
  (dl_vb (w_dl w') < dl_vb (w_dl w) -> one_of cx w [RFeeDelegatorAdmin]) /\
  (w_lp w' <> w_lp w -> one_of cx w [RLiquidity]) /\
  (dl_vault (w_dl w) < dl_vault (w_dl w') -> one_of cx w [RDlDepositor]) /\
  (dl_vault (w_dl w') < dl_vault (w_dl w) -> one_of cx w [RDlWithdrawer; RDlUser]) /\
  (w_oath w < w_oath w' -> one_of cx w [RDlUser]).
Proof.
  intros Hr Hs. pose proof (C40_exchange_config E w Hr) as Hval. pose proof (lp_step _ _ _ _ _ _ Hs) as Hlp. pose proof Hs as Hx. apply step_exec in Hx as (_ & Hb & _). pose proof Hs as Hg. apply step_gstep in Hg.
  assert (forall c fee, get_config w ∅ = Ok c -> 0 <= fee -> 0 <= Z.quot (fee * ec_fee_share_protocol (vc_exchange c)) E18 /\ 0 <= Z.quot (fee * ec_fee_share_treasury (vc_exchange c)) E18) as Hshare.
  { intros c fee Hc Hf. pose proof (get_config_exchange _ _ _ Hc) as He. pose proof Hval as Hv. unfold g_exchange_config in Hv. rewrite <- He in Hv. apply ec_valid_shares in Hv. destruct Hv as (_ & _ & V1 & V2 & _). split; apply quot_nonneg; tauto. }
  assert (Forall (fun b => 0 <= b_amt b) (op_buckets o)) as Hbs by exact (buckets_nonneg _ _ Hb).
  assert (match o with OCollectTreasury => True | _ => fd_treasury (w_fd w) <= fd_treasury (w_fd w') end /\ match o with OSwapProtocolFee _ => True | _ => fd_protocol (w_fd w) <= fd_protocol (w_fd w') end) as [Hf1 Hf2].
  { destruct Hg; try (cbn; lia).
    - destruct H0 as (l & H0 & _). apply acct_fd_up in H0; [|exact Hval]. destruct o; split; try exact I; lia.
    - apply acct_fd_up in H1; [cbn in H1; lia|exact Hval].
    - pose proof (get_config_exchange _ _ _ H) as He. pose proof Hval as Hv. unfold g_exchange_config in Hv. rewrite <- He in Hv. apply ec_valid_shares in Hv as (V1 & V2 & _).
      apply dmul_Ok in H1 as [-> _]. assert (0 <= b_amt b) as Hb0 by (inversion Hbs; subst; assumption). destruct (Hshare _ _ H (quot_nonneg _ _ Hb0 V1)). subst fp ft. cbn -[Z.mul Z.quot]. lia.
    - pose proof (get_config_exchange _ _ _ H) as He. pose proof Hval as Hv. unfold g_exchange_config in Hv. rewrite <- He in Hv. apply ec_valid_shares in Hv as (V1 & V2 & _).
      assert (0 <= price) as Hp. { apply ddiv_Ok in H2 as (Hnz & -> & _). apply Z.quot_pos; [unfold E18; lia|lia]. }
      apply dmul_Ok in H3 as [-> _]. apply dmul_Ok in H4 as [-> _]. pose proof (quot_nonneg _ _ (proj1 H7) Hp) as Hq. destruct (Hshare _ _ H (quot_nonneg _ _ Hq V2)). subst fp ft. cbn -[Z.mul Z.quot]. lia.
    - destruct o; try discriminate; cbn; lia.
    - destruct o; try discriminate; cbn; lia. }
  assert (match o with OCollectFeeDelegator => True | _ => dl_vb (w_dl w) <= dl_vb (w_dl w') end /\
    match o with ODlDeposit _ => True | _ => dl_vault (w_dl w') <= dl_vault (w_dl w) end /\ match o with ODlWithdraw _ | OLockFee _ => True | _ => dl_vault (w_dl w) <= dl_vault (w_dl w') end /\
    match o with OLockFee _ => True | _ => w_oath w' <= w_oath w end) as (Hvb & Hup & Hdn & Hoa).
  { destruct Hg; cbn [w_dl w_oath]; try (cbn; repeat split; lia).
    - destruct H0 as (l & H0 & Hac & _). pose proof (op_acts_oath _ _ _ _ Hac) as Hot. apply acct_call_config in H0 as (_ & _ & -> & _ & _ & _ & _ & _ & _ & ->). rewrite Hot.
      assert (0 <= oath_amt (oath_of o)) as Hoa. { clear - Hbs. destruct o; cbn in *; try lia; destruct oath; cbn in *; try lia; inversion Hbs; subst; assumption. }
      destruct o; try discriminate H; repeat split; try exact I; lia.
    - apply acct_call_config in H1 as (_ & _ & Hdl & _ & _ & _ & _ & _ & _ & Hoa). cbn in Hdl, Hoa. rewrite Hdl, Hoa. assert (0 <= oath_total (add_acts (ts ++ more) ++ oath_acts oath)) as Hoa0.
      { rewrite oath_total_app. rewrite oath_total_adds. destruct oath; cbn; [|lia]. inversion Hbs; subst. lia. }
      repeat split; lia.
    - clear Hs Hf1 Hf2 Hshare Hlp. destruct o; try discriminate; cbn in *; repeat match goal with H : _ /\ _ |- _ => destruct H | H : exists _, _ |- _ => destruct H end; repeat split; try exact I; first [lia|inversion Hbs; subst; cbn in *; lia].
    - destruct o; try discriminate; cbn; repeat split; lia. }
  split; [|split; [|split; [|split; [|split; [|split]]]]]; intros Hd; destruct o; cbv iota beta in Hf1, Hf2, Hvb, Hup, Hdn, Hoa, Hlp; try (exfalso; lia); role Hs.
Qed.

(** ** Referrals *)
Definition bal_rel (s s' : sess) : Prop := forall d, va_ref (s_acc s) = Some d -> 0 <= rf_fee_referral d ->
  exists d', va_ref (s_acc s') = Some d' /\ rf_fee_referral d' = rf_fee_referral d /\ rf_balance d <= rf_balance d'.
Lemma sstep_bal E now c o s x s' : ec_validate (vc_exchange c) = true -> sstep E now c o s x s' -> bal_rel s s'.
Proof.
  intros Hv H d Hd H0. destruct (touches_ref x) eqn:Ht.
  - destruct H; try discriminate Ht. destruct q as [[[q0 q1] q2] q3]. apply fees_referral_inv in H.
    destruct H as (fp & ft & fr & -> & -> & -> & _ & Hfd & Hr & _). apply ec_valid_shares in Hv. destruct Hv as (_ & _ & _ & _ & V3 & _).
    unfold va_reward_referral, va_fee_share_referral in Hr. rewrite Hd in Hr. bd Hr as (b & Hb & Hr). bd Hr as (t & Ht' & Hr). apply Ok_inj in Hr. rewrite <- Hr. simpl. inv_step Hb. subst b.
    eexists. split; [reflexivity|]. split; [reflexivity|]. simpl. pose proof (quot_nonneg _ _ (quot_nonneg _ _ H1 (proj1 V3)) H0). lia.
  - apply sstep_frames in H. destruct H as (H & _). destruct (H Ht) as [Hr _]. unfold g_ref in Hr. injection Hr as _ Hr _ _. exists d. rewrite Hr. split; [exact Hd|]. split; [reflexivity|lia].
Qed.
Lemma call_bal E w a l w' id d : ec_validate (g_exchange_config w) = true -> ref_shares_ok w -> acct_call E w a l w' -> w_refs w !! id = Some d ->
  exists d', w_refs w' !! id = Some d' /\ rf_balance d <= rf_balance d' /\ rf_fee_referral d' = rf_fee_referral d /\ rf_fee_rebate d' = rf_fee_rebate d /\ rf_referrals d' = rf_referrals d /\ rf_max_referrals d' = rf_max_referrals d.
Proof.
  intros Hval Hsh [c o idsc ids v0 s1 acc' refs' Hc Ho Hv Hs Hz Hw] Hid. rewrite Hw. unfold final_world. simpl.
  apply va_realize_inv in Hz as [_ [[_ ->]|(i & d1 & d0 & Hr & Hi & Hd & Hd0 & ->)]]; [exists d; split; [exact Hid|]; repeat split; lia|].
  destruct (decide (id = i)) as [->|Hne]; [|rewrite lookup_insert_ne by congruence; exists d; split; [exact Hid|]; repeat split; lia].
  rewrite lookup_insert. eexists. split; [reflexivity|]. simpl. assert (d0 = d) as -> by congruence. split; [|auto].
  pose proof (ssteps_ref _ _ _ _ _ _ _ Hs) as (A & _). cbn [s_acc] in A.
  assert (bal_rel (mkS (get_pool w ids) v0 (w_fd w)) s1) as HT.
  { revert Hs. apply (ssteps_rel E (w_now w) c o bal_rel).
    - intros s x Hx _. exists x. split; [exact Hx|]. split; [reflexivity|lia].
    - intros s s2 s3 R1 R2 x Hx H0. destruct (R1 x Hx H0) as (y & Hy & Hf & Hl). destruct (R2 y Hy ltac:(lia)) as (z & Hz & Hf2 & Hl2). exists z. split; [exact Hz|]. split; [congruence|lia].
    - intros s x s2. apply sstep_bal. rewrite (get_config_exchange _ _ _ Hc). exact Hval. }
  apply get_acc_inv in Hv. destruct Hv as (acc & Ha & _ & _ & _ & _ & _ & _ & _ & _ & _ & _ & _ & _ & _ & Hvid & _ & Href & _).
  assert (va_ref v0 = Some d) as Hv0 by (rewrite Href, <- Hvid, <- A, Hi; exact Hid).
  destruct (HT d Hv0) as (d' & Hd' & _ & Hl); [apply (Hsh _ _ Hid)|]. rewrite Hd in Hd'. injection Hd' as ->. exact Hl.
Qed.
Lemma acct_call_new_ref E w a l w' id : acct_call E w a l w' -> w_refs w !! id = None -> w_refs w' !! id = None.
Proof.
  intros H Hn. apply acct_call_refs in H as [->|(acc & i & d0 & b & t & _ & _ & Hd & ->)]; [exact Hn|]. rewrite lookup_insert_ne; [exact Hn|congruence].
Qed.
Theorem C58_referrals E cx w o w' out id : reachable E w -> step E cx w o = Ok (w', out) ->
  (w_refs w !! id = None -> w_refs w' !! id <> None -> one_of cx w [RReferralAdmin]) /\
  (forall d, w_refs w !! id = Some d -> exists d', w_refs w' !! id = Some d' /\
    (rf_fee_referral d' <> rf_fee_referral d \/ rf_fee_rebate d' <> rf_fee_rebate d \/ rf_max_referrals d' <> rf_max_referrals d -> one_of cx w [RReferralAdmin]) /\
    (rf_referrals d' <> rf_referrals d -> one_of cx w [RReferralAdmin] \/ one_of cx w [RReferralUser] /\ shows_referral cx id) /\
    (rf_balance d' < rf_balance d -> one_of cx w [RReferralUser] /\ shows_referral cx id)) /\
  (w_gen w' <> w_gen w -> one_of cx w [RReferralAdmin; RReferralUser; RAccountCreation]).
Proof.
  intros Hr Hs. pose proof (C40_exchange_config E w Hr) as Hval. pose proof (fees_reachable E w Hr) as [_ Hsh]. pose proof Hs as Hg. apply step_gstep in Hg.
  assert (forall d, w_refs w !! id = Some d -> w_refs w' !! id = Some d -> exists d', w_refs w' !! id = Some d' /\
    (rf_fee_referral d' <> rf_fee_referral d \/ rf_fee_rebate d' <> rf_fee_rebate d \/ rf_max_referrals d' <> rf_max_referrals d -> one_of cx w [RReferralAdmin]) /\
    (rf_referrals d' <> rf_referrals d -> one_of cx w [RReferralAdmin] \/ one_of cx w [RReferralUser] /\ shows_referral cx id) /\
    (rf_balance d' < rf_balance d -> one_of cx w [RReferralUser] /\ shows_referral cx id)) as Hsame.
  { intros d _ Hd. exists d. split; [exact Hd|]. split; [intros [?|[?|?]]; congruence|]. split; [congruence|lia]. }
  split; [|split].
  - intros Hn Hs'. destruct Hg; try (exfalso; apply Hs'; exact Hn); try role Hs.
    + exfalso. destruct H0 as (l & H0 & _). apply Hs'. exact (acct_call_new_ref _ _ _ _ _ _ H0 Hn).
    + exfalso. apply Hs'. exact (acct_call_new_ref _ _ _ _ _ _ H1 Hn).
    + exfalso. apply Hs'. cbn. rewrite lookup_insert_ne; [exact Hn|congruence].
    + exfalso. apply Hs'. cbn. rewrite lookup_insert_ne; [exact Hn|congruence].
  - intros d Hd. assert (forall l a w0, ec_validate (g_exchange_config w0) = true -> ref_shares_ok w0 -> acct_call E w0 a l w' -> w_refs w0 = w_refs w -> exists d', w_refs w' !! id = Some d' /\
      (rf_fee_referral d' <> rf_fee_referral d \/ rf_fee_rebate d' <> rf_fee_rebate d \/ rf_max_referrals d' <> rf_max_referrals d -> one_of cx w [RReferralAdmin]) /\
      (rf_referrals d' <> rf_referrals d -> one_of cx w [RReferralAdmin] \/ one_of cx w [RReferralUser] /\ shows_referral cx id) /\
      (rf_balance d' < rf_balance d -> one_of cx w [RReferralUser] /\ shows_referral cx id)) as Hacct.
    { intros l a w0 V S Hc Heq. assert (w_refs w0 !! id = Some d) as Hd0 by (rewrite Heq; exact Hd). destruct (call_bal _ _ _ _ _ _ _ V S Hc Hd0) as (d' & Hd' & B & F1 & F2 & F3 & F4).
      exists d'. split; [exact Hd'|]. split; [intros [?|[?|?]]; congruence|]. split; [congruence|lia]. }
    destruct Hg; try (apply (Hsame _ Hd); exact Hd).
    + destruct H0 as (l & H0 & _). exact (Hacct _ _ _ Hval Hsh H0 eq_refl).
    + exact (Hacct _ _ (new_account_world E w rule a ref g) Hval Hsh H1 eq_refl).
    + destruct (decide (id = snd pr)) as [->|Hne]; [|apply (Hsame _ Hd); cbn; rewrite lookup_insert_ne by congruence; exact Hd].
      eexists. split; [cbn; apply lookup_insert|]. assert (d0 = d) as -> by congruence. cbn. split; [intros [?|[?|?]]; congruence|]. split; [congruence|]. intros _. split; [role Hs|].
      unfold shows_referral. rewrite <- H0. exact H.
    + apply (Hsame _ Hd). cbn. rewrite lookup_insert_ne by congruence. exact Hd.
    + apply (Hsame _ Hd). cbn. rewrite lookup_insert_ne by congruence. exact Hd.
    + destruct (decide (id = id0)) as [->|Hne]; [|apply (Hsame _ Hd); cbn; rewrite lookup_insert_ne by congruence; exact Hd].
      eexists. split; [cbn; apply lookup_insert|]. assert (d0 = d) as -> by congruence. cbn. split; [intros _; role Hs|]. split; [congruence|lia].
    + destruct (decide (id = id0)) as [->|Hne]; [|apply (Hsame _ Hd); cbn; rewrite lookup_insert_ne by congruence; exact Hd].
      eexists. split; [cbn; apply lookup_insert|]. assert (d0 = d) as -> by congruence. cbn. split; [intros _; role Hs|]. split; [intros _; left; role Hs|lia].
    + destruct (decide (id = snd pr)) as [->|Hne]; [|apply (Hsame _ Hd); cbn; rewrite lookup_insert_ne by congruence; exact Hd].
      eexists. split; [cbn; apply lookup_insert|]. assert (d0 = d) as -> by congruence. cbn. split; [intros [?|[?|?]]; congruence|]. split; [|lia]. intros _. right. split; [role Hs|].
      unfold shows_referral. rewrite <- H0. exact H.
  - intros Hg'. destruct Hg; try (exfalso; apply Hg'; reflexivity); try role Hs.
    + exfalso. destruct H0 as (l & H0 & _). apply acct_call_config in H0 as (_ & _ & _ & H0 & _). congruence.
Qed.

(** ** Accounts *)
Lemma op_role_positions o : op_account o <> None -> can_positions o = true -> exists r, op_access o = ARole r /\ In r [RKeeperProcess; RKeeperLiquidate; RKeeperAdl].
Proof. destruct o; cbn; intros; try discriminate; try congruence; eexists; (split; [reflexivity|]); simpl; tauto. Qed.
Lemma one_of_access E cx w o w' out rs r : step E cx w o = Ok (w', out) -> op_access o = ARole r -> In r rs -> one_of cx w rs.
Proof. intros H Ha Hi. exists r. split; [exact Hi|]. exact (role_of _ _ _ _ _ _ _ H Ha). Qed.
Theorem C58_accounts E cx w o w' out a : reachable E w -> step E cx w o = Ok (w', out) ->
  (w_accounts w !! a = None -> w_accounts w' !! a <> None -> one_of cx w [RAccountCreation]) /\
  (forall lvl r, (1 <= lvl <= 3)%N -> rule_of w a lvl = Some r -> rule_of w' a lvl <> Some r -> one_of cx w [RAccountManagement]) /\
  (request_count w' a <> request_count w a -> w_accounts w !! a <> None -> one_of cx w [RRemoveCollateralRequest; RMarginOrderRequest]) /\
  (forall i r, request_at w a i = Some r -> request_at w' a i <> Some r -> one_of cx w [RCancelRequest; RKeeperProcess]) /\
  (valid_start w' a <> valid_start w a -> w_accounts w !! a <> None -> one_of cx w [RKeeperLiquidate]) /\
  (forall k, position w' a k <> position w a k -> one_of cx w [RKeeperProcess; RKeeperLiquidate; RKeeperAdl]) /\
  (forall r, collateral_of w' a r < collateral_of w a r -> one_of cx w [RKeeperProcess; RKeeperSwapDebt; RKeeperLiquidate]) /\
  (forall r, w_accounts w !! a <> None -> collateral_of w a r < collateral_of w' a r -> one_of cx w [RAccountManagement]).
Proof.
  intros Hr Hs. pose proof Hs as Hx. apply step_exec in Hx as (_ & Hb & _). apply buckets_nonneg in Hb. split; [|split].
  - intros Hn Hn'. destruct (step_account _ _ _ _ _ _ a Hs) as [Heq|[[Ho (l & Hc & _)]|(oath & rule & ts & code & ref & g & more & -> & _)]]; [congruence| |role Hs].
    destruct (acct_call_self _ _ _ _ _ Hc) as ((acc & Ha) & _). congruence.
  - intros lvl r Hl H1 H2. pose proof (C31_rules_after _ _ _ _ _ _ _ _ _ Hs Hl H1) as Ha. rewrite Ha in H2. destruct o; cbn [rule_after] in H2; try congruence; role Hs.
  - destruct (w_accounts w !! a) as [acc|] eqn:Ha.
    2: { split; [congruence|]. split; [intros i r Hi; unfold request_at in Hi; rewrite Ha in Hi; discriminate|]. split; [congruence|].
         destruct (w_accounts w' !! a) as [acc'|] eqn:Ha'.
         2: { split; [|split; [|congruence]]; intros k; unfold position, collateral_of; rewrite Ha, Ha'; [congruence|lia]. }
         destruct (accounts_new _ _ _ _ _ _ _ _ Hs Ha Ha') as (oath & rule & ts & code & ->). split; [|split; [|congruence]].
         - intros k Hk. exfalso. apply Hk. unfold position. rewrite Ha, Ha'. destruct (step_account _ _ _ _ _ _ a Hs) as [Heq|[[Ho _]|(oath' & rule' & ts' & code' & ref & g & more & Eo & _ & _ & Hc)]]; [congruence|discriminate Ho|].
           assert (ac_positions acc' = ac_positions (acc_new rule' rule' rule' ref)) as E1. { eapply acct_positions_same; [exact Hc|cbn; apply lookup_insert|exact Ha'|]. noact. }
           unfold held. rewrite E1. cbn. rewrite lookup_empty. reflexivity.
         - intros r. unfold collateral_of. rewrite Ha, Ha'. pose proof (coll_ok_reachable _ _ (reach_step _ _ _ _ _ _ Hr Hs) _ _ Ha' r) as [C1 C2]. unfold held_coll in C1. lia. }
    assert (forall P : Prop, w_accounts w' !! a = Some acc \/ (exists l acc', w_accounts w' !! a = Some acc' /\ op_account o = Some a /\ acct_call E w a l w' /\ op_acts w o out l)) as Hcase.
    { intros _. destruct (step_account _ _ _ _ _ _ a Hs) as [Heq|[[Ho (l & Hc & Hac & _)]|(oath' & rule' & ts' & code' & ref & g & more & Eo & Hn & _)]]; [left; congruence| |congruence].
      right. destruct (acct_call_self _ _ _ _ _ Hc) as (_ & (acc' & Ha') & _). exists l, acc'. auto. }
    specialize (Hcase True). pose proof (acc_ok_reachable _ _ Hr _ _ Ha) as Hok.
    destruct Hcase as [Ha'|(l & acc' & Ha' & Ho & Hc & Hac)].
    { unfold request_count, request_at, valid_start, position, collateral_of. rewrite Ha, Ha'. repeat split; intros; try congruence; lia. }
    unfold request_count, request_at, valid_start, position, collateral_of. rewrite Ha, Ha'.
    split; [|split; [|split; [|split; [|split]]]].
    + intros Hd _. destruct (can_push o) eqn:Hp; [destruct o; try discriminate Hp; role Hs|]. exfalso. apply Hd.
      exact (acct_count_same _ _ _ _ _ _ _ Hc (op_acts_shape _ _ _ _ Hac) Ha Ha' Hok (op_free_push _ _ _ _ Hac Hp)).
    + intros i r Hi Hd. destruct (op_old o) eqn:Hp; [destruct o; try discriminate Hp; role Hs|]. exfalso. apply Hd.
      destruct (old_step _ _ _ _ _ _ a acc Hr Hs Ha (or_introl Hp)) as (acc2 & Ha2 & Hj). assert (acc2 = acc') as -> by congruence. unfold kl_get in Hj. rewrite Hj; [exact Hi|].
      apply Hok. eauto.
    + intros Hd _. destruct (can_vstart o) eqn:Hp; [destruct o; try discriminate Hp; role Hs|]. exfalso. apply Hd. exact (acct_vstart_same _ _ _ _ _ _ _ Hc Ha Ha' (op_free_vstart _ _ _ _ Hac Hp)).
    + intros k Hd. destruct (can_positions o) eqn:Hp; [destruct o; try discriminate Hp; role Hs|]. exfalso. apply Hd. unfold held. rewrite (acct_positions_same _ _ _ _ _ _ _ Hc Ha Ha' (op_free_pos _ _ _ _ Hac Hp)). reflexivity.
    + intros r Hd. destruct (can_withdraw o) eqn:Hp; [destruct o; try discriminate Hp; role Hs|]. exfalso. destruct (acct_coll_moves _ _ _ _ _ _ _ Hc Ha Ha' r) as [M _].
      specialize (M (op_free_withdraw _ _ _ _ Hac Hp) (op_acts_pays_in _ _ _ _ Hac Hb)). unfold held_coll in M. lia.
    + intros r _ Hd. destruct (can_deposit o) eqn:Hp; [destruct o; try discriminate Hp; role Hs|]. exfalso. destruct (acct_coll_moves _ _ _ _ _ _ _ Hc Ha Ha' r) as [_ M].
      specialize (M (op_free_deposit _ _ _ _ Hac Hp)). unfold held_coll in M. lia.
Qed.

(** ** The pool and the keeper rewards *)
Theorem C58_pool E cx w o w' out : step E cx w o = Ok (w', out) ->
  (po_positions (w_pool w') <> po_positions (w_pool w) -> one_of cx w [RKeeperProcess; RKeeperLiquidate; RKeeperAdl; RKeeperUpdatePairs]) /\
  (w_rewards w' <> w_rewards w -> one_of cx w [RKeeperProcess; RKeeperLiquidate; RKeeperAdl; RKeeperUpdatePairs]).
Proof.
  intros Hs. pose proof Hs as Hg. apply step_gstep in Hg. split; intros Hd.
  - destruct Hg; try (exfalso; apply Hd; reflexivity); try role Hs.
    + destruct H0 as (l & Hc & Hac & _). destruct (can_positions o) eqn:Hp; [destruct o; try discriminate Hp; role Hs|]. exfalso. apply Hd. exact (acct_pool_same _ _ _ _ _ Hc (op_free_ppos _ _ _ _ Hac Hp)).
    + exfalso. apply Hd. erewrite acct_pool_same; [|exact H1|noact]. reflexivity.
  - destruct Hg; try (exfalso; apply Hd; reflexivity); try role Hs; try (exfalso; congruence).
    destruct H0 as (l & Hc & Hac & Hsd). destruct o; try discriminate H; try role Hs; exfalso; apply Hd; cbn in Hsd; repeat match goal with H : _ /\ _ |- _ => destruct H | H : exists _, _ |- _ => destruct H end; try assumption.
Qed.

(** Not vacuous: the trading history contains such changes, and a caller without the role is refused. *)
Example C58_ex : exists w w' out, reachable sc_env w /\ step sc_env cx_owner w OCollectTreasury = Ok (w', out) /\ fd_treasury (w_fd w') < fd_treasury (w_fd w) /\
  has_role cx_owner w RTreasuryAdmin = true /\ has_role cx_u2 w RTreasuryAdmin = false.
Proof.
  assert (try_ W2 (cx_owner, OCollectTreasury) (fun w' _ => (fd_treasury (w_fd w') <? fd_treasury (w_fd W2)) && has_role cx_owner W2 RTreasuryAdmin && negb (has_role cx_u2 W2 RTreasuryAdmin)) = true) as H by (vm_compute; reflexivity).
  apply try_true in H as (w' & out & H & Hf). rewrite !andb_true_iff, Z.ltb_lt, negb_true_iff in Hf. destruct Hf as [[F1 F2] F3]. exists W2, w', out. split; [exact W2_reach|]. auto.
Qed.
