(** * C63, continued: from the start; the balances; the settings. *)
From Verif Require Import Base DFloat Lists Types Config Oracle Pool Account Fees Referral ExInternal Exchange System Scenario Sums Trace Frames Calls Shape Spec SpecRequests SpecOracle SpecTrading SpecMargin SpecLiq SpecEvents
  Frames2 Witness P_Ledger P_Accounts P_Requests P_Requests2 P_Requests3 P_Requests4 P_Oracle P_Keeper P_Access P_Liq P_Events P_Events2 Props_Config Props_Stored Props_Requests2 Props_LP Props_Collateral Props_Deposits Props_Orders Props_Liq P_Adl Props_Adl Props_Swap Props_Referral Props_Ledger P_Updates Props_Events.

(** From the start of the exchange the events alone tell all of it. *)
Theorem C63_from_the_start E owner auth keys now w0 l w : 0 <= auth <= DMAX -> I64MIN <= now <= I64MAX -> genesis owner auth keys now = Ok w0 -> steps E w0 l w ->
  same_view (view_of w) (replay_all view_new (events_of l)).
Proof.
  intros Ha Hn Hg H. eapply same_trans; [exact (C63_events_tell_the_history _ _ _ _ (reach_init _ _ _ _ _ _ Ha Hn Hg) H)|]. apply replay_cong.
  apply genesis_inv in Hg as (c & _ & ->). repeat split. intros a r. cbn. destruct (r =? BASE)%N; reflexivity.
Qed.

(** ** The balances *)
Definition own_oath (o : op) (a : addr) : Z := match named_account o with Some b => if (b =? a)%N then oath_value o else 0 | None => 0 end.
Lemma bal_zero a m : forallb silent m = true -> lsum (fun e => balance_change e a) m = 0.
Proof. induction m as [|e m IH]; intros H; [reflexivity|]. cbn in H. apply andb_true_iff in H as [He H]. rewrite lsum_cons, (IH H). destruct e; try discriminate He; reflexivity. Qed.
Lemma bal_about a b m : forallb (about a) m = true -> b <> a -> lsum (fun e => balance_change e b) m = 0.
Proof.
  intros H Hb. induction m as [|e m IH]; [reflexivity|]. cbn [forallb] in H. apply andb_true_iff in H as [He H]. rewrite lsum_cons, (IH H).
  destruct e; try discriminate He; cbn in He |- *; try reflexivity; apply N.eqb_eq in He; rewrite He; assert (a =? b = false)%N as -> by (apply N.eqb_neq; congruence); reflexivity.
Qed.
Lemma bal_pool a p : lsum (fun e => balance_change e a) (pool_events p) = 0.
Proof. destruct (pool_events_shape p) as [->|[m ->]]; reflexivity. Qed.
Lemma told_bal E w a m1 m2 out w' : reachable E w -> told E w a m1 m2 out w' -> forall b, lsum (fun e => balance_change e b) (o_events out) = lsum (fun e => balance_change e b) (m1 ++ m2).
Proof.
  intros Hr Ht. assert (exists acc, w_accounts w !! a = Some acc) as [acc Hacc]. { destruct Ht as [now c o v0 ids fd l s acc' x y Hv]. apply get_acc_comp in Hv. eauto. }
  apply (told_view _ _ _ _ _ _ _ _ Ht Hacc (acc_ok_reachable _ _ Hr _ _ Hacc)).
Qed.
(** A call on account [a] that reports [m] of it. *)
Lemma bal_self E cx w o w' out a m : reachable E w -> step E cx w o = Ok (w', out) -> named_account o = Some a -> told E w a m [] out w' -> forallb (about a) m = true ->
  balance w' a = balance w a + lsum (fun e => balance_change e a) m - oath_value o ->
  forall b, balance w' b = balance w b + lsum (fun e => balance_change e b) (o_events out) - own_oath o b.
Proof.
  intros Hr H Hn Ht Hab Hb b. rewrite (told_bal _ _ _ _ _ _ _ Hr Ht b), app_nil_r. unfold own_oath. rewrite Hn. destruct (N.eqb_spec a b) as [<-|Hne]; [exact Hb|].
  rewrite (bal_about a b m Hab) by congruence. unfold balance. rewrite (C50_other_accounts_untouched _ _ _ _ _ _ b H) by congruence. lia.
Qed.
Lemma bal_plain E cx w o w' out a : reachable E w -> step E cx w o = Ok (w', out) -> plain_op o = Some a -> balance w' a = balance w a - oath_value o.
Proof.
  intros Hr H Hp. destruct (plain_account _ _ Hp) as (O1 & _). pose proof (step_acct _ _ _ _ _ _ a H O1) as (l & Hcall & Hac & _).
  destruct (acct_call_self _ _ _ _ _ Hcall) as ((acc & Ha) & _).
  assert (Forall (fun x => Props_Ledger.quiet x = true) l /\ lsum act_vb l = - oath_value o) as [Hq Hs].
  { destruct o; try discriminate Hp; cbn [op_acts] in Hac; unfold oath_value; cbn [oath_of];
      repeat match goal with | H : exists _, _ |- _ => destruct H | H : _ /\ _ |- _ => destruct H end; subst.
    all: try (destruct oath; simpl; (split; [repeat constructor|clear; lia])).
    match goal with H : Forall is_push _ |- _ => apply quiet_push in H as [Hq Hs] end. split.
    - apply Forall_app. split; [destruct oath; repeat constructor|exact Hq].
    - rewrite lsum_app, Hs. destruct oath; simpl; clear; lia. }
  destruct (acct_call_vb _ _ _ _ _ _ Hcall Ha Hq) as (acc' & Ha' & Hvb). unfold balance. rewrite Ha, Ha', Hvb, Hs. lia.
Qed.
Lemma bal_process E cx w a i upd w' out : reachable E w -> step E cx w (OProcessRequest a i upd) = Ok (w', out) ->
  forall b, balance w' b = balance w b + lsum (fun e => balance_change e b) (o_events out) - own_oath (OProcessRequest a i upd) b.
Proof.
  intros Hr H. destruct (told_process _ _ _ _ _ _ _ _ H) as (acc & kr & m & Hacc & Hkr & Ht & Hm). destruct (told_head _ _ _ _ _ _ Ht) as [rest Hh].
  pose proof (step_acct _ _ _ _ _ _ a H eq_refl) as (l & Hcall & Hac & _). destruct (acct_call_self _ _ _ _ _ Hcall) as (_ & (acc' & Ha') & _).
  cbn [op_acts] in Hac. destruct Hac as (v0 & v1 & rq & ex & l' & Hv & Hp & Hex & -> & _).
  apply process_request_inv in Hp as (r & n & _ & Hkr' & Erq & _ & _ & _ & Hexp).
  apply get_acc_inv in Hv as (acc0 & Hacc0 & Hcomp & _ & _ & _ & _ & _ & _ & _ & _ & _ & Hup & _). rewrite Hacc in Hacc0. injection Hacc0 as <-.
  unfold va_keeper_request in Hkr'. rewrite Hup, lookup_empty, Hcomp in Hkr'. apply expect_Ok in Hkr'. rewrite Hkr in Hkr'. injection Hkr' as <-. subst rq.
  assert (ex = (kr_expiry kr <=? w_now w)) as -> by (destruct Hexp as [[-> He]|[-> [He _]]]; lia). clear Hexp.
  unfold exec_acts in Hex. destruct (kr_expiry kr <=? w_now w) eqn:Hle.
  - destruct Hex as [-> _]. subst m. apply (bal_self E cx w _ w' out a _ Hr H eq_refl Ht); [reflexivity|].
    assert (request_at w a i = Some kr) as Hra by (unfold request_at; rewrite Hacc; exact Hkr).
    destruct (C09_expired_changes_nothing_else _ _ _ _ _ _ _ _ _ Hr Hra ltac:(lia) H) as (acc2 & rqs & Hacc2 & _ & _ & -> & _). assert (acc2 = acc) as -> by congruence.
    unfold balance. cbn [w_accounts set]. cbn. rewrite lookup_insert, Hacc. cbn. lia.
  - destruct (kr_request kr) as [rr|ro] eqn:Hrq.
    + destruct Hm as (toks & -> & Hpay).
      assert (executes_removal w (OProcessRequest a i upd) a rr) as Hxr by (exists i, upd, acc, kr; do 4 (split; [first [reflexivity|assumption]|]); lia).
      destruct (C25_withdrawals_are_covered _ _ _ _ _ _ _ _ Hr H Hxr) as (toks' & Hpay' & _ & Hb & _). rewrite Hpay in Hpay'. injection Hpay' as <-.
      apply (bal_self E cx w _ w' out a _ Hr H eq_refl Ht); [cbn; rewrite N.eqb_refl; reflexivity|].
      rewrite Hb, lsum_cons. cbn [balance_change]. rewrite N.eqb_refl. unfold oath_value. cbn. lia.
    + destruct Hm as (e & -> & He1 & He2).
      assert (executes_order w (OProcessRequest a i upd) a ro) as Hxr by (exists i, upd, acc, kr; do 4 (split; [first [reflexivity|assumption]|]); lia).
      destruct (C49_order_settles_funding _ _ _ _ _ _ _ _ Hr H Hxr) as (e' & rest' & Hev & _ & Hb & _). rewrite Hev in Hh. cbn in Hh. injection Hh as -> _.
      apply (bal_self E cx w _ w' out a _ Hr H eq_refl Ht); [cbn; rewrite He1, N.eqb_refl; reflexivity|].
      rewrite Hb, lsum_cons. cbn [balance_change]. rewrite He1, N.eqb_refl. unfold oath_value. cbn. lia.
Qed.
Lemma told_in E w a m out w' e : told E w a m [] out w' -> In (EvLiquidate e) (o_events out) -> In (EvLiquidate e) m.
Proof.
  intros [now c o v0 ids fd l s acc' x y Hv Hs Hz Ha Hp He Hxy] Hin. rewrite He in Hin. apply in_app_or in Hin as [Hin|Hin]; [exact Hin|]. exfalso. rewrite app_nil_r in Hin.
  destruct (pool_events_shape (s_pool s)) as [E1|[m1 E1]], (acc_events_shape (s_acc s)) as [E2|[m2 E2]]; destruct Hxy as [[-> ->]|[-> ->]]; rewrite ?E1, ?E2 in Hin; cbn in Hin;
    repeat match goal with H : _ \/ _ |- _ => destruct H end; congruence || contradiction.
Qed.
Lemma bal_liq E cx w a b upd w' out : reachable E w -> step E cx w (OLiquidate a b upd) = Ok (w', out) ->
  forall d, balance w' d = balance w d + lsum (fun e => balance_change e d) (o_events out) - own_oath (OLiquidate a b upd) d.
Proof.
  intros Hr H. destruct (told_liq _ _ _ _ _ _ _ _ H) as (acc & e & c & Hacc & Hc & Ht & He & Hpa & Hca).
  destruct (liq_call_intro _ _ _ _ _ _ _ _ Hr H) as (acc1 & acc' & paid & X). pose proof (lq_acc _ _ _ _ _ _ _ _ _ _ X) as Ha1. assert (acc1 = acc) as -> by congruence.
  destruct (lq_ev _ _ _ _ _ _ _ _ _ _ X) as (e' & Hin & _ & _ & _ & V5 & V6 & _ & V8 & _).
  apply (told_in _ _ _ _ _ _ _ Ht) in Hin. cbn [In] in Hin. destruct Hin as [Hin|[Hin|[]]]; [discriminate Hin|]. injection Hin as <-.
  apply (bal_self E cx w _ w' out a _ Hr H eq_refl Ht); [cbn; rewrite He, N.eqb_refl; reflexivity|].
  rewrite !lsum_cons. cbn [balance_change]. rewrite He, N.eqb_refl. unfold balance, oath_value. rewrite Hacc, (lq_acc' _ _ _ _ _ _ _ _ _ _ X), (lq_vb _ _ _ _ _ _ _ _ _ _ X), V5, V6, V8. cbn. lia.
Qed.
(** Every account's balance moves by what the events report of it, less the fee oath paid from it. (A debt swap's event reports the
    collateral sold and its price instead of the amount: see the next theorem.) *)
Theorem C63_events_tell_the_balances E cx w o w' out a : reachable E w -> step E cx w o = Ok (w', out) -> (forall r b upd, o <> OSwapDebt a r b upd) ->
  balance w' a = balance w a + lsum (fun e => balance_change e a) (o_events out) - own_oath o a.
Proof.
  intros Hr H Hns. destruct (Props_Events.quiet o) eqn:Hq.
  { rewrite (bal_zero _ _ (quiet_events _ _ _ _ _ _ (step_exec' _ _ _ _ _ _ H) Hq)). unfold balance, own_oath. rewrite (C50_unnamed_changes_none _ _ _ _ _ _ H) by (destruct o; try discriminate Hq; reflexivity).
    destruct o; try discriminate Hq; cbn; lia. }
  destruct (plain_op o) as [d|] eqn:Hp.
  { apply (bal_self E cx w o w' out d [] Hr H); [destruct o; try discriminate Hp; exact Hp|exact (told_plain _ _ _ _ _ _ _ Hp (step_exec' _ _ _ _ _ _ H))|reflexivity|]. rewrite (bal_plain _ _ _ _ _ _ _ Hr H Hp). cbn. lia. }
  destruct o; try discriminate Hq; try discriminate Hp.
  - destruct (liq_add_events _ _ _ _ _ (step_exec' _ _ _ _ _ _ H)) as (p & price & amount & f1 & f2 & f3 & H1 & H2 & H3 & H4). rewrite H4, lsum_app, bal_pool. unfold balance. rewrite H3. cbn. lia.
  - destruct (liq_remove_events _ _ _ _ _ (step_exec' _ _ _ _ _ _ H)) as (p & price & amount & f1 & f2 & f3 & H1 & H2 & H3 & H4). rewrite H4, lsum_app, bal_pool. unfold balance. rewrite H3. cbn. lia.
  - rename a0 into d. (* create *)
    destruct (told_create _ _ _ _ _ _ _ _ _ _ (step_exec' _ _ _ _ _ _ H)) as (ref & g & more & w0 & Hn & Hcode & Ha0 & Hp0 & Ht).
    destruct (C59_create_account _ _ _ _ _ _ _ _ _ _ Hr H) as (_ & Hb & _).
    match goal with |- context [own_oath (OCreateAccount ?x ?y ?z ?u _) _] => assert (code_tokens E w u = more) as Hmore end.
    { match goal with |- code_tokens E w ?u = _ => destruct u as [s|] end; [|destruct Hcode as [_ ->]; reflexivity]. unfold code_tokens. destruct Hcode as (id & _ & Hcl). pose proof Hcl as Hx. unfold gn_claim in Hx. bd Hx as (c & Hx1 & Hx). bd Hx as (? & Hx2 & _). apply expect_Ok in Hx1. apply guard_Ok, N.ltb_lt in Hx2.
      destruct (C35_claim_is_served _ _ _ _ Hr Hx1 Hx2) as (g' & Hcl'). rewrite Hx1. rewrite Hcl' in Hcl. apply Ok_inj in Hcl. congruence. }
    rewrite Hmore in Hb. assert (exists acc, w_accounts w0 !! d = Some acc /\ acc_ok acc) as (acc & Hacc & Hok) by (rewrite Ha0, lookup_insert; eexists; split; [reflexivity|apply acc_new_ok]).
    destruct (told_view _ _ _ _ _ _ _ _ Ht Hacc Hok) as (_ & _ & _ & _ & _ & _ & T7 & _). rewrite T7. unfold own_oath. cbn [named_account]. cbn. destruct (N.eqb_spec d a) as [<-|Hne].
    + rewrite Hb. unfold balance. rewrite Hn. lia.
    + unfold balance. rewrite (C50_other_accounts_untouched _ _ _ _ _ _ a H) by (cbn; congruence). lia.
  - rename a0 into d. destruct (C59_add_collateral _ _ _ _ _ _ _ _ Hr H) as (Hb & _). match type of H with step _ _ _ (OAddCollateral _ _ ?ts) = _ => apply (bal_self E cx w _ w' out d [EvAddCollateral d ts] Hr H eq_refl (told_add _ _ _ _ _ _ _ _ (step_exec' _ _ _ _ _ _ H))) end; [cbn; rewrite N.eqb_refl; reflexivity|].
    rewrite Hb, lsum_cons. cbn [balance_change]. rewrite N.eqb_refl. cbn. lia.
  - exact (bal_process _ _ _ _ _ _ _ _ Hr H a).
  - rename a0 into d. assert (d <> a) as Hne. { intros ->. eapply Hns. reflexivity. } destruct (told_swap _ _ _ _ _ _ _ _ _ H) as (x & price & rest & Ht & Htok).
    rewrite (told_bal _ _ _ _ _ _ _ Hr Ht a), app_nil_r, (bal_about d a) by (cbn; rewrite ?N.eqb_refl; congruence || reflexivity). unfold own_oath, balance. cbn [named_account]. assert (d =? a = false)%N as -> by (apply N.eqb_neq; exact Hne).
    rewrite (C50_other_accounts_untouched _ _ _ _ _ _ a H) by (cbn; congruence). lia.
  - exact (bal_liq _ _ _ _ _ _ _ _ Hr H a).
  - rename a0 into d. destruct (told_adl _ _ _ _ _ _ _ _ H) as (e & Ht & He1 & He2). destruct (told_head _ _ _ _ _ _ Ht) as [rest Hh].
    destruct (adl_call_intro _ _ _ _ _ _ _ _ Hr H) as (acc & acc' & fee & e' & D). destruct (ad_ev _ _ _ _ _ _ _ _ _ _ D) as ((rest' & Hev) & _ & _ & _ & _ & Hb & _). rewrite Hev in Hh. cbn in Hh. injection Hh as -> _.
    apply (bal_self E cx w _ w' out d _ Hr H eq_refl Ht); [cbn; rewrite He1, N.eqb_refl; reflexivity|]. rewrite Hb, lsum_cons. cbn [balance_change]. rewrite He1, N.eqb_refl. unfold oath_value. cbn. lia.
  - apply P_Keeper.update_pairs_inv in H as (c & orc & oo & p & fl & _ & _ & Hf & -> & _ & _ & Hev). rewrite Hev, bal_pool. cbn. unfold balance. cbn. lia.
Qed.
Lemma swap_event_price E cx w a r b upd w' out x price rest cc : reachable E w -> step E cx w (OSwapDebt a r b upd) = Ok (w', out) -> o_events out = EvSwapDebt a r x price :: rest -> coll_cfg w r = Some cc ->
  price = mul (price_of w' (cc_pair_id cc)) (mul (cc_discount cc) (10 ^ 17) + 9 * 10 ^ 17) /\ 0 < price_of w' (cc_pair_id cc).
Proof.
  intros Hr H He Hcfg. apply step_exec' in H. simpl in H. unfold m_swap_debt in H. bd H as (v0 & Hv & H). bd H as (c & Hc & H). cbv zeta in H. bd H as ([orc o] & Ho & H).
  bd H as ([[[[p v] tk] rs] ev] & Hx & H). bd H as (w1 & Hz & H). apply Ok_inj in H. injection H as <- <-. cbn in He. injection He as -> _.
  assert (prices_ok E w upd ∅ c orc o) as Hpk by (eapply prices_ok_intro; [exact Hc| |exact Ho]; intros k Hk; set_solver).
  pose proof (get_oracle_pos _ _ _ _ _ _ _ Ho) as Hop.
  apply swap_facts in Hx as (cc0 & pr & price0 & amount & value & _ & _ & Hcc & Hpr & Eprice & _ & _ & _ & _ & Hev & _). injection Hev as _ _ ->.
  pose proof (proj1 (proj2 (vc_new_spec _ _ _ Hc))) as Hcv. rewrite Hcv in Hcc. assert (cc0 = cc) as -> by (unfold coll_cfg, g_collateral_configs in Hcfg; congruence).
  rewrite lookup_fmap in Hcc. apply fmap_Some in Hcc as (ccc & Hcc & Ecc).
  unfold vo_price_resource in Hpr. bd Hpr as (k & Hk & Hpr). apply expect_Ok in Hk. pose proof (eq_trans (eq_sym Hk) (eq_trans (pk_res _ _ _ _ _ _ _ Hpk r) (f_equal (fmap cc_pair_id) Hcc))) as Hk2. cbn in Hk2. injection Hk2 as Hk2. assert (k = cc_pair_id cc) as -> by (rewrite Ecc, Hk2; reflexivity). clear Hk Hk2.
  apply expect_Ok in Hpr. pose proof (pk_stored _ _ _ _ _ _ _ Hpk _ _ Hpr) as Hst2.
  assert (w_oracle w1 = orc) as Hor by (apply realize_acc_inv in Hz as (? & ? & _ & ->); reflexivity).
  assert (price_of (realize_pool w1 p) (cc_pair_id cc) = pr) as Epr. { unfold price_of, stored_price. cbn. rewrite Hor. destruct (or_prices orc !! cc_pair_id cc) as [[p0 t0]|]; [|discriminate Hst2]. cbn in Hst2. injection Hst2 as ->. reflexivity. }
  rewrite Epr. split; [exact Eprice|exact (Hop _ _ Hpr)].
Qed.
(** A debt swap's event gives the collateral sold and the price; they fix the change of the balance to within one last-place unit of it
    on one side, and the value of one indivisible unit of the collateral on the other. *)
Theorem C63_debt_swap_balance E cx w a r b upd w' out : reachable E w -> step E cx w (OSwapDebt a r b upd) = Ok (w', out) ->
  exists x price rest, o_events out = EvSwapDebt a r x price :: rest /\ 0 <= x /\ 0 <= price /\
    x * price < (balance w' a - balance w a + 1) * 10 ^ 18 /\ (balance w' a - balance w a) * 10 ^ 18 < (x + 10 ^ (18 - divis E r)) * price.
Proof.
  intros Hr H. destruct (told_swap _ _ _ _ _ _ _ _ _ H) as (x & price & rest & Ht & Htok). destruct (told_head _ _ _ _ _ _ Ht) as [rest' Hh]. cbn in Hh.
  destruct (C30_debt_swap _ _ _ _ _ _ _ _ _ Hr H) as (_ & _ & cc & price' & value & x' & Hcc & Hpr & Hrange & Htok' & Hval & Hb & _ & Hx & _ & _ & I1 & I2 & _). rewrite Htok in Htok'. injection Htok' as <- _.
  destruct (swap_event_price _ _ _ _ _ _ _ _ _ _ _ _ _ Hr H Hh Hcc) as [Ep Hpp]. assert (price = price') as -> by congruence.
  exists x, price', rest'. split; [exact Hh|]. split; [lia|]. split; [assert (0 <= mul (price_of w' (cc_pair_id cc)) (98 * 10 ^ 16)) by (unfold mul; rewrite Z.quot_div_nonneg by lia; apply Z.div_pos; lia); lia|].
  rewrite Hb. replace (balance w a + value - balance w a) with value by lia. split; [exact I1|exact I2].
Qed.

(** ** The settings *)
Definition config_event (e : event) : bool := match e with EvExchangeConfig _ | EvPairConfigs _ | EvCollateralConfigs _ | EvCollateralRemoval _ => true | _ => false end.
Definition config_call (o : op) : option event :=
  match o with
  | OUpdateExchangeConfig c => Some (EvExchangeConfig c) | OUpdatePairConfigs cs => Some (EvPairConfigs cs)
  | OUpdateCollateralConfigs cs => Some (EvCollateralConfigs cs) | ORemoveCollateralConfig r => Some (EvCollateralRemoval r)
  | _ => None
  end.
Lemma told_nocfg E w a m1 m2 out w' : told E w a m1 m2 out w' -> forallb (fun e => negb (config_event e)) (m1 ++ m2) = true -> forallb (fun e => negb (config_event e)) (o_events out) = true.
Proof.
  intros [now c o v0 ids fd l s acc' x y Hv Hs Hz Ha Hp He Hxy] Hm. rewrite He. rewrite forallb_app in Hm. apply andb_true_iff in Hm as [H1 H2]. rewrite !forallb_app, H1, H2.
  destruct (pool_events_shape (s_pool s)) as [E1|[m3 E1]], (acc_events_shape (s_acc s)) as [E2|[m4 E2]]; destruct Hxy as [[-> ->]|[-> ->]]; rewrite ?E1, ?E2; reflexivity.
Qed.
Lemma nocfg_pool p : forallb (fun e => negb (config_event e)) (pool_events p) = true.
Proof. destruct (pool_events_shape p) as [->|[m ->]]; reflexivity. Qed.
(** A call on the settings reports itself, with the values asked; no other call's events look like one. *)
Theorem C63_settings_are_reported E cx w o w' out : step E cx w o = Ok (w', out) ->
  match config_call o with Some e => o_events out = [e] | None => w_config w' = w_config w /\ forallb (fun e => negb (config_event e)) (o_events out) = true end.
Proof.
  intros H. destruct (config_call o) as [e|] eqn:Hc.
  - apply step_exec' in H. destruct o; try discriminate Hc; injection Hc as <-; cbn [exec] in H; unfold m_update_exchange_config, m_update_pair_configs, m_update_collateral_configs, m_remove_collateral_config in H;
      try (bd H as (cf & _ & H)); apply Ok_inj in H; injection H as _ <-; reflexivity.
  - split. { pose proof (C39_config_changes_only_so _ _ _ _ _ _ H) as Hx. destruct o; try discriminate Hc; exact Hx. }
    pose proof (step_exec' _ _ _ _ _ _ H) as Hx. destruct (plain_op o) as [d|] eqn:Hp; [exact (told_nocfg _ _ _ _ _ _ _ (told_plain _ _ _ _ _ _ _ Hp Hx) eq_refl)|].
    destruct o; try discriminate Hc; try discriminate Hp.
    all: try (cbn [exec] in Hx;
      unfold m_deposit_authority, m_withdraw_authority, m_signal_upgrade, m_collect_treasury, m_collect_fee_delegator,
        m_mint_referral, m_mint_referral_with_allocation, m_update_referral, m_add_referral_allocation, m_swap_protocol_fee, m_create_referral_codes, m_create_referral_codes_from_allocation, m_collect_referral_rewards in Hx; cbv zeta in Hx;
      repeat lazymatch type of Hx with
      | mbind _ ?m = Ok _ => let x := fresh in let Hy := fresh in destruct m as [x|] eqn:Hy; [|discriminate Hx]; cbn [mbind res_bind] in Hx
      | (match ?x with (_, _) => _ end) = Ok _ => destruct x
      end; apply Ok_inj in Hx; injection Hx as _ <-; reflexivity).
    + destruct (liq_add_events _ _ _ _ _ Hx) as (p & price & amount & f1 & f2 & f3 & H1 & H2 & H3 & H4). rewrite H4, forallb_app, nocfg_pool. reflexivity.
    + destruct (liq_remove_events _ _ _ _ _ Hx) as (p & price & amount & f1 & f2 & f3 & H1 & H2 & H3 & H4). rewrite H4, forallb_app, nocfg_pool. reflexivity.
    + destruct (told_create _ _ _ _ _ _ _ _ _ _ Hx) as (ref & g & more & w0 & _ & _ & _ & _ & Ht). exact (told_nocfg _ _ _ _ _ _ _ Ht eq_refl).
    + exact (told_nocfg _ _ _ _ _ _ _ (told_add _ _ _ _ _ _ _ _ Hx) eq_refl).
    + destruct (told_process _ _ _ _ _ _ _ _ H) as (acc & kr & m & _ & _ & Ht & Hm). apply (told_nocfg _ _ _ _ _ _ _ Ht). rewrite app_nil_r.
      destruct (kr_expiry kr <=? w_now w); [subst m; reflexivity|]. destruct (kr_request kr); [destruct Hm as (? & -> & _)|destruct Hm as (? & -> & _)]; reflexivity.
    + destruct (told_swap _ _ _ _ _ _ _ _ _ H) as (x & price & rest & Ht & _). exact (told_nocfg _ _ _ _ _ _ _ Ht eq_refl).
    + destruct (told_liq _ _ _ _ _ _ _ _ H) as (acc & e & c & _ & _ & Ht & _). exact (told_nocfg _ _ _ _ _ _ _ Ht eq_refl).
    + destruct (told_adl _ _ _ _ _ _ _ _ H) as (e & Ht & _). exact (told_nocfg _ _ _ _ _ _ _ Ht eq_refl).
    + apply P_Keeper.update_pairs_inv in H as (c & orc & oo & p & fl & _ & _ & Hf & -> & _ & _ & Hev). rewrite Hev. apply nocfg_pool.
Qed.
(** So the settings in force are a function of the settings before and the events: two exchanges with the same settings whose calls
    report the same events have the same settings afterwards, whatever else differs. *)
Theorem C63_events_fix_the_settings E1 cx1 w1 o1 w1' out1 E2 cx2 w2 o2 w2' out2 : step E1 cx1 w1 o1 = Ok (w1', out1) -> step E2 cx2 w2 o2 = Ok (w2', out2) ->
  w_config w1 = w_config w2 -> o_events out1 = o_events out2 -> w_config w1' = w_config w2'.
Proof.
  intros H1 H2 Hw He. pose proof (C63_settings_are_reported _ _ _ _ _ _ H1) as K1. pose proof (C63_settings_are_reported _ _ _ _ _ _ H2) as K2.
  assert (forall o e, config_call o = Some e -> config_event e = true) as Hce by (intros o e Ho; destruct o; try discriminate Ho; injection Ho as <-; reflexivity).
  destruct (config_call o1) as [e1|] eqn:C1, (config_call o2) as [e2|] eqn:C2.
  - rewrite K1, K2 in He. injection He as <-. apply step_exec' in H1, H2.
    destruct o1; try discriminate C1; injection C1 as <-; destruct o2; try discriminate C2; injection C2 as <-; cbn [exec] in H1, H2;
      unfold m_update_exchange_config, m_update_pair_configs, m_update_collateral_configs, m_remove_collateral_config in H1, H2; rewrite Hw in H1;
      try (bd H1 as (cf1 & G1 & H1); bd H2 as (cf2 & G2 & H2)); apply Ok_inj in H1, H2; injection H1 as <- _; injection H2 as <- _; cbn; congruence.
  - destruct K2 as [_ K2]. rewrite <- He, K1 in K2. cbn in K2. rewrite (Hce _ _ C1) in K2. discriminate K2.
  - destruct K1 as [_ K1]. rewrite He, K2 in K1. cbn in K1. rewrite (Hce _ _ C2) in K1. discriminate K1.
  - destruct K1 as [-> _], K2 as [-> _]. exact Hw.
Qed.

(** ** Cases *)
(** The 40-odd calls of the first two scenarios, from the start: what the events say of accounts A2 and A3, and it is true. *)
Definition first_calls : list (ctx * op) := sc_setup ++ sc_trades.
Definition told_ok (v : view) : bool :=
  (v_size v A2 1%N =? dec 2) && (v_size v A3 1%N =? - dec 1) && (900000 * E18 <? v_lp v) && match v_account v A2, v_account v 555%N with Some _, None => true | _, _ => false end
  && match v_pair v 1%N with Some p => (pp_oi_long p =? dec 2) && (pp_oi_short p =? dec 1) | None => false end.
Example C63_from_the_start_ex : exists w0 l w, genesis own_rule (dec 1) {[1%N := 77%N]} 1000 = Ok w0 /\ steps sc_env w0 l w /\ told_ok (replay_all view_new (events_of l)) = true /\
  size_of w A2 1%N = dec 2 /\ size_of w A3 1%N = - dec 1.
Proof.
  assert (tst sc_genesis (fun w0 => try_run w0 first_calls (fun _ outs => told_ok (replay_all view_new (concat (map o_events outs))) && (length outs =? length first_calls)%nat)) = true) as H by (vm_compute; reflexivity).
  apply tst_true in H as (w0 & Hg & H). unfold try_run in H. apply tst_true in H as ([w outs] & Hrun & H). cbn [fst snd] in H. apply andb_true_iff in H as [H Hlen].
  pose proof (run_steps _ _ _ _ _ Hrun) as Hs. assert (events_of (hist first_calls outs) = concat (map o_events outs)) as Hev.
  { unfold events_of, hist. f_equal. apply Nat.eqb_eq in Hlen. revert Hlen. generalize first_calls. clear. induction outs as [|x outs IH]; intros [|y l] Hl; try discriminate Hl; [reflexivity|]. cbn. f_equal. apply IH. cbn in Hl. congruence. }
  rewrite <- Hev in H. exists w0, (hist first_calls outs), w. split; [exact Hg|]. split; [exact Hs|]. split; [exact H|].
  assert (0 <= dec 1 <= DMAX) as H1 by (vm_compute; split; discriminate). assert (I64MIN <= 1000 <= I64MAX) as H2 by (vm_compute; split; discriminate).
  unfold sc_genesis in Hg. pose proof (C63_from_the_start sc_env own_rule (dec 1) {[1%N := 77%N]} 1000 w0 _ w H1 H2 Hg Hs) as (_ & _ & _ & _ & Hsz & _). revert H Hsz. generalize (replay_all view_new (events_of (hist first_calls outs))). clear. intros v H Hsz.
  pose proof (Hsz A2 1%N) as S2. pose proof (Hsz A3 1%N) as S3. cbn [view_of v_size] in S2, S3. rewrite S2, S3.
  unfold told_ok in H. rewrite !andb_true_iff in H. destruct H as ((((Ha & Hb) & _) & _) & _). apply Z.eqb_eq in Ha, Hb. split; [exact Ha|exact Hb].
Qed.
(** A fee oath is paid from the balance and no event says how much. *)
Theorem C63_oaths_are_not_reported : exists w cx o w' out a, reachable sc_env w /\ step sc_env cx w o = Ok (w', out) /\ o_events out = [] /\ balance w' a = balance w a - dec 1.
Proof.
  destruct (try_true W5 (cx_u5, OSetLevel2Auth (Some (FEE_OATH, dec 1)) A5 u3_rule) (fun _ out => match o_events out with [] => true | _ => false end)) as (w' & out & H & Hf); [vm_compute; reflexivity|].
  cbn [fst snd] in H. exists W5, cx_u5, (OSetLevel2Auth (Some (FEE_OATH, dec 1)) A5 u3_rule), w', out, A5. split; [exact W5_reach|]. split; [exact H|]. destruct (o_events out) as [|e l] eqn:He; [|discriminate Hf]. split; [reflexivity|].
  rewrite (C63_events_tell_the_balances _ _ _ _ _ _ A5 W5_reach H) by (intros; discriminate). rewrite He. cbn. reflexivity.
Qed.
(** A liquidation: the balance moves by what the events report. *)
Example C63_balances_ex : exists w w' out, reachable sc_env w /\ step sc_env cx_any w (OLiquidate A2 (BASE, dec 5000) (msg 17000%N 2000%N 87440%N)) = Ok (w', out) /\
  lsum (fun e => balance_change e A2) (o_events out) <> 0 /\ balance w' A2 = balance w A2 + lsum (fun e => balance_change e A2) (o_events out).
Proof.
  assert (try_run W3 (take 2 sc_crash) (fun w _ => try_ w (cx_any, OLiquidate A2 (BASE, dec 5000) (msg 17000%N 2000%N 87440%N)) (fun _ out => negb (lsum (fun e => balance_change e A2) (o_events out) =? 0))) = true) as H by (vm_compute; reflexivity).
  destruct (try_run_true _ _ _ H) as (w & outs & Hs & Hf). apply try_true in Hf as (w' & out & Hx & Hf). cbn [fst snd] in Hx. assert (reachable sc_env w) as Hr by exact (steps_reachable _ _ _ _ Hs W3_reach).
  exists w, w', out. split; [exact Hr|]. split; [exact Hx|]. split; [apply negb_true_iff, Z.eqb_neq in Hf; exact Hf|].
  rewrite (C63_events_tell_the_balances _ _ _ _ _ _ A2 Hr Hx) by (intros; discriminate). unfold own_oath, oath_value. cbn [named_account oath_of]. rewrite N.eqb_refl; lia.
Qed.
