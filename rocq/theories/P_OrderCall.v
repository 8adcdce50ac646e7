(** * A call that executes an order: its effect on the stored state. *)
From Verif Require Import Base DFloat Lists Types Config Oracle Pool Account Fees Referral ExInternal Exchange System Sums Trace Frames Calls Shape Spec SpecOracle SpecTrading SpecMargin P_Ledger P_Accounts Frames2 Trading P_Positions P_Positions2 P_Oracle P_Keeper P_Orders P_Final Props_Oracle.

(** The account cache a keeper call starts from: the stored account, with the request marked. *)
Record starts (w : world) (acc : account) (v : vacc) : Prop := {
  st_pos : forall k, pos_of v k = held acc k; st_positions : va_positions v = ac_positions acc; st_vb : va_vb v = ac_vb acc; st_coll : va_coll v = ac_coll acc; st_comp : va_comp v = acc;
  st_ref : va_ref v = match ac_ref acc with Some id => w_refs w !! id | None => None end;
  st_si : acc_si v; st_sync : coll_sync v }.
Lemma starts_intro w a v acc : get_acc w a = Ok v -> w_accounts w !! a = Some acc -> nonzero acc -> starts w acc v.
Proof.
  intros Hv Ha Hn. pose proof (get_acc_held w a v acc) as Hh. pose proof (get_acc_sync _ _ _ Hv) as Hy. pose proof Hv as Hv'. apply get_acc_inv in Hv' as (acc' & Ha' & Hc & _ & Hp & Hco & Hvb & _ & _ & _ & Hu & _ & _ & _ & _ & _ & _ & Hr & _).
  rewrite Ha in Ha'. injection Ha' as <-. constructor; auto.
  split; rewrite ?Hp, ?Hc, ?Hu; try reflexivity. intros k x Hx H0. exfalso. exact (Hn _ _ Hx H0).
Qed.
Lemma starts_norq w acc v v' : g_norq v' = g_norq v -> va_comp v' = va_comp v -> starts w acc v -> starts w acc v'.
Proof.
  intros Hg Hc [A1 A1b A2 A3 A4 A5 A6 A7]. pose proof (g_norq_split _ _ Hg Hc) as (N1 & N2 & N3 & N4 & N5 & N6). unfold g_coll in N3. injection N3 as N3a N3b N3c. unfold g_ref in N4. injection N4 as N4a N4b N4c N4d.
  constructor; try congruence; try (unfold coll_sync in *; congruence).
  - intros k. rewrite (pos_of_g v v' k N2). apply A1.
  - unfold g_pos in N2. injection N2 as N2a N2b N2c. congruence.
  - eapply acc_si_g; eauto.
Qed.
Record order_call (E : env) (w w' : world) (a : addr) (rq : req_order) (upd : option price_msg) (out : outp)
    (acc acc' : account) (ids : gset pair_id) (c : vconfig) (o : voracle) (v : vacc) (s : sess) (d : order_data) (ev : event) : Prop := {
  oc_acc : w_accounts w !! a = Some acc; oc_start : starts w acc v; oc_ids : ids = dom (ac_positions acc) ∪ {[ro_pair rq]};
  oc_config : get_config w ids = Ok c; oc_prices : prices_ok E w upd ids c (w_oracle w') o;
  oc_facts : order_facts (w_now w) c o (mkS (get_pool w ids) v (w_fd w)) rq s ev d;
  oc_acc' : w_accounts w' !! a = Some acc'; oc_oth : forall b, b <> a -> w_accounts w' !! b = w_accounts w !! b; oc_real : realized (s_acc s) acc';
  oc_pool : w_pool w' = vp_realize (s_pool s); oc_fd : w_fd w' = s_fd s; oc_now : w_now w' = w_now w; oc_cf : w_config w' = w_config w;
  oc_si : SI (w_now w) s; oc_sync : coll_sync (s_acc s); oc_out : o_events out = ev :: pool_events (s_pool s) ++ acc_events (s_acc s);
  oc_refs : referral_balance w' a = referral_balance w a + od_referral d; oc_coll : g_coll (s_acc s) = g_coll v; oc_addr : va_addr (s_acc s) = a }.
Lemma order_call_intro E cx w o w' out a rq : reachable E w -> step E cx w o = Ok (w', out) -> executes_order w o a rq ->
  exists i upd acc acc' ids c vo v s d ev, o = OProcessRequest a i upd /\ order_call E w w' a rq upd out acc acc' ids c vo v s d ev.
Proof.
  intros Hr H (i & upd & acc & kr & -> & Ha & Hk & Hq & Hl). exists i, upd.
  apply process_inv in H as (v0 & v1 & rq1 & ex & ids & c & w1 & v2 & pay & evs & w2 & Hv & Hp & Hids & Hc & Hx & Hz & -> & Hpay & Hev & Htok).
  destruct (executes_ex w a i upd _ _ _ _ Hv Hp) as (-> & acc1 & kr1 & Ha1 & Hk1 & Hq1 & Hpos). { exists acc, kr. auto. }
  rewrite Ha in Ha1. injection Ha1 as <-. rewrite Hk in Hk1. injection Hk1 as <-. rewrite Hq in Hq1. subst rq1.
  destruct Hx as (orc & vo & Hpk & s & ev & Hm & -> & -> & -> & ->).
  pose proof (wi_nz _ (WI_reachable _ _ Hr)) as Hnz.
  pose proof (starts_intro _ _ _ _ Hv Ha (Hnz _ _ Ha)) as Hst. apply va_process_frame in Hp as [Hg Hcm]. pose proof (starts_norq _ _ _ _ Hg Hcm Hst) as Hst1.
  assert (SI (w_now w) (mkS (get_pool w ids) v1 (w_fd w))) as HSI by (split; [apply cached_new|exact (st_si _ _ _ Hst1)]).
  destruct (tr_margin_order E (w_now w) c vo _ _ _ _ Hm) as (l0 & fee & Htr & _).
  pose proof (proj1 (ssteps_si _ _ _ _ _ _ _ Htr HSI)) as HSI'. pose proof (ssteps_sync _ _ _ _ _ _ _ Htr (st_sync _ _ _ Hst1)) as Hsy.
  assert (nonzero (va_comp (s_acc s))) as Hnzs.
  { apply ssteps_comp in Htr as (_ & Hcp & _). intros k x Hx. rewrite Hcp in Hx. cbn [s_acc] in Hx. rewrite (st_comp _ _ _ Hst1) in Hx. exact (Hnz _ _ Ha _ _ Hx). }
  assert (va_addr (s_acc s) = a) as Had.
  { apply ssteps_addr in Htr. cbn [s_acc] in Htr. rewrite Htr. unfold g_norq in Hg. injection Hg. intros. assert (va_addr v1 = va_addr v0) as -> by congruence. apply get_acc_addr in Hv. exact Hv. }
  destruct (order_effect _ _ _ _ _ _ _ Hm) as (d & Hd).
  destruct (realize_acc_final _ _ _ Hz (proj2 HSI') Hnzs) as (acc' & Ha' & Hrz & Hoth & Hpo & Hno & Hcf & Hor & Hfd & _). rewrite Had in *.
  assert (referral_balance (w2 <| w_rewards := w_rewards w2 + keeper_reward w |>) a = referral_balance w a + od_referral d) as Href.
  { pose proof (P_Orders.of_ref _ _ _ _ _ _ _ _ Hd) as Hrb. cbn [s_acc] in Hrb. unfold referral_balance. rewrite Ha. cbn [w_accounts w_refs]. simpl. rewrite Ha', (rz_ref _ _ Hrz).
    pose proof (ssteps_comp _ _ _ _ _ _ _ Htr) as (_ & _ & _ & _ & _ & Hcr & _). cbn [s_acc] in Hcr.
    apply realize_acc_inv in Hz as (acc2 & refs & Hz & ->). pose proof (refs_final v1 _ _ _ _ (ac_ref acc) Hz (ssteps_ref _ _ _ _ _ _ _ Htr)) as Hrf.
    assert (va_ref_id v1 = ac_ref acc) as Hid1. { apply get_acc_inv in Hv as (accx & Hax & _ & _ & _ & _ & _ & _ & _ & _ & _ & _ & _ & _ & _ & Hvid & _). rewrite Ha in Hax. injection Hax as <-. pose proof (g_norq_split _ _ Hg Hcm) as (_ & _ & _ & N4 & _). unfold g_ref in N4. injection N4 as N4a N4b N4c N4d. congruence. }
    specialize (Hrf Hid1 (st_ref _ _ _ Hst1)). simpl. rewrite Hcr, (st_comp _ _ _ Hst1). unfold ref_bal_of in Hrf. rewrite Hrf, Hrb. f_equal. unfold ref_bal. rewrite (st_ref _ _ _ Hst1). destruct (ac_ref acc); reflexivity. }
  exists acc, acc', ids, c, vo, v1, s, d, ev. split; [reflexivity|]. constructor; auto.
  - rewrite Hids, Hpos. reflexivity.
  - simpl. rewrite Hor. exact Hpk.
  - exact (of_coll _ _ _ _ _ _ _ _ Hd).
Qed.
