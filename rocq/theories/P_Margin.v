(** * The valuation loops as sums (for C14, C15, C16, C51). *)
From Verif Require Import Base DFloat Lists Types Config Oracle Pool Account Fees Referral ExInternal Exchange System Sums Trace Frames Calls Shape Spec SpecOracle SpecTrading SpecMargin P_Ledger P_Accounts Frames2 Trading P_Positions P_Positions2 P_Refs P_Requests P_Requests2 P_Oracle P_Keeper P_Orders P_Final P_OrderCall Props_Oracle Props_Orders.

Definition t_profit (c : vconfig) (p : vpool) (share : Z) (o : voracle) (x : pair_id * account_position) : Z :=
  match vc_pairs c !! fst x, vo_prices o !! fst x, vp_positions p !! fst x with
  | Some pc, Some price, Some pp => profit (vc_exchange c) pc pp share price (snd x) | _, _, _ => 0 end.
Definition t_margin (rate : pair_config -> Z) (c : vconfig) (o : voracle) (x : pair_id * account_position) : Z :=
  match vc_pairs c !! fst x, vo_prices o !! fst x with
  | Some pc, Some price => mul (Z.abs (mul (ap_amount (snd x)) price)) (rate pc) | _, _ => 0 end.
Definition t_coll (rate : collateral_config -> Z) (c : vconfig) (o : voracle) (x : resource * Z) : Z :=
  match vc_collaterals c !! fst x with
  | Some cc => match vo_resources o !! fst x with Some k => match vo_prices o !! k with Some price => mul (mul (snd x) price) (rate cc) | None => 0 end | None => 0 end
  | None => 0 end.
Definition priced (c : vconfig) (p : vpool) (o : voracle) (k : pair_id) : Prop :=
  (exists pc, vc_pairs c !! k = Some pc) /\ (exists pr, vo_prices o !! k = Some pr) /\ (exists pp, vp_positions p !! k = Some pp).

Lemma value_position1_spec c p fr o tp tm x r : x_value_position1 c p fr o (tp, tm) x = Ok r ->
  r = (tp + t_profit c p fr o x, tm + t_margin pc_margin_initial c o x) /\ priced c p o (fst x).
Proof.
  destruct x as [k pos]. unfold x_value_position1, vp_position, vo_price, vc_pair. intros H.
  bd H as (pc & Hpc & H). bd H as (price & Hpr & H). bd H as (na & Hna & H). bd H as (va & Hva & H). bd H as (vab & Hvab & H). bd H as (pp & Hpp & H). bd H as (fe & Hfe & H).
  bd H as (fu & Hfu & H). bd H as (nv & Hnv & H). bd H as (t0 & Ht0 & H). bd H as (t1 & Ht1 & H). bd H as (pn & Hpn & H). bd H as (mg & Hmg & H). bd H as (tp' & Htp & H). bd H as (tm' & Htm & H).
  apply Ok_inj in H. subst r. apply expect_Ok in Hpc, Hpr, Hpp. apply dneg_Ok in Hna as [-> _]. apply dmul_mulq in Hva. subst va. apply dabs_Ok in Hvab as [-> _]. apply dneg_Ok in Hnv as [-> _].
  apply dsub_Ok in Ht0 as [-> _]. apply dsub_Ok in Ht1 as [-> _]. apply dsub_Ok in Hpn as [-> _]. apply dmul_mulq in Hmg. subst mg. apply dadd_Ok in Htp as [-> _]. apply dadd_Ok in Htm as [-> _].
  apply calculate_fee_spec in Hfe as [-> _]. apply funding_due_owed in Hfu as ->. split; [|split; [|split]; eexists; eassumption].
  unfold t_profit, t_margin, profit. cbn [fst snd]. rewrite Hpc, Hpr, Hpp. change mul with mulq. rewrite mulq_neg_l, Z.opp_involutive, Z.abs_opp. reflexivity.
Qed.
Lemma value_positions_fold c p fr o l : forall tp tm r, rfold (x_value_position1 c p fr o) (tp, tm) l = Ok r ->
  r = (tp + lsum (t_profit c p fr o) l, tm + lsum (t_margin pc_margin_initial c o) l) /\ Forall (fun x => priced c p o (fst x)) l.
Proof.
  induction l as [|x l IH]; intros tp tm r H; cbn [rfold] in H.
  - apply Ok_inj in H. subst r. unfold lsum. simpl. rewrite !Z.add_0_r. split; [reflexivity|constructor].
  - bd H as ([tp1 tm1] & H1 & H). apply value_position1_spec in H1 as [H1 Hp]. injection H1 as -> ->. apply IH in H as [-> Hf]. rewrite !lsum_cons, !Z.add_assoc. split; [reflexivity|constructor; assumption].
Qed.
Lemma value_positions_spec c p a o pnl m : x_value_positions c p a o = Ok (pnl, m) -> exists share, va_fee_rebate a = Ok share /\
  pnl = lsum (t_profit c p share o) (map_to_list (va_positions a)) /\ m = lsum (t_margin pc_margin_initial c o) (map_to_list (va_positions a)) /\ Forall (fun x => priced c p o (fst x)) (map_to_list (va_positions a)).
Proof.
  unfold x_value_positions. intros H. bd H as (share & Hs & H). apply value_positions_fold in H as [H Hf]. injection H as -> ->. exists share. auto.
Qed.
Lemma value_collateral_fold c o l : forall td tm r, rfold (x_value_collateral1 c o) (td, tm) l = Ok r ->
  r = (td + lsum (t_coll cc_discount c o) l, tm + lsum (t_coll cc_margin c o) l).
Proof.
  induction l as [|x l IH]; intros td tm r H; cbn [rfold] in H.
  - apply Ok_inj in H. subst r. unfold lsum. simpl. rewrite !Z.add_0_r. reflexivity.
  - bd H as ([td1 tm1] & H1 & H). apply IH in H as ->. rewrite !lsum_cons, !Z.add_assoc. unfold x_value_collateral1 in H1. assert (forall rate, t_coll rate c o x = match vc_collaterals c !! fst x with Some cc => match vo_resources o !! fst x with Some k => match vo_prices o !! k with Some price => mul (mul (snd x) price) (rate cc) | None => 0 end | None => 0 end | None => 0 end) as Ht by reflexivity. rewrite !Ht. clear Ht. destruct (vc_collaterals c !! fst x) as [cc|].
    + unfold vo_price_resource, vo_price in H1. bd H1 as (price & Hp & H1). bd Hp as (k & Hk & Hp). apply expect_Ok in Hk, Hp. rewrite Hk, Hp. bd H1 as (v & Hv & H1). bd H1 as (d & Hd & H1). bd H1 as (mg & Hm & H1). bd H1 as (s1 & Hs1 & H1). bd H1 as (s2 & Hs2 & H1).
      apply Ok_inj in H1. injection H1 as <- <-. apply dmul_mulq in Hv, Hd, Hm. subst. apply dadd_Ok in Hs1 as [-> _], Hs2 as [-> _]. reflexivity.
    + apply Ok_inj in H1. injection H1 as <- <-. rewrite !Z.add_0_r. reflexivity.
Qed.
Lemma integrity_spec c p a o : x_assert_account_integrity c p a o = Ok tt -> exists share, va_fee_rebate a = Ok share /\ Forall (fun x => priced c p o (fst x)) (map_to_list (va_positions a)) /\
  lsum (t_margin pc_margin_initial c o) (map_to_list (va_positions a)) + lsum (t_coll cc_margin c o) (map_to_list (va_coll a)) <=
  lsum (t_profit c p share o) (map_to_list (va_positions a)) + lsum (t_coll cc_discount c o) (map_to_list (va_coll a)) + va_vb a.
Proof.
  unfold x_assert_account_integrity. intros H. bd H as ([pnl mp] & H1 & H). bd H as ([disc mc] & H2 & H). bd H as (t & Ht & H). bd H as (av & Hav & H). bd H as (m & Hm & H). apply guard_Ok, Z.leb_le in H.
  apply dadd_Ok in Ht as [-> _], Hav as [-> _], Hm as [-> _]. apply value_positions_spec in H1 as (share & Hs & -> & -> & Hf). unfold x_value_collateral in H2. apply value_collateral_fold in H2. injection H2 as -> ->. exists share. auto.
Qed.
(** The liquidation loop: each pair is read before it is changed. *)
Lemma liq_fold c fr o l : forall p tp tm tf tfe r, rfold (x_liq_position1 c fr o) (p, (tp, tm, tf, tfe)) l = Ok r -> NoDup (map fst l) ->
  exists p', r = (p', (tp + lsum (t_profit c p fr o) l, tm + lsum (t_margin pc_margin_maintenance c o) l,
     tf + lsum (fun x => match vp_positions p !! fst x with Some pp => funding_owed pp (snd x) | None => 0 end) l,
     tfe + lsum (fun x => match vc_pairs c !! fst x, vo_prices o !! fst x, vp_positions p !! fst x with Some pc, Some price, Some pp => trading_fee (vc_exchange c) pc pp fr price (mul (- ap_amount (snd x)) price) | _, _, _ => 0 end) l)) /\
    Forall (fun x => priced c p o (fst x)) l /\ vp_comp p' = vp_comp p /\ vp_base p' = vp_base p /\ vp_vb p' = vp_vb p /\ vp_upf p' = vp_upf p /\ vp_skew p' = vp_skew p /\ vp_pnl p' = vp_pnl p /\
    (forall k, k ∉ map fst l -> vp_positions p' !! k = vp_positions p !! k) /\
    (forall k pos, In (k, pos) l -> exists pp, vp_positions p !! k = Some pp /\ vp_positions p' !! k = Some (traded pp (0 <? ap_amount pos) (- ap_amount pos) (- ap_cost pos))).
Proof.
  induction l as [|[k pos] l IH]; intros p tp tm tf tfe r H Hn; cbn [rfold] in H.
  - apply Ok_inj in H. subst r. exists p. unfold lsum. simpl. rewrite !Z.add_0_r. split; [reflexivity|]. split; [constructor|]. do 7 (split; [reflexivity|]). intros ? ? [].
  - bd H as ([p1 [[[tp1 tm1] tf1] tfe1]] & H1 & H). inversion Hn as [|? ? Hni Hn']; subst. destruct (liq1_inv _ _ _ _ _ _ _ _ _ _ _ _ H1) as (pc & price & pp & fee & fu & Hpc & Hpr & Hpp & Hfe & Hfu & Hp1 & Ht). injection Ht as -> -> -> ->.
    destruct (IH _ _ _ _ _ _ H Hn') as (p' & -> & Hf & B1 & B2 & B3 & B4 & B5 & B6 & Hout & Hin). exists p'.
    assert (forall j, j <> k -> vp_positions p1 !! j = vp_positions p !! j) as Hp1o by (intros j Hj; rewrite Hp1; unfold vp_set_position; cbn; rewrite lookup_insert_ne by congruence; reflexivity).
    assert (forall x, x ∈ l -> fst x <> k) as Hne. { intros x Hx E0. apply Hni. rewrite <- E0. apply elem_of_list_In, in_map, elem_of_list_In, Hx. }
    apply calculate_fee_spec in Hfe as [-> _]. apply funding_due_owed in Hfu as ->. split; [|split; [|split; [rewrite B1, Hp1; reflexivity|split; [rewrite B2, Hp1; reflexivity|split; [rewrite B3, Hp1; reflexivity|split; [rewrite B4, Hp1; reflexivity|split; [rewrite B5, Hp1; reflexivity|split; [rewrite B6, Hp1; reflexivity|split]]]]]]]].
    + rewrite !lsum_cons. cbn [fst snd]. unfold t_profit at 2, t_margin at 2. cbn [fst snd]. rewrite Hpc, Hpr, Hpp, !Z.add_assoc.
      rewrite (lsum_ext (t_profit c p1 fr o) (t_profit c p fr o)) by (intros x Hx; unfold t_profit; rewrite (Hp1o _ (Hne _ Hx)); reflexivity).
      rewrite (lsum_ext (fun x => match vp_positions p1 !! fst x with Some pp => funding_owed pp (snd x) | None => 0 end) (fun x => match vp_positions p !! fst x with Some pp => funding_owed pp (snd x) | None => 0 end)) by (intros x Hx; rewrite (Hp1o _ (Hne _ Hx)); reflexivity).
      match goal with |- context[lsum ?f l] => match f with context[vp_positions p1] => rewrite (lsum_ext f (fun x => match vc_pairs c !! fst x, vo_prices o !! fst x, vp_positions p !! fst x with Some pc, Some price, Some pp => trading_fee (vc_exchange c) pc pp fr price (mul (- ap_amount (snd x)) price) | _, _, _ => 0 end)) by (intros x Hx; rewrite (Hp1o _ (Hne _ Hx)); reflexivity) end end.
      unfold profit. change mul with mulq. rewrite mulq_neg_l, Z.opp_involutive, Z.abs_opp. reflexivity.
    + constructor; [split; [|split]; eexists; eassumption|]. apply Forall_forall. intros x Hx. rewrite Forall_forall in Hf. destruct (Hf x Hx) as (Q1 & Q2 & Q3). split; [exact Q1|split; [exact Q2|]]. rewrite <- (Hp1o _ (Hne _ Hx)). exact Q3.
    + intros j Hj. rewrite Hout by (intros Hj'; apply Hj; right; exact Hj'). apply Hp1o. intros ->. apply Hj. left.
    + intros j q [E0|Hj].
      * injection E0 as <- <-. exists pp. split; [exact Hpp|]. rewrite Hout by exact Hni. rewrite Hp1. unfold vp_set_position. cbn. apply lookup_insert.
      * destruct (Hin j q Hj) as (pp' & Hpp' & Hr). exists pp'. rewrite <- (Hp1o j); [auto|]. apply elem_of_list_In in Hj. exact (Hne _ Hj).
Qed.

(** What a call sees when it values an account, in terms of the state it leaves. *)
Record sees (w' : world) (pp : pair_id -> pool_position) (c : vconfig) (o : voracle) (p : vpool) : Prop := {
  sv_ex : vc_exchange c = g_exchange_config w';
  sv_pc : forall k pc, vc_pairs c !! k = Some pc -> pair_cfg w' k = Some pc;
  sv_cc : forall r, vc_collaterals c !! r = coll_cfg w' r;
  sv_pr : forall k x, vo_prices o !! k = Some x -> price_of w' k = x;
  sv_res : forall r cc, coll_cfg w' r = Some cc -> vo_resources o !! r = Some (cc_pair_id cc) /\ exists x, vo_prices o !! cc_pair_id cc = Some x;
  sv_pp : forall k q, vp_positions p !! k = Some q -> pp k = q }.
Lemma sees_core w w' ids c o p pp : get_config w ids = Ok c -> w_config w' = w_config w -> (forall k x, vo_prices o !! k = Some x -> fst <$> or_prices (w_oracle w') !! k = Some x) ->
  (forall r cc, cf_collaterals (w_config w) !! r = Some cc -> vo_resources o !! r = Some (cc_pair_id cc) /\ exists x, vo_prices o !! cc_pair_id cc = Some x) ->
  (forall k q, vp_positions p !! k = Some q -> pp k = q) -> sees w' pp c o p.
Proof.
  intros Hc Hcf Hst Hres Hpp. unfold get_config in Hc. apply vc_new_spec in Hc as (C1 & C2 & C3 & C4). constructor.
  - rewrite C1, <- Hcf. reflexivity.
  - intros k pc Hk. destruct (decide (k ∈ ids)) as [Hi|Hi]; [|rewrite (C4 k Hi) in Hk; discriminate]. destruct (C3 k Hi) as (x & X1 & X2). rewrite X2 in Hk. injection Hk as <-. unfold pair_cfg. rewrite Hcf.
    match goal with |- _ <$> ?t = _ => assert (t = Some x) as -> by exact X1 end. reflexivity.
  - intros r. rewrite C2. unfold coll_cfg, g_collateral_configs. rewrite Hcf. reflexivity.
  - intros k x Hx. specialize (Hst _ _ Hx). unfold price_of, stored_price. destruct (or_prices (w_oracle w') !! k) as [[y t]|]; [|discriminate Hst]. injection Hst as <-. reflexivity.
  - intros r cc Hr. unfold coll_cfg, g_collateral_configs in Hr. rewrite Hcf in Hr. rewrite lookup_fmap in Hr.
    match type of Hr with cc_decompress <$> ?t = _ => destruct t as [x|] eqn:Hx; [|discriminate Hr] end. injection Hr as <-. exact (Hres _ _ Hx).
  - exact Hpp.
Qed.
Lemma sees_intro E w w' upd ids c o p pp : get_config w ids = Ok c -> prices_ok E w upd ids c (w_oracle w') o -> w_config w' = w_config w ->
  (forall k q, vp_positions p !! k = Some q -> pp k = q) -> sees w' pp c o p.
Proof.
  intros Hc Hp Hcf Hpp. eapply sees_core; [exact Hc|exact Hcf|exact (pk_stored _ _ _ _ _ _ _ Hp)| |exact Hpp].
  intros r x Hx. split; [rewrite (pk_res _ _ _ _ _ _ _ Hp r); match goal with |- _ <$> ?t = _ => assert (t = Some x) as -> by exact Hx end; reflexivity|].
  destruct (pk_feed _ _ _ _ _ _ _ Hp r x Hx) as (y & _ & _ & Hy). exists (fst y). exact Hy.
Qed.
Lemma sees_oracle E w w' ids c o o1 feeds p pp : get_config w ids = Ok c -> get_oracle E w c feeds None = Ok (o1, o) -> w_oracle w' = w_oracle w -> w_config w' = w_config w ->
  (forall k q, vp_positions p !! k = Some q -> pp k = q) -> sees w' pp c o p.
Proof.
  intros Hc Ho Hor Hcf Hpp. pose proof Hc as Hc'. unfold get_config in Hc'. apply vc_new_spec in Hc' as (_ & C2 & _). unfold get_oracle in Ho. apply vo_new_spec in Ho as (O1 & O2 & O3 & _ & O5). subst o1.
  eapply sees_core; [exact Hc|exact Hcf|rewrite Hor; exact O3| |exact Hpp].
  intros r cc Hr. unfold vc_feeds in *. rewrite C2 in *. rewrite O2, !lookup_fmap. match goal with |- context[@lookup ?K ?A ?M ?i ?k ?m] => assert (@lookup K A M i k m = Some cc) as -> by exact Hr end. split; [reflexivity|].
  destruct (O5 r (cc_pair_id cc) (cc_price_age_max cc)) as (x & _ & _ & X3); [|eauto]. rewrite !lookup_fmap. match goal with |- context[@lookup ?K ?A ?M ?i ?k ?m] => assert (@lookup K A M i k m = Some cc) as -> by exact Hr end. reflexivity.
Qed.
(** Entries that count nothing may be left out. *)
Lemma lsum_drop {A} (f : N * A -> Z) (m1 m2 : gmap N A) : (forall k x, m2 !! k = Some x -> m1 !! k = Some x) -> (forall k x, m1 !! k = Some x -> m2 !! k = None -> f (k, x) = 0) ->
  lsum f (map_to_list m1) = lsum f (map_to_list m2).
Proof.
  revert m1. induction m2 as [|k x m2 Hk IH] using map_ind; intros m1 H1 H2.
  - rewrite map_to_list_empty. apply lsum_zero. intros [k x] Hx. apply elem_of_map_to_list in Hx. apply H2; [exact Hx|apply lookup_empty].
  - pose proof (H1 k x (lookup_insert _ _ _)) as Hx. rewrite (lsum_perm _ _ _ (map_to_list_insert _ _ _ Hk)), lsum_cons.
    rewrite <- (lsum_perm _ _ _ (map_to_list_delete _ _ _ Hx)), lsum_cons. f_equal. apply IH.
    + intros j y Hj. rewrite lookup_delete_ne by congruence. apply H1. rewrite lookup_insert_ne by congruence. exact Hj.
    + intros j y Hj Hn. apply lookup_delete_Some in Hj as [Hne Hj]. apply H2; [exact Hj|]. rewrite lookup_insert_ne by exact Hne. exact Hn.
Qed.
Lemma sees_profit w' pp c o p share m : sees w' pp c o p -> Forall (fun x => priced c p o (fst x)) (map_to_list m) ->
  lsum (t_profit c p share o) (map_to_list m) =
  msum (fun k pos => match pair_cfg w' k with Some pc => profit (g_exchange_config w') pc (pp k) share (price_of w' k) pos | None => 0 end) m.
Proof.
  intros S Hf. rewrite msum_lsum. apply lsum_ext. intros [k pos] Hx. rewrite Forall_forall in Hf. specialize (Hf _ Hx). cbn [fst snd] in *. destruct Hf as ((pc & P1) & (pr & P2) & (q & P3)). unfold t_profit. cbn [fst snd].
  rewrite P1, P2, P3, (sv_pc _ _ _ _ _ S _ _ P1), (sv_pr _ _ _ _ _ S _ _ P2), (sv_pp _ _ _ _ _ S _ _ P3), (sv_ex _ _ _ _ _ S). reflexivity.
Qed.
Lemma sees_margin w' pp c o p rate m : sees w' pp c o p -> Forall (fun x => priced c p o (fst x)) (map_to_list m) ->
  lsum (t_margin rate c o) (map_to_list m) = msum (fun k pos => match pair_cfg w' k with Some pc => mul (Z.abs (mul (ap_amount pos) (price_of w' k))) (rate pc) | None => 0 end) m.
Proof.
  intros S Hf. rewrite msum_lsum. apply lsum_ext. intros [k pos] Hx. rewrite Forall_forall in Hf. specialize (Hf _ Hx). cbn [fst snd] in *. destruct Hf as ((pc & P1) & (pr & P2) & _). unfold t_margin. cbn [fst snd].
  rewrite P1, P2, (sv_pc _ _ _ _ _ S _ _ P1), (sv_pr _ _ _ _ _ S _ _ P2). reflexivity.
Qed.
Lemma sees_coll w' pp c o p rate m : sees w' pp c o p ->
  lsum (t_coll rate c o) (map_to_list m) = msum (fun r x => match coll_cfg w' r with Some cc => mul (mul x (price_of w' (cc_pair_id cc))) (rate cc) | None => 0 end) m.
Proof.
  intros S. rewrite msum_lsum. apply lsum_ext. intros [r x] Hx. unfold t_coll. cbn [fst snd]. rewrite (sv_cc _ _ _ _ _ S). destruct (coll_cfg w' r) as [cc|] eqn:Hc; [|reflexivity].
  destruct (sv_res _ _ _ _ _ S _ _ Hc) as (R & y & Y). rewrite R, Y, (sv_pr _ _ _ _ _ S _ _ Y). reflexivity.
Qed.
(** The cached positions and the stored ones differ by entries of size zero, which count nothing. *)
Lemma profit_0 ec pc pp share price pos : ap_amount pos = 0 -> ap_cost pos = 0 -> profit ec pc pp share price pos = 0.
Proof. intros H1 H2. unfold profit, funding_owed. rewrite H1, H2. change mul with mulq. rewrite Z.abs_0, Z.opp_0, !mulq_0_l. rewrite (trading_fee_0 ec pc pp share price). reflexivity. Qed.
Lemma realized_drop v acc' : acc_si v -> realized v acc' -> forall k x, ac_positions acc' !! k = Some x -> va_positions v !! k = Some x.
Proof.
  intros Hs R k x Hx. destruct (Z.eq_dec (ap_amount (pos_of v k)) 0) as [H0|H0]; [rewrite (rz_none _ _ R k H0) in Hx; discriminate|].
  destruct (rz_pos _ _ R k H0) as [_ H2]. rewrite H2 in Hx. injection Hx as <-. unfold pos_of in *. destruct (va_positions v !! k); [reflexivity|]. destruct H0. reflexivity.
Qed.
Lemma realized_drop0 v acc' : acc_si v -> realized v acc' -> forall k x, va_positions v !! k = Some x -> ac_positions acc' !! k = None -> ap_amount x = 0 /\ ap_cost x = 0.
Proof.
  intros Hs R k x Hx Hn. assert (ap_amount x = 0) as H0; [|split; [exact H0|exact (si_zero _ Hs _ _ Hx H0)]].
  destruct (Z.eq_dec (ap_amount (pos_of v k)) 0) as [H0|H0]; [unfold pos_of in H0; rewrite Hx in H0; exact H0|]. destruct (rz_pos _ _ R k H0) as [_ H2]. rewrite H2 in Hn. discriminate.
Qed.
Lemma valued w' pp c o p v acc' share : sees w' pp c o p -> acc_si v -> realized v acc' -> coll_sync v -> Forall (fun x => priced c p o (fst x)) (map_to_list (va_positions v)) -> share = fee_share w' acc' ->
  lsum (t_profit c p share o) (map_to_list (va_positions v)) = positions_profit pp w' acc' /\
  (forall rate, lsum (t_margin rate c o) (map_to_list (va_positions v)) = positions_margin rate w' acc') /\
  (forall rate, lsum (t_coll rate c o) (map_to_list (va_coll v)) = collateral_total rate w' acc').
Proof.
  intros S Hs R Hy Hf ->. pose proof (realized_drop _ _ Hs R) as D1. pose proof (realized_drop0 _ _ Hs R) as D2.
  assert (Forall (fun x => priced c p o (fst x)) (map_to_list (ac_positions acc'))) as Hf'.
  { apply Forall_forall. intros [k x] Hx. apply elem_of_map_to_list in Hx. rewrite Forall_forall in Hf. apply Hf. apply elem_of_map_to_list. auto. }
  split; [|split].
  - rewrite (lsum_drop _ _ (ac_positions acc')); [apply sees_profit; assumption|exact D1|]. intros k x Hx Hn. destruct (D2 _ _ Hx Hn). unfold t_profit. cbn [fst snd].
    repeat case_match; try reflexivity. apply profit_0; assumption.
  - intros rate. rewrite (lsum_drop _ _ (ac_positions acc')); [eapply sees_margin; eassumption|exact D1|]. intros k x Hx Hn. destruct (D2 _ _ Hx Hn) as [H0 _]. unfold t_margin. cbn [fst snd]. rewrite H0.
    repeat case_match; reflexivity.
  - intros rate. rewrite (sees_coll _ _ _ _ _ _ _ S). unfold collateral_total. rewrite (rz_coll _ _ R). unfold coll_sync in Hy. rewrite Hy. reflexivity.
Qed.
Lemma integrity_margin w' c o p a v acc' : sees w' (pool_pair w') c o p -> acc_si v -> realized v acc' -> coll_sync v ->
  x_assert_account_integrity c p a o = Ok tt -> va_positions a = va_positions v -> va_coll a = va_coll v -> va_vb a = va_vb v -> (forall x, va_fee_rebate a = Ok x -> x = fee_share w' acc') ->
  initial_margin w' acc' <= account_value w' acc'.
Proof.
  intros S Hs R Hy Hi E1 E2 E3 Hsh. apply integrity_spec in Hi as (share & Hr & Hf & Hle). rewrite E1, E2, E3 in *. destruct (valued _ _ _ _ _ _ _ share S Hs R Hy Hf (Hsh _ Hr)) as (V1 & V2 & V3).
  rewrite V1, V2, !V3, <- (rz_vb _ _ R) in Hle. exact Hle.
Qed.

(** The fee share of an account's referral is not touched by calls on accounts. *)
Lemma acct_call_share E w a l w' acc acc' : acct_call E w a l w' -> w_accounts w !! a = Some acc -> w_accounts w' !! a = Some acc' -> fee_share w' acc' = fee_share w acc /\ ac_ref acc' = ac_ref acc.
Proof.
  intros H Ha Ha'. pose proof (acct_call_refs _ _ _ _ _ H) as Hr. destruct (acct_call_out _ _ _ _ _ _ _ H Ha Ha') as (c & o & idsc & ids & v0 & s1 & refs' & _ & _ & Hv & Hcm & Hs & Hz & Hu).
  apply ssteps_comp in Hs as (_ & _ & _ & _ & _ & Hcr & _). cbn [s_acc] in Hcr. unfold acc_update in Hu. bd Hu as (r1 & _ & Hu). bd Hu as (r2 & _ & Hu). apply Ok_inj in Hu.
  assert (ac_ref acc' = ac_ref acc) as E0. { rewrite <- Hu. change (ac_ref (va_comp (s_acc s1)) = ac_ref acc). rewrite Hcr, Hcm. reflexivity. }
  split; [|exact E0]. unfold fee_share. rewrite E0. destruct (ac_ref acc) as [id|]; [|reflexivity]. destruct Hr as [->|(acc1 & id1 & d0 & b & t & _ & _ & Hd & ->)]; [reflexivity|].
  destruct (decide (id1 = id)) as [->|Hne]; [rewrite lookup_insert, Hd; reflexivity|rewrite lookup_insert_ne by exact Hne; reflexivity].
Qed.
Lemma step_share E cx w o w' out a acc acc' : step E cx w o = Ok (w', out) -> op_account o = Some a -> w_accounts w !! a = Some acc -> w_accounts w' !! a = Some acc' -> fee_share w' acc' = fee_share w acc.
Proof. intros H Ho Ha Ha'. destruct (step_acct _ _ _ _ _ _ _ H Ho) as (l & Hl & _). exact (proj1 (acct_call_share _ _ _ _ _ _ _ Hl Ha Ha')). Qed.
(** A call that charges an oath and otherwise leaves positions, prices and pool records alone. *)
Lemma oath_margin E w a acc v ids c o1 o p v1 v2 wx w' : w_accounts w !! a = Some acc -> nonzero acc -> get_acc w a = Ok v ->
  get_config w ids = Ok c -> get_oracle E w c (x_pair_feeds_no_max_age ids) None = Ok (o1, o) -> vp_positions p = vp_positions (get_pool w ids) ->
  x_assert_account_integrity c p v1 o = Ok tt -> g_pos v1 = g_pos v -> coll_sync v1 -> g_ref v1 = g_ref v ->
  va_positions v2 = va_positions v1 -> va_pos_upd v2 = va_pos_upd v1 -> ac_positions (va_comp v2) = ac_positions (va_comp v1) -> g_coll v2 = g_coll v1 -> g_ref v2 = g_ref v1 -> va_vb v2 = va_vb v1 -> va_addr v2 = a ->
  realize_acc wx v2 = Ok w' -> w_config wx = w_config w -> w_oracle wx = w_oracle w -> w_refs wx = w_refs w -> w_now wx = w_now w -> po_positions (w_pool wx) = po_positions (w_pool w) ->
  exists acc', w_accounts w' !! a = Some acc' /\ initial_margin w' acc' <= account_value w' acc'.
Proof.
  intros Ha Hnz Hv Hc Ho Hp Hi Gp Hy Gr P1 P2 P3 Gc Gr2 Hvb Had Hz W1 W2 W3 W4 W5. pose proof (starts_intro _ _ _ _ Hv Ha Hnz) as Hst.
  unfold g_pos in Gp. injection Gp as Gp1 Gp2 Gp3. rewrite Gp1 in P1. rewrite Gp2 in P2. rewrite Gp3 in P3.
  assert (acc_si v2) as Hs. { destruct (st_si _ _ _ Hst) as [S1 S2 S3]. constructor; rewrite ?P1, ?P2, ?P3; assumption. }
  assert (nonzero (va_comp v2)) as Hn2. { intros k x Hx. rewrite P3, (st_comp _ _ _ Hst) in Hx. exact (Hnz k x Hx). }
  destruct (realize_acc_final _ _ _ Hz Hs Hn2) as (acc' & Ha' & Hrz & _ & Hpo & Hno & Hcf & Hor & _). rewrite Had in Ha'. exists acc'. split; [exact Ha'|].
  assert (sees w' (pool_pair w') c o p) as S.
  { eapply sees_oracle; [exact Hc|exact Ho|congruence|congruence|]. intros k q Hq. rewrite Hp in Hq. destruct (decide (k ∈ ids)) as [Hk|Hk].
    - rewrite (get_pool_cached _ _ _ Hk) in Hq. injection Hq as <-. unfold pool_pair. rewrite Hpo, Hno, W4, W5. reflexivity.
    - exfalso. unfold get_pool, vp_new in Hq. simpl in Hq. unfold pool_get_positions in Hq. apply lookup_set_to_map in Hq; [|intros; simpl in *; congruence]. destruct Hq as (k' & Hk' & E0). simpl in E0. injection E0 as <- _. contradiction. }
  unfold coll_sync in Hy. unfold g_coll in Gc. injection Gc as Gc1 Gc2 Gc3. unfold g_ref in Gr, Gr2. injection Gr as R1 R2 R3 R4. injection Gr2 as Q1 Q2 Q3 Q4.
  assert (coll_sync v2) as Hy2 by (unfold coll_sync; congruence).
  apply (integrity_margin _ _ _ _ _ _ _ S Hs Hrz Hy2 Hi); [congruence..|].
  intros x Hx. assert (va_fee_rebate v1 = va_fee_rebate v) as Ef by (unfold va_fee_rebate; rewrite R2; reflexivity). rewrite Ef in Hx. rewrite (rebate_share _ _ _ _ Hst Hx).
  apply realize_acc_inv in Hz as (acc2 & refs & Hz & ->). apply va_realize_inv in Hz as [Hu [[_ ->]|(id & d & d0 & Hr & _)]].
  - unfold fee_share. rewrite (rz_ref _ _ Hrz), Q4, R4, (st_comp _ _ _ Hst). simpl. rewrite W3. reflexivity.
  - exfalso. apply get_acc_inv in Hv as (? & _ & _ & _ & _ & _ & _ & _ & _ & _ & _ & _ & _ & _ & _ & _ & Hrw & _). congruence.
Qed.
