(** * C30: paying an account's debt in exchange for its collateral. *)
From Verif Require Import Base DFloat Lists Types Config Oracle Pool Account Fees Referral ExInternal Exchange System Scenario Sums Trace Frames Frames2 Calls Shape Spec SpecOracle SpecTrading SpecMargin P_Ledger P_DFloat Witness Props_Config Props_Rates P_Fees P_Tokens P_Requests2 P_Requests4 P_Oracle P_Keeper Trading P_Positions P_Positions2 P_Orders P_Final P_OrderCall P_Coll P_Remove P_Whole Props_Collateral Props_LP.

(** What a debt swap does inside one call. *)
Lemma swap_facts E c o p a r b p' a' token rest ev : x_swap_debt E c o p a r b = Ok (p', a', token, rest, ev) ->
  exists cc pr price amount value,
    b_res b = BASE /\ va_vb a < 0 /\ vc_collaterals c !! r = Some cc /\ vo_price_resource o r = Ok pr /\ price = mul pr (mul (cc_discount cc) (10 ^ 17) + 9 * 10 ^ 17) /\ price <> 0 /\
    (let v0 := Z.min (b_amt b) (- va_vb a) in let am := Z.quot (v0 * E18) price in
     (am <= va_collateral_amount a r /\ amount = am /\ value = v0) \/ (va_collateral_amount a r < am /\ amount = va_collateral_amount a r /\ value = mul amount price)) /\
    0 <= value <= b_amt b /\ rest = (BASE, b_amt b - value) /\ ev = EvSwapDebt (va_addr a) r (b_amt token) price /\
    exists p1 p2 a1 bs, vp_deposit p value = Ok p1 /\ x_settle_account p1 a value = Ok (p2, a1) /\ va_withdraw E a1 [(r, amount)] ToZero = Ok (a', bs) /\ last bs = Some token /\ p' = p2.
Proof.
  unfold x_swap_debt. intros H. bd H as (u1 & G1 & H). bd H as (u2 & G2 & H). bd H as (u3 & G3 & H). bd H as (cc & Hcc & H). bd H as (d0 & Hd0 & H). bd H as (disc & Hdi & H). bd H as (debt & Hde & H). cbv zeta in H.
  bd H as (pr & Hpr & H). bd H as (price & Hprice & H). bd H as (am & Ham & H). bd H as ([amount value] & Hav & H). bd H as (paid & Hpaid & H). bd H as (p1 & Hp1 & H). bd H as ([p2 a1] & Hs & H). bd H as ([a2 toks] & Hw & H). bd H as (tk & Htk & H).
  apply Ok_inj in H. injection H as <- <- <- <- <-. apply guard_Ok in G1, G3. apply N.eqb_eq in G1. apply Z.ltb_lt in G3. apply expect_Ok in Hcc, Htk. apply dmul_mulq in Hd0, Hprice. apply dadd_Ok in Hdi as [-> _]. apply ddiv_Ok in Ham as (Hnz & -> & _).
  assert (debt = - va_vb a) as ->. { unfold dneg in Hde. apply chk_Ok in Hde as [-> _]. reflexivity. }
  assert (0 <= paid <= b_amt b /\ paid = value) as [Hpd ->].
  { apply take_adv_inv in Hpaid as [Hro Hb]. split; [exact Hb|]. unfold round_amount in Hro. change (unit_of E BASE) with 1 in Hro. apply chk_Ok in Hro as [-> _]. rewrite Z.div_1_r. lia. }
  exists cc, pr, price, amount, value. split; [exact G1|]. split; [exact G3|]. split; [exact Hcc|]. split; [exact Hpr|]. split; [rewrite Hprice, Hd0; reflexivity|]. split; [exact Hnz|]. split.
  { cbv zeta. destruct (Z.ltb_spec (va_collateral_amount a r) (Z.quot (Z.min (b_amt b) (- va_vb a) * E18) price)) as [Hlt|Hge].
    - bd Hav as (vv & Hvv & Hav). apply Ok_inj in Hav. injection Hav as <- <-. apply dmul_mulq in Hvv. right. split; [exact Hlt|]. split; [reflexivity|exact Hvv].
    - apply Ok_inj in Hav. injection Hav as <- <-. left. split; [exact Hge|]. split; reflexivity. }
  split; [exact Hpd|]. split; [reflexivity|]. split; [|exists p1, p2, a1, toks; auto 10].
  rewrite (proj2 (x_settle_account_inv _ _ _ _ _ Hs)) in Hw. unfold va_withdraw in Hw. bd Hw as ([y1 y2] & _ & Hw). bd Hw as (y3 & _ & Hw). apply Ok_inj in Hw. injection Hw as <- <-. reflexivity.
Qed.
Lemma swap_inv_pos E cx w a r b upd w' out : step E cx w (OSwapDebt a r b upd) = Ok (w', out) ->
  exists v0 c orc o p v token rest ev w1, get_acc w a = Ok v0 /\ get_config w ∅ = Ok c /\ prices_ok E w upd ∅ c orc o /\ oracle_pos o /\
    x_swap_debt E c o (get_pool w ∅) v0 r b = Ok (p, v, token, rest, ev) /\
    realize_acc (w <| w_oracle := orc |>) v = Ok w1 /\ w' = realize_pool w1 p /\ o_tokens out = [token; rest].
Proof.
  intros H. apply step_exec' in H. simpl in H. unfold m_swap_debt in H. bd H as (v0 & Hv & H). bd H as (c & Hc & H). cbv zeta in H. bd H as ([orc o] & Ho & H).
  bd H as ([[[[p v] tk] rs] ev] & Hx & H). bd H as (w1 & Hz & H). apply Ok_inj in H. injection H as <- <-.
  exists v0, c, orc, o, p, v, tk, rs, ev, w1. split; [exact Hv|]. split; [exact Hc|]. split; [eapply prices_ok_intro; [exact Hc| |exact Ho]; intros k Hk; set_solver|]. split; [eapply get_oracle_pos; eauto|].
  split; [exact Hx|]. split; [exact Hz|]. split; [reflexivity|reflexivity].
Qed.
Lemma rounding_down E r x : 0 <= x -> 0 <= units E r x <= x /\ x < units E r x + 10 ^ (18 - divis E r).
Proof. intros Hx. pose proof (unit_pos E r) as Hu. unfold units. fold (unit_of E r). pose proof (quot_bounds x (unit_of E r) Hx Hu). pose proof (Z.quot_pos x (unit_of E r) Hx Hu). nia. Qed.
Lemma discount_range d : 8 * 10 ^ 17 <= d <= 10 ^ 18 -> 98 * 10 ^ 16 <= mul d (10 ^ 17) + 9 * 10 ^ 17 <= 10 ^ 18.
Proof. intros H. unfold mul. rewrite Z.quot_div_nonneg by lia. split. - assert (8 * 10 ^ 16 <= d * 10 ^ 17 / 10 ^ 18); [|lia]. apply Z.div_le_lower_bound; lia. - assert (d * 10 ^ 17 / 10 ^ 18 <= 10 ^ 17); [|lia]. apply Z.div_le_upper_bound; lia. Qed.
Lemma mul_discount p d : 0 <= p -> 98 * 10 ^ 16 <= d <= 10 ^ 18 -> mul p (98 * 10 ^ 16) <= mul p d <= p.
Proof. intros Hp Hd. unfold mul. rewrite !Z.quot_div_nonneg by nia. split; [apply Z.div_le_mono; nia|]. apply Z.div_le_upper_bound; nia. Qed.

(** The swap price is the stored collateral price less a tenth of the configured discount, so between 98% and 100% of it. [value] is what the debt
    falls by, [x] the collateral handed over. The two inequalities say that [x] at the swap price is worth [value], up to one
    last-place unit of the value against the account, and one indivisible unit of the collateral in its favour. *)
Theorem C30_debt_swap E cx w a r b upd w' out : reachable E w -> step E cx w (OSwapDebt a r b upd) = Ok (w', out) ->
  b_res b = BASE /\ balance w a < 0 /\
  exists cc price value x, coll_cfg w r = Some cc /\ price = mul (price_of w' (cc_pair_id cc)) (mul (cc_discount cc) (10 ^ 17) + 9 * 10 ^ 17) /\
    mul (price_of w' (cc_pair_id cc)) (98 * 10 ^ 16) <= price <= price_of w' (cc_pair_id cc) /\
    o_tokens out = [(r, x); (BASE, b_amt b - value)] /\
    0 <= value <= b_amt b /\ balance w' a = balance w a + value /\ balance w' a <= 0 /\
    0 <= x <= collateral_of w a r /\ collateral_of w' a r = collateral_of w a r - x /\ (forall q, q <> r -> collateral_of w' a q = collateral_of w a q) /\
    x * price < (value + 1) * 10 ^ 18 /\ value * 10 ^ 18 < (x + 10 ^ (18 - divis E r)) * price /\
    po_base (w_pool w') = po_base (w_pool w) + value /\ po_vb (w_pool w') = po_vb (w_pool w) - value /\
    (* nothing is left unused: the payment, the debt or the collateral is exhausted *)
    (value = b_amt b \/ balance w' a = 0 \/ x = whole_units E r (collateral_of w a r)).
Proof.
  intros Hr H. pose proof H as Hi. apply step_inv in Hi as (Hb & _). simpl in Hb. rewrite andb_true_r in Hb. apply bucket_ok_nonneg in Hb.
  apply swap_inv_pos in H as (v0 & c & orc & o & p & v & token & rest & ev & w1 & Hv & Hc & Hpk & Hop & Hx & Hz & Hw' & Htok).
  pose proof Hx as Htr. apply (tr_swap_debt E (w_now w) c o (w_fd w)) in Htr as (paid0 & value0 & bs0 & Htr & _). apply swap_facts in Hx as (cc & pr & price & amount & value & Hbr & Hneg & Hcc & Hpr & Eprice & Hnz & Hcase & Hval & -> & _ & p1 & p2 & a1 & bs & Hd & Hs & Hw & Hlast & ->).
  assert (va_addr v0 = a) as Had by (apply get_acc_addr in Hv; exact Hv).
  pose proof Hv as Hv'. apply get_acc_inv in Hv' as (acc & Ha & _). pose proof (wi_nz _ (WI_reachable _ _ Hr)) as Hnz0. pose proof (starts_intro _ _ _ _ Hv Ha (Hnz0 _ _ Ha)) as Hst.
  match type of Hz with realize_acc ?y _ = _ => set (wx := y) in Hz end.
  destruct (call_finish _ _ _ _ _ _ _ _ _ _ wx _ Hr Ha Hst Had Htr eq_refl Hz) as (acc' & Ha' & Hrz & _ & _ & _ & Q1 & _ & Q3 & Q4 & _). cbn [s_acc] in *.
  apply vp_deposit_inv in Hd. apply x_settle_account_inv in Hs as [Hp2 Ha1]. 
  assert (w_accounts w' !! a = Some acc') as Ha2 by (rewrite Hw'; exact Ha').
  assert (w_oracle w' = orc) as Hor by (rewrite Hw'; unfold realize_pool; cbn; rewrite Q4; reflexivity).
  unfold balance at 1. rewrite Ha, <- (st_vb _ _ _ Hst). split; [exact Hbr|]. split; [exact Hneg|].
  (* collateral *)
  pose proof (coll_ok_reachable _ _ Hr _ _ Ha) as Hok0. pose proof Hw as Hw0. unfold va_withdraw, acc_withdraw in Hw0. bd Hw0 as ([a3 b1] & H2 & Hw0). bd Hw0 as (c1 & H1 & Hw0). bd H2 as ([vt b2] & H2a & H2). bd H2 as (c2 & H2b & H2). apply Ok_inj in Hw0, H2. injection Hw0 as Hvv Hbb. injection H2 as <- <-. subst b2.
  assert (va_comp a1 = acc) as Hcomp by (rewrite Ha1; cbn; exact (st_comp _ _ _ Hst)). rewrite Hcomp in *.
  destruct (take_batch_table _ _ _ _ _ _ _ _ H2a H2b Hok0) as [Tab Hnn]. pose proof (fun q => vts_take_batch_amount _ q _ _ _ _ _ H2a) as Hva.
  assert (forall q, collateral_of w' a q = collateral_of w a q - amount_in q bs) as Hcoll.
  { intros q. unfold collateral_of. rewrite Ha, Ha2. unfold recorded. rewrite (rz_coll _ _ Hrz). rewrite <- Hvv. cbn [va_comp ac_coll]. simpl.
    specialize (Hva q). pose proof (Tab q) as [Tr Tn]. pose proof (Hok0 q) as [Ko Kn]. unfold held_coll, in_vault in Ko, Kn. rewrite <- Tr, <- Ko in Hva. exact Hva. }
  pose proof (fun q => claims_taken _ _ _ _ _ _ eq_refl H2a ltac:(apply NoDup_singleton) q) as Htk.
  cbn [vts_take_adv_batch] in H2a. bd H2a as ([vx bx] & HA & H2a). apply Ok_inj in H2a. injection H2a as _ <-. cbn in Hlast. injection Hlast as ->.
  assert (b_res token = r) as Htr'. { unfold vts_take_adv in HA. repeat (match type of HA with (_ ≫= _) = Ok _ => bd HA as (? & ? & HA) | (if _ then _ else _) = _ => case_match | match _ with _ => _ end = _ => case_match end); try discriminate; apply Ok_inj in HA; injection HA as _ <-; reflexivity. }
  assert (b_amt token = units E r amount) as Hx.
  { specialize (Htk r). rewrite amount_cons, Htr', N.eqb_refl in Htk. change (amount_in r []) with 0 in Htk. match type of Htk with _ = match ?t with _ => _ end => assert (t = Some amount) as Et by (exact (lookup_insert (M := gmap resource) ∅ r amount)); rewrite Et in Htk end. lia. }
  assert (forall q, amount_in q [token] = if (r =? q)%N then units E r amount else 0) as Hin. { intros q. rewrite amount_cons, Htr', Hx. change (amount_in q []) with 0. destruct (r =? q)%N; lia. }
  (* price *)
  rewrite (proj1 (proj2 (vc_new_spec _ _ _ Hc))) in Hcc. assert (coll_cfg w r = Some cc) as Hcfg by exact Hcc.
  pose proof (C40_collateral_rates _ _ _ _ Hr Hcfg) as Hrates. rewrite lookup_fmap in Hcc. apply fmap_Some in Hcc as (ccc & Hcc & Ecc).
  unfold vo_price_resource in Hpr. bd Hpr as (k & Hk & Hpr). apply expect_Ok in Hk. pose proof (eq_trans (eq_sym Hk) (eq_trans (pk_res _ _ _ _ _ _ _ Hpk r) (f_equal (fmap cc_pair_id) Hcc))) as Hk2. cbn in Hk2. injection Hk2 as Hk2. assert (k = cc_pair_id cc) as -> by (rewrite Ecc, Hk2; reflexivity). clear Hk Hk2.
  apply expect_Ok in Hpr. assert (0 < pr) as Hpos by exact (Hop _ _ Hpr). pose proof (pk_stored _ _ _ _ _ _ _ Hpk _ _ Hpr) as Hst2.
  assert (price_of w' (cc_pair_id cc) = pr) as Epr. { unfold price_of, stored_price. rewrite Hor. destruct (or_prices orc !! cc_pair_id cc) as [[p0 t0]|]; [|discriminate Hst2]. cbn in Hst2. injection Hst2 as ->. reflexivity. }
  pose proof (discount_range _ (cr_discount _ Hrates)) as Hdr. pose proof (mul_discount pr _ ltac:(lia) Hdr) as Hmd. rewrite <- Eprice in Hmd.
  assert (0 <= price) as Hp0. { rewrite Eprice. apply quot_nonneg; lia. } assert (0 < price) as Hpp by lia. clear Hp0.
  set (debt := - va_vb v0) in *. assert (0 < debt) as Hdebt by (unfold debt; lia). cbv zeta in Hcase. set (m0 := Z.min (b_amt b) debt) in *. assert (0 <= m0 /\ m0 <= b_amt b /\ m0 <= debt) as (M0 & M1 & M2) by (unfold m0; lia).
  pose proof (quot_bounds (m0 * E18) price ltac:(unfold E18; lia) Hpp) as [K1 K2]. set (am := Z.quot (m0 * E18) price) in *.
  assert (va_collateral_amount v0 r = collateral_of w a r /\ 0 <= collateral_of w a r) as [Eav Hav].
  { unfold va_collateral_amount, collateral_of. rewrite Ha, (st_coll _ _ _ Hst). split; [destruct (ac_coll acc !! r) eqn:Eq; unfold recorded; rewrite Eq; reflexivity|]. exact (proj2 (C03_recorded_collateral_is_in_the_vault _ _ _ _ r Hr Ha)). }
  rewrite Eav in *. set (av := collateral_of w a r) in *.
  assert (0 <= am) as Ham by (apply Z.quot_pos; [unfold E18; lia|exact Hpp]).
  assert (0 <= amount <= av /\ value <= m0 /\ amount * price < (value + 1) * E18 /\ value * E18 < (amount + 1) * price) as (N1 & N2 & N3 & N4).
  { destruct Hcase as [(C1 & -> & ->)|(C1 & -> & ->)].
    - unfold E18 in *. lia.
    - pose proof (quot_bounds (av * price) E18 ltac:(nia) ltac:(reflexivity)) as [J1 J2]. change (Z.quot (av * price) E18) with (mul av price) in *. split; [lia|]. split; [|split; [exact J2|nia]].
      assert (av * price < m0 * E18) by nia. unfold E18 in *. nia. }
  pose proof (rounding_down E r amount (proj1 N1)) as [U1 U2].
  exists cc, price, value, (units E r amount). rewrite Epr. split; [exact Hcfg|]. split; [exact Eprice|]. split; [exact Hmd|].
  split. { rewrite Htok. destruct token as [t1 t2]. cbn in Htr', Hx. subst t1 t2. reflexivity. }
  assert (balance w' a = va_vb v0 + value) as Hbal. { unfold balance. rewrite Ha2, (rz_vb _ _ Hrz), <- Hvv. cbn. rewrite Ha1. reflexivity. }
  split; [exact Hval|]. split; [unfold balance at 2; rewrite Ha, <- (st_vb _ _ _ Hst); exact Hbal|]. split; [unfold debt in *; lia|]. split; [lia|].
  split; [rewrite Hcoll, Hin, N.eqb_refl; reflexivity|]. split; [intros q Hq; rewrite Hcoll, Hin; destruct (N.eqb_spec r q); [congruence|lia]|].
  change (10 ^ 18) with E18. split; [nia|]. split; [nia|].
  assert (w_pool w' = vp_realize p2) as Hpool by (rewrite Hw'; reflexivity). destruct (vp_realize_pool p2) as (R1 & _ & _ & _ & R5). rewrite Hpool, R1, R5, Hp2, Hd. cbn. split; [lia|]. split; [lia|].
  destruct Hcase as [(C1 & _ & ->)|(C1 & -> & _)]; [unfold m0; rewrite Hbal; unfold debt; lia|]. right. right. reflexivity.
Qed.
(** An account that closed at a loss has a debt of about 903 and two tokens of collateral worth 2000 each. *)
Definition sc_wd : res world := go sc_env sc_w3 [order cx_u2 A2 1%N (- dec 1) true; (cx_any, OAdvance 87430); (cx_any, OProcessRequest A2 2%N (msg 19000%N 2000%N 87425%N)); (cx_any, OAdvance 87440)].
Definition WD := get sc_wd.
Lemma WD_ok : sc_wd = Ok WD. Proof. apply okb_get. vm_compute. reflexivity. Qed.
Lemma WD_reach : reachable sc_env WD. Proof. apply go_reachable; [vm_compute; reflexivity|]. intros w H. rewrite W3_ok in H. apply Ok_inj in H. subst w. exact W3_reach. Qed.
Global Opaque WD.
Example C30_ex : exists w' out, reachable sc_env WD /\ step sc_env cx_any WD (OSwapDebt A2 20%N (BASE, dec 500) (msg 19000%N 2000%N 87435%N)) = Ok (w', out) /\ balance w' A2 = balance WD A2 + dec 500 /\ 0 < amount_in 20%N (o_tokens out).
Proof.
  assert (try_ WD (cx_any, OSwapDebt A2 20%N (BASE, dec 500) (msg 19000%N 2000%N 87435%N)) (fun w' out => (balance w' A2 =? balance WD A2 + dec 500) && (0 <? amount_in 20%N (o_tokens out))) = true) as H by (vm_compute; reflexivity).
  apply try_true in H as (w' & out & H & Hf). apply andb_true_iff in Hf as [F1 F2]. exists w', out. split; [exact WD_reach|]. split; [exact H|]. split; [apply Z.eqb_eq; exact F1|apply Z.ltb_lt; exact F2].
Qed.
(** Debt is needed, and only base tokens pay it. *)
Example C30_no_debt : tst (step sc_env cx_any W3 (OSwapDebt A2 20%N (BASE, dec 500) (msg 30000%N 2000%N 87419%N))) (fun _ => true) = false.
Proof. vm_compute. reflexivity. Qed.
