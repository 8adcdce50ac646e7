(** * Why executing an order or a withdrawal stops (for C65). *)
From Verif Require Import Base DFloat Lists Types Config Oracle Pool Account Fees Referral ExInternal Exchange System Sums Trace Frames Calls Spec SpecOracle SpecTrading SpecRequests SpecMargin SpecRefuse P_Ledger P_Accounts P_Fees P_Refs Frames2 P_Requests P_Requests2 Trading P_Orders P_Oracle P_Keeper P_Refuse P_Refuse2 P_Refuse3.

Lemma kr_missing v j : va_keeper_request v j = Err EMissingRequest -> kl_get (ac_requests (va_comp v)) j = None.
Proof. unfold va_keeper_request. destruct (va_req_upd v !! j); [discriminate|]. destruct (kl_get (ac_requests (va_comp v)) j); [discriminate|reflexivity]. Qed.
Lemma set_status_comp v is_ st v' l : va_try_set_status v is_ st = Ok (v', l) -> va_comp v' = va_comp v.
Proof.
  unfold va_try_set_status. intros H. bd H as (ph & _ & H). bd H as (rs & _ & H).
  assert (forall l0 v0 l1 v1 l2, rfold (va_try_set1 ph st) (v0, l1) l0 = Ok (v1, l2) -> va_comp v1 = va_comp v0) as G.
  { induction l0 as [|[i r] l0 IH]; intros v0 l1 v1 l2 Hf; cbn [rfold] in Hf; [apply Ok_inj in Hf; injection Hf as <- _; reflexivity|]. bd Hf as ([v2 l3] & Hs & Hf). rewrite (IH _ _ _ _ Hf). clear Hf IH.
    unfold va_try_set1 in Hs. destruct (in_list (kr_status r) ph); [|apply Ok_inj in Hs; injection Hs as <- _; reflexivity]. bd Hs as (v3 & Hv3 & Hs). apply Ok_inj in Hs. injection Hs as <- _. cbn.
    unfold va_add_active, va_remove_active in Hv3. destruct (is_pending st), (is_pending (kr_status r)); try (apply Ok_inj in Hv3; subst; reflexivity); bd Hv3 as (n & _ & Hv3); apply Ok_inj in Hv3; subst; reflexivity. }
  exact (G _ _ _ _ _ H).
Qed.
Lemma fee_top ec pc pp fr price value fee : x_calculate_fee ec pc pp fr price value = Ok fee -> fee <= DMAX.
Proof.
  unfold x_calculate_fee. intros H. bd H as (va & _ & H). bd H as (d & _ & H). bd H as (sk & _ & H). bd H as (f0 & _ & H). bd H as (t0 & _ & H). bd H as (t1 & _ & H). bd H as (t2 & _ & H). bd H as (f1 & _ & H). bd H as (fm & Hfm & H). bd H as (t3 & _ & H). bd H as (sr & _ & H).
  unfold dmul in Hfm. apply chk_Ok in Hfm as [-> Hfm]. unfold dclamp in H. match goal with |- _ => idtac end. match type of H with (if ?b then _ else _) = _ => destruct (Z.leb_spec 0 (Z.quot (va * ec_fee_max ec) E18)) end; [|discriminate H]. apply Ok_inj in H. subst fee. lia.
Qed.
Definition ois (p : vpool) (k : pair_id) : option (Z * Z) := (fun pp => (pp_oi_long pp, pp_oi_short pp)) <$> vp_positions p !! k.
(** The pair's recorded skew is that of its open interest [d] at [price]. *)
Definition snapped (p : vpool) (k : pair_id) (price d : Z) : Prop := exists pp, vp_positions p !! k = Some pp /\ pp_oi_long pp - pp_oi_short pp = d /\ pp_skew_abs_snap pp = Z.abs (mulq d price).
Lemma fee_most ec pc pp fr price value fee : x_calculate_fee ec pc pp fr price value = Ok fee -> fee <= mulq (Z.abs value) (ec_fee_max ec).
Proof.
  unfold x_calculate_fee. intros H. bd H as (va & Hva & H). bd H as (d & _ & H). bd H as (sk & _ & H). bd H as (f0 & _ & H). bd H as (t0 & _ & H). bd H as (t1 & _ & H). bd H as (t2 & _ & H). bd H as (f1 & _ & H). bd H as (fm & Hfm & H). bd H as (t3 & _ & H). bd H as (sr & _ & H).
  apply dabs_Ok in Hva as [-> _]. apply dmul_mulq in Hfm. rewrite <- Hfm. unfold dclamp in H. match type of H with (if ?b then _ else _) = _ => destruct b eqn:Hb end; [|discriminate H]. apply Z.leb_le in Hb. apply Ok_inj in H. subst fee. lia.
Qed.
Lemma traded_net pp (b : bool) amount cost : pp_oi_long (traded pp b amount cost) - pp_oi_short (traded pp b amount cost) = pp_oi_long pp - pp_oi_short pp + amount.
Proof. unfold traded. destruct b; cbn; lia. Qed.
Lemma snapped_put p k price pp (b : bool) amount cost d : vp_positions p !! k = Some pp -> snapped p k price d ->
  snapped (put_snap p k pp (resnap price (traded pp b amount cost))) k price (d + amount) /\
  vp_skew (put_snap p k pp (resnap price (traded pp b amount cost))) - vp_skew p = Z.abs (mulq (d + amount) price) - Z.abs (mulq d price).
Proof.
  intros Hpp (q & Hq & Hd & Hs). assert (q = pp) as -> by congruence. pose proof (traded_net pp b amount cost) as Ht. split.
  - eexists. split; [unfold put_snap; cbn; apply lookup_insert|]. split; [change (pp_oi_long (traded pp b amount cost) - pp_oi_short (traded pp b amount cost) = d + amount); lia|]. change (Z.abs (skew_at (traded pp b amount cost) price) = Z.abs (mulq (d + amount) price)). unfold skew_at. rewrite Ht. do 2 f_equal. lia.
  - unfold put_snap. change (vp_skew p + (Z.abs (skew_at (traded pp b amount cost) price) - pp_skew_abs_snap pp) - vp_skew p = Z.abs (mulq (d + amount) price) - Z.abs (mulq d price)). unfold skew_at. rewrite Ht, Hs, Hd. lia.
Qed.
Lemma snapped_update now c o p k price p' b : vo_prices o !! k = Some price -> x_update_pair now c o p k = Ok (p', b) -> exists pp, vp_positions p !! k = Some pp /\ snapped p' k price (pp_oi_long pp - pp_oi_short pp).
Proof.
  intros Hpr H. apply update_moved in H as (pc & price' & pp & pp1 & fpd & _ & Hp' & Hpp & _ & (U1 & U2 & _) & (U3 & _) & ->). assert (price' = price) as -> by congruence.
  exists pp. split; [exact Hpp|]. exists pp1. cbn. split; [apply lookup_insert|]. rewrite U1, U2. split; [reflexivity|]. rewrite U3. unfold skew_at. rewrite U1, U2. reflexivity.
Qed.
Lemma snapped_close c o p a k amount p' a' pnl fee price d : vo_prices o !! k = Some price -> x_close_position c o p a k amount = Ok (p', a', (pnl, fee)) -> snapped p k price d ->
  snapped p' k price (d + amount) /\ vp_skew p' - vp_skew p = Z.abs (mulq (d + amount) price) - Z.abs (mulq d price) /\ fee <= mulq (Z.abs (mulq amount price)) (ec_fee_max (vc_exchange c)).
Proof.
  intros Hpr H Hs. apply close_inv in H as (pc & fr & price' & pp & pos & cost & pp2 & _ & _ & Hp' & Hpp & _ & _ & _ & _ & Hf & _ & _ & -> & -> & _). assert (price' = price) as -> by congruence.
  destruct (snapped_put p k price pp (amount <? 0) amount (- cost) d Hpp Hs) as [S1 S2]. split; [exact S1|]. split; [exact S2|exact (fee_most _ _ _ _ _ _ _ Hf)].
Qed.
Lemma snapped_open c o p a k amount p' a' fee price d : vo_prices o !! k = Some price -> x_open_position c o p a k amount = Ok (p', a', fee) -> snapped p k price d ->
  snapped p' k price (d + amount) /\ vp_skew p' - vp_skew p = Z.abs (mulq (d + amount) price) - Z.abs (mulq d price) /\ fee <= mulq (Z.abs (mulq amount price)) (ec_fee_max (vc_exchange c)).
Proof.
  intros Hpr H Hs. apply open_inv in H as (pc & fr & price' & pp & cost & pp2 & _ & _ & Hp' & Hpp & _ & Hf & _ & -> & _ & _ & -> & _). assert (price' = price) as -> by congruence.
  destruct (snapped_put p k price pp (0 <? amount) amount cost d Hpp Hs) as [S1 S2]. split; [exact S1|]. split; [exact S2|exact (fee_most _ _ _ _ _ _ _ Hf)].
Qed.
Lemma fees_skew c s fee s1 q : x_settle_fees_referral c s fee = Ok (s1, q) -> vp_skew (s_pool s1) = vp_skew (s_pool s).
Proof.
  unfold x_settle_fees_referral, vp_add_vb. cbv zeta. intros H. do 10 (let x := fresh "x" in bd H as (x & ? & H)). bd H as (p' & Hp & H). bd Hp as (y & _ & Hp). apply Ok_inj in Hp. subst p'. bd H as (fd & _ & H). bd H as (a & _ & H). do 4 (let x := fresh "x" in bd H as (x & ? & H)). apply Ok_inj in H. injection H as <- _. reflexivity.
Qed.
(** The fees on the two parts of an order are at most the highest fee on the whole. *)
Lemma mulq_parts cl op price fm : 0 <= price -> 0 <= fm -> 0 <= cl * op -> mulq (Z.abs (mulq cl price)) fm + mulq (Z.abs (mulq op price)) fm <= mul (mul price (Z.abs (op + cl))) fm.
Proof.
  intros Hp Hf Hs. unfold mul, mulq. change (10 ^ 18) with E18. assert (forall x, Z.abs (Z.quot (x * price) E18) = Z.quot (Z.abs x * price) E18) as A by (intros x; rewrite <- Z.quot_abs by (vm_compute; discriminate); rewrite Z.abs_mul, (Z.abs_eq price) by lia; reflexivity).
  rewrite !A. assert (Z.abs (op + cl) = Z.abs cl + Z.abs op) as -> by nia. set (x := Z.abs cl). set (y := Z.abs op). assert (0 <= x) by (unfold x; lia). assert (0 <= y) by (unfold y; lia). clearbody x y.
  assert (0 < E18) as HE by reflexivity. assert (forall a b, 0 <= a -> 0 <= b -> Z.quot a E18 + Z.quot b E18 <= Z.quot (a + b) E18) as S.
  { intros a b Ha Hb. rewrite !Z.quot_div_nonneg by lia. apply Z.div_le_lower_bound; [exact HE|]. pose proof (Z.mul_div_le a E18 HE). pose proof (Z.mul_div_le b E18 HE). lia. }
  assert (0 <= Z.quot (x * price) E18) as Q1 by (apply Z.quot_pos; nia). assert (0 <= Z.quot (y * price) E18) as Q2 by (apply Z.quot_pos; nia).
  pose proof (S (x * price) (y * price) ltac:(nia) ltac:(nia)) as S1. replace (x * price + y * price) with (price * (x + y)) in S1 by ring.
  pose proof (S (Z.quot (x * price) E18 * fm) (Z.quot (y * price) E18 * fm) ltac:(nia) ltac:(nia)) as S2. etransitivity; [exact S2|]. apply Z.quot_le_mono; [exact HE|]. rewrite <- Z.mul_add_distr_r. apply Z.mul_le_mono_nonneg_r; [exact Hf|exact S1].
Qed.
Lemma f_order now c o s rq : (forall price, vo_prices o !! ro_pair rq = Some price -> 0 <= price) -> 0 <= ec_fee_max (vc_exchange c) -> have c o (s_pool s) (ro_pair rq) -> have_all c o (s_pool s) (s_acc s) -> feeds_ok c o ->
  fails (order_stop c o (s_pool s) (s_acc s) rq) (x_margin_order now c o s rq).
Proof.
  intros Hpos Hfm Hh Hall Hf. set (k := ro_pair rq) in *. set (P := order_stop c o (s_pool s) (s_acc s) rq). assert (P EArithmetic) as HA by (unfold P, order_stop; tauto).
  pose proof Hh as (H1 & H2 & H3). unfold x_margin_order. fold k. cbv zeta. apply f_bind; [apply f_some; exact H2|]. intros price Hpr. apply expect_Ok in Hpr.
  apply f_bind; [apply f_guard; intros Hl; left; split; [reflexivity|]; exists price; auto|]. intros [] _.
  apply f_bind; [apply f_arP; [exact HA|apply f_update; exact Hh]|]. intros [p1 b1] Hu. destruct (snapped_update _ _ _ _ _ _ _ _ Hpr Hu) as (pp0 & Hpp0 & Hsn1). pose proof (have_update _ _ _ _ _ _ _ Hu) as Hhu.
  assert (ois p1 k = ois (s_pool s) k) as Ho1. { apply update_moved in Hu as (pc & price' & pp & pp1 & fpd & _ & _ & Hpp & _ & (U1 & U2 & _) & _ & ->). unfold ois. rewrite Hpp. cbn. rewrite lookup_insert. cbn. rewrite U1, U2. reflexivity. }
  apply f_bind; [apply f_arP; [exact HA|apply (f_settle_funding c o); apply Hhu; exact Hh]|]. intros [[p2 a2] fund] Hsf.
  apply settle_funding_inv in Hsf as (pp & f & Hpp & _ & -> & Ha2).
  assert (dom (va_positions a2) = dom (va_positions (s_acc s)) /\ va_comp a2 = va_comp (s_acc s) /\ ap_amount (pos_of a2 k) = ap_amount (pos_of (s_acc s) k)) as (A1 & A2 & A3).
  { unfold pos_of. destruct (va_positions (s_acc s) !! k) as [pos|] eqn:Hposk; destruct Ha2 as (_ & ->); cbn.
    - split; [rewrite dom_insert_L; apply leibniz_equiv; intros x; apply (elem_of_dom_2 (D := gset pair_id)) in Hposk; set_solver|]. split; [reflexivity|]. rewrite lookup_insert. reflexivity.
    - split; [reflexivity|]. split; [reflexivity|]. rewrite Hposk. reflexivity. }
  set (p2 := p1 <| vp_upf := vp_upf p1 - f |> <| vp_vb := vp_vb p1 + f |>). assert (forall j, have c o (s_pool s) j -> have c o p2 j) as Hh2. { intros j Hj. apply Hhu in Hj as (J1 & J2 & J3). split; [exact J1|]. split; [exact J2|exact J3]. }
  assert (ois p2 k = ois (s_pool s) k) as Ho2 by exact Ho1. assert (have_all c o p2 a2) as Hall2. { intros j Hj. apply Hh2, Hall. apply elem_of_dom. rewrite <- A1. apply elem_of_dom. exact Hj. }
  clear Ha2 Hpp. apply f_bind; [apply f_arP; [exact HA|apply f_split]|]. intros [cl op] Hsp. assert (match va_positions a2 !! k with Some x => ap_amount x | None => 0 end = ap_amount (pos_of (s_acc s) k)) as Epos.
  { rewrite <- A3. unfold pos_of. destruct (va_positions a2 !! k); reflexivity. }
  rewrite Epos in Hsp. pose proof (split_spec _ _ _ _ _ Hsp) as (Hch & _ & _ & Hno & _). assert (0 <= cl * op) as Hsame by (apply split_inv in Hsp as (_ & _ & _ & _ & Sg); destruct (Z.eq_dec op 0) as [->|N1]; [lia|destruct (Z.eq_dec cl 0) as [->|N2]; [lia|specialize (Sg N1 N2); nia]]). apply split_inv in Hsp as (S1 & S2 & S3 & S4 & S5).
  apply f_bind. { destruct (cl =? 0); cbn [negb]; [apply f_Ok|]. apply f_bind; [|intros [[? ?] [? ?]] _; apply f_Ok]. apply f_arP; [exact HA|]. apply f_close; [apply Hh2; exact Hh|rewrite A3; exact S1|rewrite A3; exact S2]. }
  intros [[[p3 a3] pnl] fee0] Hcl. assert (snapped p2 k price (pp_oi_long pp0 - pp_oi_short pp0)) as Hsn2 by exact Hsn1. set (d := pp_oi_long pp0 - pp_oi_short pp0) in *.
  assert (snapped p3 k price (d + cl) /\ vp_skew p3 - vp_skew p2 = Z.abs (mulq (d + cl) price) - Z.abs (mulq d price) /\ fee0 <= mulq (Z.abs (mulq cl price)) (ec_fee_max (vc_exchange c))) as (Hsn3 & Hsk3 & Hfe3).
  { destruct (Z.eqb_spec cl 0) as [->|Hcn]; cbn [negb] in Hcl; [apply Ok_inj in Hcl; injection Hcl as <- <- _ <-; rewrite Z.add_0_r; split; [exact Hsn2|]; split; [rewrite !Z.sub_diag; reflexivity|]; unfold mulq; cbn; discriminate|].
    bd Hcl as ([[p5 a5] [pn fe]] & Hc & Hcl). apply Ok_inj in Hcl. injection Hcl as <- <- _ <-. exact (snapped_close _ _ _ _ _ _ _ _ _ _ _ _ Hpr Hc Hsn2). }
  assert ((forall j, have c o p2 j -> have c o p3 j) /\ dom (va_positions a3) ⊆ dom (va_positions a2) ∪ {[k]} /\ va_comp a3 = va_comp a2 /\ ap_amount (pos_of a3 k) = ap_amount (pos_of a2 k) + cl /\
    (op <> 0 -> exists l s l' s', ois p2 k = Some (l, s) /\ ois p3 k = Some (l', s') /\ (0 < op -> l' = l) /\ (op < 0 -> s' = s))) as (C1 & C2 & C3 & C4 & C5).
  { destruct (Z.eqb_spec cl 0) as [->|Hcn]; cbn [negb] in Hcl.
    - apply Ok_inj in Hcl. injection Hcl as <- <- _ _. split; [auto|]. split; [set_solver|]. split; [reflexivity|]. split; [lia|]. intros _. destruct (Hh2 k Hh) as (_ & _ & [q Hq]). unfold ois. rewrite Hq. cbn. exists (pp_oi_long q), (pp_oi_short q), (pp_oi_long q), (pp_oi_short q). auto.
    - bd Hcl as ([[p4 a4] [pn fe]] & Hc & Hcl). apply Ok_inj in Hcl. injection Hcl as <- <- _ _. apply close_inv in Hc as (pc & fr & price' & pp' & pos & cost & pp2 & _ & _ & _ & Q4 & -> & _ & _ & _ & _ & _ & _ & -> & -> & ->). cbn.
      split. { intros j (J1 & J2 & J3). split; [exact J1|]. split; [exact J2|]. cbn. destruct (decide (j = k)) as [->|Hn]; [rewrite lookup_insert; eauto|rewrite lookup_insert_ne by congruence; exact J3]. }
      split; [rewrite dom_insert_L; set_solver|]. split; [reflexivity|]. unfold pos_of at 1. cbn. rewrite lookup_insert. cbn. split; [reflexivity|]. intros Hop. unfold ois. rewrite Q4. cbn. rewrite lookup_insert. cbn. specialize (S5 Hop Hcn).
      do 4 eexists. split; [reflexivity|]. split; [reflexivity|]. unfold traded. destruct (Z.ltb_spec cl 0); cbn; split; intros; try reflexivity; exfalso; clear - S5 H H0; lia. }
  assert (P = order_stop c o (s_pool s) (s_acc s) rq) as HP by reflexivity.
  apply f_bind.
  { destruct (Z.eqb_spec op 0) as [->|Hop]; cbn [negb]; [apply f_Ok|]. destruct (S3 Hop) as [Hro Hopen]. apply f_bind.
    - eapply f_mono; [apply f_open; [apply C1, Hh2; exact Hh| |exact Hf|rewrite C4, A3; exact S4]|].
      + intros j Hj. apply C1, Hh2. apply (elem_of_dom (D := gset pair_id)) in Hj. apply C2 in Hj. apply elem_of_union in Hj as [Hj|Hj]; [|apply elem_of_singleton in Hj; subst; exact Hh]. rewrite A1 in Hj. apply Hall. apply elem_of_dom. exact Hj.
      + intros e He. rewrite HP. right; right; left. split; [exact Hro|]. fold k. rewrite <- Hopen. split; [exact Hop|]. destruct He as [(-> & pc & q & Q1 & Q2 & Q3)|[(-> & Q)|[->| ->]]]; [left|right; left|right; right; auto|right; right; auto].
        * split; [reflexivity|]. destruct (C5 Hop) as (l & t & l' & t' & O1 & O2 & O3 & O4). rewrite Ho2 in O1. unfold ois in O1, O2. rewrite Q2 in O2. cbn in O2. injection O2 as <- <-. match type of O1 with _ <$> ?m = _ => destruct m as [q0|] eqn:Hq0 end; [|discriminate O1]. cbn in O1. injection O1 as <- <-.
          exists pc, q0. split; [exact Q1|]. split; [first [exact Hq0|reflexivity]|]. destruct Q3 as [[G1 G2]|[G1 G2]]; [left; rewrite <- (O3 G1); auto|right; rewrite <- (O4 ltac:(lia)); auto].
        * split; [reflexivity|]. eapply N.lt_le_trans; [exact Q|]. apply N2Z.inj_le. rewrite !nat_N_Z. apply inj_le. apply subseteq_size. rewrite A1 in C2. set_solver.
    - intros [[p4 a4] fe] _. apply f_bind; [apply f_arP; [exact HA|apply f_dadd]|]. intros ? _. apply f_Ok. }
  intros [[p4 a4] fee] Hop4.
  assert (va_comp a4 = va_comp (s_acc s)) as Hc4.
  { destruct (op =? 0); cbn [negb] in Hop4; [apply Ok_inj in Hop4; injection Hop4 as _ <- _; congruence|]. bd Hop4 as ([[p5 a5] fe] & Ho & Hop4). bd Hop4 as (ff & _ & Hop4). apply Ok_inj in Hop4. injection Hop4 as _ <- _.
    apply open_inv in Ho as (pc & fr & price' & pp' & cost & pp2 & _ & _ & _ & _ & _ & _ & _ & _ & _ & _ & _ & -> & _). cbn. congruence. }
  assert (fee <= DMAX) as Hfee.
  { destruct (op =? 0); cbn [negb] in Hop4.
    - apply Ok_inj in Hop4. injection Hop4 as _ _ <-. destruct (cl =? 0); cbn [negb] in Hcl; [apply Ok_inj in Hcl; injection Hcl as _ _ _ <-; vm_compute; discriminate|].
      bd Hcl as ([[p5 a5] [pn fe]] & Hc & Hcl). apply Ok_inj in Hcl. injection Hcl as _ _ _ <-. apply close_inv in Hc as (pc & fr & price' & pp' & pos & cost & pp2 & _ & _ & _ & _ & _ & _ & _ & _ & Q & _). exact (fee_top _ _ _ _ _ _ _ Q).
    - bd Hop4 as ([[p5 a5] fe] & Ho & Hop4). bd Hop4 as (ff & Hff & Hop4). apply Ok_inj in Hop4. injection Hop4 as _ _ <-. unfold dadd in Hff. apply chk_Ok in Hff as [-> Hff]. lia. }
  assert (vp_skew p4 - vp_skew p2 = Z.abs (mulq (d + cl + op) price) - Z.abs (mulq d price) /\ fee <= mul (mul price (Z.abs (op + cl))) (ec_fee_max (vc_exchange c))) as (Hsk4 & Hfe4).
  { pose proof (mulq_parts cl op price _ (Hpos _ Hpr) Hfm Hsame) as Hmp. destruct (Z.eqb_spec op 0) as [->|Hon]; cbn [negb] in Hop4.
    - apply Ok_inj in Hop4. injection Hop4 as <- _ <-. rewrite Z.add_0_r. split; [exact Hsk3|]. assert (mulq (Z.abs (mulq 0 price)) (ec_fee_max (vc_exchange c)) = 0) as Z0 by (unfold mulq; cbn; reflexivity). lia.
    - bd Hop4 as ([[p5 a5] fe] & Ho & Hop4). bd Hop4 as (ff & Hff & Hop4). apply Ok_inj in Hop4. injection Hop4 as <- _ <-. apply dadd_Ok in Hff as [-> _].
      destruct (snapped_open _ _ _ _ _ _ _ _ _ _ _ Hpr Ho Hsn3) as (_ & T2 & T3). split; [clear - T2 Hsk3; lia|clear - T3 Hfe3 Hmp; lia]. }
  assert (Z.abs (op + cl) = Z.abs (change_of (s_acc s) rq) /\ d + cl + op = d + change_of (s_acc s) rq) as [Hab Hdc] by (unfold change_of; fold k; rewrite <- Hch; split; [f_equal; lia|lia]).
  rewrite Hab in Hfe4. rewrite Hdc in Hsk4. clear - HA HP Hc4 Hfee Hsk4 Hfe4 Hab Hpp0 Hpr. clearbody P.
  apply f_bind; [apply f_arP; [exact HA|apply f_dadd]|]. intros tot Htot. apply dadd_Ok in Htot as [-> _]. apply f_bind; [apply f_arP; [exact HA|apply f_dabs]|]. intros ta Hta. apply dabs_Ok in Hta as [-> _]. apply f_bind; [apply f_arP; [exact HA|apply f_dmul]|]. intros tv Htv. apply dmul_mulq in Htv. change mulq with mul in Htv.
  apply f_bind. { unfold sl_compare, sl_allowed. apply f_arP; [exact HA|]. apply f_bind; [|intros; apply f_Ok]. destruct (ro_slippage rq); ar_. }
  intros ok Hok. apply f_bind.
  { apply f_guard. intros ->. rewrite HP. right; right; right; left. split; [reflexivity|]. exists price. split; [exact Hpr|]. intros Hn. rewrite Hab in Htv. rewrite <- Htv in Hfe4, Hn. unfold sl_compare, sl_allowed in Hok. unfold within_slippage in Hn. destruct (ro_slippage rq) as [|q|x].
    + cbn [mbind res_bind] in Hok. apply Ok_inj in Hok. apply Z.leb_gt in Hok. lia.
    + bd Hok as (y & Hy & Hok). bd Hy as (z & Hz & Hy). apply dmul_mulq in Hz. apply ddiv_Ok in Hy as (_ & -> & _). apply Ok_inj in Hok. apply Z.leb_gt in Hok. unfold dec in Hok. rewrite Z.quot_mul_cancel_r in Hok by discriminate. subst z. change mulq with mul in Hok. lia.
    + cbn [mbind res_bind] in Hok. apply Ok_inj in Hok. apply Z.leb_gt in Hok. lia. }
  intros [] _.
  apply f_bind; [apply f_arP; [exact HA|apply f_fees]|]. intros [s1 [[[q0 q1] q2] q3]] Hfe. pose proof (fees_skew _ _ _ _ _ Hfe) as Hsk. cbn [s_pool] in Hsk. apply fees_referral_frame in Hfe as (F1 & _). cbn [s_acc] in F1. assert (ac_requests (va_comp (s_acc s1)) = ac_requests (va_comp (s_acc s))) as Hrq. { rewrite <- Hc4. unfold g_rq in F1. injection F1. auto. }
  assert (forall v l, (l = ro_activate rq \/ l = ro_cancel rq) -> ac_requests (va_comp v) = ac_requests (va_comp (s_acc s)) -> forall e, e = EMissingRequest /\ (exists j, j ∈ l /\ va_keeper_request v j = Err EMissingRequest) \/ e = EArithmetic -> P e) as Hmiss.
  { intros v l Hl Hv e [(-> & j & J1 & J2)| ->]; [|exact HA]. rewrite HP. right; left. split; [reflexivity|]. exists j. split; [apply elem_of_app; destruct Hl; subst; auto|]. rewrite <- Hv. apply kr_missing. exact J2. }
  apply f_bind; [eapply f_mono; [apply f_try_set; auto|]; apply Hmiss; auto|]. intros [a5 act] H5. apply set_status_comp in H5.
  apply f_bind; [eapply f_mono; [apply f_try_set; auto|]; apply Hmiss; [auto|rewrite H5; exact Hrq]|]. intros [a6 can] _.
  apply f_bind; [apply f_arP; [exact HA|apply f_dsub]|]. intros dsk Hd. apply dsub_Ok in Hd as [-> _]. apply f_bind; [eapply f_mono; [apply f_pool_integrity|]; intros e [[-> Hge]| ->]; [|exact HA]|].
  { rewrite HP. do 4 right. left. split; [reflexivity|]. exists price, pp0. split; [exact Hpr|]. split; [exact Hpp0|]. fold d. change (vp_skew (s_pool (s1 <| s_acc := a6 |>))) with (vp_skew (s_pool s1)) in Hge. rewrite Hsk in Hge. change mul with mulq. lia. }
  intros [] _.
  apply f_bind; [apply f_arP; [exact HA|apply f_dadd]|]. intros ? _. apply f_Ok.
Qed.

(** ** Withdrawals. *)
From Verif Require Import P_Tokens P_Coll P_Remove P_Whole.
Definition wd_stop (E : env) (cx : ctx) (base : Z) (v : vacc) (rq : req_remove) (e : error) : Prop :=
  e = EWithdrawalInsufficientBalance /\ (exists r, r ∈ map fst (rr_claims rq) /\ (if (r =? BASE)%N then va_vb v else va_collateral_amount v r) < amount_in r (rr_claims rq)) \/
  e = EWithdrawalInsufficientPoolTokens /\ base < amount_in BASE (rr_claims rq) \/
  e = EEngine /\ (exists r, r ∈ map fst (rr_claims rq) /\ amount_in r (rr_claims rq) <= 0) \/
  e = EInvalidAccount /\ (exists toks, cx_accepts cx (rr_target rq) toks = false /\ forall r, amount_in r toks = units E r (amount_in r (rr_claims rq))) \/
  e = EInsufficientMargin \/
  e = EArithmetic.
Lemma merge_keys cs m : x_merge_claims cs = Ok m -> forall r x, m !! r = Some x -> r ∈ map fst cs.
Proof.
  unfold x_merge_claims. match goal with |- rfold ?f _ _ = _ -> _ => assert (forall l m0 m1, rfold f m0 l = Ok m1 -> forall r x, m1 !! r = Some x -> is_Some (m0 !! r) \/ r ∈ map fst l) as Hg end.
  { induction l as [|b l IH]; intros m0 m1 H r x Hx; cbn [rfold] in H; [apply Ok_inj in H; subst; eauto|]. bd H as (m2 & H1 & H). destruct (IH _ _ H _ _ Hx) as [[y Hy]|Hl]; [|right; cbn; right; exact Hl].
    destruct (decide (fst b = r)) as [<-|Hn]; [right; cbn; left|]. left. destruct (m0 !! fst b) as [z|]; [bd H1 as (q & _ & H1)|]; apply Ok_inj in H1; subst m2; rewrite lookup_insert_ne in Hy by exact Hn; eauto. }
  intros H r x Hx. destruct (Hg _ _ _ H _ _ Hx) as [[y Hy]|Hl]; [rewrite lookup_empty in Hy; discriminate Hy|exact Hl].
Qed.
Lemma f_merge cs : fails ar (x_merge_claims cs).
Proof. unfold x_merge_claims. apply (f_rfold ar (fun _ => True)); [|auto|exact I]. intros m c _ _. destruct (m !! fst c); [|apply f_Ok]. ar_. Qed.
Lemma units_nonneg E r x : 0 <= x -> 0 <= units E r x.
Proof. intros H. unfold units. pose proof (unit_pos E r). rewrite Z.quot_div_nonneg by lia. apply Z.mul_nonneg_nonneg; [apply Z.div_pos; lia|lia]. Qed.
Lemma take_adv_why E r have amt : amt <= have -> fails (fun e => e = EEngine /\ amt <= 0 \/ e = EArithmetic) (take_adv E r ToZero have amt).
Proof.
  intros H1. unfold take_adv. apply f_bind; [eapply f_mono; [apply f_round|auto]|]. intros a Ha. unfold round_amount in Ha. apply chk_Ok in Ha as [-> _]. fold (units E r amt). apply f_bind; [|intros; apply f_Ok]. apply f_guard. intros Hf. left. split; [reflexivity|].
  destruct (Z.le_gt_cases amt 0) as [|Hp]; [assumption|]. exfalso. pose proof (units_nonneg E r amt). pose proof (units_le E r amt). apply andb_false_iff in Hf as [Hf|Hf]; apply Z.leb_gt in Hf; lia.
Qed.
Definition same_but_vb (v v' : vacc) : Prop := va_coll v' = va_coll v /\ va_comp v' = va_comp v.
Lemma f_claims E (Q : error -> Prop) base vb v0 l : NoDup (map fst l) -> Q EArithmetic ->
  (forall r x, (r, x) ∈ l -> (if (r =? BASE)%N then vb else va_collateral_amount v0 r) < x -> Q EWithdrawalInsufficientBalance) ->
  (forall x, (BASE, x) ∈ l -> base < x -> Q EWithdrawalInsufficientPoolTokens) ->
  (forall r x, (r, x) ∈ l -> x <= 0 -> Q EEngine) ->
  forall p v toks rest, same_but_vb v0 v -> (BASE ∈ map fst l -> va_vb v = vb /\ vp_base p = base /\ po_base (vp_comp p) = base) -> fails Q (rfold (x_claim1 E) (p, v, toks, rest) l).
Proof.
  intros Hnd HA HB HP HE. induction l as [|[r x] l IH]; intros p v toks rest Hs Hin; cbn [rfold]; [apply f_Ok|]. cbn [map fst] in Hnd, Hin. apply NoDup_cons in Hnd as [Hni Hnd].
  assert (forall p v toks rest, same_but_vb v0 v -> (BASE ∈ map fst l -> va_vb v = vb /\ vp_base p = base /\ po_base (vp_comp p) = base) -> fails Q (rfold (x_claim1 E) (p, v, toks, rest) l)) as IH'.
  { apply IH; [exact Hnd| | |]. - intros r' x' H'. apply (HB r'). right; exact H'. - intros x' H'. apply (HP x'). right; exact H'. - intros r' x' H'. apply (HE r'). right; exact H'. }
  clear IH. unfold x_claim1 at 2. destruct (N.eqb_spec r BASE) as [->|Hr].
  - destruct (Hin ltac:(left)) as (V1 & V2 & V3). apply f_bind.
    + apply f_bind; [apply f_guard; intros Hg; apply Z.leb_gt in Hg; eapply (HB BASE x); [left|]; rewrite N.eqb_refl; lia|]. intros [] _. apply f_bind; [apply f_guard; intros Hg; apply Z.leb_gt in Hg; apply (HP x); [left|lia]|]. intros [] Hg2. apply guard_Ok, Z.leb_le in Hg2.
      apply f_bind. { unfold vp_withdraw, pool_withdraw. apply f_bind; [|intros [? ?] _; apply f_bind; [apply f_arP; [exact HA|apply f_dsub]|intros; apply f_Ok]]. apply f_bind; [|intros; apply f_Ok]. eapply f_mono; [apply take_adv_why; lia|]. intros e [[-> Hx]| ->]; [apply (HE BASE x); [left|exact Hx]|exact HA]. }
      intros [p1 value] _. apply f_bind; [apply f_arP; [exact HA|apply f_dneg]|]. intros nv _. apply f_bind; [apply f_arP; [exact HA|apply f_settle]|]. intros [p2 v2] _. apply f_Ok.
    + intros [[[p1 v1] t1] r1] H. bd H as ([] & _ & H). bd H as ([] & _ & H). bd H as ([p2 val] & _ & H). bd H as (nv & _ & H). bd H as ([p3 v3] & Hst & H). apply Ok_inj in H. injection H as <- <- <- <-. apply x_settle_account_inv in Hst as [-> ->]. apply IH'; [exact Hs|]. intros Hb. contradiction.
  - apply f_bind.
    + apply f_bind; [|intros [] _; apply f_Ok]. apply f_guard. intros Hg. apply Z.leb_gt in Hg. eapply (HB r x); [left|]. apply N.eqb_neq in Hr. rewrite Hr. unfold va_collateral_amount in *. rewrite (proj1 Hs) in Hg. exact Hg.
    + intros [[[p1 v1] t1] r1] H. bd H as ([] & _ & H). apply Ok_inj in H. injection H as <- <- <- <-. apply IH'; [exact Hs|]. intros Hb. apply Hin. right. exact Hb.
Qed.
Lemma claims_checked E l : forall p a toks rest p' a' toks' rest', rfold (x_claim1 E) (p, a, toks, rest) l = Ok (p', a', toks', rest') -> same_but_vb a a' /\ forall r x, (r, x) ∈ l -> r <> BASE -> x <= va_collateral_amount a r.
Proof.
  induction l as [|[r x] l IH]; intros p a toks rest p' a' toks' rest' H; cbn [rfold] in H; [apply Ok_inj in H; injection H as _ <- _ _; split; [split; reflexivity|]; intros r x Hx; inversion Hx|].
  bd H as ([[[p1 v1] t1] r1] & H1 & H). destruct (IH _ _ _ _ _ _ _ _ H) as [[I1 I2] I3]. unfold x_claim1 in H1. destruct (N.eqb_spec r BASE) as [->|Hr].
  - bd H1 as ([] & _ & H1). bd H1 as ([] & _ & H1). bd H1 as ([p2 val] & _ & H1). bd H1 as (nv & _ & H1). bd H1 as ([p3 v3] & Hst & H1). apply Ok_inj in H1. injection H1 as <- <- <- <-. apply x_settle_account_inv in Hst as [-> ->]. split; [split; assumption|].
    intros q y Hy Hq. apply elem_of_cons in Hy as [[= -> ->]|Hy]; [contradiction|]. exact (I3 q y Hy Hq).
  - bd H1 as ([] & Hg & H1). apply guard_Ok, Z.leb_le in Hg. apply Ok_inj in H1. injection H1 as <- <- <- <-. split; [split; assumption|]. intros q y Hy Hq. apply elem_of_cons in Hy as [[= -> ->]|Hy]; [exact Hg|exact (I3 q y Hy Hq)].
Qed.
Lemma f_take2 E (Q : error -> Prop) : Q EArithmetic -> forall cs v, NoDup (map fst cs) -> (forall r x, (r, x) ∈ cs -> x <= vts_amount v r /\ (x <= 0 -> Q EEngine)) ->
  fails Q (vts_take_adv_batch E v cs ToZero) /\ forall v' bs, vts_take_adv_batch E v cs ToZero = Ok (v', bs) -> map fst bs = map fst cs.
Proof.
  intros HA. induction cs as [|[r x] cs IH]; intros v Hn Hx; cbn [vts_take_adv_batch]; [split; [apply f_Ok|intros v' bs [= <- <-]; reflexivity]|].
  destruct (Hx r x ltac:(left)) as (E1 & E3). cbn [map fst] in Hn. apply NoDup_cons in Hn as [Hni Hn].
  assert (forall v1 b, vts_take_adv E v r x ToZero = Ok (v1, b) -> fst b = r /\ fails Q (vts_take_adv_batch E v1 cs ToZero) /\ forall v' bs, vts_take_adv_batch E v1 cs ToZero = Ok (v', bs) -> map fst bs = map fst cs) as Hone.
  { intros v1 b H. unfold vts_take_adv in H. bd H as (z & Hz & H). apply Ok_inj in H. injection H as <- <-. split; [reflexivity|]. apply IH; [exact Hn|]. intros r' x' Hin. destruct (Hx r' x' ltac:(right; exact Hin)) as (F1 & F3).
    assert (vts_amount (<[r:=vts_amount v r - z]> v) r' = vts_amount v r') as ->; [|auto]. unfold vts_amount, vaults in *. rewrite (lookup_insert_ne (M := gmap resource)); [reflexivity|]. intros ->. apply Hni. apply elem_of_list_In. change r' with (fst (r', x')). apply in_map. apply elem_of_list_In. exact Hin. }
  split.
  - apply f_bind. { unfold vts_take_adv. apply f_bind; [|intros; apply f_Ok]. eapply f_mono; [apply take_adv_why; assumption|]. intros e [[-> H]| ->]; auto. }
    intros [v1 b] H1. destruct (Hone _ _ H1) as (_ & Hf & _). apply f_bind; [exact Hf|]. intros [? ?] _. apply f_Ok.
  - intros v' bs H. bd H as ([v1 b] & H1 & H). destruct (Hone _ _ H1) as (Hb & _ & Hm). bd H as ([v2 bs'] & H2 & H). apply Ok_inj in H. injection H as <- <-. cbn. rewrite Hb. f_equal. exact (Hm _ _ H2).
Qed.
Lemma f_collsub2 (Q : error -> Prop) : Q EArithmetic -> forall (cs : list (resource * Z)) (m : gmap resource Z), NoDup (map fst cs) -> (forall r, r ∈ map fst cs -> is_Some (m !! r) \/ Q EEngine) -> fails Q (rfold coll_sub m cs).
Proof.
  intros HA. induction cs as [|[r x] cs IH]; intros m Hn Hm; cbn [rfold]; [apply f_Ok|]. cbn [map fst] in Hn, Hm. apply NoDup_cons in Hn as [Hni Hn]. apply f_bind.
  - unfold coll_sub. cbn. apply f_bind. { destruct (Hm r ltac:(left)) as [[y Hy]|Hq]; [apply f_some; eauto|]. intros e He. destruct (m !! r); [discriminate He|]. injection He as <-. exact Hq. } intros y _. apply f_arP; [exact HA|]. ar_.
  - intros m' H. apply IH; [exact Hn|]. intros r' Hin. destruct (Hm r' ltac:(right; exact Hin)) as [[y Hy]|Hq]; [|auto]. left. assert (r' <> r) as Hne by congruence.
    unfold coll_sub in H. bd H as (z & _ & H). bd H as (t & _ & H). apply Ok_inj in H. subst m'. cbn. destruct (t =? 0); [rewrite lookup_delete_ne by congruence|rewrite lookup_insert_ne by congruence]; eauto.
Qed.
Lemma more_amount E cs m v v' bs : x_merge_claims cs = Ok m -> vts_take_adv_batch E v (List.filter (fun x => negb (fst x =? BASE)%N) (map_to_list m)) ToZero = Ok (v', bs) ->
  forall r, amount_in r bs = if (r =? BASE)%N then 0 else units E r (amount_in r cs).
Proof.
  intros Hmm Htk r. assert (NoDup (map fst (map_to_list m))) as Hnd by apply NoDup_fst_map_to_list. rewrite (claims_taken _ _ _ _ _ _ eq_refl Htk).
  2:{ apply filter_nodup. exact Hnd. }
  rewrite <- (merge_claims_amount r _ _ Hmm).
  match goal with |- match ?t with _ => _ end = _ => assert (t = if (r =? BASE)%N then None else m !! r) as -> end.
  { rewrite <- (list_to_map_to_list m) at 2. clear - Hnd. induction (map_to_list m) as [|[q x] l IH]; [simpl; rewrite !lookup_empty; destruct (r =? BASE)%N; reflexivity|]. inversion Hnd; subst. cbn [List.filter fst].
    destruct (N.eqb_spec q BASE) as [->|Hq]; cbn [negb].
    - rewrite (IH H2). destruct (N.eqb_spec r BASE); [reflexivity|]. cbn [list_to_map foldr uncurry]. cbn. rewrite lookup_insert_ne by congruence. reflexivity.
    - cbn. destruct (decide (q = r)) as [->|Hne]; [rewrite !lookup_insert; apply N.eqb_neq in Hq; rewrite Hq; reflexivity|rewrite !lookup_insert_ne by congruence; exact (IH H2)]. }
  destruct (N.eqb_spec r BASE); [reflexivity|]. destruct (m !! r); [reflexivity|]. cbn. reflexivity.
Qed.
Lemma f_withdraw E cx c p v o rq : va_coll v = ac_coll (va_comp v) -> coll_ok (va_comp v) -> vp_base p = po_base (vp_comp p) -> have_all c o p v -> feeds_ok c o ->
  fails (wd_stop E cx (po_base (vp_comp p)) v rq) (x_remove_collateral E cx c p v o rq).
Proof.
  intros Hsy Hco Hb Hall Hf. set (Q := wd_stop E cx (po_base (vp_comp p)) v rq). assert (Q EArithmetic) as HA by (unfold Q, wd_stop; tauto).
  unfold x_remove_collateral. apply f_bind; [apply f_arP; [exact HA|apply f_merge]|]. intros m Hm. assert (NoDup (map fst (map_to_list m))) as Hnd by apply NoDup_fst_map_to_list.
  assert (forall r x, (r, x) ∈ map_to_list m -> r ∈ map fst (rr_claims rq) /\ x = amount_in r (rr_claims rq)) as Hmr.
  { intros r x Hx. apply elem_of_map_to_list in Hx. split; [exact (merge_keys _ _ Hm _ _ Hx)|]. rewrite <- (merge_claims_amount r _ _ Hm), Hx. reflexivity. }
  apply f_bind.
  { eapply (f_claims E Q (po_base (vp_comp p)) (va_vb v) v); [exact Hnd|exact HA| | | |split; reflexivity|intros _; auto].
    - intros r x Hx Hlt. destruct (Hmr _ _ Hx) as [M1 ->]. left. split; [reflexivity|]. eauto.
    - intros x Hx Hlt. destruct (Hmr _ _ Hx) as [M1 ->]. right; left. auto.
    - intros r x Hx Hlt. destruct (Hmr _ _ Hx) as [M1 ->]. right; right; left. split; [reflexivity|]. eauto. }
  intros [[[p1 a1] t1] r1] Hcl. destruct (claims_checked _ _ _ _ _ _ _ _ _ _ Hcl) as [[K1 K2] K3]. destruct (claims_served _ _ _ _ _ _ _ _ _ _ Hcl Hnd) as (-> & Hcase). cbn [app].
  assert (vp_positions p1 = vp_positions p /\ va_positions a1 = va_positions v) as [Hpp Hap]. { destruct Hcase as [(_ & -> & -> & _)|(amt & x & _ & _ & _ & _ & _ & -> & ->)]; split; reflexivity. }
  set (cs := List.filter (fun x => negb (fst x =? BASE)%N) (map_to_list m)). assert (NoDup (map fst cs)) as Hnc by (apply filter_nodup; exact Hnd).
  assert (forall r x, (r, x) ∈ cs -> (r, x) ∈ map_to_list m /\ r <> BASE) as Hcs.
  { intros r x Hx. unfold cs in Hx. split; [exact (filter_in _ _ _ Hx)|]. apply elem_of_list_In, filter_In in Hx as [_ Hx]. cbn in Hx. apply negb_true_iff, N.eqb_neq in Hx. exact Hx. }
  assert (forall r x, (r, x) ∈ cs -> x <= held_coll (va_comp v) r /\ (x <= 0 -> Q EEngine)) as Hcv.
  { intros r x Hx. destruct (Hcs _ _ Hx) as [X1 X2]. split; [pose proof (K3 _ _ X1 X2) as K; unfold va_collateral_amount in K; rewrite Hsy in K; exact K|]. intros Hle. destruct (Hmr _ _ X1) as [M1 ->]. right; right; left. split; [reflexivity|]. eauto. }
  assert (forall r, r ∈ map fst cs -> is_Some (ac_coll (va_comp v) !! r) \/ Q EEngine) as Hkey.
  { intros r Hr. apply elem_of_list_In, in_map_iff in Hr as ([r' x] & <- & Hx). apply elem_of_list_In in Hx. cbn. destruct (Hcv _ _ Hx) as [L1 L2]. destruct (ac_coll (va_comp v) !! r') eqn:Hl; [left; eauto|]. right. apply L2. unfold held_coll in L1. match type of L1 with _ <= default 0 ?t => assert (t = None) as EN by exact Hl; rewrite EN in L1 end. exact L1. }
  destruct (f_take2 E Q HA cs (ac_vaults (va_comp v)) Hnc) as [T1 T2].
  { intros r x Hx. destruct (Hcv _ _ Hx) as [L1 L2]. destruct (Hco r) as [C1 C2]. unfold in_vault in *. unfold vts_amount. split; [rewrite C1 in L1; exact L1|exact L2]. }
  apply f_bind.
  { unfold va_withdraw, acc_withdraw. rewrite K2, K1, Hsy. apply f_bind.
    - apply f_bind; [exact T1|]. intros [v1 bs] Hbs. apply f_bind; [apply f_collsub2; [exact HA|rewrite (T2 _ _ Hbs); exact Hnc|rewrite (T2 _ _ Hbs); exact Hkey]|]. intros; apply f_Ok.
    - intros [ac bs] Hbs. bd Hbs as ([v1 bs1] & Hb1 & Hbs). bd Hbs as (c1 & _ & Hbs). apply Ok_inj in Hbs. injection Hbs as _ <-. apply f_bind; [apply f_collsub2; [exact HA|rewrite (T2 _ _ Hb1); exact Hnc|rewrite (T2 _ _ Hb1); exact Hkey]|]. intros; apply f_Ok. }
  intros [a2 more] Hw. destruct (va_withdraw_inv _ _ _ _ _ Hw) as (vt & Htk & _). rewrite K2 in Htk. pose proof (more_amount _ _ _ _ _ _ Hm Htk) as Hmore.
  apply f_bind.
  { apply f_guard. intros Hacc. right; right; right; left. split; [reflexivity|]. exists (t1 ++ more). split; [exact Hacc|]. intros r. rewrite amount_app, Hmore. destruct (N.eqb_spec r BASE) as [->|Hne].
    - rewrite <- (merge_claims_amount BASE _ _ Hm). destruct Hcase as [(Hno & _ & _ & ->)|(amt & x & Hin & -> & _ & _ & -> & _)].
      + destruct (m !! BASE) as [y|] eqn:Hy; [exfalso; apply Hno; change BASE with (fst (BASE, y)); apply in_map, elem_of_list_In, elem_of_map_to_list; exact Hy|]. reflexivity.
      + apply elem_of_list_In, elem_of_map_to_list in Hin. rewrite Hin. cbn [app]. rewrite amount_cons. cbn [b_res b_amt fst snd]. rewrite N.eqb_refl. cbn [default]. unfold amount_in. cbn. lia.
    - destruct Hcase as [(_ & _ & _ & ->)|(amt & x & _ & _ & _ & _ & -> & _)]; [cbn; lia|]. cbn [app]. rewrite amount_cons. cbn [b_res b_amt fst snd]. apply N.eqb_neq in Hne. rewrite N.eqb_sym, Hne. unfold amount_in. cbn. lia. }
  intros [] _. apply f_bind; [|intros; apply f_Ok]. eapply f_mono; [apply f_integrity; [|exact Hf]|unfold Q, wd_stop; tauto].
  intros k Hk. assert (va_positions a2 = va_positions a1) as E2. { unfold va_withdraw in Hw. bd Hw as ([ac bs] & _ & Hw). bd Hw as (c2 & _ & Hw). apply Ok_inj in Hw. injection Hw as <- _. reflexivity. }
  rewrite E2, Hap in Hk. destruct (Hall k Hk) as (J1 & J2 & J3). split; [exact J1|]. split; [exact J2|]. rewrite Hpp. exact J3.
Qed.
