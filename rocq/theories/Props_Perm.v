(** * C51: the valuation loops do not depend on the iteration order of the hash maps they run over.
    The program iterates over a HashMap in an unspecified order; the model's functions fold over [map_to_list]. Here the same loop bodies
    are folded over an arbitrary permutation [l] of the map's entries. *)
From Verif Require Import Base DFloat Lists Types Config Oracle Pool Account Fees Referral ExInternal Exchange System Scenario Sums Trace Frames Calls Shape Spec SpecOracle SpecTrading SpecMargin P_Ledger P_DFloat Witness Props_Config P_Fees P_Tokens P_Keeper Trading P_Positions P_Positions2 P_Orders P_Final P_OrderCall P_Margin P_Liq Props_Orders.

(** The program's loops, run in the order [l]. *)
Definition positions_in_order (c : vconfig) (p : vpool) (share : Z) (o : voracle) (l : list (pair_id * account_position)) : res (Z * Z) :=
  rfold (x_value_position1 c p share o) (0, 0) l.
Definition collateral_in_order (c : vconfig) (o : voracle) (l : list (resource * Z)) : res (Z * Z) := rfold (x_value_collateral1 c o) (0, 0) l.
Lemma loops_are_the_model c p a o : (share ← va_fee_rebate a; positions_in_order c p share o (map_to_list (va_positions a))) = x_value_positions c p a o /\
  collateral_in_order c o (map_to_list (va_coll a)) = x_value_collateral c a o.
Proof. split; reflexivity. Qed.

(** Any two orders that both finish give the same value and the same margin ... *)
Theorem C51_positions_any_order c p share o l1 l2 r1 r2 : l1 ≡ₚ l2 -> positions_in_order c p share o l1 = Ok r1 -> positions_in_order c p share o l2 = Ok r2 -> r1 = r2.
Proof. intros Hp H1 H2. apply value_positions_fold in H1 as [-> _], H2 as [-> _]. rewrite !(lsum_perm _ _ _ Hp). reflexivity. Qed.
Theorem C51_collateral_any_order c o l1 l2 r1 r2 : l1 ≡ₚ l2 -> collateral_in_order c o l1 = Ok r1 -> collateral_in_order c o l2 = Ok r2 -> r1 = r2.
Proof. intros Hp H1 H2. apply value_collateral_fold in H1, H2. subst. rewrite !(lsum_perm _ _ _ Hp). reflexivity. Qed.

(** ... and if one order finishes, every order finishes, unless a running total leaves the range of the decimal type: which it cannot
    when the absolute values of the terms add up to at most the largest decimal. *)
Lemma value1_any c p fr o tp tm tp' tm' x r : x_value_position1 c p fr o (tp, tm) x = Ok r ->
  DMIN <= tp' + t_profit c p fr o x <= DMAX -> DMIN <= tm' + t_margin pc_margin_initial c o x <= DMAX -> x_value_position1 c p fr o (tp', tm') x = Ok (tp' + t_profit c p fr o x, tm' + t_margin pc_margin_initial c o x).
Proof.
  intros H B1 B2. pose proof H as H0. apply value_position1_spec in H0 as [Er _]. destruct x as [k pos]. unfold x_value_position1 in *.
  bd H as (pc & Hpc & H). bd H as (price & Hpr & H). bd H as (na & Hna & H). bd H as (va & Hva & H). bd H as (vab & Hvab & H). bd H as (pp & Hpp & H). bd H as (fe & Hfe & H). bd H as (fu & Hfu & H). bd H as (nv & Hnv & H). bd H as (ya & Hya & H). bd H as (yb & Hyb & H). bd H as (pnl & Hpnl & H). bd H as (mg & Hmg & H).
  bd H as (tp1 & Htp & H). bd H as (tm1 & Htm & H). apply Ok_inj in H. rewrite Er in H. injection H as E1 E2. apply dadd_Ok in Htp as [Htp _], Htm as [Htm _].
  assert (t_profit c p fr o (k, pos) = pnl) as Ep by lia. assert (t_margin pc_margin_initial c o (k, pos) = mg) as Em by lia. rewrite Ep, Em in *.
  rewrite Hpc. cbn [mbind res_bind]. rewrite Hpr. cbn [mbind res_bind]. rewrite Hna. cbn [mbind res_bind]. rewrite Hva. cbn [mbind res_bind]. rewrite Hvab. cbn [mbind res_bind]. rewrite Hpp. cbn [mbind res_bind]. rewrite Hfe. cbn [mbind res_bind]. rewrite Hfu. cbn [mbind res_bind].
  rewrite Hnv. cbn [mbind res_bind]. rewrite Hya. cbn [mbind res_bind]. rewrite Hyb. cbn [mbind res_bind]. rewrite Hpnl. cbn [mbind res_bind]. rewrite Hmg. cbn [mbind res_bind].
  rewrite (proj2 (dadd_Ok tp' pnl (tp' + pnl)) (conj eq_refl B1)). cbn [mbind res_bind]. rewrite (proj2 (dadd_Ok tm' mg (tm' + mg)) (conj eq_refl B2)). reflexivity.
Qed.
Lemma coll1_any c o tp tm tp' tm' x r : x_value_collateral1 c o (tp, tm) x = Ok r ->
  DMIN <= tp' + t_coll cc_discount c o x <= DMAX -> DMIN <= tm' + t_coll cc_margin c o x <= DMAX -> x_value_collateral1 c o (tp', tm') x = Ok (tp' + t_coll cc_discount c o x, tm' + t_coll cc_margin c o x).
Proof.
  intros H B1 B2. assert (rfold (x_value_collateral1 c o) (tp, tm) [x] = Ok r) as H0 by (cbn [rfold]; rewrite H; reflexivity). apply value_collateral_fold in H0. rewrite !lsum_cons in H0. change (lsum _ []) with 0 in H0. rewrite !Z.add_0_r in H0.
  unfold x_value_collateral1 in *. destruct (vc_collaterals c !! fst x) as [cc|] eqn:Hcc.
  - bd H as (price & Hpr & H). bd H as (va & Hva & H). bd H as (di & Hdi & H). bd H as (mg & Hmg & H). bd H as (tp1 & Htp & H). bd H as (tm1 & Htm & H). apply Ok_inj in H. rewrite H0 in H. injection H as E1 E2. apply dadd_Ok in Htp as [Htp _], Htm as [Htm _].
    assert (t_coll cc_discount c o x = di) as Ep by lia. assert (t_coll cc_margin c o x = mg) as Em by lia. rewrite Ep, Em in *.
    rewrite Hpr. cbn [mbind res_bind]. rewrite Hva. cbn [mbind res_bind]. rewrite Hdi. cbn [mbind res_bind]. rewrite Hmg. cbn [mbind res_bind].
    rewrite (proj2 (dadd_Ok tp' di (tp' + di)) (conj eq_refl B1)). cbn [mbind res_bind]. rewrite (proj2 (dadd_Ok tm' mg (tm' + mg)) (conj eq_refl B2)). reflexivity.
  - unfold t_coll. rewrite Hcc. rewrite !Z.add_0_r. reflexivity.
Qed.
(** A loop that adds two terms per element to two running totals. *)
Lemma two_totals {X} (f : Z * Z -> X -> res (Z * Z)) (g h : X -> Z) l1 : (forall t t' x r, f t x = Ok r -> DMIN <= fst t' + g x <= DMAX -> DMIN <= snd t' + h x <= DMAX -> f t' x = Ok (fst t' + g x, snd t' + h x)) ->
  forall r l2, l1 ≡ₚ l2 -> rfold f (0, 0) l1 = Ok r -> lsum (fun x => Z.abs (g x)) l1 <= DMAX -> lsum (fun x => Z.abs (h x)) l1 <= DMAX -> exists r2, rfold f (0, 0) l2 = Ok r2.
Proof.
  intros Hf r l2 Hp H1 Sg Sh. assert (forall x, x ∈ l1 -> exists t r, f t x = Ok r) as Hall.
  { clear Hp Sg Sh. revert H1. generalize (0, 0) as t0. induction l1 as [|y l1 IH]; intros t0 H1 x Hx; [inversion Hx|]. cbn [rfold] in H1. bd H1 as (t1 & Hy & H1). apply elem_of_cons in Hx as [->|Hx]; [eauto|exact (IH _ H1 _ Hx)]. }
  rewrite (lsum_perm _ _ _ Hp) in Sg. rewrite (lsum_perm _ _ _ Hp) in Sh. assert (forall x, x ∈ l2 -> exists t r, f t x = Ok r) as Hall2 by (intros x Hx; apply Hall; rewrite Hp; exact Hx). clear Hall H1 Hp l1 r.
  assert (forall l t, (forall x, x ∈ l -> exists t r, f t x = Ok r) -> Z.abs (fst t) + lsum (fun x => Z.abs (g x)) l <= DMAX -> Z.abs (snd t) + lsum (fun x => Z.abs (h x)) l <= DMAX -> exists r2, rfold f t l = Ok r2) as Hgo.
  { clear - Hf. induction l as [|x l IH]; intros t Ha B1 B2; [eexists; reflexivity|]. rewrite lsum_cons in B1, B2. destruct (Ha x ltac:(left)) as (t0 & r0 & H0).
    assert (0 <= lsum (fun x => Z.abs (g x)) l /\ 0 <= lsum (fun x => Z.abs (h x)) l) as [N1 N2] by (split; apply lsum_nonneg; intros; apply Z.abs_nonneg).
    assert (DMIN = - DMAX - 1) as Hm by reflexivity. cbn [rfold]. rewrite (Hf _ t _ _ H0) by lia. cbn [mbind res_bind]. apply IH; [intros y Hy; apply Ha; right; exact Hy| |]; cbn [fst snd]; lia. }
  apply Hgo; [exact Hall2|cbn [fst]; lia|cbn [snd]; lia].
Qed.
Theorem C51_positions_succeed_in_any_order c p share o l1 l2 r : l1 ≡ₚ l2 -> positions_in_order c p share o l1 = Ok r ->
  lsum (fun x => Z.abs (t_profit c p share o x)) l1 <= DMAX -> lsum (fun x => Z.abs (t_margin pc_margin_initial c o x)) l1 <= DMAX -> positions_in_order c p share o l2 = Ok r.
Proof.
  intros Hp H1 Sg Sh. destruct (two_totals (x_value_position1 c p share o) (t_profit c p share o) (t_margin pc_margin_initial c o) l1) with (r := r) (l2 := l2) as (r2 & H2); auto.
  - intros [t1 t2] [t1' t2'] x r0 H B1 B2. cbn [fst snd] in *. exact (value1_any _ _ _ _ _ _ _ _ _ _ H B1 B2).
  - rewrite (C51_positions_any_order _ _ _ _ _ _ _ _ Hp H1 H2). exact H2.
Qed.
Theorem C51_collateral_succeeds_in_any_order c o l1 l2 r : l1 ≡ₚ l2 -> collateral_in_order c o l1 = Ok r ->
  lsum (fun x => Z.abs (t_coll cc_discount c o x)) l1 <= DMAX -> lsum (fun x => Z.abs (t_coll cc_margin c o x)) l1 <= DMAX -> collateral_in_order c o l2 = Ok r.
Proof.
  intros Hp H1 Sg Sh. destruct (two_totals (x_value_collateral1 c o) (t_coll cc_discount c o) (t_coll cc_margin c o) l1) with (r := r) (l2 := l2) as (r2 & H2); auto.
  - intros [t1 t2] [t1' t2'] x r0 H B1 B2. cbn [fst snd] in *. exact (coll1_any _ _ _ _ _ _ _ _ H B1 B2).
  - rewrite (C51_collateral_any_order _ _ _ _ _ _ Hp H1 H2). exact H2.
Qed.
(** Liquidation: the totals (profit, maintenance margin, funding, fees) and the pair records left in the pool. *)
Theorem C51_liquidation_any_order c share o p l1 l2 p1 p2 t1 t2 : l1 ≡ₚ l2 -> NoDup (map fst l1) ->
  rfold (x_liq_position1 c share o) (p, (0, 0, 0, 0)) l1 = Ok (p1, t1) -> rfold (x_liq_position1 c share o) (p, (0, 0, 0, 0)) l2 = Ok (p2, t2) ->
  t1 = t2 /\ vp_positions p1 = vp_positions p2.
Proof.
  intros Hp Hn H1 H2. assert (NoDup (map fst l2)) as Hn2 by (rewrite <- Hp; exact Hn).
  destruct (liq_fold _ _ _ _ _ _ _ _ _ _ H1 Hn) as (q1 & E1 & _ & _ & _ & _ & _ & _ & _ & O1 & I1). destruct (liq_fold _ _ _ _ _ _ _ _ _ _ H2 Hn2) as (q2 & E2 & _ & _ & _ & _ & _ & _ & _ & O2 & I2).
  injection E1 as -> ->. injection E2 as -> ->. split; [rewrite !(lsum_perm _ _ _ Hp); reflexivity|].
  apply map_eq. intros k. destruct (decide (k ∈ map fst l1)) as [Hk|Hk].
  - apply elem_of_list_In, in_map_iff in Hk as ([k' pos] & E0 & Hin). cbn in E0. subst k'. destruct (I1 _ _ Hin) as (pp & Q1 & ->). assert (In (k, pos) l2) as Hin2 by (apply elem_of_list_In; rewrite <- Hp; apply elem_of_list_In; exact Hin).
    destruct (I2 _ _ Hin2) as (pp2 & Q2 & ->). rewrite Q1 in Q2. injection Q2 as ->. reflexivity.
  - rewrite (O1 _ Hk). assert (k ∉ map fst l2) as Hk2 by (rewrite <- Hp; exact Hk). rewrite (O2 _ Hk2). reflexivity.
Qed.
Theorem C51_liquidated_collateral_any_order c o l1 l2 r1 r2 : l1 ≡ₚ l2 -> rfold (x_liq_collateral1 c o) (mkRLC 0 0 0 [] []) l1 = Ok r1 -> rfold (x_liq_collateral1 c o) (mkRLC 0 0 0 [] []) l2 = Ok r2 ->
  lc_disc r1 = lc_disc r2 /\ lc_margin r1 = lc_margin r2 /\ lc_amounts r1 ≡ₚ lc_amounts r2.
Proof.
  intros Hp H1 H2. destruct (liq_coll_fold _ _ _ _ _ H1) as (-> & -> & ->). destruct (liq_coll_fold _ _ _ _ _ H2) as (-> & -> & ->). cbn. rewrite !(lsum_perm _ _ _ Hp). split; [reflexivity|]. split; [reflexivity|].
  clear H1 H2. induction Hp; cbn [List.filter]; try (destruct (configured c x)); try (destruct (configured c y)); auto; try reflexivity; try (constructor; assumption); try constructor. etransitivity; eauto.
Qed.
(** Two orders of two positions and two collaterals that both finish: values of the scenario state. *)
Definition ex_c : vconfig := match get_config W2 {[1%N; 2%N]} with Ok c => c | Err _ => mkVC exchange_config_default ∅ ∅ end.
Definition ex_o : voracle := mkVO {[1%N := dec 31000; 2%N := dec 2100]} {[20%N := 2%N; 21%N := 1%N]}.
Definition ex_l : list (pair_id * account_position) := [(1%N, mkAP (dec 2) (dec 60000) 0); (2%N, mkAP (- dec 3) (- dec 6000) 0)].
Definition ex_k : list (resource * Z) := [(20%N, dec 3); (21%N, dec 1)].
Example C51_ex : is_ok (positions_in_order ex_c (get_pool W2 {[1%N; 2%N]}) 0 ex_o ex_l) /\ is_ok (positions_in_order ex_c (get_pool W2 {[1%N; 2%N]}) 0 ex_o (reverse ex_l)) /\
  lsum (fun x => Z.abs (t_profit ex_c (get_pool W2 {[1%N; 2%N]}) 0 ex_o x)) ex_l <= DMAX /\ lsum (fun x => Z.abs (t_margin pc_margin_initial ex_c ex_o x)) ex_l <= DMAX /\
  0 < lsum (fun x => Z.abs (t_profit ex_c (get_pool W2 {[1%N; 2%N]}) 0 ex_o x)) ex_l /\
  is_ok (collateral_in_order ex_c ex_o ex_k) /\ is_ok (collateral_in_order ex_c ex_o (reverse ex_k)) /\ 0 < lsum (t_coll cc_discount ex_c ex_o) ex_k.
Proof.
  assert (forall (r : res (Z * Z)), okb r = true -> is_ok r) as Hok by (intros [x|]; [intros _; exists x; reflexivity|discriminate]).
  split; [apply Hok; vm_compute; reflexivity|]. split; [apply Hok; vm_compute; reflexivity|]. split; [apply Z.leb_le; vm_compute; reflexivity|]. split; [apply Z.leb_le; vm_compute; reflexivity|]. split; [apply Z.ltb_lt; vm_compute; reflexivity|].
  split; [apply Hok; vm_compute; reflexivity|]. split; [apply Hok; vm_compute; reflexivity|]. apply Z.ltb_lt; vm_compute; reflexivity.
Qed.
