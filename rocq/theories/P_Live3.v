(** * An order refused for its margin (for C65): what the account would be left with. *)
From Verif Require Import Base DFloat Lists Types Config Oracle Pool Account Fees Referral ExInternal Exchange System Sums Trace Frames Calls Shape Spec SpecOracle SpecTrading SpecRequests SpecMargin SpecRefuse P_Ledger P_Accounts Frames2 P_Requests P_Requests2 P_Tokens Trading P_Positions P_Positions2 P_Oracle P_Keeper P_Orders P_Coll P_Remove P_Final P_OrderCall P_Refuse P_Refuse2 P_Refuse3 P_Refuse4 P_Refuse5 Props_Split.

(** [x_open_position] up to its last check. *)
Definition open_pre (c : vconfig) (o : voracle) (p : vpool) (a : vacc) (pid : pair_id) (amount : Z)
    : res (vpool * vacc * Z) :=
  pc ← vc_pair c pid;
  fee_rebate ← va_fee_rebate a;
  price ← vo_price o pid;
  value ← dmul amount price;
  pp ← vp_position p pid;
  let pos := default apos_zero (va_positions a !! pid) in
  _ ← guard_ (0 <=? Z.sgn (ap_amount pos) * Z.sgn amount) EEngine;
  fee ← x_calculate_fee (vc_exchange c) pc pp fee_rebate price value;
  cost ← dadd value fee;
  pp ← (if 0 <? amount then
          x ← dadd (pp_oi_long pp) amount;
          _ ← guard_ (x <=? pc_oi_max pc) EPairOiTooHigh;
          Ok (pp <| pp_oi_long := x |>)
        else
          x ← dsub (pp_oi_short pp) amount;
          _ ← guard_ (x <=? pc_oi_max pc) EPairOiTooHigh;
          Ok (pp <| pp_oi_short := x |>));
  pcost ← dadd (pp_cost pp) cost;
  let pp := pp <| pp_cost := pcost |> in
  amt' ← dadd (ap_amount pos) amount;
  cost' ← dadd (ap_cost pos) cost;
  let idx := if 0 <? amt' then pp_funding_long_index pp else pp_funding_short_index pp in
  let p := vp_set_position p pid pp in
  let a := va_set_position a pid (mkAP amt' cost' idx) in
  p ← x_update_pair_snaps o p pid;
  _ ← x_assert_position_limit c a;
  Ok (p, a, fee).
Lemma bsplit {A B C} (x : res A) (f : A -> res C) (g : A -> res B) (h : B -> res C) : (forall y, f y = (g y ≫= h)) -> (x ≫= f) = ((x ≫= g) ≫= h).
Proof. intros H. destruct x; cbn [mbind res_bind]; [apply H|reflexivity]. Qed.
Lemma open_pre_split c o p a k amount : x_open_position c o p a k amount = ('(p', a', fee) ← open_pre c o p a k amount; _ ← x_assert_account_integrity c p' a' o; Ok (p', a', fee)).
Proof.
  unfold x_open_position, open_pre. cbv zeta. repeat (apply bsplit; intros ?). reflexivity.
Qed.
Lemma open_pre_inv c o p a pid amount p' a' fee : open_pre c o p a pid amount = Ok (p', a', fee) ->
  exists pc fr price pp cost pp2, vc_pairs c !! pid = Some pc /\ va_fee_rebate a = Ok fr /\ vo_prices o !! pid = Some price /\ vp_positions p !! pid = Some pp /\
    0 <= Z.sgn (ap_amount (pos_of a pid)) * Z.sgn amount /\
    x_calculate_fee (vc_exchange c) pc pp fr price (mulq amount price) = Ok fee /\
    cost = mulq amount price + fee /\
    pp2 = traded pp (0 <? amount) amount cost /\
    (0 < amount -> pp_oi_long pp2 <= pc_oi_max pc) /\ (amount <= 0 -> pp_oi_short pp2 <= pc_oi_max pc) /\
    p' = put_snap p pid pp (resnap price pp2) /\
    a' = va_set_position a pid (mkAP (ap_amount (pos_of a pid) + amount) (ap_cost (pos_of a pid) + cost)
           (if 0 <? ap_amount (pos_of a pid) + amount then pp_funding_long_index pp else pp_funding_short_index pp)) /\
    x_assert_position_limit c a' = Ok tt.
Proof.
  unfold open_pre, vp_position, vo_price, vc_pair. intros H.
  bd H as (pc & Hpc & H). bd H as (fr & Hfr & H). bd H as (price & Hpr & H). bd H as (va & Hva & H). bd H as (pp & Hpp & H). cbv zeta in H.
  bd H as (? & Hg & H). bd H as (fe & Hfe & H). bd H as (co & Hco & H). bd H as (pp1 & Hp1 & H). bd H as (pco & Hpco & H).
  bd H as (am & Ham & H). bd H as (co' & Hco' & H). bd H as (p1 & Hsn & H). bd H as ([] & Hl & H). apply Ok_inj in H. injection H as <- <- <-.
  apply expect_Ok in Hpc, Hpr, Hpp. apply dmul_mulq in Hva. subst va. apply guard_Ok in Hg. apply Z.leb_le in Hg. apply dadd_Ok in Hco as [-> _]. apply dadd_Ok in Hpco as [-> _]. apply dadd_Ok in Ham as [-> _]. apply dadd_Ok in Hco' as [-> _].
  exists pc, fr, price, pp, (mulq amount price + fe), (traded pp (0 <? amount) amount (mulq amount price + fe)).
  split; [exact Hpc|]. split; [exact Hfr|]. split; [exact Hpr|]. split; [exact Hpp|]. split; [exact Hg|]. split; [exact Hfe|]. split; [reflexivity|]. split; [reflexivity|].
  assert (pp1 <| pp_cost := pp_cost pp1 + (mulq amount price + fe) |> = traded pp (0 <? amount) amount (mulq amount price + fe) /\
    (0 < amount -> pp_oi_long (traded pp (0 <? amount) amount (mulq amount price + fe)) <= pc_oi_max pc) /\ (amount <= 0 -> pp_oi_short (traded pp (0 <? amount) amount (mulq amount price + fe)) <= pc_oi_max pc) /\
    pp_funding_long_index pp1 = pp_funding_long_index pp /\ pp_funding_short_index pp1 = pp_funding_short_index pp) as (T1 & T2 & T3 & T4 & T5).
  { destruct (Z.ltb_spec 0 amount); bd Hp1 as (y & Hy & Hp1); bd Hp1 as (? & Hl1 & Hp1); apply Ok_inj in Hp1; subst pp1; apply guard_Ok in Hl1; apply Z.leb_le in Hl1.
    - apply dadd_Ok in Hy as [-> _]. simpl. repeat split; [intros _; exact Hl1|lia].
    - apply dsub_Ok in Hy as [-> _]. simpl. repeat split; [lia|intros _; exact Hl1]. }
  split; [exact T2|]. split; [exact T3|]. simpl in Hsn, Hl. rewrite T4, T5 in *. rewrite T1 in *.
  apply update_snaps_inv in Hsn as (price' & pp' & Hpr' & Hpp' & ->). rewrite Hpr in Hpr'. injection Hpr' as <-. simpl in Hpp'. rewrite lookup_insert in Hpp'. injection Hpp' as <-.
  rewrite (put_snap_set p pid pp) in *; try apply traded_snaps.
  split; [reflexivity|]. split; [reflexivity|]. exact Hl.
Qed.
Lemma open_pre_moved c o p a pid op p' a' fee : open_pre c o p a pid op = Ok (p', a', fee) ->
  exists pc fr price pp pp', vc_pairs c !! pid = Some pc /\ va_fee_rebate a = Ok fr /\ vo_prices o !! pid = Some price /\ vp_positions p !! pid = Some pp /\
    fee = trading_fee (vc_exchange c) pc pp fr price (mulq op price) /\ 0 <= fee <= mul (Z.abs (mulq op price)) (ec_fee_max (vc_exchange c)) /\
    (0 < op -> pp_oi_long pp' <= pc_oi_max pc) /\ (op < 0 -> pp_oi_short pp' <= pc_oi_max pc) /\
    moved price pid p a pp p' a' pp' (if 0 <? op then op else 0) (if 0 <? op then 0 else - op) (mulq op price + fee) op 0 /\
    ap_funding (pos_of a' pid) = side_index pp' (ap_amount (pos_of a' pid)) /\
    x_assert_position_limit c a' = Ok tt.
Proof.
  intros H. apply open_pre_inv in H as (pc & fr & price & pp & cost & pp2 & Hpc & Hfr & Hpr & Hpp & Hsg & Hfee & Hcost & -> & Ho1 & Ho2 & -> & -> & Hl).
  apply calculate_fee_spec in Hfee as [Hfee Hmx]. subst cost. exists pc, fr, price, pp, (resnap price (traded pp (0 <? op) op (mulq op price + fee))).
  split; [exact Hpc|]. split; [exact Hfr|]. split; [exact Hpr|]. split; [exact Hpp|]. split; [exact Hfee|]. split. { rewrite Hfee. unfold trading_fee. cbv zeta. lia. }
  destruct (traded_facts pp (0 <? op) op (mulq op price + fee) price) as (T1 & T2 & T3 & T4 & T5 & T6 & T7 & T8 & T9).
  split. { intros H0. exact (Ho1 H0). } split. { intros H0. apply Ho2. lia. }
  split; [constructor|].
  - rewrite put_snap_pos, decide_True by reflexivity. reflexivity.
  - rewrite put_snap_real, decide_True by reflexivity. reflexivity.
  - intros k Hk. rewrite put_snap_pos, decide_False by exact Hk. reflexivity.
  - auto 10.
  - auto.
  - simpl. lia.
  - reflexivity.
  - reflexivity.
  - reflexivity.
  - reflexivity.
  - rewrite pos_of_set, decide_True by reflexivity. reflexivity.
  - rewrite pos_of_set, decide_True by reflexivity. reflexivity.
  - intros k Hk. rewrite pos_of_set, decide_False by exact Hk. reflexivity.
  - simpl. lia.
  - reflexivity.
  - reflexivity.
  - reflexivity.
  - split; [|exact Hl]. rewrite pos_of_set, decide_True by reflexivity. unfold side_index. rewrite T4, T5. reflexivity.
Qed.
Record would_be (now : Z) (c : vconfig) (o : voracle) (p : vpool) (a : vacc) (rq : req_order) (pF : vpool) (aF : vacc) (price : Z) (pp0 pp1 ppF : pool_position) (fee : Z) : Prop := {
  wb_price : vo_prices o !! ro_pair rq = Some price; wb_pp0 : vp_positions p !! ro_pair rq = Some pp0; wb_ro : ro_reduce_only rq = false;
  wb_period : period_of now (pp_last_update pp0) = 0 -> pp_funding_long_index pp1 = pp_funding_long_index pp0 /\ pp_funding_short_index pp1 = pp_funding_short_index pp0;
  wb_idx : pp_funding_long_index ppF = pp_funding_long_index pp1 /\ pp_funding_short_index ppF = pp_funding_short_index pp1;
  wb_skew : pp_oi_long ppF - pp_oi_short ppF = pp_oi_long pp0 - pp_oi_short pp0 + ro_amount rq;
  wb_ppF : vp_positions pF !! ro_pair rq = Some ppF; wb_poth : forall j, j <> ro_pair rq -> vp_positions pF !! j = vp_positions p !! j;
  wb_amount : ap_amount (pos_of aF (ro_pair rq)) = ap_amount (pos_of a (ro_pair rq)) + ro_amount rq;
  wb_funding : ap_funding (pos_of aF (ro_pair rq)) = side_index ppF (ap_amount (pos_of aF (ro_pair rq)));
  wb_other : forall j, j <> ro_pair rq -> pos_of aF j = pos_of a j;
  wb_fee : 0 <= fee <= mul (mul price (Z.abs (ro_amount rq))) (ec_fee_max (vc_exchange c));
  wb_value : Z.abs ((va_vb aF + mulq (ap_amount (pos_of aF (ro_pair rq))) price - ap_cost (pos_of aF (ro_pair rq))) -
                    (va_vb a + mulq (ap_amount (pos_of a (ro_pair rq))) price - ap_cost (pos_of a (ro_pair rq)) - funding_owed pp1 (pos_of a (ro_pair rq)) - fee)) <= 2;
  wb_coll : g_coll aF = g_coll a; wb_ref : va_ref aF = va_ref a }.
Lemma f_open_short c o p v k amount (G : Prop) : have c o p k -> have_all c o p v -> feeds_ok c o -> 0 <= Z.sgn (ap_amount (pos_of v k)) * Z.sgn amount ->
  (forall p' a' fee pnl mp disc mc, open_pre c o p v k amount = Ok (p', a', fee) -> x_value_positions c p' a' o = Ok (pnl, mp) -> x_value_collateral c a' o = Ok (disc, mc) -> pnl + disc + va_vb a' < mp + mc -> G) ->
  fails (fun e => e = EInsufficientMargin -> G) (x_open_position c o p v k amount).
Proof.
  intros Hh Hall Hf Hs HG e He ->. rewrite open_pre_split in He. destruct (open_pre c o p v k amount) as [[[p' a'] fee]|e0] eqn:Hpre; cbn [mbind res_bind] in He.
  - assert (have_all c o p' a') as Hall'.
    { apply open_pre_inv in Hpre as (pc & fr & price & pp & cost & pp2 & Hpc & _ & Hpr & _ & _ & _ & _ & _ & _ & _ & -> & -> & _). intros j Hj.
      change (va_positions (va_set_position v k (mkAP (ap_amount (pos_of v k) + amount) (ap_cost (pos_of v k) + cost) (if 0 <? ap_amount (pos_of v k) + amount then pp_funding_long_index pp else pp_funding_short_index pp)))) with
        (<[k := mkAP (ap_amount (pos_of v k) + amount) (ap_cost (pos_of v k) + cost) (if 0 <? ap_amount (pos_of v k) + amount then pp_funding_long_index pp else pp_funding_short_index pp)]> (va_positions v)) in Hj.
      assert (have c o p j) as (J1 & J2 & J3) by (destruct (decide (j = k)) as [->|Hn]; [exact Hh|rewrite lookup_insert_ne in Hj by congruence; apply Hall; exact Hj]).
      split; [exact J1|]. split; [exact J2|]. rewrite put_snap_pos. destruct (decide (j = k)); [eauto|exact J3]. }
    assert (fails (fun e => e = EInsufficientMargin -> G) (x_assert_account_integrity c p' a' o)) as Hx.
    { assert (forall e, e <> EInsufficientMargin -> e = EInsufficientMargin -> G) as HN by (intros; contradiction). assert (EArithmetic = EInsufficientMargin -> G) as HA by (intros; discriminate).
      unfold x_assert_account_integrity. apply f_bind; [apply f_arP; [exact HA|apply f_value; exact Hall']|]. intros [pnl mp] Hvp. apply f_bind; [apply f_arP; [exact HA|apply f_value_coll; exact Hf]|]. intros [disc mc] Hvc.
      apply f_bind; [apply f_arP; [exact HA|apply f_dadd]|]. intros t Ht. apply f_bind; [apply f_arP; [exact HA|apply f_dadd]|]. intros av Hav. apply f_bind; [apply f_arP; [exact HA|apply f_dadd]|]. intros mg Hmg.
      apply dadd_Ok in Ht as [-> _], Hav as [-> _], Hmg as [-> _]. apply f_guard. intros Hle _. apply Z.leb_gt in Hle. exact (HG _ _ _ _ _ _ _ eq_refl Hvp Hvc Hle). }
    destruct (x_assert_account_integrity c p' a' o) as [[]|e1]; cbn [mbind res_bind] in He; [discriminate He|]. injection He as ->. exact (Hx _ eq_refl eq_refl).
  - injection He as ->. exfalso. (* the part before the check never fails for the margin *)
    assert (fails (fun e => e <> EInsufficientMargin) (open_pre c o p v k amount)) as Hx; [|exact (Hx _ Hpre eq_refl)].
    clear HG Hpre. pose proof Hh as (H1 & H2 & H3). assert (EArithmetic <> EInsufficientMargin) as HA by discriminate. unfold open_pre, vc_pair, vo_price, vp_position. fold (pos_of v k).
    apply f_bind; [apply f_some; exact H1|]. intros pc Hpc. apply expect_Ok in Hpc. apply f_bind; [apply f_arP; [exact HA|apply f_rebate]|]. intros fr _. apply f_bind; [apply f_some; exact H2|]. intros price _. apply f_bind; [apply f_arP; [exact HA|apply f_dmul]|]. intros value _. apply f_bind; [apply f_some; exact H3|]. intros pp Hpp. apply expect_Ok in Hpp. cbv zeta.
    apply f_bind; [apply f_guard; discriminate|]. intros [] _.
    apply f_bind; [apply f_arP; [exact HA|apply f_fee]|]. intros fee _. apply f_bind; [apply f_arP; [exact HA|apply f_dadd]|]. intros cost _. apply f_bind.
    { destruct (0 <? amount) eqn:Hsg.
      - apply f_bind; [apply f_arP; [exact HA|apply f_dadd]|]. intros x _. apply f_bind; [apply f_guard; discriminate|]. intros [] _. apply f_Ok.
      - apply f_bind; [apply f_arP; [exact HA|apply f_dsub]|]. intros x _. apply f_bind; [apply f_guard; discriminate|]. intros [] _. apply f_Ok. }
    intros pp1 _. do 3 (apply f_bind; [apply f_arP; [exact HA|apply f_dadd]|intros ? _]).
    match goal with |- context [vp_set_position p k ?x] => assert (forall j, have c o p j -> have c o (vp_set_position p k x) j) as Hp1 by (intros j; apply have_set; exact Hh) end.
    apply f_bind; [apply f_arP; [exact HA|apply (f_snaps o c); apply Hp1; exact Hh]|]. intros p2 _. apply f_bind; [unfold x_assert_position_limit; apply f_guard; discriminate|]. intros [] _. apply f_Ok.
Qed.
Lemma f_order_short now c o s rq (G : Prop) : (forall price, vo_prices o !! ro_pair rq = Some price -> 0 <= price) -> 0 <= ec_fee_max (vc_exchange c) -> have c o (s_pool s) (ro_pair rq) -> have_all c o (s_pool s) (s_acc s) -> feeds_ok c o ->
  (forall pF aF price pp0 pp1 ppF fee pnl mp disc mc, would_be now c o (s_pool s) (s_acc s) rq pF aF price pp0 pp1 ppF fee -> x_value_positions c pF aF o = Ok (pnl, mp) -> x_value_collateral c aF o = Ok (disc, mc) -> pnl + disc + va_vb aF < mp + mc -> G) ->
  fails (fun e => e = EInsufficientMargin -> G) (x_margin_order now c o s rq).
Proof.
  intros Hpos Hfm Hh Hall Hf HG. set (k := ro_pair rq) in *. set (P := fun e => e = EInsufficientMargin -> G). assert (P EArithmetic) as HA by (unfold P; discriminate). assert (forall e, e <> EInsufficientMargin -> P e) as HN by (intros e He E0; contradiction).
  pose proof Hh as (H1 & H2 & H3). unfold x_margin_order. fold k. cbv zeta. apply f_bind; [apply f_some; exact H2|]. intros price Hpr. apply expect_Ok in Hpr.
  apply f_bind; [apply f_guard; intros Hl; apply HN; discriminate|]. intros [] _.
  apply f_bind; [apply f_arP; [exact HA|apply f_update; exact Hh]|]. intros [p1 b1] Hu. pose proof (have_update _ _ _ _ _ _ _ Hu) as Hhu.
  apply update_moved in Hu as (pc & price' & pp0 & pp1 & fpd & Hpc & Hpr' & Hpp0 & Hper & Hsame & Hsnap & Ep1). rewrite Hpr in Hpr'. injection Hpr' as <-.
  assert (vp_positions p1 !! k = Some pp1) as Hp1k. { rewrite Ep1. change (vp_positions (put_snap (s_pool s) k pp0 pp1) !! k = Some pp1). rewrite put_snap_pos, decide_True by reflexivity. reflexivity. }
  assert (forall j, j <> k -> vp_positions p1 !! j = vp_positions (s_pool s) !! j) as Hp1o. { intros j Hj. rewrite Ep1. change (vp_positions (put_snap (s_pool s) k pp0 pp1) !! j = vp_positions (s_pool s) !! j). rewrite put_snap_pos, decide_False by exact Hj. reflexivity. }
  assert (real p1 !! k = Some pp1) as HBr. { rewrite Ep1. change (real (put_snap (s_pool s) k pp0 pp1) !! k = Some pp1). rewrite put_snap_real, decide_True by reflexivity. reflexivity. }
  apply f_bind; [apply f_arP; [exact HA|apply (f_settle_funding c o); apply Hhu; exact Hh]|]. intros [[p2 a2] fund] Hsf.
  assert (dom (va_positions a2) = dom (va_positions (s_acc s))) as A1.
  { apply settle_funding_inv in Hsf as (pp & f & Hpp & _ & -> & Ha2). destruct (va_positions (s_acc s) !! k) as [pos|] eqn:Hposk; destruct Ha2 as (_ & ->); cbn; [|reflexivity]. rewrite dom_insert_L. apply leibniz_equiv. intros x. apply (elem_of_dom_2 (D := gset pair_id)) in Hposk. set_solver. }
  apply funding_moved in Hsf as (pp & Hpp & _ & -> & F1 & F2 & F3 & F4 & F5 & F6 & F7 & F8). rewrite Hp1k in Hpp. injection Hpp as <-.
  set (p2 := p1 <| vp_upf := vp_upf p1 - funding_owed pp1 (pos_of (s_acc s) k) |> <| vp_vb := vp_vb p1 + funding_owed pp1 (pos_of (s_acc s) k) |>).
  assert (forall j, have c o (s_pool s) j -> have c o p2 j) as Hh2. { intros j Hj. apply Hhu in Hj as (J1 & J2 & J3). split; [exact J1|]. split; [exact J2|exact J3]. }
  assert (vp_positions p2 !! k = Some pp1) as HBp by exact Hp1k. assert (real p2 !! k = Some pp1) as HBr2 by exact HBr.
  assert (have_all c o p2 a2) as Hall2. { intros j Hj. apply Hh2, Hall. apply elem_of_dom. rewrite <- A1. apply elem_of_dom. exact Hj. }
  apply f_bind; [apply f_arP; [exact HA|apply f_split]|]. intros [cl op] Hsp. assert (match va_positions a2 !! k with Some x => ap_amount x | None => 0 end = ap_amount (pos_of (s_acc s) k)) as Epos.
  { rewrite <- F1. unfold pos_of. destruct (va_positions a2 !! k); reflexivity. }
  rewrite Epos in Hsp. pose proof (split_spec _ _ _ _ _ Hsp) as (Hch & _ & _ & Hno & _). assert (0 <= cl * op) as Hsm by (apply split_inv in Hsp as (_ & _ & _ & _ & Sg); destruct (Z.eq_dec op 0) as [->|N1]; [lia|destruct (Z.eq_dec cl 0) as [->|N2]; [lia|specialize (Sg N1 N2); nia]]). apply split_inv in Hsp as (S1 & S2 & S3 & S4 & S5).
  apply f_bind. { destruct (cl =? 0); cbn [negb]; [apply f_Ok|]. apply f_bind; [|intros [[? ?] [? ?]] _; apply f_Ok]. apply f_arP; [exact HA|]. apply f_close; [apply Hh2; exact Hh|rewrite F1; exact S1|rewrite F1; exact S2]. }
  intros [[[p3 a3] pnl] fee0] Hcl.
  assert (exists cost ppC, ((pnl = - mulq cl price - cost - fee0 /\ 0 <= fee0 <= mulq (Z.abs (mulq cl price)) (ec_fee_max (vc_exchange c))) /\
    moved price k p2 a2 pp1 p3 a3 ppC (if cl <? 0 then cl else 0) (if cl <? 0 then 0 else - cl) (- cost) cl pnl) /\
    dom (va_positions a3) ⊆ dom (va_positions a2) ∪ {[k]}) as (cost & ppC & ((Hpnl & Hfee0) & MC) & C2).
  { destruct (Z.eqb_spec cl 0) as [->|Hcn]; cbn [negb] in Hcl.
    - apply Ok_inj in Hcl. injection Hcl as <- <- <- <-. exists 0, pp1. split; [|set_solver]. split; [unfold mulq; cbn; split; [reflexivity|split; discriminate]|]. apply moved_refl; assumption.
    - bd Hcl as ([[p5 a5] [pn fe]] & Hc & Hcl). apply Ok_inj in Hcl. injection Hcl as <- <- <- <-.
      assert (dom (va_positions a5) ⊆ dom (va_positions a2) ∪ {[k]}) as Hd. { apply close_inv in Hc as (pc' & fr & price' & pp' & pos & cost & pp2 & _ & _ & _ & Q4 & -> & _ & _ & _ & _ & _ & _ & -> & -> & ->). cbn. rewrite dom_insert_L. set_solver. }
      apply close_moved in Hc as (pc' & fr & price' & pp' & cost & pp2 & _ & _ & Hpr' & Hpp' & _ & _ & Hfb & Hpn & HM & _); [|exact Hcn].
      rewrite Hpr in Hpr'. injection Hpr' as <-. rewrite HBp in Hpp'. injection Hpp' as <-. exists cost, pp2. split; [|exact Hd]. split; [split; [exact Hpn|exact Hfb]|exact HM]. }
  assert (forall j, have c o p2 j -> have c o p3 j) as C1.
  { intros j (J1 & J2 & J3). split; [exact J1|]. split; [exact J2|]. destruct (decide (j = k)) as [->|Hn]; [rewrite (mv_pp _ _ _ _ _ _ _ _ _ _ _ _ _ MC); eauto|rewrite (mv_oth _ _ _ _ _ _ _ _ _ _ _ _ _ MC j Hn); exact J3]. }
  apply f_bind.
  { destruct (Z.eqb_spec op 0) as [->|Hop]; cbn [negb]; [apply f_Ok|]. destruct (S3 Hop) as [Hro Hopen]. apply f_bind.
    - apply f_open_short; [apply C1, Hh2; exact Hh| |exact Hf| |].
      + intros j Hj. apply C1, Hh2. apply (elem_of_dom (D := gset pair_id)) in Hj. apply C2 in Hj. apply elem_of_union in Hj as [Hj|Hj]; [|apply elem_of_singleton in Hj; subst; exact Hh]. rewrite A1 in Hj. apply Hall. apply elem_of_dom. exact Hj.
      + rewrite (mv_amt _ _ _ _ _ _ _ _ _ _ _ _ _ MC), F1. exact S4.
      + intros p' a' fee1 pn mp disc mc Hpre Hvp Hvc Hlt.
        apply open_pre_moved in Hpre as (pc' & fr & price' & pp' & ppF & _ & _ & Hpr' & Hpp' & _ & Hfb & _ & _ & MD & Hfu & _). rewrite Hpr in Hpr'. injection Hpr' as <-. rewrite (mv_pp _ _ _ _ _ _ _ _ _ _ _ _ _ MC) in Hpp'. injection Hpp' as <-.
        pose proof (moved_trans _ _ _ _ _ _ _ _ _ _ _ _ _ _ _ _ _ _ _ _ _ MC MD) as M. destruct M as [M1 M2 M3 M4 M5 M6 M7 M8 M9 M10 M11 M12 M13 M14 M15 M16 M17].
        assert (cl + op = ro_amount rq) as Hamt. { clear - Hch Hro. rewrite Hch. unfold order_change. rewrite Hro. reflexivity. }
        destruct M4 as (O1 & O2 & O3 & O4 & O5 & _), Hsame as (U1 & U2 & U3 & _).
        apply (HG p' a' price pp0 pp1 ppF (fee0 + fee1) pn mp disc mc); [|exact Hvp|exact Hvc|exact Hlt]. constructor; fold k.
        * exact Hpr.
        * exact Hpp0.
        * exact Hro.
        * intros H0. destruct (Hper H0) as [_ ->]. split; reflexivity.
        * split; assumption.
        * rewrite O1, O2, U1, U2. clear - Hamt. destruct (Z.ltb_spec cl 0), (Z.ltb_spec 0 op); lia.
        * exact M1.
        * intros j Hj. rewrite (M3 j Hj). apply Hp1o. exact Hj.
        * rewrite M11, F1. clear - Hamt. lia.
        * exact Hfu.
        * intros j Hj. rewrite (M13 j Hj). apply F4. exact Hj.
        * change mul with mulq in Hfb. pose proof (mulq_parts cl op price _ (Hpos _ Hpr) Hfm Hsm) as Hmp. replace (op + cl) with (ro_amount rq) in Hmp by (clear - Hamt; lia). clear - Hmp Hfb Hfee0. lia.
        * rewrite M14, F5, M11, F1, M12, F2. pose proof (mulq_add2 (ap_amount (pos_of (s_acc s) k)) cl op price) as Hm. replace (ap_amount (pos_of (s_acc s) k) + (cl + op)) with (ap_amount (pos_of (s_acc s) k) + cl + op) in Hm by ring. replace (ap_amount (pos_of (s_acc s) k) + (cl + op)) with (ap_amount (pos_of (s_acc s) k) + cl + op) by ring. clear - Hm Hpnl. lia.
        * rewrite M15. exact F6.
        * rewrite M16. exact F7.
    - intros [[p4 a4] fe] _. apply f_bind; [apply f_arP; [exact HA|apply f_dadd]|]. intros ? _. apply f_Ok. }
  intros [[p4 a4] fee] _. clearbody P.
  apply f_bind; [apply f_arP; [exact HA|apply f_dadd]|]. intros tot _. apply f_bind; [apply f_arP; [exact HA|apply f_dabs]|]. intros ta _. apply f_bind; [apply f_arP; [exact HA|apply f_dmul]|]. intros tv _.
  apply f_bind. { unfold sl_compare, sl_allowed. apply f_arP; [exact HA|]. apply f_bind; [|intros; apply f_Ok]. destruct (ro_slippage rq); ar_. }
  intros ok _. apply f_bind; [apply f_guard; intros _; apply HN; discriminate|]. intros [] _.
  apply f_bind; [apply f_arP; [exact HA|apply f_fees]|]. intros [s1 [[[q0 q1] q2] q3]] _.
  apply f_bind; [eapply f_mono; [apply f_try_set; auto|]; intros e [(-> & _)| ->]; [apply HN; discriminate|exact HA]|]. intros [a5 act] _.
  apply f_bind; [eapply f_mono; [apply f_try_set; auto|]; intros e [(-> & _)| ->]; [apply HN; discriminate|exact HA]|]. intros [a6 can] _.
  apply f_bind; [apply f_arP; [exact HA|apply f_dsub]|]. intros dsk _. apply f_bind; [eapply f_mono; [apply f_pool_integrity|]; intros e [[-> _]| ->]; [apply HN; discriminate|exact HA]|]. intros [] _.
  apply f_bind; [apply f_arP; [exact HA|apply f_dadd]|]. intros ? _. apply f_Ok.
Qed.
