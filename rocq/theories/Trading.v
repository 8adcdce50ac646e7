(** * What the trading functions do to the caches: explicit results. *)
From Verif Require Import Base DFloat Lists Types Config Oracle Pool Account Fees Referral ExInternal Exchange System Sums Trace Frames Calls Shape.

(** The signed product of two decimals, as the code rounds it. *)
Definition mulq (a b : Z) : Z := Z.quot (a * b) E18.
Lemma dmul_mulq a b c : dmul a b = Ok c -> c = mulq a b.
Proof. intros H. apply dmul_Ok in H as [-> _]. reflexivity. Qed.

(** The pool's profit snapshot and skew of a pair at a price. *)
Definition skew_at (pp : pool_position) (price : Z) : Z := mulq (pp_oi_long pp - pp_oi_short pp) price.
Definition resnap (price : Z) (pp : pool_position) : pool_position :=
  pp <| pp_skew_abs_snap := Z.abs (skew_at pp price) |> <| pp_pnl_snap := pp_cost pp - skew_at pp price |>.
(** Writing position [x] over [old] and moving the totals along. *)
Definition put_snap (p : vpool) (pid : pair_id) (old x : pool_position) : vpool :=
  vp_set_position p pid x <| vp_skew := vp_skew p + (pp_skew_abs_snap x - pp_skew_abs_snap old) |>
    <| vp_pnl := vp_pnl p + (pp_pnl_snap x - pp_pnl_snap old) |>.

Lemma update_snaps_inv o p pid p' : x_update_pair_snaps o p pid = Ok p' ->
  exists price pp, vo_prices o !! pid = Some price /\ vp_positions p !! pid = Some pp /\ p' = put_snap p pid pp (resnap price pp).
Proof.
  unfold x_update_pair_snaps, vp_position, vo_price, vp_add_skew, vp_add_pnl. intros H.
  bd H as (price & Hp & H). bd H as (pp & Hpp & H). bd H as (d & Hd & H). bd H as (sk & Hs & H). bd H as (sa & Hsa & H). bd H as (sd & Hsd & H).
  bd H as (pn & Hpn & H). bd H as (pd & Hpd & H). apply expect_Ok in Hp, Hpp. apply dsub_Ok in Hd as [-> _]. apply dmul_mulq in Hs. apply dabs_Ok in Hsa as [-> _].
  apply dsub_Ok in Hsd as [-> _]. apply dsub_Ok in Hpn as [-> _]. apply dsub_Ok in Hpd as [-> _]. bd H as (p1 & H1 & H). bd H1 as (y1 & Hy1 & H1). apply Ok_inj in H1. subst p1. bd H as (y2 & Hy2 & H). apply Ok_inj in H. subst p'.
  apply dadd_Ok in Hy1 as [-> _]. apply dadd_Ok in Hy2 as [-> _]. exists price, pp. split; [exact Hp|]. split; [exact Hpp|]. subst sk. reflexivity.
Qed.

(** The funding update keeps everything but the funding fields. *)
Definition same_trade (pp pp' : pool_position) : Prop :=
  pp_oi_long pp' = pp_oi_long pp /\ pp_oi_short pp' = pp_oi_short pp /\ pp_cost pp' = pp_cost pp /\
  pp_skew_abs_snap pp' = pp_skew_abs_snap pp /\ pp_pnl_snap pp' = pp_pnl_snap pp /\ pp_last_update pp' = pp_last_update pp /\ pp_last_price pp' = pp_last_price pp.
Lemma funding_step_inv pc pp skew skew_abs price period pp' total : x_funding_step pc pp skew skew_abs price period = Ok (pp', total) ->
  same_trade pp pp' /\
  ((pp_oi_long pp = 0 \/ pp_oi_short pp = 0) /\ pp_funding_long_index pp' = pp_funding_long_index pp /\ pp_funding_short_index pp' = pp_funding_short_index pp /\ total = 0 \/
   pp_oi_long pp <> 0 /\ pp_oi_short pp <> 0 /\ exists mn mx dl ds,
     mx = mulq (pp_oi_long pp) price /\ mn = mulq (- pp_oi_short pp) price /\
     x_funding_indexes pc (pp_oi_long pp) (pp_oi_short pp) skew skew_abs price (pp_funding_2_rate pp') mn mx period = Ok (dl, ds, total) /\
     pp_funding_long_index pp' = pp_funding_long_index pp + dl /\ pp_funding_short_index pp' = pp_funding_short_index pp + ds).
Proof.
  unfold x_funding_step. intros H. bd H as (mx & Hmx & H). bd H as (ns & Hns & H). bd H as (mn & Hmn & H). bd H as (t0 & Ht0 & H). bd H as (de & Hde & H). bd H as (r2 & Hr2 & H).
  apply dmul_mulq in Hmx. apply dneg_Ok in Hns as [-> _]. apply dmul_mulq in Hmn. cbv zeta in H.
  destruct (Z.eqb_spec (pp_oi_long pp) 0) as [E1|E1]; [|destruct (Z.eqb_spec (pp_oi_short pp) 0) as [E2|E2]]; cbn [negb andb] in H.
  - apply Ok_inj in H. injection H as <- <-. split; [repeat split|]. left. auto.
  - apply Ok_inj in H. injection H as <- <-. split; [repeat split|]. left. auto.
  - bd H as ([[dl ds] tot] & Hi & H). bd H as (li & Hli & H). bd H as (si & Hsi & H). apply Ok_inj in H. injection H as <- <-. apply dadd_Ok in Hli as [-> _]. apply dadd_Ok in Hsi as [-> _].
    split; [repeat split|]. right. split; [exact E1|]. split; [exact E2|]. exists mn, mx, dl, ds. split; [exact Hmx|]. split; [exact Hmn|]. split; [exact Hi|]. split; reflexivity.
Qed.
(** The time step, in years, as the code computes it. *)
Definition period_of (now last : Z) : Z := Z.quot ((now - last) * E18 * E18) (31536000 * E18).
Lemma update_pair_inv now c o p pid p' b : x_update_pair now c o p pid = Ok (p', b) ->
  exists pc price pp pp1 pp2 fpd, vc_pairs c !! pid = Some pc /\ vo_prices o !! pid = Some price /\ vp_positions p !! pid = Some pp /\
    pp1 = resnap price pp <| pp_last_price := price |> <| pp_last_update := now |> /\
    (period_of now (pp_last_update pp) = 0 /\ pp2 = pp1 /\ fpd = 0 \/
     period_of now (pp_last_update pp) <> 0 /\ x_funding_step pc pp1 (skew_at pp price) (Z.abs (skew_at pp price)) price (period_of now (pp_last_update pp)) = Ok (pp2, fpd)) /\
    p' = put_snap p pid pp pp2 <| vp_upf := vp_upf p + fpd |> /\
    b = (pc_update_period_seconds pc <=? now - pp_last_update pp) || (pc_update_price_delta_ratio pc <=? Z.quot (Z.abs (price - pp_last_price pp) * E18) (pp_last_price pp)).
Proof.
  unfold x_update_pair, vp_position, vo_price, vc_pair, vp_add_skew, vp_add_pnl, vp_add_upf. intros H.
  bd H as (pc & Hpc & H). bd H as (price & Hp & H). bd H as (pp & Hpp & H). cbv zeta in H.
  bd H as (d & Hd & H). bd H as (sk & Hs & H). bd H as (sa & Hsa & H). bd H as (sd & Hsd & H). bd H as (pn & Hpn & H). bd H as (pd & Hpd & H).
  bd H as (ps & Hps & H). bd H as (dps & Hdps & H). bd H as (per & Hper & H). bd H as (prd & Hprd & H). bd H as (pda & Hpda & H). bd H as (ratio & Hra & H).
  bd H as ([pp2 fpd] & Hf & H). bd H as (p1 & H1 & H). bd H as (p2 & H2 & H). bd H as (p3 & H3 & H). apply Ok_inj in H. injection H as <- <-.
  apply expect_Ok in Hpc, Hp, Hpp. apply dsub_Ok in Hd as [-> _]. apply dmul_mulq in Hs. apply dabs_Ok in Hsa as [-> _]. apply dsub_Ok in Hsd as [-> _]. apply dsub_Ok in Hpn as [-> _]. apply dsub_Ok in Hpd as [-> _].
  apply isub_Ok in Hps as [-> _]. apply dec_of_int_Ok in Hdps as [-> _]. apply ddiv_Ok in Hper as (_ & -> & _). apply dsub_Ok in Hprd as [-> _]. apply dabs_Ok in Hpda as [-> _]. apply ddiv_Ok in Hra as (_ & -> & _).
  bd H1 as (y1 & Hy1 & H1). apply Ok_inj in H1. subst p1. bd H2 as (y2 & Hy2 & H2). apply Ok_inj in H2. subst p2. bd H3 as (y3 & Hy3 & H3). apply Ok_inj in H3. subst p3.
  apply dadd_Ok in Hy1 as [-> _]. apply dadd_Ok in Hy2 as [-> _]. apply dadd_Ok in Hy3 as [-> _].
  change (Z.quot ((now - pp_last_update pp) * E18 * E18) (dec 31536000)) with (period_of now (pp_last_update pp)) in Hf.
  set (pp1 := resnap price pp <| pp_last_price := price |> <| pp_last_update := now |>) in *.
  assert (sk = skew_at pp price) as -> by exact Hs. clear Hs.
  exists pc, price, pp, pp1, pp2, fpd. split; [exact Hpc|]. split; [exact Hp|]. split; [exact Hpp|]. split; [reflexivity|].
  assert (pp_skew_abs_snap pp2 = Z.abs (skew_at pp price) /\ pp_pnl_snap pp2 = pp_cost pp - skew_at pp price) as [S1 S2].
  { destruct (period_of now (pp_last_update pp) =? 0); cbn [negb] in Hf; [apply Ok_inj in Hf; injection Hf as <- <-; split; reflexivity|].
    apply funding_step_inv in Hf as [(_ & _ & _ & E4 & E5 & _) _]. rewrite E4, E5. split; reflexivity. }
  split.
  { destruct (Z.eqb_spec (period_of now (pp_last_update pp)) 0) as [E1|E1]; cbn [negb] in Hf.
    - apply Ok_inj in Hf. injection Hf as <- <-. left. split; [exact E1|]. split; reflexivity.
    - right. split; [exact E1|exact Hf]. }
  split; [|reflexivity]. unfold put_snap. rewrite S1, S2. reflexivity.
Qed.

Lemma settle_funding_inv p a pid p' a' nf : x_settle_funding p a pid = Ok (p', a', nf) ->
  exists pp f, vp_positions p !! pid = Some pp /\ nf = - f /\
    p' = p <| vp_upf := vp_upf p - f |> <| vp_vb := vp_vb p + f |> /\
    match va_positions a !! pid with
    | Some pos => x_funding_due pp pos = Ok f /\
        a' = a <| va_pos_upd := va_pos_upd a ∪ dom (va_positions a) |>
               <| va_positions := <[pid := pos <| ap_funding := if 0 <? ap_amount pos then pp_funding_long_index pp else pp_funding_short_index pp |>]> (va_positions a) |>
               <| va_vb := va_vb a - f |>
    | None => f = 0 /\ a' = a <| va_pos_upd := va_pos_upd a ∪ dom (va_positions a) |> <| va_vb := va_vb a - f |>
    end.
Proof.
  unfold x_settle_funding, vp_position, vp_add_upf. intros H. bd H as (pp & Hpp & H). apply expect_Ok in Hpp. bd H as ([ps f] & Hf & H). bd H as (n & Hn & H). apply dneg_Ok in Hn as [-> _].
  bd H as (p1 & Hp1 & H). bd Hp1 as (y & Hy & Hp1). apply Ok_inj in Hp1. subst p1. apply dadd_Ok in Hy as [-> _]. bd H as ([p2 a2] & Hs & H). apply Ok_inj in H. injection H as <- <- <-.
  apply x_settle_account_inv in Hs as [-> ->]. exists pp, f. split; [exact Hpp|]. split; [reflexivity|].
  split. { simpl. rewrite Z.sub_opp_r. reflexivity. }
  destruct (va_positions a !! pid) as [pos|] eqn:Hpos.
  - bd Hf as (f0 & Hf0 & Hf). apply Ok_inj in Hf. injection Hf as <- <-. split; [exact Hf0|]. unfold va_set_positions. simpl. reflexivity.
  - apply Ok_inj in Hf. injection Hf as <- <-. split; [reflexivity|]. unfold va_set_positions. simpl. reflexivity.
Qed.
Lemma put_snap_set p pid pp y x : pp_skew_abs_snap y = pp_skew_abs_snap pp -> pp_pnl_snap y = pp_pnl_snap pp ->
  put_snap (vp_set_position p pid y) pid y x = put_snap p pid pp x.
Proof.
  intros H1 H2. unfold put_snap, vp_set_position. rewrite H1, H2. simpl. rewrite insert_insert.
  assert ({[pid]} ∪ ({[pid]} ∪ vp_updates p) = {[pid]} ∪ vp_updates p) as -> by set_solver. reflexivity.
Qed.
Definition pos_of (a : vacc) (pid : pair_id) : account_position := default apos_zero (va_positions a !! pid).
(** The pool position after trading [amount] at a cost of [cost]. *)
Definition traded (pp : pool_position) (long : bool) (amount cost : Z) : pool_position :=
  (if long then pp <| pp_oi_long := pp_oi_long pp + amount |> else pp <| pp_oi_short := pp_oi_short pp - amount |>) <| pp_cost := pp_cost pp + cost |>.
Lemma traded_snaps pp long amount cost : pp_skew_abs_snap (traded pp long amount cost) = pp_skew_abs_snap pp /\ pp_pnl_snap (traded pp long amount cost) = pp_pnl_snap pp.
Proof. unfold traded. destruct long; split; reflexivity. Qed.

Lemma open_inv c o p a pid amount p' a' fee : x_open_position c o p a pid amount = Ok (p', a', fee) ->
  exists pc fr price pp cost pp2, vc_pairs c !! pid = Some pc /\ va_fee_rebate a = Ok fr /\ vo_prices o !! pid = Some price /\ vp_positions p !! pid = Some pp /\
    0 <= Z.sgn (ap_amount (pos_of a pid)) * Z.sgn amount /\
    x_calculate_fee (vc_exchange c) pc pp fr price (mulq amount price) = Ok fee /\
    cost = mulq amount price + fee /\
    pp2 = traded pp (0 <? amount) amount cost /\
    (0 < amount -> pp_oi_long pp2 <= pc_oi_max pc) /\ (amount <= 0 -> pp_oi_short pp2 <= pc_oi_max pc) /\
    p' = put_snap p pid pp (resnap price pp2) /\
    a' = va_set_position a pid (mkAP (ap_amount (pos_of a pid) + amount) (ap_cost (pos_of a pid) + cost)
           (if 0 <? ap_amount (pos_of a pid) + amount then pp_funding_long_index pp else pp_funding_short_index pp)) /\
    x_assert_position_limit c a' = Ok tt /\ x_assert_account_integrity c p' a' o = Ok tt.
Proof.
  unfold x_open_position, vp_position, vo_price, vc_pair. intros H.
  bd H as (pc & Hpc & H). bd H as (fr & Hfr & H). bd H as (price & Hpr & H). bd H as (va & Hva & H). bd H as (pp & Hpp & H). cbv zeta in H.
  bd H as (? & Hg & H). bd H as (fe & Hfe & H). bd H as (co & Hco & H). bd H as (pp1 & Hp1 & H). bd H as (pco & Hpco & H).
  bd H as (am & Ham & H). bd H as (co' & Hco' & H). bd H as (p1 & Hsn & H). bd H as ([] & Hl & H). bd H as ([] & Hi & H). apply Ok_inj in H. injection H as <- <- <-.
  apply expect_Ok in Hpc, Hpr, Hpp. apply dmul_mulq in Hva. subst va. apply guard_Ok in Hg. apply Z.leb_le in Hg. apply dadd_Ok in Hco as [-> _]. apply dadd_Ok in Hpco as [-> _]. apply dadd_Ok in Ham as [-> _]. apply dadd_Ok in Hco' as [-> _].
  exists pc, fr, price, pp, (mulq amount price + fe), (traded pp (0 <? amount) amount (mulq amount price + fe)).
  split; [exact Hpc|]. split; [exact Hfr|]. split; [exact Hpr|]. split; [exact Hpp|]. split; [exact Hg|]. split; [exact Hfe|]. split; [reflexivity|]. split; [reflexivity|].
  assert (pp1 <| pp_cost := pp_cost pp1 + (mulq amount price + fe) |> = traded pp (0 <? amount) amount (mulq amount price + fe) /\
    (0 < amount -> pp_oi_long (traded pp (0 <? amount) amount (mulq amount price + fe)) <= pc_oi_max pc) /\ (amount <= 0 -> pp_oi_short (traded pp (0 <? amount) amount (mulq amount price + fe)) <= pc_oi_max pc) /\
    pp_funding_long_index pp1 = pp_funding_long_index pp /\ pp_funding_short_index pp1 = pp_funding_short_index pp) as (T1 & T2 & T3 & T4 & T5).
  { destruct (Z.ltb_spec 0 amount); bd Hp1 as (y & Hy & Hp1); bd Hp1 as (? & Hl1 & Hp1); apply Ok_inj in Hp1; subst pp1; apply guard_Ok in Hl1; apply Z.leb_le in Hl1.
    - apply dadd_Ok in Hy as [-> _]. simpl. repeat split; [intros _; exact Hl1|lia].
    - apply dsub_Ok in Hy as [-> _]. simpl. repeat split; [lia|intros _; exact Hl1]. }
  split; [exact T2|]. split; [exact T3|]. simpl in Hsn, Hi, Hl. rewrite T4, T5 in *. rewrite T1 in *.
  apply update_snaps_inv in Hsn as (price' & pp' & Hpr' & Hpp' & ->). rewrite Hpr in Hpr'. injection Hpr' as <-. simpl in Hpp'. rewrite lookup_insert in Hpp'. injection Hpp' as <-.
  rewrite (put_snap_set p pid pp) in *; try apply traded_snaps.
  split; [reflexivity|]. split; [reflexivity|]. split; [exact Hl|exact Hi].
Qed.
Lemma close_inv c o p a pid amount p' a' pnl fee : x_close_position c o p a pid amount = Ok (p', a', (pnl, fee)) ->
  exists pc fr price pp pos cost pp2, vc_pairs c !! pid = Some pc /\ va_fee_rebate a = Ok fr /\ vo_prices o !! pid = Some price /\ vp_positions p !! pid = Some pp /\
    pos = pos_of a pid /\ ap_amount pos <> 0 /\
    Z.sgn (ap_amount pos) * Z.sgn amount <= 0 /\ Z.abs amount <= Z.abs (ap_amount pos) /\
    x_calculate_fee (vc_exchange c) pc pp fr price (mulq amount price) = Ok fee /\
    cost = mulq (Z.quot (- amount * E18) (ap_amount pos)) (ap_cost pos) /\
    pnl = - mulq amount price - cost - fee /\
    pp2 = traded pp (amount <? 0) amount (- cost) /\
    p' = put_snap p pid pp (resnap price pp2) <| vp_vb := vp_vb p - pnl |> /\
    a' = va_set_position a pid (pos <| ap_amount := ap_amount pos + amount |> <| ap_cost := ap_cost pos - cost |>) <| va_vb := va_vb a + pnl |>.
Proof.
  unfold x_close_position, vp_position, vo_price, vc_pair. intros H.
  bd H as (pc & Hpc & H). bd H as (fr & Hfr & H). bd H as (price & Hpr & H). bd H as (va & Hva & H). bd H as (pp & Hpp & H). cbv zeta in H.
  bd H as (? & Hg & H). bd H as (? & Hg' & H). bd H as (fe & Hfe & H). bd H as (na & Hna & H). bd H as (ra & Hra & H). bd H as (co & Hco & H). bd H as (nv & Hnv & H). bd H as (t & Ht & H). bd H as (pn & Hpn & H).
  bd H as (pp1 & Hp1 & H). bd H as (pco & Hpco & H). bd H as (am & Ham & H). bd H as (co' & Hco' & H). bd H as ([p1 a1] & Hset & H). bd H as (p2 & Hsn & H). apply Ok_inj in H. injection H as <- <- <- <-.
  apply expect_Ok in Hpc, Hpr, Hpp. apply dmul_mulq in Hva. subst va. apply guard_Ok in Hg, Hg'. apply Z.leb_le in Hg, Hg'. apply dneg_Ok in Hna as [-> _]. apply ddiv_Ok in Hra as (Hnz & -> & _). apply dmul_mulq in Hco. apply dneg_Ok in Hnv as [-> _].
  apply dsub_Ok in Ht as [-> _]. apply dsub_Ok in Hpn as [-> _]. apply dsub_Ok in Hpco as [-> _]. apply dadd_Ok in Ham as [-> _]. apply dsub_Ok in Hco' as [-> _]. fold (pos_of a pid) in *.
  exists pc, fr, price, pp, (pos_of a pid), co, (traded pp (amount <? 0) amount (- co)).
  split; [exact Hpc|]. split; [exact Hfr|]. split; [exact Hpr|]. split; [exact Hpp|]. split; [reflexivity|]. split; [exact Hnz|]. split; [exact Hg|]. split; [exact Hg'|]. split; [exact Hfe|]. split; [exact Hco|]. split; [reflexivity|]. split; [reflexivity|].
  assert (pp1 <| pp_cost := pp_cost pp1 - co |> = traded pp (amount <? 0) amount (- co)) as T1.
  { destruct (amount <? 0); bd Hp1 as (y & Hy & Hp1); apply Ok_inj in Hp1; subst pp1; [apply dadd_Ok in Hy as [-> _]|apply dsub_Ok in Hy as [-> _]]; reflexivity. }
  rewrite T1 in Hset. apply x_settle_account_inv in Hset as [-> ->].
  apply update_snaps_inv in Hsn as (price' & pp' & Hpr' & Hpp' & ->). rewrite Hpr in Hpr'. injection Hpr' as <-. simpl in Hpp'. rewrite lookup_insert in Hpp'. injection Hpp' as <-.
  split; [|reflexivity].
  match goal with |- put_snap (vp_set_position p pid ?y <| vp_vb := ?v |>) pid ?y ?x = _ =>
    change (put_snap (vp_set_position p pid y <| vp_vb := v |>) pid y x) with (put_snap (vp_set_position p pid y) pid y x <| vp_vb := v |>) end.
  rewrite (put_snap_set p pid pp) by apply traded_snaps. reflexivity.
Qed.
Lemma liq1_inv c fr o p tp tm tf tfe pid pos p' t' : x_liq_position1 c fr o (p, (tp, tm, tf, tfe)) (pid, pos) = Ok (p', t') ->
  exists pc price pp fee funding, vc_pairs c !! pid = Some pc /\ vo_prices o !! pid = Some price /\ vp_positions p !! pid = Some pp /\
    x_calculate_fee (vc_exchange c) pc pp fr price (mulq (- ap_amount pos) price) = Ok fee /\ x_funding_due pp pos = Ok funding /\
    p' = vp_set_position p pid (traded pp (0 <? ap_amount pos) (- ap_amount pos) (- ap_cost pos)) /\
    t' = (tp + (- mulq (- ap_amount pos) price - ap_cost pos - fee - funding), tm + mulq (Z.abs (mulq (- ap_amount pos) price)) (pc_margin_maintenance pc), tf + funding, tfe + fee).
Proof.
  unfold x_liq_position1, vp_position, vo_price, vc_pair. intros H.
  bd H as (pc & Hpc & H). bd H as (price & Hpr & H). cbv zeta in H. bd H as (na & Hna & H). bd H as (va & Hva & H). bd H as (vab & Hvab & H). bd H as (pp & Hpp & H). bd H as (fe & Hfe & H). bd H as (pp1 & Hp1 & H).
  bd H as (fu & Hfu & H). bd H as (pco & Hpco & H). bd H as (nv & Hnv & H). bd H as (t0 & Ht0 & H). bd H as (t1 & Ht1 & H). bd H as (pn & Hpn & H). bd H as (mg & Hmg & H). bd H as (tf' & Htf & H). bd H as (tp' & Htp & H). bd H as (tm' & Htm & H). bd H as (tfe' & Htfe & H).
  apply Ok_inj in H. injection H as <- <-. apply expect_Ok in Hpc, Hpr, Hpp. apply dneg_Ok in Hna as [-> _]. apply dmul_mulq in Hva. subst va. apply dabs_Ok in Hvab as [-> _]. apply dneg_Ok in Hnv as [-> _]. apply dsub_Ok in Hpco as [-> _].
  apply dsub_Ok in Ht0 as [-> _]. apply dsub_Ok in Ht1 as [-> _]. apply dsub_Ok in Hpn as [-> _]. apply dmul_mulq in Hmg. subst mg. apply dadd_Ok in Htf as [-> _]. apply dadd_Ok in Htp as [-> _]. apply dadd_Ok in Htm as [-> _]. apply dadd_Ok in Htfe as [-> _].
  exists pc, price, pp, fe, fu. split; [exact Hpc|]. split; [exact Hpr|]. split; [exact Hpp|]. split; [exact Hfe|]. split; [exact Hfu|]. split; [|reflexivity].
  f_equal. unfold traded. destruct (0 <? ap_amount pos); bd Hp1 as (y & Hy & Hp1); apply Ok_inj in Hp1; subst pp1; [apply dsub_Ok in Hy as [-> _]|apply dadd_Ok in Hy as [-> _]; simpl; rewrite Z.sub_opp_r]; reflexivity.
Qed.
Definition liq_rebalance (a : vacc) : vacc := va_set_positions a ((fun _ => apos_zero) <$> va_positions a).
Lemma liquidate_positions_inv now c o p a p' a' rp : x_liquidate_positions now c o p a = Ok (p', a', rp) ->
  exists fr p1 p2 tp tm tf tfe, va_fee_rebate a = Ok fr /\
    rfold (fun p k => '(p, _) ← x_update_pair now c o p k; Ok p) p (map fst (map_to_list (va_positions a))) = Ok p1 /\
    rfold (x_liq_position1 c fr o) (p1, (0, 0, 0, 0)) (map_to_list (va_positions a)) = Ok (p2, (tp, tm, tf, tfe)) /\
    rfold (x_update_pair_snaps o) (p2 <| vp_upf := vp_upf p2 - tf |>) (map fst (map_to_list (va_positions a))) = Ok p' /\
    a' = liq_rebalance a /\ lp_pnl rp = tp /\ lp_margin rp = tm /\ lp_funding_paid rp = - tf /\ lp_fee rp = tfe /\
    lp_amounts rp = map (fun x => (fst x, ap_amount (snd x))) (map_to_list (va_positions a)).
Proof.
  unfold x_liquidate_positions, vp_add_upf. intros H. bd H as (fr & Hfr & H). cbv zeta in H. bd H as (p1 & Hp1 & H). bd H as ([p2 [[[tp tm] tf] tfe]] & Hp2 & H). bd H as (prices & Hprs & H). bd H as (nf & Hnf & H). bd H as (p3 & Hp3 & H). bd H as (p4 & Hp4 & H).
  apply Ok_inj in H. injection H as <- <- <-. apply dneg_Ok in Hnf as [-> _]. bd Hp3 as (y & Hy & Hp3). apply Ok_inj in Hp3. subst p3. apply dadd_Ok in Hy as [-> _].
  exists fr, p1, p2, tp, tm, tf, tfe. split; [exact Hfr|]. split; [exact Hp1|]. split; [exact Hp2|]. split; [exact Hp4|]. repeat (split; [reflexivity|]). reflexivity.
Qed.
