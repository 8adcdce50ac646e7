(** * C19: the exact funding formulas. *)
From Verif Require Import Base DFloat Lists Types Config Oracle Pool Account Fees Referral ExInternal Exchange System Scenario Sums Trace Frames Calls Shape Spec SpecOracle SpecTrading SpecMargin SpecFunding P_Ledger P_DFloat Witness Props_Config Props_Rates P_Fees P_Tokens P_Oracle P_Keeper Trading P_Positions P_Positions2 P_Snaps P_Orders P_Final P_OrderCall Props_Positions Props_LP P_Updates.
From Verif Require Import Props_Funding.

(** Years since the pair's last update, the signed value of the open interest, and division of decimals. *)
Definition years (w : world) (k : pair_id) : Z := Z.quot (elapsed w k * 10 ^ 18) 31536000.
Definition skew_value (w w' : world) (k : pair_id) : Z := mul (open_interest_long w k - open_interest_short w k) (price_of w' k).
Definition over (x y : Z) : Z := Z.quot (x * 10 ^ 18) y.
(** What the paying side pays for the elapsed time, the pool's share of it, and what both sides pay the pool. *)
Definition paid (pc : pair_config) (w w' : world) (k : pair_id) : Z := mul (Z.abs (funding_rate pc w w' k)) (years w k).
Definition pool_share (pc : pair_config) (w w' : world) (k : pair_id) : Z := mul (paid pc w w' k) (pc_funding_share pc).
Definition pool_charge (pc : pair_config) (w w' : world) (k : pair_id) : Z :=
  mul (mul (mul (open_interest_long w k + open_interest_short w k) (price_of w' k)) (pc_funding_pool_0 pc) + mul (Z.abs (skew_value w w' k)) (pc_funding_pool_1 pc)) (years w k).
(** The pair accrues: time has passed and both sides are there. *)
Definition accrues (w : world) (k : pair_id) : bool := negb (elapsed w k =? 0) && negb (open_interest_long w k =? 0) && negb (open_interest_short w k =? 0).
Definition pool_income (w w' : world) (k : pair_id) : Z :=
  match pair_cfg w k with Some pc => if accrues w k then pool_charge pc w w' k + pool_share pc w w' k else 0 | None => 0 end.
(** The second funding rate after the update: it drifts with the skew inside the band given by the open interest, and decays toward the band from
    outside. *)
Definition drift (pc : pair_config) (w w' : world) (k : pair_id) : Z := mul (mul (skew_value w w' k) (pc_funding_2_delta pc)) (years w k).
Definition decayed (pc : pair_config) (w : world) (k : pair_id) (b : Z) : Z :=
  let r := pp_funding_2_rate (pool_pair w k) in r - mul (r - b) (Z.min (mul (pc_funding_2_decay pc) (years w k)) (10 ^ 18)).
Definition second_rate (pc : pair_config) (w w' : world) (k : pair_id) : Z :=
  let r := pp_funding_2_rate (pool_pair w k) in let lo := short_value w w' k in let hi := long_value w w' k in let d := drift pc w w' k in
  if elapsed w k =? 0 then r
  else if hi <? r then (if d <? 0 then Z.max lo (decayed pc w k hi + d) else decayed pc w k hi)
  else if r <? lo then (if 0 <? d then Z.min hi (decayed pc w k lo + d) else decayed pc w k lo)
  else clamp (r + d) lo hi.

Lemma period_years now last : period_of now last = Z.quot ((now - last) * 10 ^ 18) 31536000.
Proof. unfold period_of. change (10 ^ 18) with E18. first [reflexivity|rewrite Z.quot_mul_cancel_r by (unfold E18; lia); reflexivity]. Qed.
Lemma indexes_exact pc L S skew sa price r2 mn mx period dl ds total : x_funding_indexes pc L S skew sa price r2 mn mx period = Ok (dl, ds, total) ->
  let rate := mul skew (pc_funding_1 pc) + mul (clamp r2 mn mx) (pc_funding_2 pc) in let pd := mul (Z.abs rate) period in let sh := mul pd (pc_funding_share pc) in
  let ch := mul (mul (mul (L + S) price) (pc_funding_pool_0 pc) + mul sa (pc_funding_pool_1 pc)) period in
  dl = (if 0 <? rate then over pd L else over (- (pd - sh)) L) + over ch (L + S) /\
  ds = (if 0 <? rate then over (- (pd - sh)) S else over pd S) + over ch (L + S) /\ total = ch + sh.
Proof.
  unfold x_funding_indexes. intros H. bd H as (f1 & Hf1 & H). bd H as (cl & Hcl & H). bd H as (f2 & Hf2 & H). bd H as (rate & Hra & H). bd H as ([[li si] sh] & Hli & H). bd H as (t0 & Ht0 & H). bd H as (t1 & Ht1 & H). bd H as (p0 & Hp0 & H). bd H as (p1 & Hp1 & H). bd H as (pr & Hpr & H). bd H as (fp & Hfp & H). bd H as (pi & Hpi & H).
  bd H as (dl1 & Hdl & H). bd H as (ds1 & Hds & H). bd H as (tot & Htot & H). apply Ok_inj in H. injection H as <- <- <-.
  apply dmul_mulq in Hf1, Hf2, Ht1, Hp0, Hp1, Hfp. apply dclamp_Ok in Hcl as [_ ->]. apply dadd_Ok in Hra as [Hra _], Ht0 as [-> _], Hdl as [-> _], Hds as [-> _], Htot as [-> _], Hpr as [-> _]. apply ddiv_Ok in Hpi as (_ & -> & _).
  cbv zeta. change mul with mulq. unfold over. change (10 ^ 18) with E18. assert (mulq skew (pc_funding_1 pc) + mulq (clamp r2 mn mx) (pc_funding_2 pc) = rate) as -> by (rewrite Hra, Hf1, Hf2; reflexivity). rewrite <- Ht1, <- Hp0, <- Hp1, <- Hfp.
  destruct (Z.ltb_spec 0 rate) as [Hr|Hr].
  - bd Hli as (fl & Hfl & Hli). bd Hli as (li1 & Hl1 & Hli). bd Hli as (sh1 & Hsh & Hli). bd Hli as (d & Hd & Hli). bd Hli as (nd & Hnd & Hli). bd Hli as (si1 & Hs1 & Hli). apply Ok_inj in Hli. injection Hli as <- <- <-.
    apply dmul_mulq in Hfl, Hsh. apply ddiv_Ok in Hl1 as (_ & -> & _), Hs1 as (_ & -> & _). apply dsub_Ok in Hd as [-> _]. apply dneg_Ok in Hnd as [-> _]. rewrite (Z.abs_eq rate) by lia. rewrite <- Hfl, <- Hsh. auto.
  - bd Hli as (nr & Hnr & Hli). bd Hli as (fs & Hfs & Hli). bd Hli as (si1 & Hs1 & Hli). bd Hli as (sh1 & Hsh & Hli). bd Hli as (d & Hd & Hli). bd Hli as (nd & Hnd & Hli). bd Hli as (li1 & Hl1 & Hli). apply Ok_inj in Hli. injection Hli as <- <- <-.
    apply dneg_Ok in Hnr as [-> _]. apply dmul_mulq in Hfs, Hsh. apply ddiv_Ok in Hl1 as (_ & -> & _), Hs1 as (_ & -> & _). apply dsub_Ok in Hd as [-> _]. apply dneg_Ok in Hnd as [-> _]. rewrite (Z.abs_neq rate) by lia. rewrite <- Hfs, <- Hsh. auto.
Qed.
Lemma rate2_exact pc rate mx mn delta period r : x_funding_2 pc rate mx mn delta period = Ok r -> mn <= mx ->
  let dec_ b := rate - mul (rate - b) (Z.min (mul (pc_funding_2_decay pc) period) (10 ^ 18)) in
  r = if mx <? rate then (if delta <? 0 then Z.max mn (dec_ mx + delta) else dec_ mx)
      else if rate <? mn then (if 0 <? delta then Z.min mx (dec_ mn + delta) else dec_ mn) else clamp (rate + delta) mn mx.
Proof.
  intros H Hm. cbv zeta. assert (forall b d, x_funding_2_decay pc rate b period = Ok d -> d = rate - mul (rate - b) (Z.min (mul (pc_funding_2_decay pc) period) (10 ^ 18))) as Hd.
  { intros b d Hd. unfold x_funding_2_decay in Hd. bd Hd as (ex & Hex & Hd). bd Hd as (t & Ht & Hd). bd Hd as (de & Hde & Hd). apply dsub_Ok in Hex as [-> _], Hd as [-> _]. apply dmul_mulq in Ht, Hde. change mul with mulq. rewrite <- Ht. change (10 ^ 18) with (dec 1). rewrite <- Hde. reflexivity. }
  unfold x_funding_2 in H. destruct (Z.ltb_spec mx rate) as [A|A]; [|destruct (Z.ltb_spec rate mn) as [B|B]].
  - bd H as (r1 & Hr1 & H). apply Hd in Hr1. rewrite <- Hr1. destruct (Z.ltb_spec delta 0); [bd H as (s & Hs & H); apply dadd_Ok in Hs as [-> _]|]; apply Ok_inj in H; subst r; [|reflexivity]. destruct (Z.ltb_spec (r1 + delta) mn); lia.
  - bd H as (r1 & Hr1 & H). apply Hd in Hr1. rewrite <- Hr1. destruct (Z.ltb_spec 0 delta); [bd H as (s & Hs & H); apply dadd_Ok in Hs as [-> _]|]; apply Ok_inj in H; subst r; [|reflexivity]. destruct (Z.ltb_spec mx (r1 + delta)); lia.
  - bd H as (s & Hs & H). apply dadd_Ok in Hs as [-> _]. apply Ok_inj in H. subst r. unfold clamp. destruct (Z.ltb_spec mx (rate + delta)); [lia|]. destruct (Z.ltb_spec (rate + delta) mn); lia.
Qed.
(** What one update of a pair does, in terms of the pair before it. *)
Record accrual (w w' : world) (k : pair_id) (pc : pair_config) : Prop := {
  fd_rate2 : pp_funding_2_rate (pool_pair w' k) = second_rate pc w w' k;
  fd_long : long_growth w w' k = if accrues w k then (if 0 <? funding_rate pc w w' k then over (paid pc w w' k) (open_interest_long w k)
              else over (- (paid pc w w' k - pool_share pc w w' k)) (open_interest_long w k)) + over (pool_charge pc w w' k) (open_interest_long w k + open_interest_short w k) else 0;
  fd_short : short_growth w w' k = if accrues w k then (if 0 <? funding_rate pc w w' k then over (- (paid pc w w' k - pool_share pc w w' k)) (open_interest_short w k)
              else over (paid pc w w' k) (open_interest_short w k)) + over (pool_charge pc w w' k) (open_interest_long w k + open_interest_short w k) else 0;
  fd_time : pp_last_update (pool_pair w' k) = w_now w;
  fd_price : pp_last_price (pool_pair w' k) = price_of w' k }.

(** The funding part of a pool position. *)
Definition fundf (pp : pool_position) := (pp_funding_2_rate pp, pp_funding_long_index pp, pp_funding_short_index pp, pp_last_update pp, pp_last_price pp).
Lemma upd1_accrual_g E w w' k pc F pp2 : reachable E w -> 0 < price_of w' k -> fundf (pool_pair w' k) = fundf pp2 -> upd1 (w_now w) pc (price_of w' k) (pool_pair w k) pp2 F ->
  accrual w w' k pc /\ F = (if accrues w k then pool_charge pc w w' k + pool_share pc w w' k else 0).
Proof.
  intros Hr Hpr Hff Hu. unfold fundf in Hff. injection Hff as Q1 Q2 Q3 Q4 Q5. pose proof (pool_pair_oi w k) as [EL ES]. destruct (C17_open_interest_nonneg _ _ k Hr) as [HL HS].
  assert (short_value w w' k <= 0 <= long_value w w' k) as Hband. { unfold short_value, long_value. split; [|apply quot_nonneg; lia]. change mul with mulq. rewrite mulq_neg_l. pose proof (quot_nonneg (open_interest_short w k) (price_of w' k) HS ltac:(lia)). unfold mulq. lia. }
  destruct Hu as [(Hp & Epp & EF)|(Hp & Hf)]; rewrite period_zero_iff in Hp.
  - assert (elapsed w k = 0) as He by (unfold elapsed; lia). assert (accrues w k = false) as Ha by (unfold accrues; rewrite He; reflexivity). rewrite Ha. split; [|exact EF].
    constructor; rewrite ?Ha; unfold long_growth, short_growth, second_rate; rewrite ?He, ?Q1, ?Q2, ?Q3, ?Q4, ?Q5, ?Epp; cbn; lia || reflexivity.
  - assert (elapsed w k <> 0) as He by (unfold elapsed; lia). apply Z.eqb_neq in He as He'. assert (period_of (w_now w) (pp_last_update (pool_pair w k)) = years w k) as Ey by apply period_years. rewrite Ey in Hf.
    unfold x_funding_step in Hf. bd Hf as (mx & Hmx & Hf). bd Hf as (ns & Hns & Hf). bd Hf as (mn & Hmn & Hf). bd Hf as (t0 & Ht0 & Hf). bd Hf as (de & Hde & Hf). bd Hf as (r2 & Hr2 & Hf). apply dmul_mulq in Hmx, Hmn, Ht0, Hde. apply dneg_Ok in Hns as [-> _].
    cbn [pp_oi_long pp_oi_short pp_funding_2_rate] in *.
    change (pp_oi_long (resnap (price_of w' k) (pool_pair w k) <| pp_last_price := price_of w' k |> <| pp_last_update := w_now w |>)) with (pp_oi_long (pool_pair w k)) in *. change (pp_oi_short (resnap (price_of w' k) (pool_pair w k) <| pp_last_price := price_of w' k |> <| pp_last_update := w_now w |>)) with (pp_oi_short (pool_pair w k)) in *.
    change (pp_funding_2_rate (resnap (price_of w' k) (pool_pair w k) <| pp_last_price := price_of w' k |> <| pp_last_update := w_now w |>)) with (pp_funding_2_rate (pool_pair w k)) in *.
    assert (skew_at (pool_pair w k) (price_of w' k) = skew_value w w' k) as Esk by (unfold skew_at, skew_value; rewrite EL, ES; reflexivity). rewrite Esk in *. rewrite EL, ES in *.
    assert (mx = long_value w w' k) as -> by (rewrite Hmx; reflexivity). assert (mn = short_value w w' k) as -> by (rewrite Hmn; reflexivity). assert (de = drift pc w w' k) as -> by (rewrite Hde, Ht0; reflexivity).
    apply rate2_exact in Hr2; [|lia]. cbv zeta in Hr2. assert (r2 = second_rate pc w w' k) as Er2. { unfold second_rate. rewrite He'. exact Hr2. } clear Hr2 Hde Ht0 Hmx Hmn.
    destruct (negb (open_interest_long w k =? 0) && negb (open_interest_short w k =? 0)) eqn:Hoi.
    + assert (accrues w k = true) as Ha by (unfold accrues; rewrite He'; cbn [negb]; exact Hoi). rewrite Ha.
      bd Hf as ([[dl ds] tot] & Hi & Hf). bd Hf as (li & Hli & Hf). bd Hf as (si & Hsi & Hf). apply Ok_inj in Hf. injection Hf as Epp <-. apply dadd_Ok in Hli as [-> _], Hsi as [-> _].
      assert (pp_funding_2_rate (pool_pair w' k) = r2) as E2 by (rewrite Q1, <- Epp; reflexivity). apply indexes_exact in Hi. cbv zeta in Hi.
      assert (mul (skew_value w w' k) (pc_funding_1 pc) + mul (clamp r2 (short_value w w' k) (long_value w w' k)) (pc_funding_2 pc) = funding_rate pc w w' k) as Erate by (unfold funding_rate; rewrite E2; reflexivity). rewrite Erate in Hi.
      destruct Hi as (I1 & I2 & I3). split; [|exact I3]. constructor; rewrite ?Ha.
      * rewrite E2. exact Er2.
      * unfold long_growth. rewrite Q2, <- Epp. cbn. rewrite I1. unfold paid, pool_share, pool_charge, paid. lia.
      * unfold short_growth. rewrite Q3, <- Epp. cbn. rewrite I2. unfold paid, pool_share, pool_charge, paid. lia.
      * rewrite Q4, <- Epp. reflexivity.
      * rewrite Q5, <- Epp. reflexivity.
    + assert (accrues w k = false) as Ha by (unfold accrues; rewrite He'; cbn [negb]; exact Hoi). rewrite Ha. apply Ok_inj in Hf. injection Hf as Epp <-. split; [|reflexivity].
      constructor; rewrite ?Ha; unfold long_growth, short_growth; rewrite ?Q1, ?Q2, ?Q3, ?Q4, ?Q5; rewrite <- ?Epp; cbn; try lia; try reflexivity.
Qed.
Lemma upd1_accrual E w w' k pc F : reachable E w -> 0 < price_of w' k -> upd1 (w_now w) pc (price_of w' k) (pool_pair w k) (pool_pair w' k) F ->
  accrual w w' k pc /\ F = (if accrues w k then pool_charge pc w w' k + pool_share pc w w' k else 0).
Proof. intros Hr Hp Hu. exact (upd1_accrual_g _ _ _ _ _ _ _ Hr Hp eq_refl Hu). Qed.
(** C19, exactly: after an update of pairs each listed pair has the funding the formulas give, and the pool's unrealised
    funding grows by the pool's income from them. *)
Theorem C19_exact E cx w ps upd w' out : reachable E w -> step E cx w (OUpdatePairs ps upd) = Ok (w', out) ->
  po_upf (w_pool w') = po_upf (w_pool w) + lsum (pool_income w w') (distinct ps) /\
  forall k, k ∈ ps -> exists pc, pair_cfg w k = Some pc /\ accrual w w' k pc.
Proof.
  intros Hr H. destruct (updates_intro _ _ _ _ _ _ _ H) as (F & U). split.
  - rewrite (ud_upf _ _ _ _ _ U). f_equal. apply lsum_ext. intros k Hk. unfold distinct in Hk. rewrite elem_of_elements, elem_of_list_to_set in Hk. destruct (ud_in _ _ _ _ _ U k Hk) as (pc & Hpc & Hpr & _ & Hu). unfold pool_income. rewrite Hpc. exact (proj2 (upd1_accrual _ _ _ _ _ _ Hr Hpr Hu)).
  - intros k Hk. destruct (ud_in _ _ _ _ _ U k Hk) as (pc & Hpc & Hpr & _ & Hu). exists pc. split; [exact Hpc|]. exact (proj1 (upd1_accrual _ _ _ _ _ _ Hr Hpr Hu)).
Qed.
(** A reachable update in which a pair with two unequal sides accrues. *)
Definition fd_check (w' : world) (_ : outp) : bool := accrues WU 1%N && negb (pool_income WU w' 1%N =? 0) && negb (long_growth WU w' 1%N =? 0) && negb (short_growth WU w' 1%N =? 0).
Example C19_exact_ex : exists w' out, reachable sc_env WU /\ step sc_env cx_any WU ups = Ok (w', out) /\
  accrues WU 1%N = true /\ pool_income WU w' 1%N <> 0 /\ long_growth WU w' 1%N <> 0 /\ short_growth WU w' 1%N <> 0.
Proof.
  destruct (try_true WU (cx_any, ups) fd_check) as (w' & out & H & Hf); [vm_compute; reflexivity|]. exists w', out. split; [exact WU_reach|]. split; [exact H|].
  unfold fd_check in Hf. rewrite !andb_true_iff, !negb_true_iff, !Z.eqb_neq in Hf. tauto.
Qed.
