(** * C22, C23: liquidity providers. *)
From Verif Require Import Base DFloat Lists Types Config Oracle Pool Account Fees Referral ExInternal Exchange System Scenario Sums Trace Frames Calls Shape Spec SpecOracle SpecTrading SpecMargin P_Ledger P_DFloat Witness Props_Config P_Fees P_Tokens P_Keeper Trading P_Orders.

(** What an LP is paid, and what is left for the others, in exact arithmetic. *)
Lemma pool_value_cached w ids pv : x_pool_value (get_pool w ids) = Ok pv -> pv = pool_value w.
Proof. unfold x_pool_value. intros H. bd H as (x & Hx & H). bd H as (y & Hy & H). apply dadd_Ok in Hx as [-> _], Hy as [-> _], H as [-> _]. reflexivity. Qed.
Record lp_added (w w' : world) (x lp fee fp ft : Z) : Prop := {
  la_fee : fee = mul x (ec_fee_liquidity_add (g_exchange_config w)); la_fees : 0 <= fee /\ 0 <= fp /\ 0 <= ft /\ fp + ft <= fee;
  la_lp : if w_lp w =? 0 then lp = x - fee else exists p, p = Z.quot (Z.max (pool_value w) E18 * E18) (w_lp w) /\ p <> 0 /\ lp = Z.quot ((x - fee) * E18) p;
  la_pos : 0 <= x /\ 0 <= lp; la_value : pool_value w' = pool_value w + x - fp - ft; la_supply : w_lp w' = w_lp w + lp }.
Lemma add_inv E cx w b w' out : reachable E w -> step E cx w (OAddLiquidity b) = Ok (w', out) ->
  exists lp fee fp ft, o_tokens out = [(LP, lp)] /\ b_res b = BASE /\ lp_added w w' (b_amt b) lp fee fp ft.
Proof.
  intros Hr H. pose proof H as Hi. apply step_inv in Hi as (Hb & _). simpl in Hb. rewrite andb_true_r in Hb. apply bucket_ok_nonneg in Hb.
  apply step_exec' in H. simpl in H. pose proof H as H2. apply call_add_liquidity in H2 as (c & fee & lp & fp & ft & Hc & Hbr & Hfee & Hfp & Hft & Htok & Hlp & Hw').
  exists lp, fee, fp, ft. split; [exact Htok|]. split; [exact Hbr|].
  unfold m_add_liquidity in H. rewrite Hc in H. cbn [mbind res_bind] in H. bd H as ([[[[p1 fd1] s1] lpb] ev] & Hx & H).
  apply Ok_inj in H. injection H as _ <-. cbn in Htok. injection Htok as Htok. unfold x_add_liquidity in Hx.
  bd Hx as (? & Hg & Hx). bd Hx as (fee' & Hfee' & Hx). rewrite Hfee in Hfee'. apply Ok_inj in Hfee'. subst fee'. bd Hx as (pv & Hpv & Hx). bd Hx as ([lpa lpp] & Hlp' & Hx).
  bd Hx as (p2 & Hd & Hx). bd Hx as (? & Hmi & Hx). bd Hx as (s2 & Hs & Hx). bd Hx as ([[p3 fd3] [[q0 q1] q2]] & Hf & Hx).
  apply Ok_inj in Hx. injection Hx as _ _ _ <- _. injection Htok as ->. apply pool_value_cached in Hpv. subst pv.
  rewrite (get_config_exchange _ _ _ Hc) in *. change (ec_decompress (cf_exchange (w_config w))) with (g_exchange_config w) in *.
  pose proof (ec_valid_shares _ (C40_exchange_config _ _ Hr)) as (V1 & V2 & V3 & V4 & _). apply dmul_mulq in Hfee.
  assert (0 <= fee) as Hf0 by (rewrite Hfee; apply quot_nonneg; assumption).
  pose proof (quot_nonneg fee (ec_fee_share_protocol (g_exchange_config w)) Hf0 ltac:(lia)) as B1. pose proof (quot_nonneg fee (ec_fee_share_treasury (g_exchange_config w)) Hf0 ltac:(lia)) as B2.
  assert (fp + ft <= fee) as B3.
  { assert (fp * E18 <= fee * 300000000000000000 /\ ft * E18 <= fee * 150000000000000000) as [B3 B4]; [|unfold E18 in *; lia].
    pose proof (Z.mul_quot_le (fee * ec_fee_share_protocol (g_exchange_config w)) E18 ltac:(nia) ltac:(discriminate)). pose proof (Z.mul_quot_le (fee * ec_fee_share_treasury (g_exchange_config w)) E18 ltac:(nia) ltac:(discriminate)). subst fp ft. split; nia. }
  constructor.
  - exact Hfee.
  - subst fp ft. auto.
  - destruct (w_lp w =? 0).
    + bd Hlp' as (xx & Hxx & Hlp'). apply Ok_inj in Hlp'. injection Hlp' as <- <-. apply dsub_Ok in Hxx as [-> _]. reflexivity.
    + bd Hlp' as (p & Hp & Hlp'). bd Hlp' as (xx & Hxx & Hlp'). bd Hlp' as (y & Hy & Hlp'). apply Ok_inj in Hlp'. injection Hlp' as <- <-. apply dsub_Ok in Hxx as [-> _]. apply ddiv_Ok in Hp as (_ & -> & _), Hy as (Hnz & -> & _).
      eexists. split; [reflexivity|]. split; [exact Hnz|reflexivity].
  - auto.
  - rewrite Hw'. unfold pool_value. simpl. lia.
  - rewrite Hw'. reflexivity.
Qed.
Record lp_removed (w w' : world) (l amt value fee fp ft : Z) : Prop := {
  lr_price : exists p, p = Z.quot (Z.max (pool_value w) 0 * E18) (w_lp w) /\ w_lp w <> 0 /\ value = mul l p;
  lr_fee : fee = mul value (ec_fee_liquidity_remove (g_exchange_config w)); lr_fees : 0 <= value -> 0 <= fee /\ 0 <= fp /\ 0 <= ft /\ fp + ft <= fee;
  lr_amt : amt = value - fee /\ 0 <= amt; lr_l : 0 <= l <= w_lp w; lr_value : pool_value w' = pool_value w - amt - fp - ft; lr_supply : w_lp w' = w_lp w - l }.
Lemma remove_inv E cx w b w' out : reachable E w -> step E cx w (ORemoveLiquidity b) = Ok (w', out) ->
  exists amt value fee fp ft, o_tokens out = [(BASE, amt)] /\ b_res b = LP /\ lp_removed w w' (b_amt b) amt value fee fp ft.
Proof.
  intros Hr H. pose proof H as Hi. apply step_inv in Hi as (Hb & _). simpl in Hb. rewrite andb_true_r in Hb. apply bucket_ok_nonneg in Hb.
  apply step_exec' in H. simpl in H. apply call_remove_liquidity in H as (c & pv & price & value & fee & amt & fp & ft & Hc & Hbr & Hpv & Hpr & Hv & Hfee & Hfp & Hft & Hamt & Hab & Hle & Htok & Hw').
  exists amt, value, fee, fp, ft. split; [exact Htok|]. split; [exact Hbr|]. apply pool_value_cached in Hpv. subst pv. apply ddiv_Ok in Hpr as (Hnz & -> & _). apply dmul_mulq in Hv, Hfee.
  rewrite (get_config_exchange _ _ _ Hc) in *. change (ec_decompress (cf_exchange (w_config w))) with (g_exchange_config w) in *.
  pose proof (ec_valid_shares _ (C40_exchange_config _ _ Hr)) as (V1 & V2 & V3 & V4 & _).
  constructor.
  - eexists. split; [reflexivity|]. split; [exact Hnz|exact Hv].
  - exact Hfee.
  - intros H0. assert (0 <= fee) as Hf0 by (rewrite Hfee; apply quot_nonneg; assumption). split; [exact Hf0|].
    pose proof (quot_nonneg fee (ec_fee_share_protocol (g_exchange_config w)) Hf0 ltac:(lia)) as B1. pose proof (quot_nonneg fee (ec_fee_share_treasury (g_exchange_config w)) Hf0 ltac:(lia)) as B2. rewrite <- Hfp in B1. rewrite <- Hft in B2. split; [exact B1|]. split; [exact B2|].
    assert (fp * E18 <= fee * 300000000000000000 /\ ft * E18 <= fee * 150000000000000000) as [B3 B4]; [|unfold E18 in *; lia].
    pose proof (Z.mul_quot_le (fee * ec_fee_share_protocol (g_exchange_config w)) E18 ltac:(nia) ltac:(discriminate)). pose proof (Z.mul_quot_le (fee * ec_fee_share_treasury (g_exchange_config w)) E18 ltac:(nia) ltac:(discriminate)). subst fp ft. split; nia.
  - lia.
  - lia.
  - rewrite Hw'. unfold pool_value. simpl. lia.
  - rewrite Hw'. simpl. lia.
Qed.
(** The LP supply is never negative, and only adding and removing liquidity change it. *)
Lemma acct_call_lp E w a l w' : acct_call E w a l w' -> w_lp w' = w_lp w.
Proof. intros [c o idsc ids v0 s1 acc' refs' _ _ _ _ _ Hw]. rewrite Hw. reflexivity. Qed.
Lemma lp_step E cx w o w' out : step E cx w o = Ok (w', out) -> match o with OAddLiquidity _ => w_lp w <= w_lp w' | ORemoveLiquidity b => w_lp w' = w_lp w - b_amt b /\ 0 <= w_lp w' | _ => w_lp w' = w_lp w end.
Proof.
  intros H. apply step_gstep in H. destruct H; try reflexivity.
  all: try (destruct o; try reflexivity; discriminate). all: simpl; try lia.
  - destruct H0 as (l & H0 & _). apply acct_call_lp in H0. destruct o; try exact H0; discriminate H.
  - apply acct_call_lp in H1. exact H1.
Qed.
Theorem C23_supply_only_by_providers E cx w o w' out : step E cx w o = Ok (w', out) -> (forall b, o <> OAddLiquidity b) -> (forall b, o <> ORemoveLiquidity b) -> w_lp w' = w_lp w.
Proof. intros H H1 H2. apply lp_step in H. destruct o; try exact H; [exfalso; exact (H1 _ eq_refl)|exfalso; exact (H2 _ eq_refl)]. Qed.
Theorem C23_supply_nonneg E w : reachable E w -> 0 <= w_lp w.
Proof.
  induction 1 as [owner auth keys now w Ha Hn Hg|w cx o w' out Hr IH Hs]; [apply genesis_inv in Hg as (c & _ & ->); simpl; lia|]. apply lp_step in Hs. destruct o; lia.
Qed.
(** Arithmetic of the two prices. *)
Lemma quot_bounds n d : 0 <= n -> 0 < d -> Z.quot n d * d <= n < (Z.quot n d + 1) * d.
Proof. intros Hn Hd. rewrite Z.quot_div_nonneg by lia. pose proof (Z.div_mod n d ltac:(lia)). pose proof (Z.mod_pos_bound n d Hd). nia. Qed.
Lemma mul_bound a b : 0 <= a -> 0 <= b -> 0 <= mul a b /\ mul a b * E18 <= a * b.
Proof. intros Ha Hb. unfold mul. change (10 ^ 18) with E18. split; [apply quot_nonneg; assumption|]. pose proof (quot_bounds (a * b) E18 ltac:(nia) ltac:(reflexivity)). lia. Qed.

(** C22. With LP tokens outstanding, adding liquidity and removing the tokens received (or any part of them)
    right away pays back at most what was put in. *)
Theorem C22_round_trip E cx1 cx2 w x w1 out1 l w2 out2 : reachable E w -> 0 < w_lp w ->
  step E cx1 w (OAddLiquidity (BASE, x)) = Ok (w1, out1) -> l <= amount_in LP (o_tokens out1) -> step E cx2 w1 (ORemoveLiquidity (LP, l)) = Ok (w2, out2) ->
  amount_in BASE (o_tokens out2) <= x.
Proof.
  intros Hr HS H1 Hl H2. pose proof (reach_step _ _ _ _ _ _ Hr H1) as Hr1. destruct (add_inv _ _ _ _ _ _ Hr H1) as (lp & fee & fp & ft & T1 & _ & A). destruct (remove_inv _ _ _ _ _ _ Hr1 H2) as (amt & value & fee2 & fp2 & ft2 & T2 & _ & R).
  cbn [b_amt snd] in *. rewrite T1, amount_cons in Hl. rewrite T2, amount_cons. change (amount_in LP []) with 0 in Hl. change (amount_in BASE []) with 0. change (b_res (LP, lp) =? LP)%N with true in Hl. change (b_res (BASE, amt) =? BASE)%N with true. cbn [b_amt snd] in *. cbv iota in *.
  destruct A as [A1 A2 A3 A4 A5 A6]. destruct R as [(p' & R1 & R1b & R1c) R2 R3 [R4 R4b] R5 R6 R7]. destruct (Z.eqb_spec (w_lp w) 0) as [|_]; [lia|]. destruct A3 as (p & P1 & P2 & P3).
  rewrite A6 in *. assert (0 < E18) as HE by reflexivity. set (S := w_lp w) in *. set (V := pool_value w) in *. set (V' := pool_value w1) in *.
  assert (0 <= p') as Hp'. { rewrite R1. apply Z.quot_pos; [nia|lia]. } pose proof (mul_bound l p' ltac:(lia) Hp') as [M1 M2]. rewrite <- R1c in *. specialize (R3 M1).
  pose proof (quot_bounds (Z.max V E18 * E18) S ltac:(nia) ltac:(lia)) as [Q1 Q2]. rewrite <- P1 in Q1, Q2. assert (0 < p) as Hp. { assert (0 <= p); [rewrite P1; apply Z.quot_pos; nia|lia]. }
  pose proof (quot_bounds (Z.max V' 0 * E18) (S + lp) ltac:(nia) ltac:(lia)) as [Q3 Q4]. rewrite <- R1 in Q3, Q4.
  assert (l * p' <= lp * p') as B1 by nia. assert (lp * p' <= x * E18) as B2; [|nia].
  destruct (Z.eq_dec lp 0) as [E0|E0]; [rewrite E0; nia|].
  assert (0 <= x - fee) as Hxf.
  { destruct (Z.lt_ge_cases (x - fee) 0) as [Hneg|]; [|lia]. exfalso. apply E0. assert (lp <= 0); [|lia]. rewrite P3. replace ((x - fee) * E18) with (- ((fee - x) * E18)) by lia. rewrite Z.quot_opp_l by lia. pose proof (Z.quot_pos ((fee - x) * E18) p ltac:(nia) Hp). lia. }
  destruct (Z.le_gt_cases p' p) as [Hle|Hgt].
  - pose proof (quot_bounds ((x - fee) * E18) p ltac:(nia) Hp) as [Q5 Q6]. rewrite <- P3 in Q5.
    assert (0 <= lp) as H0 by (rewrite P3; apply Z.quot_pos; [clear - Hxf HE; nia|exact Hp]). assert (0 <= fee) as Hfe by lia.
    assert (lp * p' <= lp * p) by (clear - Hle H0; nia). assert ((x - fee) * E18 <= x * E18) by (clear - HE Hfe; nia). lia.
  - destruct (Z.le_gt_cases V' 0) as [Hv|Hv]; [assert (p' * (S + lp) <= 0) by lia; nia|]. assert ((p + 1) * S <= p' * S) by nia. assert (V * E18 <= Z.max V E18 * E18) by nia. assert (V' * E18 <= (V + x) * E18) by nia. lia.
Qed.

(** C23. Adding liquidity: the value per LP token of the others falls by less than one unit of the last place of the price
    (value * 10^18 / supply): pool value times the new supply is at most the new value times the old supply, plus that rounding. *)
Theorem C23_add_does_not_dilute E cx w x w' out : reachable E w -> 0 < w_lp w -> ec_fee_liquidity_add (g_exchange_config w) <= 10 ^ 18 -> step E cx w (OAddLiquidity (BASE, x)) = Ok (w', out) ->
  pool_value w * w_lp w' * 10 ^ 18 <= pool_value w' * w_lp w * 10 ^ 18 + w_lp w * (w_lp w' - w_lp w) /\ w_lp w' = w_lp w + amount_in LP (o_tokens out).
Proof.
  intros Hr HS Hrate H1. destruct (add_inv _ _ _ _ _ _ Hr H1) as (lp & fee & fp & ft & T1 & _ & A). cbn [b_amt snd] in *. destruct A as [A1 A2 A3 A4 A5 A6]. destruct (Z.eqb_spec (w_lp w) 0) as [|_]; [lia|]. destruct A3 as (p & P1 & P2 & P3).
  split; [|rewrite A6, T1, amount_cons; change (amount_in LP []) with 0; change (b_res (LP, lp) =? LP)%N with true; cbn [b_amt snd]; lia].
  pose proof (ec_valid_shares _ (C40_exchange_config _ _ Hr)) as (V1 & V2 & V3 & V4 & _).
  assert (0 <= x - fee) as Hxf. { pose proof (mul_bound x _ (proj1 A4) V1) as [_ M]. rewrite <- A1 in M. change (10 ^ 18) with E18 in Hrate. assert (0 < E18) by reflexivity. nia. }
  clear A1. rewrite A5, A6. change (10 ^ 18) with E18. assert (0 < E18) as HE by reflexivity. set (S := w_lp w) in *. set (V := pool_value w) in *.
  pose proof (quot_bounds (Z.max V E18 * E18) S ltac:(nia) ltac:(lia)) as [Q1 Q2]. rewrite <- P1 in Q1, Q2. assert (0 < p) as Hp. { assert (0 <= p); [rewrite P1; apply Z.quot_pos; nia|lia]. }
  pose proof (quot_bounds ((x - fee) * E18) p ltac:(nia) Hp) as [Q5 _]. rewrite <- P3 in Q5. clear P1 P3 V1 V2 V3 V4.
  assert (V * E18 <= (p + 1) * S) as B0. { assert (V * E18 <= Z.max V E18 * E18) by (apply Z.mul_le_mono_nonneg_r; lia). lia. }
  assert (V * E18 * lp <= (p + 1) * S * lp) as B1 by (apply Z.mul_le_mono_nonneg_r; lia). assert (lp * p * S <= (x - fee) * E18 * S) as B2 by (apply Z.mul_le_mono_nonneg_r; lia). assert ((x - fee) * (E18 * S) <= (x - fp - ft) * (E18 * S)) as B3 by (apply Z.mul_le_mono_nonneg_r; nia). clear - B1 B2 B3. generalize dependent E18. intros. nia.
Qed.
(** C23. Removing liquidity never lowers the value per LP token of those who stay (exactly, with no rounding allowance). *)
Theorem C23_remove_does_not_dilute E cx w l w' out : reachable E w -> step E cx w (ORemoveLiquidity (LP, l)) = Ok (w', out) ->
  (0 <= pool_value w -> pool_value w * w_lp w' <= pool_value w' * w_lp w) /\ (pool_value w <= 0 -> amount_in BASE (o_tokens out) = 0) /\ w_lp w' = w_lp w - l.
Proof.
  intros Hr H1. pose proof (C23_supply_nonneg _ _ Hr) as HS. destruct (remove_inv _ _ _ _ _ _ Hr H1) as (amt & value & fee & fp & ft & T & _ & R). cbn [b_amt snd] in *. destruct R as [(p & R1 & R1b & R1c) R2 R3 [R4 R4b] R5 R6 R7].
  rewrite T, amount_cons. change (amount_in BASE []) with 0. change (b_res (BASE, amt) =? BASE)%N with true. cbn [b_amt snd]. cbv iota.
  assert (0 < E18) as HE by reflexivity. assert (0 <= p) as Hp. { rewrite R1. apply Z.quot_pos; [nia|lia]. } pose proof (mul_bound l p ltac:(lia) Hp) as [M1 M2]. rewrite <- R1c in *. specialize (R3 M1).
  pose proof (quot_bounds (Z.max (pool_value w) 0 * E18) (w_lp w) ltac:(nia) ltac:(lia)) as [Q3 _]. rewrite <- R1 in Q3.
  split; [|split; [|exact R7]].
  - intros HV. rewrite R6, R7. rewrite Z.max_l in Q3 by exact HV. set (S := w_lp w) in *. set (V := pool_value w) in *. assert (S * value * E18 <= S * (l * p)) by nia. assert (l * (p * S) <= l * (V * E18)) by nia. assert (S * value <= l * V) by nia. nia.
  - intros HV. rewrite Z.max_r in R1 by exact HV. rewrite Z.mul_0_l, Z.quot_0_l in R1 by exact R1b. subst p. assert (value = 0) by lia. subst value. lia.
Qed.

(** Witness: from the state with 999,000 LP tokens outstanding, add 1000 and take it all out again. *)
Definition rt_check (w : world) (x : Z) (f : world -> Z -> Z -> world -> world -> bool) : bool :=
  match step sc_env cx_any w (OAddLiquidity (BASE, x)) with
  | Ok (w1, out1) => match step sc_env cx_any w1 (ORemoveLiquidity (LP, amount_in LP (o_tokens out1))) with
      | Ok (w2, out2) => f w (amount_in LP (o_tokens out1)) (amount_in BASE (o_tokens out2)) w1 w2 | Err _ => false end
  | Err _ => false end.
Lemma rt_check_true w x f : rt_check w x f = true -> exists w1 out1 w2 out2, step sc_env cx_any w (OAddLiquidity (BASE, x)) = Ok (w1, out1) /\
  step sc_env cx_any w1 (ORemoveLiquidity (LP, amount_in LP (o_tokens out1))) = Ok (w2, out2) /\ f w (amount_in LP (o_tokens out1)) (amount_in BASE (o_tokens out2)) w1 w2 = true.
Proof.
  unfold rt_check. destruct (step sc_env cx_any w (OAddLiquidity (BASE, x))) as [[w1 out1]|]; [|discriminate]. destruct (step sc_env cx_any w1 _) as [[w2 out2]|] eqn:H2; [|discriminate].
  intros Hf. exists w1, out1, w2, out2. split; [reflexivity|]. split; [exact H2|exact Hf].
Qed.
Example C22_C23_ex : exists w w1 out1 w2 out2, reachable sc_env w /\ 0 < w_lp w /\ ec_fee_liquidity_add (g_exchange_config w) <= 10 ^ 18 /\
  step sc_env cx_any w (OAddLiquidity (BASE, dec 1000)) = Ok (w1, out1) /\ step sc_env cx_any w1 (ORemoveLiquidity (LP, amount_in LP (o_tokens out1))) = Ok (w2, out2) /\
  0 < amount_in LP (o_tokens out1) /\ 0 < amount_in BASE (o_tokens out2) /\ 0 <= pool_value w /\ 0 <= pool_value w1.
Proof.
  assert (rt_check W2 (dec 1000) (fun w l b w1 w2 => (0 <? w_lp w) && (ec_fee_liquidity_add (g_exchange_config w) <=? 10 ^ 18) && (0 <? l) && (0 <? b) && (0 <=? pool_value w) && (0 <=? pool_value w1)) = true) as H by (vm_compute; reflexivity).
  apply rt_check_true in H as (w1 & out1 & w2 & out2 & H1 & H2 & Hf). cbv beta in Hf. exists W2, w1, out1, w2, out2. do 5 (apply andb_true_iff in Hf as [Hf ?]). split; [exact W2_reach|]. split; [apply Z.ltb_lt; assumption|]. split; [apply Z.leb_le; assumption|].
  split; [exact H1|]. split; [exact H2|]. split; [apply Z.ltb_lt; assumption|]. split; [apply Z.ltb_lt; assumption|]. split; apply Z.leb_le; assumption.
Qed.
(** The hypothesis that LP tokens are outstanding is needed: when everybody has left, the fees they paid stay in the pool and
    the next provider gets them. Here one token is paid in and more than six hundred come back. *)
Definition WZ : world := get (go sc_env (Ok W1) [(cx_any, ORemoveLiquidity (LP, w_lp W1))]).
Lemma WZ_reach : reachable sc_env WZ.
Proof. apply go_reachable; [vm_compute; reflexivity|]. intros w H. apply Ok_inj in H. subst w. exact W1_reach. Qed.
#[local] Opaque WZ.
Theorem C22_refuted_with_no_supply : exists w w1 out1 w2 out2, reachable sc_env w /\ w_lp w = 0 /\ step sc_env cx_any w (OAddLiquidity (BASE, dec 1)) = Ok (w1, out1) /\
  step sc_env cx_any w1 (ORemoveLiquidity (LP, amount_in LP (o_tokens out1))) = Ok (w2, out2) /\ dec 600 < amount_in BASE (o_tokens out2).
Proof.
  assert (rt_check WZ (dec 1) (fun w l b w1 w2 => (w_lp w =? 0) && (dec 600 <? b)) = true) as H by (vm_compute; reflexivity).
  apply rt_check_true in H as (w1 & out1 & w2 & out2 & H1 & H2 & Hf). cbv beta in Hf. exists WZ, w1, out1, w2, out2. apply andb_true_iff in Hf as [F1 F2]. split; [exact WZ_reach|]. split; [apply Z.eqb_eq; exact F1|].
  split; [exact H1|]. split; [exact H2|]. apply Z.ltb_lt. exact F2.
Qed.
