(** * C19, C41: funding and keeper rewards. *)
From Verif Require Import Base DFloat Lists Types Config Oracle Pool Account Fees Referral ExInternal Exchange System Scenario Sums Trace Frames Calls Shape Spec SpecOracle SpecTrading SpecMargin SpecFunding P_Ledger P_DFloat Witness Props_Config Props_Rates P_Fees P_Tokens P_Oracle P_Keeper Trading P_Positions P_Positions2 P_Snaps P_Orders P_Final P_OrderCall Props_Positions Props_LP P_Updates.

Lemma quot_rem_abs n d : 0 < d -> Z.abs (n - Z.quot n d * d) < d.
Proof.
  intros Hd. destruct (Z.le_gt_cases 0 n) as [Hn|Hn].
  - pose proof (quot_bounds n d Hn Hd). lia.
  - replace n with (- (- n)) at 2 by lia. rewrite Z.quot_opp_l by lia. pose proof (quot_bounds (- n) d ltac:(lia) Hd). lia.
Qed.
Lemma quot_sign n d : 0 < d -> (0 <= n -> 0 <= Z.quot n d) /\ (n <= 0 -> Z.quot n d <= 0).
Proof. intros Hd. split; intros Hn; [apply Z.quot_pos; lia|]. replace n with (- (- n)) by lia. rewrite Z.quot_opp_l by lia. pose proof (Z.quot_pos (- n) d ltac:(lia) Hd). lia. Qed.
(** The index increments: what they charge is what the pool gets, and the paying side is the one the rate says. *)
Lemma indexes_facts pc L S skew sa price r2 mn mx period dl ds total : x_funding_indexes pc L S skew sa price r2 mn mx period = Ok (dl, ds, total) -> 0 < L -> 0 < S ->
  Z.abs (total * E18 - (dl * L + ds * S)) <= 2 * (L + S) /\
  (0 <= period -> 0 <= pc_funding_share pc <= E18 -> let rate := mul skew (pc_funding_1 pc) + mul (clamp r2 mn mx) (pc_funding_2 pc) in (0 < rate -> ds <= dl) /\ (rate <= 0 -> dl <= ds)).
Proof.
  unfold x_funding_indexes. intros H HL HS. bd H as (f1 & Hf1 & H). bd H as (cl & Hcl & H). bd H as (f2 & Hf2 & H). bd H as (rate & Hra & H). bd H as ([[li si] sh] & Hli & H). bd H as (t0 & Ht0 & H). bd H as (t1 & Ht1 & H). bd H as (p0 & Hp0 & H). bd H as (p1 & Hp1 & H). bd H as (pr & Hpr & H). bd H as (fp & Hfp & H). bd H as (pi & Hpi & H).
  bd H as (dl1 & Hdl & H). bd H as (ds1 & Hds & H). bd H as (tot & Htot & H). apply Ok_inj in H. injection H as <- <- <-.
  apply dmul_mulq in Hf1, Hf2. apply dclamp_Ok in Hcl as [_ ->]. apply dadd_Ok in Hra as [Hra _], Ht0 as [-> _], Hdl as [-> _], Hds as [-> _], Htot as [-> _]. apply ddiv_Ok in Hpi as (_ & -> & _).
  assert (rate = mul skew (pc_funding_1 pc) + mul (clamp r2 mn mx) (pc_funding_2 pc)) as Erate by (rewrite Hra, Hf1, Hf2; reflexivity). rewrite <- Erate. clear Erate Hra Hf1 Hf2 Ht1 Hp0 Hp1 Hpr Hfp. assert (0 < E18) as HE by reflexivity.
  pose proof (quot_rem_abs (fp * E18) (L + S) ltac:(lia)) as R3. set (pi := Z.quot (fp * E18) (L + S)) in *. destruct (Z.ltb_spec 0 rate) as [Hr|Hr].
  - bd Hli as (fl & Hfl & Hli). bd Hli as (li1 & Hl1 & Hli). bd Hli as (sh1 & Hsh & Hli). bd Hli as (d & Hd & Hli). bd Hli as (nd & Hnd & Hli). bd Hli as (si1 & Hs1 & Hli). apply Ok_inj in Hli. injection Hli as <- <- <-.
    apply dmul_mulq in Hfl, Hsh. apply ddiv_Ok in Hl1 as (_ & -> & _), Hs1 as (_ & -> & _). apply dsub_Ok in Hd as [-> _]. apply dneg_Ok in Hnd as [-> _].
    pose proof (quot_rem_abs (fl * E18) L HL) as R1. pose proof (quot_rem_abs (- (fl - sh1) * E18) S HS) as R2. split; [clear - R1 R2 R3; set (a := Z.quot (fl * E18) L) in *; set (b := Z.quot (- (fl - sh1) * E18) S) in *; lia|].
    intros Hper Hshare. split; [|lia]. intros _. assert (0 <= fl) as F0 by (rewrite Hfl; apply quot_nonneg; lia). assert (0 <= sh1 <= fl) as F1. { pose proof (mul_bound fl _ F0 (proj1 Hshare)) as [M1 M2]. change mul with mulq in *. rewrite <- Hsh in *. split; [lia|nia]. }
    pose proof (proj1 (quot_sign (fl * E18) L HL) ltac:(nia)). pose proof (proj2 (quot_sign (- (fl - sh1) * E18) S HS) ltac:(nia)). lia.
  - bd Hli as (nr & Hnr & Hli). bd Hli as (fs & Hfs & Hli). bd Hli as (si1 & Hs1 & Hli). bd Hli as (sh1 & Hsh & Hli). bd Hli as (d & Hd & Hli). bd Hli as (nd & Hnd & Hli). bd Hli as (li1 & Hl1 & Hli). apply Ok_inj in Hli. injection Hli as <- <- <-.
    apply dneg_Ok in Hnr as [-> _]. apply dmul_mulq in Hfs, Hsh. apply ddiv_Ok in Hl1 as (_ & -> & _), Hs1 as (_ & -> & _). apply dsub_Ok in Hd as [-> _]. apply dneg_Ok in Hnd as [-> _].
    pose proof (quot_rem_abs (fs * E18) S HS) as R1. pose proof (quot_rem_abs (- (fs - sh1) * E18) L HL) as R2. split; [clear - R1 R2 R3; set (a := Z.quot (fs * E18) S) in *; set (b := Z.quot (- (fs - sh1) * E18) L) in *; lia|].
    intros Hper Hshare. split; [lia|]. intros _. assert (0 <= fs) as F0 by (rewrite Hfs; apply quot_nonneg; lia). assert (0 <= sh1 <= fs) as F1. { pose proof (mul_bound fs _ F0 (proj1 Hshare)) as [M1 M2]. change mul with mulq in *. rewrite <- Hsh in *. split; [lia|nia]. }
    pose proof (proj1 (quot_sign (fs * E18) S HS) ltac:(nia)). pose proof (proj2 (quot_sign (- (fs - sh1) * E18) L HL) ltac:(nia)). lia.
Qed.
(** The second rate stays inside the band of the open interest values. *)
Lemma decay_between pc rate b period r : x_funding_2_decay pc rate b period = Ok r -> 0 <= pc_funding_2_decay pc -> 0 <= period -> (b <= rate -> b <= r <= rate) /\ (rate <= b -> rate <= r <= b).
Proof.
  unfold x_funding_2_decay. intros H H1 H2. bd H as (ex & Hex & H). bd H as (t & Ht & H). bd H as (de & Hde & H). apply dsub_Ok in Hex as [-> _], H as [-> _]. apply dmul_mulq in Ht, Hde.
  assert (0 <= t) as T0 by (rewrite Ht; apply quot_nonneg; lia). set (f := Z.min t (dec 1)) in *. assert (0 <= f <= E18) as Hf by (unfold f, dec, E18 in *; lia). clearbody f. clear Ht T0 t H1 H2.
  assert (0 < E18) as HE by reflexivity. split; intros Hb.
  - pose proof (mul_bound (rate - b) f ltac:(lia) ltac:(lia)) as [M1 M2]. change mul with mulq in *. rewrite <- Hde in *. nia.
  - assert (de = - mul (b - rate) f) as E0. { rewrite Hde. change mul with mulq. rewrite <- mulq_neg_l. f_equal. lia. } pose proof (mul_bound (b - rate) f ltac:(lia) ltac:(lia)) as [M1 M2]. nia.
Qed.
Lemma funding_2_band pc rate mx mn delta period r : x_funding_2 pc rate mx mn delta period = Ok r -> mn <= mx -> 0 <= pc_funding_2_decay pc -> 0 <= period ->
  (mn <= rate <= mx -> mn <= r <= mx) /\ (mx < rate -> mn <= r <= rate) /\ (rate < mn -> rate <= r <= mx).
Proof.
  unfold x_funding_2. intros H Hm H1 H2. destruct (Z.ltb_spec mx rate) as [A|A]; [|destruct (Z.ltb_spec rate mn) as [B|B]].
  - bd H as (r1 & Hr1 & H). apply decay_between in Hr1 as [D1 D2]; auto. specialize (D1 ltac:(lia)). destruct (Z.ltb_spec delta 0); [bd H as (s & Hs & H); apply dadd_Ok in Hs as [-> _]|]; apply Ok_inj in H; subst r; [destruct (Z.ltb_spec (r1 + delta) mn)|]; lia.
  - bd H as (r1 & Hr1 & H). apply decay_between in Hr1 as [D1 D2]; auto. specialize (D2 ltac:(lia)). destruct (Z.ltb_spec 0 delta); [bd H as (s & Hs & H); apply dadd_Ok in Hs as [-> _]|]; apply Ok_inj in H; subst r; [destruct (Z.ltb_spec mx (r1 + delta))|]; lia.
  - bd H as (s & Hs & H). apply Ok_inj in H. subst r. destruct (Z.ltb_spec mx s); [lia|]. destruct (Z.ltb_spec s mn); lia.
Qed.

Lemma pool_pair_oi w k : pp_oi_long (pool_pair w k) = open_interest_long w k /\ pp_oi_short (pool_pair w k) = open_interest_short w k.
Proof. unfold pool_pair, open_interest_long, open_interest_short, pair_field. destruct (po_positions (w_pool w) !! k); split; reflexivity. Qed.
Lemma elapsed_nonneg E w k : reachable E w -> 0 <= elapsed w k.
Proof. intros Hr. pose proof (lu_reachable _ _ Hr) as H. unfold elapsed, pool_pair. destruct (po_positions (w_pool w) !! k) as [pp|] eqn:Hk; [specialize (H _ _ Hk); lia|simpl; lia]. Qed.
Lemma period_nonneg now last : 0 <= now - last -> 0 <= period_of now last.
Proof. intros H. unfold period_of. apply Z.quot_pos; unfold E18; lia. Qed.
Lemma pool_pair_absent w w' k : po_positions (w_pool w') !! k = po_positions (w_pool w) !! k -> w_now w' = w_now w -> pool_pair w' k = pool_pair w k.
Proof. intros H Hn. unfold pool_pair. rewrite Hn. match goal with |- match ?t with _ => _ end = _ => assert (t = po_positions (w_pool w) !! k) as -> by exact H end. reflexivity. Qed.

(** C19. The pool's unrealised funding grows by the sum over the distinct pairs of an amount [F k] that is zero, with unchanged indexes, if no time
    has passed or one side is empty, and otherwise is what the indexes charge the holders in total, up to 2 x (open interest) last-place units. *)
Theorem C19_funding_collected_is_distributed E cx w ps upd w' out : reachable E w -> step E cx w (OUpdatePairs ps upd) = Ok (w', out) ->
  exists F, po_upf (w_pool w') = po_upf (w_pool w) + lsum F (distinct ps) /\
    (forall k, k ∈ ps -> (elapsed w k = 0 \/ open_interest_long w k = 0 \/ open_interest_short w k = 0 -> long_growth w w' k = 0 /\ short_growth w w' k = 0 /\ F k = 0) /\
       Z.abs (F k * 10 ^ 18 - charged w w' k) <= 2 * (open_interest_long w k + open_interest_short w k)) /\
    (forall k, k ∉ ps -> pool_pair w' k = pool_pair w k) /\
    (forall k, open_interest_long w' k = open_interest_long w k /\ open_interest_short w' k = open_interest_short w k /\ pool_cost w' k = pool_cost w k).
Proof.
  intros Hr H. destruct (updates_intro _ _ _ _ _ _ _ H) as (F & U). exists F. split; [exact (ud_upf _ _ _ _ _ U)|]. destruct (ud_same _ _ _ _ _ U) as (_ & _ & Hnow & _).
  assert (forall k, k ∉ ps -> pool_pair w' k = pool_pair w k) as Hout by (intros k Hk; apply pool_pair_absent; [exact (ud_out _ _ _ _ _ U k Hk)|exact Hnow]).
  assert (forall k, k ∈ ps -> same_trade (resnap (price_of w' k) (pool_pair w k) <| pp_last_price := price_of w' k |> <| pp_last_update := w_now w |>) (pool_pair w' k)) as Hst.
  { intros k Hk. destruct (ud_in _ _ _ _ _ U k Hk) as (pc & _ & _ & _ & [(_ & -> & _)|(_ & Hf)]); [repeat split|]. exact (proj1 (funding_step_inv _ _ _ _ _ _ _ _ Hf)). }
  split; [|split; [exact Hout|]].
  - intros k Hk. destruct (ud_in _ _ _ _ _ U k Hk) as (pc & Hpc & Hpr & _ & Hu). pose proof (pool_pair_oi w k) as [EL ES]. destruct (C17_open_interest_nonneg _ _ k Hr) as [HL HS]. change (10 ^ 18) with E18.
    unfold charged, long_growth, short_growth, elapsed. destruct Hu as [(Hp & -> & ->)|(Hp & Hf)].
    + cbn. split; [intros _; lia|]. rewrite !Z.sub_diag. lia.
    + rewrite period_zero_iff in Hp. apply funding_step_inv in Hf as [_ [(Hz & G1 & G2 & ->)|(N1 & N2 & mn & mx & dl & ds & _ & _ & Hi & G1 & G2)]].
      * cbn in G1, G2, Hz. rewrite G1, G2. split; [intros _; lia|]. rewrite !Z.sub_diag. lia.
      * cbn in G1, G2, N1, N2. change (pp_oi_long (resnap (price_of w' k) (pool_pair w k) <| pp_last_price := price_of w' k |> <| pp_last_update := w_now w |>)) with (pp_oi_long (pool_pair w k)) in Hi. change (pp_oi_short (resnap (price_of w' k) (pool_pair w k) <| pp_last_price := price_of w' k |> <| pp_last_update := w_now w |>)) with (pp_oi_short (pool_pair w k)) in Hi.
        rewrite EL, ES in *. destruct (indexes_facts _ _ _ _ _ _ _ _ _ _ _ _ _ Hi ltac:(lia) ltac:(lia)) as [B _]. rewrite G1, G2. split; [intros [Hc|[Hc|Hc]]; lia|]. replace (pp_funding_long_index (pool_pair w k) + dl - pp_funding_long_index (pool_pair w k)) with dl by lia. replace (pp_funding_short_index (pool_pair w k) + ds - pp_funding_short_index (pool_pair w k)) with ds by lia. exact B.
  - intros k. unfold open_interest_long, open_interest_short, pool_cost, pair_field. destruct (decide (k ∈ ps)) as [Hk|Hk].
    + pose proof (Hst k Hk) as (S1 & S2 & S3 & _). destruct (ud_in _ _ _ _ _ U k Hk) as (pc & _ & _ & Hs & _). rewrite Hs, S1, S2, S3. unfold pool_pair. cbn. destruct (po_positions (w_pool w) !! k); split; [reflexivity|split; reflexivity|reflexivity|split; reflexivity].
    + rewrite (ud_out _ _ _ _ _ U k Hk). auto.
Qed.
(** The side the rate says pays the other: the longs when it is positive, the shorts otherwise. *)
Theorem C19_who_pays E cx w ps upd w' out k pc : reachable E w -> step E cx w (OUpdatePairs ps upd) = Ok (w', out) -> k ∈ ps -> pair_cfg w k = Some pc ->
  (0 < funding_rate pc w w' k -> short_growth w w' k <= long_growth w w' k) /\ (funding_rate pc w w' k <= 0 -> long_growth w w' k <= short_growth w w' k).
Proof.
  intros Hr H Hk Hpc. destruct (updates_intro _ _ _ _ _ _ _ H) as (F & U). destruct (ud_in _ _ _ _ _ U k Hk) as (pc1 & Hpc1 & Hpr & _ & Hu). rewrite Hpc in Hpc1. injection Hpc1 as <-. pose proof (pool_pair_oi w k) as [EL ES]. destruct (C17_open_interest_nonneg _ _ k Hr) as [HL HS]. pose proof (C40_pair_rates _ _ _ _ Hr Hpc) as Hrates.
  unfold long_growth, short_growth. destruct Hu as [(Hp & -> & _)|(Hp & Hf)]; [cbn; lia|]. apply funding_step_inv in Hf as [_ [(_ & -> & -> & _)|(N1 & N2 & mn & mx & dl & ds & Emx & Emn & Hi & -> & ->)]]; [cbn; lia|].
  cbn in N1, N2. change (pp_oi_long (resnap (price_of w' k) (pool_pair w k) <| pp_last_price := price_of w' k |> <| pp_last_update := w_now w |>)) with (pp_oi_long (pool_pair w k)) in *. change (pp_oi_short (resnap (price_of w' k) (pool_pair w k) <| pp_last_price := price_of w' k |> <| pp_last_update := w_now w |>)) with (pp_oi_short (pool_pair w k)) in *.
  rewrite EL, ES in *. destruct (indexes_facts _ _ _ _ _ _ _ _ _ _ _ _ _ Hi ltac:(lia) ltac:(lia)) as [_ B]. specialize (B (period_nonneg _ _ (elapsed_nonneg _ w k Hr))). pose proof (pr_funding_share _ Hrates). specialize (B ltac:(unfold E18; lia)). cbv zeta in B.
  unfold funding_rate, long_value, short_value. unfold skew_at in B. rewrite EL, ES in B. rewrite Emn, Emx in B. change mulq with mul in B. cbn [pp_funding_long_index pp_funding_short_index]. cbn. split; intros Hx; [pose proof (proj1 B Hx)|pose proof (proj2 B Hx)]; lia.
Qed.
(** The second funding rate stays within the value of the long and of the short open interest at the new price, once it is there; and when it
    starts outside (the open interest or the price has fallen) it moves back. *)
Theorem C19_rate_is_bounded E cx w ps upd w' out k : reachable E w -> step E cx w (OUpdatePairs ps upd) = Ok (w', out) -> k ∈ ps ->
  let r := pp_funding_2_rate (pool_pair w k) in let r' := pp_funding_2_rate (pool_pair w' k) in let lo := short_value w w' k in let hi := long_value w w' k in
  (lo <= r <= hi -> lo <= r' <= hi) /\ (hi < r -> lo <= r' <= r) /\ (r < lo -> r <= r' <= hi).
Proof.
  intros Hr H Hk. cbv zeta. destruct (updates_intro _ _ _ _ _ _ _ H) as (F & U). destruct (ud_in _ _ _ _ _ U k Hk) as (pc & Hpc & Hpr & _ & Hu). pose proof (pool_pair_oi w k) as [EL ES]. destruct (C17_open_interest_nonneg _ _ k Hr) as [HL HS]. pose proof (C40_pair_rates _ _ _ _ Hr Hpc) as Hrates.
  assert (short_value w w' k <= 0 <= long_value w w' k) as Hband. { unfold short_value, long_value. split; [|apply quot_nonneg; lia]. change mul with mulq. rewrite mulq_neg_l. pose proof (quot_nonneg (open_interest_short w k) (price_of w' k) HS ltac:(lia)). unfold mulq. lia. }
  destruct Hu as [(Hp & -> & _)|(Hp & Hf)]; [cbn; lia|]. unfold x_funding_step in Hf. bd Hf as (mx & Hmx & Hf). bd Hf as (ns & Hns & Hf). bd Hf as (mn & Hmn & Hf). bd Hf as (t0 & Ht0 & Hf). bd Hf as (de & Hde & Hf). bd Hf as (r2 & Hr2 & Hf). apply dmul_mulq in Hmx, Hmn. apply dneg_Ok in Hns as [-> _].
  assert (pp_funding_2_rate (pool_pair w' k) = r2) as ->.
  { revert Hf. cbv zeta. match goal with |- (if ?b then _ else _) = _ -> _ => destruct b end; intros Hf; [bd Hf as ([[dl ds] tot] & Hi & Hf); bd Hf as (li & Hli & Hf); bd Hf as (si & Hsi & Hf)|]; apply Ok_inj in Hf; injection Hf as <- _; reflexivity. }
  assert (mx = long_value w w' k) as Emx. { rewrite Hmx. unfold long_value. rewrite <- EL. reflexivity. } assert (mn = short_value w w' k) as Emn. { rewrite Hmn. unfold short_value. rewrite <- ES. reflexivity. }
  rewrite <- Emx, <- Emn in *. apply funding_2_band in Hr2; [|lia|exact (pr_funding_2_decay _ Hrates)|exact (period_nonneg _ _ (elapsed_nonneg _ w k Hr))]. exact Hr2.
Qed.
(** Updating again at the same time, with no new price, changes nothing. *)
Lemma skew_at_resnap pp pr now pr0 : skew_at (resnap pr pp <| pp_last_price := pr0 |> <| pp_last_update := now |>) pr = skew_at pp pr.
Proof. reflexivity. Qed.
Lemma upd_again now pc pr pp pp2 f : upd1 now pc pr pp pp2 f -> pp_last_update pp2 = now /\ pp_last_price pp2 = pr /\ forall pp3 g, upd1 now pc pr pp2 pp3 g -> pp3 = pp2 /\ g = 0.
Proof.
  intros H. assert (same_trade (resnap pr pp <| pp_last_price := pr |> <| pp_last_update := now |>) pp2) as Hs. { destruct H as [(_ & -> & _)|(_ & Hf)]; [repeat split|exact (proj1 (funding_step_inv _ _ _ _ _ _ _ _ Hf))]. }
  destruct Hs as (S1 & S2 & S3 & S4 & S5 & S6 & S7). cbn in S6, S7. split; [exact S6|]. split; [exact S7|].
  intros pp3 g [(_ & -> & ->)|(Hn & _)]; [|exfalso; apply Hn; apply period_zero_iff; symmetry; exact S6]. split; [|reflexivity].
  assert (skew_at pp2 pr = skew_at pp pr) as Esk by (unfold skew_at; rewrite S1, S2; reflexivity).
  unfold resnap. rewrite Esk, S3. cbn in S4, S5. destruct pp2. cbn in *. subst. reflexivity.
Qed.
Theorem C19_second_update_changes_nothing E cx cx2 w ps upd w' out w2 out2 : reachable E w -> step E cx w (OUpdatePairs ps upd) = Ok (w', out) -> step E cx2 w' (OUpdatePairs ps None) = Ok (w2, out2) ->
  (forall k, po_positions (w_pool w2) !! k = po_positions (w_pool w') !! k) /\ po_upf (w_pool w2) = po_upf (w_pool w') /\ po_skew (w_pool w2) = po_skew (w_pool w') /\ po_pnl (w_pool w2) = po_pnl (w_pool w') /\ po_base (w_pool w2) = po_base (w_pool w') /\ po_vb (w_pool w2) = po_vb (w_pool w').
Proof.
  intros Hr H1 H2. pose proof (reach_step _ _ _ _ _ _ Hr H1) as Hr'. pose proof (reach_step _ _ _ _ _ _ Hr' H2) as Hr2. destruct (updates_intro _ _ _ _ _ _ _ H1) as (F & U). destruct (updates_intro _ _ _ _ _ _ _ H2) as (G & V).
  destruct (ud_same _ _ _ _ _ U) as (_ & _ & N1 & C1 & _). destruct (ud_same _ _ _ _ _ V) as (B2 & VB2 & N2 & C2 & _).
  assert (w_oracle w2 = w_oracle w') as Ho. { apply update_pairs_inv in H2 as (c & orc & o & p & fl & _ & Hpk & _ & -> & _). pose proof (pk_push _ _ _ _ _ _ _ Hpk) as Hp. cbn in Hp. subst orc. reflexivity. }
  assert (forall k, price_of w2 k = price_of w' k) as Hpr by (intros k; unfold price_of, stored_price; rewrite Ho; reflexivity).
  assert (forall k, k ∈ ps -> pool_pair w2 k = pool_pair w' k /\ G k = 0) as Hin.
  { intros k Hk. destruct (ud_in _ _ _ _ _ U k Hk) as (pc & Hpc & _ & _ & Hu). destruct (ud_in _ _ _ _ _ V k Hk) as (pc2 & Hpc2 & _ & _ & Hv). assert (pair_cfg w' k = pair_cfg w k) as Ec by (unfold pair_cfg; rewrite C1; reflexivity). rewrite Ec, Hpc in Hpc2. injection Hpc2 as <-. rewrite N1, Hpr in Hv.
    exact (proj2 (proj2 (upd_again _ _ _ _ _ _ Hu)) _ _ Hv). }
  assert (forall k, po_positions (w_pool w2) !! k = po_positions (w_pool w') !! k) as Hall.
  { intros k. destruct (decide (k ∈ ps)) as [Hk|Hk]; [|exact (ud_out _ _ _ _ _ V k Hk)]. destruct (ud_in _ _ _ _ _ U k Hk) as (_ & _ & _ & -> & _). destruct (ud_in _ _ _ _ _ V k Hk) as (_ & _ & _ & -> & _). rewrite (proj1 (Hin k Hk)). reflexivity. }
  assert (po_positions (w_pool w2) = po_positions (w_pool w')) as Em by (apply map_eq; exact Hall).
  destruct (C18_totals _ _ Hr') as [T1 T2]. destruct (C18_totals _ _ Hr2) as [T3 T4].
  split; [exact Hall|]. split; [|split; [rewrite T3, T1; unfold sum_pairs; rewrite Em; reflexivity|split; [rewrite T4, T2; unfold sum_pairs; rewrite Em; reflexivity|split; [exact B2|exact VB2]]]].
  rewrite (ud_upf _ _ _ _ _ V). rewrite (lsum_ext G (fun _ => 0)); [rewrite lsum_zero; [lia|auto]|]. intros k Hk. apply Hin. unfold distinct in Hk. rewrite elem_of_elements, elem_of_list_to_set in Hk. exact Hk.
Qed.

(** C41. *)
Lemma filter_map_len {A} (f : A -> bool) (l : list A) : length (List.filter (fun b => b) (map f l)) = length (List.filter f l).
Proof. induction l as [|x l IH]; [reflexivity|]. cbn. destruct (f x); cbn; rewrite IH; reflexivity. Qed.
Lemma reward_step E cx w o w' out : step E cx w o = Ok (w', out) ->
  match o with OProcessRequest _ _ _ | OLiquidate _ _ _ | OAutoDeleverage _ _ _ => w_rewards w' = w_rewards w + keeper_reward w | OUpdatePairs _ _ => True | _ => w_rewards w' = w_rewards w end.
Proof.
  intros H. apply step_gstep in H. destruct H; try reflexivity.
  all: try (destruct o; try reflexivity; discriminate). all: try exact I; try assumption.
  destruct H0 as (l & _ & _ & Hs). destruct o; try discriminate H; cbn [op_side] in Hs; repeat match type of Hs with _ /\ _ => destruct Hs as [_ Hs] | exists _, _ => destruct Hs as [? Hs] end; exact Hs.
Qed.
Theorem C41_rewards_match_the_work E cx w o w' out : step E cx w o = Ok (w', out) ->
  rewards_minted w w' = reward_owed w w' o /\ (reward_owed w w' o <> 0 -> (KEEPER_REWARD, reward_owed w w' o) ∈ o_tokens out).
Proof.
  intros H. unfold rewards_minted. pose proof (reward_step _ _ _ _ _ _ H) as Hr. assert (ec_reward_keeper (g_exchange_config w) = keeper_reward w) as Hk by reflexivity.
  destruct o; cbn [reward_owed]; try (rewrite Hr; split; [lia|intros Hc; exfalso; apply Hc; reflexivity]).
  - rewrite Hr, Hk. split; [lia|intros _]. apply process_inv in H as (v0 & v1 & rq & ex & ids & c & w1 & v2 & pay & evs & w2 & _ & _ & _ & _ & _ & _ & _ & _ & _ & ->). apply elem_of_list_here.
  - rewrite Hr, Hk. split; [lia|intros _]. apply liquidate_call_inv in H as (v0 & c & orc & o & s & toks & evs & w1 & _ & _ & _ & _ & _ & _ & -> & _). apply elem_of_app. right. apply elem_of_list_here.
  - rewrite Hr, Hk. split; [lia|intros _]. apply adl_call_inv in H as (v0 & ids & c & orc & o & s & ev & w1 & _ & _ & _ & _ & _ & _ & _ & -> & _). apply elem_of_list_here.
  - destruct (updates_intro _ _ _ _ _ _ _ H) as (F & U). pose proof (ud_flags _ _ _ _ _ U) as Hf. apply update_pairs_inv in H as (c & orc & o & p & fls & _ & _ & _ & Ew & -> & <- & _). rewrite Hf, filter_map_len in *. assert (w_rewards w' = w_rewards w + dec (Z.of_nat (length (List.filter (is_due w w') (distinct pids))))) as Er by (rewrite Ew at 1; reflexivity). rewrite Er. unfold due_pairs, dec, E18 in *. split; [lia|intros _; apply elem_of_list_here].
Qed.
(** A pair updated twice at the same time and price earns nothing the second time, when its update period and price threshold are positive. *)
Theorem C41_no_reward_for_a_repeated_update E cx cx2 w ps upd w' out w2 out2 : reachable E w ->
  step E cx w (OUpdatePairs ps upd) = Ok (w', out) -> step E cx2 w' (OUpdatePairs ps None) = Ok (w2, out2) ->
  (forall k pc, k ∈ ps -> pair_cfg w k = Some pc -> 0 < pc_update_period_seconds pc /\ 0 < pc_update_price_delta_ratio pc) ->
  rewards_minted w' w2 = 0.
Proof.
  intros Hr H1 H2 Hpos. rewrite (proj1 (C41_rewards_match_the_work _ _ _ _ _ _ H2)). cbn [reward_owed]. unfold due_pairs. destruct (updates_intro _ _ _ _ _ _ _ H1) as (F & U).
  destruct (ud_same _ _ _ _ _ U) as (_ & _ & N1 & C1 & _).
  assert (w_oracle w2 = w_oracle w') as Ho. { apply update_pairs_inv in H2 as (c & orc & o & p & fl & _ & Hpk & _ & -> & _). pose proof (pk_push _ _ _ _ _ _ _ Hpk) as Hp. cbn in Hp. subst orc. reflexivity. }
  assert (List.filter (is_due w' w2) (distinct ps) = []) as ->; [|reflexivity].
  assert (forall l, (forall k, k ∈ l -> k ∈ ps) -> List.filter (is_due w' w2) l = []) as Hg; [|apply Hg; intros k Hk; unfold distinct in Hk; rewrite elem_of_elements, elem_of_list_to_set in Hk; exact Hk].
  induction l as [|k l IH]; intros Hl; [reflexivity|]. cbn [List.filter]. rewrite IH by (intros j Hj; apply Hl; right; exact Hj).
  assert (is_due w' w2 k = false) as ->; [|reflexivity]. assert (k ∈ ps) as Hk by (apply Hl; left). destruct (ud_in _ _ _ _ _ U k Hk) as (pc & Hpc & Hprice & _ & Hu). destruct (Hpos _ _ Hk Hpc) as [P1 P2]. destruct (upd_again _ _ _ _ _ _ Hu) as (L1 & L2 & _).
  unfold is_due. assert (pair_cfg w' k = pair_cfg w k) as -> by (unfold pair_cfg; rewrite C1; reflexivity). rewrite Hpc. unfold due, elapsed. rewrite N1, L1, L2. assert (price_of w2 k = price_of w' k) as -> by (unfold price_of, stored_price; rewrite Ho; reflexivity).
  rewrite !Z.sub_diag. cbn [Z.abs Z.mul]. rewrite Z.quot_0_l by lia. rewrite !(proj2 (Z.leb_gt _ _)) by lia. reflexivity.
Qed.
(** Non-vacuity: a day after W2 (longs 2, shorts 1 open on pair 1), with a new price. Updated twice at once. *)
Definition later : list (ctx * op) := [(cx_any, OAdvance 87410)].
Definition sc_wu : res world := go sc_env (Ok W2) later.
Definition WU : world := get sc_wu.
Lemma WU_ok : sc_wu = Ok WU. Proof. apply okb_get. vm_compute. reflexivity. Qed.
Lemma WU_reach : reachable sc_env WU. Proof. apply go_reachable; [vm_compute; reflexivity|]. intros w H. apply Ok_inj in H. subst w. exact W2_reach. Qed.
Global Opaque WU.
Definition ups : op := OUpdatePairs [1; 1]%N (msg 30300%N 2000%N 87400%N).
Definition wu_check (w' : world) (out : outp) : bool :=
  (0 <? elapsed WU 1%N) && (0 <? open_interest_short WU 1%N) && (0 <? long_growth WU w' 1%N) && (0 <? charged WU w' 1%N) &&
  (rewards_minted WU w' =? dec 1) && (due_pairs WU w' [1; 1]%N =? 1) &&
  match pair_cfg WU 1%N with Some pc => (0 <? funding_rate pc WU w' 1%N) && (0 <? pc_update_period_seconds pc) && (0 <? pc_update_price_delta_ratio pc) | None => false end &&
  tst (step sc_env cx_any w' (OUpdatePairs [1; 1]%N None)) (fun _ => true).
Example C19_ex : exists w' out, reachable sc_env WU /\ step sc_env cx_any WU ups = Ok (w', out) /\ wu_check w' out = true.
Proof.
  assert (try_ WU (cx_any, ups) wu_check = true) as H by (vm_compute; reflexivity). apply try_true in H as (w' & out & H & Hf). exists w', out. split; [exact WU_reach|]. split; [exact H|exact Hf].
Qed.
