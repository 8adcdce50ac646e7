(** * C39, C40: stored configuration values. *)
From Verif Require Import Base DFloat Lists Types Config Oracle Pool Account Fees Referral ExInternal Exchange System Trace Shape P_Ledger P_DFloat Scenario.

(** ** C39. [dfloat_round v] is what a configuration value [v] reads back as. *)
Theorem C39_accepted_iff_it_fits v : DMIN <= v <= DMAX ->
  is_ok (dfloat_round v) <-> - 1024 * 10 ^ 31 < v < 1025 * 10 ^ 31.
Proof.
  intros Hv. rewrite <- dfloat_from_ok_iff by exact Hv. unfold dfloat_round. split.
  - intros [r H]. bd H as (f & H & _). exists f. exact H.
  - intros [f H]. rewrite H. eexists. reflexivity.
Qed.
Lemma round_range v r : dfloat_round v = Ok r -> DMIN <= v <= DMAX.
Proof. unfold dfloat_round. intros H. bd H as (f & H & _). eapply dfloat_from_range; eauto. Qed.
Theorem C39_sign_magnitude_and_error v r : dfloat_round v = Ok r ->
  (0 <= v -> 0 <= r <= v) /\ (v <= 0 -> v <= r <= 0) /\ (r = 0 <-> v = 0) /\ 100 * Z.abs (v - r) <= Z.abs v.
Proof.
  intros H. pose proof (round_range _ _ H) as Hv.
  pose proof (round_nonneg v r Hv H). pose proof (round_nonpos v r Hv H). pose proof (round_zero v r Hv H). pose proof (round_error v r Hv H).
  repeat split; auto; lia.
Qed.
Theorem C39_three_digits_exact v r d k : dfloat_round v = Ok r -> 0 <= k -> Z.abs d < 1000 -> v = d * 10 ^ k -> r = v.
Proof. intros H. eapply round_exact; [eapply round_range; eauto|exact H]. Qed.
Theorem C39_idempotent v r : dfloat_round v = Ok r -> dfloat_round r = Ok r.
Proof. intros H. eapply round_idem; [eapply round_range; eauto|exact H]. Qed.
(** The order is kept against any value of at most three significant digits, and
    between any two values up to the relative error ... *)
Theorem C39_monotone_up_to_rounding v1 v2 r1 r2 : dfloat_round v1 = Ok r1 -> dfloat_round v2 = Ok r2 -> 0 <= v1 <= v2 ->
  (forall d k, 0 <= k -> 0 <= d < 1000 -> v1 = d * 10 ^ k -> r1 <= r2) /\
  (forall d k, 0 <= k -> 0 <= d < 1000 -> v2 = d * 10 ^ k -> r1 <= r2) /\ 99 * r1 <= 100 * r2.
Proof.
  intros H1 H2 Hv. pose proof (round_range _ _ H1) as R1. pose proof (round_range _ _ H2) as R2.
  pose proof (round_nonneg v1 r1 R1 H1 ltac:(lia)). pose proof (round_nonneg v2 r2 R2 H2 ltac:(lia)). pose proof (round_error v2 r2 R2 H2).
  split; [|split; [|lia]].
  - intros d k Hk Hd ->. pose proof (round_ge_3digits v2 r2 R2 H2 d k Hk Hd ltac:(lia)). lia.
  - intros d k Hk Hd ->. assert (r2 = d * 10 ^ k); [|lia]. eapply round_exact; eauto. lia.
Qed.
(** ... but not in general: 1.025 is stored as 1.02 while 1.024 is kept. *)
Theorem C39_monotone_refuted : exists v1 v2 r1 r2,
  v1 < v2 /\ dfloat_round v1 = Ok r1 /\ dfloat_round v2 = Ok r2 /\ r2 < r1.
Proof.
  exists 1024000000000000000, 1025000000000000000, 1024000000000000000, 1020000000000000000.
  split; [lia|]. split; [vm_compute; reflexivity|]. split; [vm_compute; reflexivity|]. lia.
Qed.
Example C39_ex : dfloat_round 123456789 = Ok 123000000 /\ dfloat_round (- 7) = Ok (- 7) /\ ~ is_ok (dfloat_round (10 ^ 35)).
Proof.
  split; [vm_compute; reflexivity|]. split; [vm_compute; reflexivity|]. intros [r H]. vm_compute in H. discriminate.
Qed.

(** ** C40 *)
Ltac fld := match goal with
  | H : dfloat_from ?x = Ok ?f |- 0 <= dfloat_to ?f => apply (field_nonneg _ _ H); lia
  | H : dfloat_from ?x = Ok ?f |- 0 < dfloat_to ?f => apply (field_pos _ _ H); lia
  | H : dfloat_from ?x = Ok ?f |- dfloat_to ?f <= _ => pose proof (proj2 (field_nonneg _ _ H ltac:(lia))); lia
  end.
Ltac split_andb := repeat match goal with H : _ && _ = true |- _ => apply andb_true_iff in H; destruct H end.
Lemma ec_readback e ce : ec_validate e = true -> ec_compress e = Ok ce -> ec_validate (ec_decompress ce) = true.
Proof.
  unfold ec_validate, ec_compress. intros Hv H. split_andb.
  repeat match type of H with (_ ≫= _) = Ok _ => let x := fresh "f" in let Hf := fresh "Hf" in bd H as (x & Hf & H) end.
  apply Ok_inj in H. subst ce. cbn [ec_decompress ec_positions_max ec_skew_ratio_cap ec_adl_offset ec_adl_a ec_adl_b ec_fee_liquidity_add
    ec_fee_liquidity_remove ec_fee_share_protocol ec_fee_share_treasury ec_fee_share_referral ec_fee_max ec_protocol_burn_amount ec_reward_keeper] in *.
  repeat match goal with H : (_ <=? _) = true |- _ => apply Z.leb_le in H end.
  repeat (apply andb_true_iff; split); try assumption; try (apply Z.leb_le; fld).
  apply Z.leb_le. assert (dec 1000 = 100 * 10 ^ 19) as Hd by reflexivity. rewrite Hd in *. eapply field_ge; eauto; lia.
Qed.
Lemma config_new_valid c : config_new = Ok c -> ec_validate (ec_decompress (cf_exchange c)) = true.
Proof. unfold config_new. intros H. bd H as (e & H1 & H). apply Ok_inj in H. subst c. apply (ec_readback _ _) in H1; [exact H1|vm_compute; reflexivity]. Qed.

(** In every reachable state the exchange configuration that is read back passes
    the validation it passed when it was set. *)
Theorem C40_exchange_config E w : reachable E w -> ec_validate (g_exchange_config w) = true.
Proof.
  induction 1 as [owner auth keys now w Ha Hn Hg|w cx o w' out Hr IH Hs].
  - apply genesis_inv in Hg. destruct Hg as (c & Hc & ->). apply (config_new_valid c Hc).
  - apply step_gstep in Hs. destruct Hs; try exact IH.
    + destruct H0 as (l & [c0 o0 idsc ids v0 s1 acc' refs' K1 K2 K3 K4 K5 Hw] & _). rewrite Hw. exact IH.
    + destruct H1 as [c0 o0 idsc ids v0 s1 acc' refs' K1 K2 K3 K4 K5 Hw]. rewrite Hw. exact IH.
    + unfold config_update_exchange in H. bd H as (? & Hv & H). bd H as (ce & Hc & H). apply Ok_inj in H. subst cf.
      apply guard_Ok in Hv. exact (ec_readback _ _ Hv Hc).
    + unfold g_exchange_config in *. simpl. replace (cf_exchange cf) with (cf_exchange (w_config w)); [exact IH|].
      symmetry. unfold config_update_pairs in H. revert H.
      apply (rfold_ind config_update_pair1 (fun c c' => cf_exchange c' = cf_exchange c)); [auto|].
      intros c p c1 c2 Hp He. unfold config_update_pair1 in Hp. bd Hp as (? & _ & Hp). bd Hp as (cp & _ & Hp). bd Hp as (ps & _ & Hp).
      apply Ok_inj in Hp. subst c1. exact He.
    + unfold g_exchange_config in *. simpl. replace (cf_exchange cf) with (cf_exchange (w_config w)); [exact IH|].
      symmetry. unfold config_update_collaterals in H. bd H as (? & _ & H). revert H.
      apply (rfold_ind _ (fun c c' => cf_exchange c' = cf_exchange c)); [auto|].
      intros c p c1 c2 Hp He. bd Hp as (cc & _ & Hp). apply Ok_inj in Hp. subst c1. exact He.
Qed.

(** A stored pair configuration: everything but the wrapped durations and the
    order of the two margins is as validated. *)
Lemma pc_readback p cp : pc_validate p = true -> pc_compress p = Ok cp ->
  let q := pc_decompress cp in
  pc_price_age_max q = pc_price_age_max p mod 65536 /\ pc_update_period_seconds q = pc_update_period_seconds p mod 65536 /\
  (pc_price_age_max p < 65536 -> pc_update_period_seconds p < 65536 -> pc_margin_maintenance q <= pc_margin_initial q -> pc_validate q = true) /\
  dfloat_round (pc_margin_initial p) = Ok (pc_margin_initial q) /\ dfloat_round (pc_margin_maintenance p) = Ok (pc_margin_maintenance q) /\
  pc_pair_id q = pc_pair_id p.
Proof.
  unfold pc_validate, pc_compress. intros Hv H. split_andb.
  repeat match type of H with (_ ≫= _) = Ok _ => let x := fresh "f" in let Hf := fresh "Hf" in bd H as (x & Hf & H) end.
  apply Ok_inj in H. subst cp. cbn.
  repeat match goal with H : (_ <=? _) = true |- _ => apply Z.leb_le in H | H : (_ <? _) = true |- _ => apply Z.ltb_lt in H end.
  split; [reflexivity|]. split; [reflexivity|]. split; [|split; [eapply field_round; eauto|split; [eapply field_round; eauto|reflexivity]]].
  intros Hage Hper Hmm. unfold i64_as_u16. rewrite !Z.mod_small by lia.
  repeat (apply andb_true_iff; split); try (apply Z.leb_le; first [fld|lia]); try (apply Z.ltb_lt; first [fld|lia]).
Qed.
(** The update of one pair stores it and leaves the other pairs alone. *)
Lemma update_pair1_inv c p c' : config_update_pair1 c p = Ok c' ->
  pc_validate p = true /\ exists cp, pc_compress p = Ok cp /\ hl_kvs (cf_pairs c') = <[pc_pair_id p := cp]> (hl_kvs (cf_pairs c)) /\
  cf_collaterals c' = cf_collaterals c /\ cf_exchange c' = cf_exchange c.
Proof.
  unfold config_update_pair1, hl_insert. intros H. bd H as (? & Hv & H). bd H as (cp & Hc & H). bd H as (ps & Hp & H). apply Ok_inj in H. subst c'.
  apply guard_Ok in Hv. split; [exact Hv|]. exists cp. split; [exact Hc|].
  match type of Hp with match ?x with _ => _ end = _ => destruct x end.
  - apply Ok_inj in Hp. subst ps. repeat split.
  - bd Hp as (l & _ & Hp). apply Ok_inj in Hp. subst ps. repeat split.
Qed.
(** A pair configuration accepted by an update passes validation when read back,
    for durations below 65536 seconds and an initial margin of at most three
    significant digits. *)
Theorem C40_pair_config_stays_valid_when c p c' d k :
  config_update_pair1 c p = Ok c' ->
  pc_price_age_max p < 65536 -> pc_update_period_seconds p < 65536 ->
  0 <= k -> 0 <= d < 1000 -> pc_margin_initial p = d * 10 ^ k ->
  exists cp, config_get_pair c' (pc_pair_id p) = Some cp /\ pc_validate (pc_decompress cp) = true /\
    forall q, q <> pc_pair_id p -> config_get_pair c' q = config_get_pair c q.
Proof.
  intros H Ha Hu Hk Hd Hm. apply update_pair1_inv in H. destruct H as (Hv & cp & Hc & Hkv & _). exists cp.
  unfold config_get_pair, hl_get. rewrite Hkv. split; [apply lookup_insert|]. split; [|intros q Hq; apply lookup_insert_ne; congruence].
  destruct (pc_readback _ _ Hv Hc) as (_ & _ & Hok & Hmi & Hmm & _). apply Hok; [exact Ha|exact Hu|].
  assert (Z.abs d < 1000) as Hd3 by lia. pose proof (C39_three_digits_exact _ _ d k Hmi Hk Hd3 Hm) as Hmi'.
  assert (0 <= pc_margin_maintenance p <= pc_margin_initial p).
  { unfold pc_validate in Hv. split_andb. repeat match goal with H : (_ <=? _) = true |- _ => apply Z.leb_le in H end. split; assumption. }
  pose proof (proj1 (C39_sign_magnitude_and_error _ _ Hmm) ltac:(lia)). lia.
Qed.
Theorem C40_collateral_config_stays_valid_when c cs c' : config_update_collaterals c cs = Ok c' ->
  Forall (fun x => cc_price_age_max (snd x) < 65536) cs ->
  forall r cc, cf_collaterals c' !! r = Some cc -> cf_collaterals c !! r = Some cc \/ cc_validate (cc_decompress cc) = true.
Proof.
  unfold config_update_collaterals. intros H. bd H as (u0 & Hv & H). apply guard_Ok in Hv. revert c H.
  induction cs as [|[r0 x] cs IH]; intros c H Hall r cc Hr; cbn [rfold] in H.
  - apply Ok_inj in H. subst. left. exact Hr.
  - bd H as (c1 & H1 & H). bd H1 as (ce & Hce & H1). apply Ok_inj in H1. subst c1. cbn [forallb] in Hv. apply andb_true_iff in Hv. destruct Hv as [Hv Hvs].
    inversion Hall as [|? ? Ha Hall']; subst. destruct (IH Hvs _ H Hall' _ _ Hr) as [Hl|Hl]; [|right; exact Hl]. simpl in Hl.
    destruct (decide (r = r0)) as [->|Hne]; [|rewrite lookup_insert_ne in Hl by congruence; left; exact Hl].
    rewrite lookup_insert in Hl. injection Hl as <-. right. simpl in *. unfold cc_validate, cc_compress in *. split_andb.
    bd Hce as (f1 & HF1 & Hce). bd Hce as (f2 & HF2 & Hce). apply Ok_inj in Hce. subst ce. cbn.
    repeat match goal with H : (_ <=? _) = true |- _ => apply Z.leb_le in H | H : (_ <? _) = true |- _ => apply Z.ltb_lt in H end.
    unfold i64_as_u16. rewrite Z.mod_small by lia.
    repeat (apply andb_true_iff; split); try (apply Z.leb_le; first [fld|lia]); try (apply Z.ltb_lt; first [fld|lia]).
    apply Z.leb_le. change 800000000000000000 with (8 * 10 ^ 17) in *. eapply field_ge; eauto; lia.
Qed.
(** Refutations of the full claim. A maximum age of 65536 s reads back as 0 ... *)
Definition pc_long : pair_config :=
  mkPC 1%N 65536 (dec 1000) 0 1000000000000000 65536 (dec 1) 0 0 0 0 0 0 0 0 0 0.
Theorem C40_durations_wrap_refuted :
  exists c c' cp, config_new = Ok c /\ config_update_pair1 c pc_long = Ok c' /\
    config_get_pair c' 1%N = Some cp /\ pc_price_age_max (pc_decompress cp) = 0 /\
    pc_update_period_seconds (pc_decompress cp) = 0 /\ pc_validate (pc_decompress cp) = false.
Proof. do 3 eexists. do 5 (split; [vm_compute; reflexivity|]). vm_compute; reflexivity. Qed.
(** ... and a maintenance margin of 10.24% below an initial margin of 10.25% reads
    back above it. *)
Definition pc_margins : pair_config :=
  mkPC 1%N 60 (dec 1000) 0 1000000000000000 60 102500000000000000 102400000000000000 0 0 0 0 0 0 0 0 0.
Theorem C40_margins_swap_refuted :
  exists c c' cp, config_new = Ok c /\ config_update_pair1 c pc_margins = Ok c' /\
    config_get_pair c' 1%N = Some cp /\ pc_margin_initial (pc_decompress cp) < pc_margin_maintenance (pc_decompress cp) /\
    pc_validate (pc_decompress cp) = false.
Proof. do 3 eexists. do 4 (split; [vm_compute; reflexivity|]). vm_compute; reflexivity. Qed.
Example C40_ex : exists c c' cp, config_new = Ok c /\ config_update_pair1 c (sc_pair 1%N) = Ok c' /\
  config_get_pair c' 1%N = Some cp /\ pc_validate (pc_decompress cp) = true /\ pc_margin_initial (sc_pair 1%N) = 1 * 10 ^ 17.
Proof. do 3 eexists. do 4 (split; [vm_compute; reflexivity|]). vm_compute; reflexivity. Qed.
