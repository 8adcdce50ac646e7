(** * The 16-bit decimal float: what a stored configuration value reads back as. *)
From Verif Require Import Base DFloat Lists Types Config Trace.

Definition bl_ok (n : Z) : bool :=
  let pos := Z.max (n * 30103 / 100000) 3 in
  (2 ^ n <=? 10240 * 10 ^ (pos - 3)) && ((pos =? 3) || (500 * 10 ^ (pos - 3) <=? 2 ^ (n - 1))) && (pos <=? 58).
Lemma bl_ok_all n : 1 <= n <= 192 -> bl_ok n = true.
Proof.
  intros H. assert (forallb bl_ok (map Z.of_nat (seq 1 192)) = true) as A by (vm_compute; reflexivity).
  rewrite forallb_forall in A. apply A. apply in_map_iff. exists (Z.to_nat n). split; [lia|]. apply in_seq. lia.
Qed.
Lemma bit_len_bounds v : v <> 0 -> 2 ^ (bit_len v - 1) <= Z.abs v < 2 ^ bit_len v.
Proof.
  intros H. unfold bit_len. rewrite (proj2 (Z.eqb_neq v 0) H). replace (Z.log2 (Z.abs v) + 1 - 1) with (Z.log2 (Z.abs v)) by lia.
  apply Z.log2_spec. lia.
Qed.
Lemma bit_len_range v : v <> 0 -> DMIN <= v <= DMAX -> 1 <= bit_len v <= 192.
Proof.
  intros H H1. unfold bit_len. rewrite (proj2 (Z.eqb_neq v 0) H). split; [pose proof (Z.log2_nonneg (Z.abs v)); lia|].
  assert (Z.log2 (Z.abs v) <= 191); [|lia]. rewrite <- (Z.log2_pow2 191) by lia. apply Z.log2_le_mono. unfold DMIN, DMAX in H1. lia.
Qed.

Lemma dfloat_to_enc e s : 0 <= s + 1023 < 2048 -> dfloat_to ((e + 15) * 2048 + (s + 1023)) = s * 10 ^ (e + 15).
Proof.
  intros H. unfold dfloat_to. rewrite Z.add_comm, Z.mod_add by lia. rewrite Z.mod_small by lia.
  rewrite Z.div_add by lia. rewrite Z.div_small by lia. f_equal; f_equal; lia.
Qed.

(** The value read back: the stored value cut to a multiple of a power of ten. *)
Lemma dfloat_round_spec' v r : DMIN <= v <= DMAX -> dfloat_round v = Ok r ->
  (v = 0 /\ r = 0) \/
  exists j s, (0 <= j <= 31 /\ s = Z.quot v (10 ^ j) /\ r = s * 10 ^ j /\ -1023 <= s <= 1024 /\ (j = 0 \/ 102 <= Z.abs s)) /\
    (j = 0 \/ 500 <= Z.abs s \/ (1 <= j /\ (1024 < Z.quot v (10 ^ (j - 1)) \/ Z.quot v (10 ^ (j - 1)) < -1023))).
Proof.
  intros Hv H. unfold dfloat_round, dfloat_from in H. destruct (Z.eqb_spec v 0) as [->|Hnz].
  { left. vm_compute in H. split; [reflexivity|congruence]. }
  right. pose proof (bit_len_bounds v Hnz) as Hb. pose proof (bit_len_range v Hnz Hv) as Hn.
  pose proof (bl_ok_all _ Hn) as Hok. unfold bl_ok in Hok. fold (dfloat_pos10 v) in Hok. set (pos := dfloat_pos10 v) in *.
  apply andb_true_iff in Hok. destruct Hok as [Hok H58]. apply andb_true_iff in Hok. destruct Hok as [H1 H2].
  apply Z.leb_le in H1, H58. assert (3 <= pos) as Hp3 by (unfold pos, dfloat_pos10; lia).
  assert (0 < 10 ^ (pos - 3)) as Hd by (apply Z.pow_pos_nonneg; lia).
  set (d := 10 ^ (pos - 3)) in *. set (sg := Z.quot v d) in *.
  assert (Z.abs sg = Z.abs v / d) as Habs.
  { unfold sg. rewrite <- Z.quot_div_nonneg by lia. rewrite <- (Z.abs_eq d) at 2 by lia. symmetry. apply Z.quot_abs; lia. }
  assert (Z.abs sg < 10240) as Hlt by (rewrite Habs; apply Z.div_lt_upper_bound; lia).
  assert (pos = 3 \/ 500 <= Z.abs sg) as Hge.
  { apply orb_true_iff in H2. destruct H2 as [H2|H2]; [left; lia|right]. apply Z.leb_le in H2. rewrite Habs. apply Z.div_le_lower_bound; lia. }
  bd H as (f & H & Hr). bd H as (? & _ & H). apply Ok_inj in Hr. subst r.
  destruct ((1024 <? sg) || (sg <? -1023)) eqn:Hbig; unfold dfloat_new in H; bd H as (? & He & H); bd H as (? & Hs & H);
    apply Ok_inj in H; subst f; apply guard_Ok in He, Hs; apply andb_true_iff in He, Hs; rewrite dfloat_to_enc by lia.
  - assert (1024 < Z.abs sg \/ sg = -1024) as Hab by (apply orb_true_iff in Hbig; lia).
    assert (Z.abs (Z.quot sg 10) = Z.abs sg / 10) as Hs10.
    { rewrite <- Z.quot_div_nonneg by lia. change 10 with (Z.abs 10) at 2. symmetry. apply Z.quot_abs. lia. }
    exists (pos - 2), (Z.quot sg 10). split;
      [|right; right; split; [lia|]; replace (pos - 2 - 1) with (pos - 3) by lia; fold d; fold sg; apply orb_true_iff in Hbig; lia].
    split; [lia|]. split.
    { unfold sg. rewrite Z.quot_quot by lia. f_equal. unfold d. replace (pos - 2) with (pos - 3 + 1) by lia.
      rewrite Z.pow_add_r by lia. lia. }
    replace (pos - 18 + 1 + 15) with (pos - 2) by lia. split; [reflexivity|].
    assert (102 <= Z.abs sg / 10) by (apply Z.div_le_lower_bound; lia).
    assert (Z.abs sg / 10 < 1024) by (apply Z.div_lt_upper_bound; lia). split; lia.
  - apply orb_false_iff in Hbig. exists (pos - 3), sg. replace (pos - 18 + 15) with (pos - 3) by lia.
    split; [|lia]. split; [lia|]. split; [reflexivity|]. split; [reflexivity|]. split; lia.
Qed.
Lemma dfloat_round_spec v r : DMIN <= v <= DMAX -> dfloat_round v = Ok r ->
  (v = 0 /\ r = 0) \/
  exists j s, 0 <= j <= 31 /\ s = Z.quot v (10 ^ j) /\ r = s * 10 ^ j /\ -1023 <= s <= 1024 /\ (j = 0 \/ 102 <= Z.abs s).
Proof.
  intros Hv H. destruct (dfloat_round_spec' v r Hv H) as [?|(j & s & A & _)]; [left; assumption|right; exists j, s; exact A].
Qed.

(** It is accepted unless the magnitude is too large. *)
Lemma dfloat_from_ok v : - 1024 * 10 ^ 31 < v < 1025 * 10 ^ 31 -> is_ok (dfloat_from v).
Proof.
  intros Hsm. assert (DMIN <= v <= DMAX) as Hv by (unfold DMIN, DMAX; lia).
  unfold dfloat_from. destruct (Z.eqb_spec v 0) as [->|Hnz]; [eexists; vm_compute; reflexivity|].
  pose proof (bit_len_bounds v Hnz) as Hb. pose proof (bit_len_range v Hnz Hv) as Hn.
  pose proof (bl_ok_all _ Hn) as Hok. unfold bl_ok in Hok. fold (dfloat_pos10 v) in Hok. set (pos := dfloat_pos10 v) in *.
  apply andb_true_iff in Hok. destruct Hok as [Hok H58]. apply andb_true_iff in Hok. destruct Hok as [H1 H2].
  apply Z.leb_le in H1, H58. assert (3 <= pos) as Hp3 by (unfold pos, dfloat_pos10; lia).
  assert (0 < 10 ^ (pos - 3)) as Hd by (apply Z.pow_pos_nonneg; lia).
  set (d := 10 ^ (pos - 3)) in *. set (sg := Z.quot v d) in *.
  assert (Z.abs sg = Z.abs v / d) as Habs.
  { unfold sg. rewrite <- Z.quot_div_nonneg by lia. rewrite <- (Z.abs_eq d) at 2 by lia. symmetry. apply Z.quot_abs; lia. }
  assert (Z.abs sg < 10240) as Hlt by (rewrite Habs; apply Z.div_lt_upper_bound; lia).
  assert (pos = 3 \/ 500 * d <= Z.abs v) as Hge.
  { apply orb_true_iff in H2. destruct H2 as [H2|H2]; [left; lia|right]. apply Z.leb_le in H2. lia. }
  assert (pos <= 34 /\ (pos = 34 -> -1023 <= sg <= 1024)) as [Hpos Hp34].
  { assert (forall k, 0 <= k -> 34 <= k + 3 -> 10 ^ 31 <= 10 ^ k) as Hm by (intros; apply Z.pow_le_mono_r; lia).
    split.
    - destruct (Z.le_gt_cases pos 34); [assumption|]. exfalso. destruct Hge as [Hge|Hge]; [lia|].
      assert (10 ^ 32 <= d) by (apply Z.pow_le_mono_r; lia). lia.
    - intros Hp. unfold sg, d. rewrite Hp. change (34 - 3) with 31. destruct (Z.le_gt_cases 0 v).
      + rewrite Z.quot_div_nonneg by lia. assert (0 <= v / 10 ^ 31) by (apply Z.div_pos; lia).
        assert (v / 10 ^ 31 < 1025) by (apply Z.div_lt_upper_bound; lia). lia.
      + pose proof (Z.quot_opp_l v (10 ^ 31)) as Ho. rewrite Z.quot_div_nonneg in Ho by lia.
        assert (0 <= - v / 10 ^ 31) by (apply Z.div_pos; lia).
        assert (- v / 10 ^ 31 < 1024) by (apply Z.div_lt_upper_bound; lia). lia. }
  assert (((-32768 <=? sg) && (sg <=? 32767)) = true) as -> by (apply andb_true_iff; lia). simpl.
  destruct ((1024 <? sg) || (sg <? -1023)) eqn:Hbig; unfold dfloat_new.
  - assert (pos <= 33) by (apply orb_true_iff in Hbig; lia).
    assert (Z.abs (Z.quot sg 10) = Z.abs sg / 10) as Hs10.
    { rewrite <- Z.quot_div_nonneg by lia. change 10 with (Z.abs 10) at 2. symmetry. apply Z.quot_abs. lia. }
    assert (Z.abs sg / 10 < 1024) by (apply Z.div_lt_upper_bound; lia).
    assert (((0 <=? pos - 18 + 1 + 15) && (pos - 18 + 1 + 15 <? 32)) = true) as -> by (apply andb_true_iff; lia).
    assert (((0 <=? Z.quot sg 10 + 1023) && (Z.quot sg 10 + 1023 <? 2048)) = true) as -> by (apply andb_true_iff; lia).
    eexists. reflexivity.
  - apply orb_false_iff in Hbig.
    assert (((0 <=? pos - 18 + 15) && (pos - 18 + 15 <? 32)) = true) as -> by (apply andb_true_iff; lia).
    assert (((0 <=? sg + 1023) && (sg + 1023 <? 2048)) = true) as -> by (apply andb_true_iff; lia).
    eexists. reflexivity.
Qed.

Section round.
  Context (v r : Z) (Hv : DMIN <= v <= DMAX) (H : dfloat_round v = Ok r).
  Lemma round_nonneg : 0 <= v -> 0 <= r <= v.
  Proof.
    intros H0. destruct (dfloat_round_spec v r Hv H) as [[-> ->]|(j & s & Hj & Hs & Hr & _)]; [lia|].
    assert (0 < 10 ^ j) by (apply Z.pow_pos_nonneg; lia). rewrite Z.quot_div_nonneg in Hs by lia. subst s r.
    assert (0 <= v / 10 ^ j) by (apply Z.div_pos; lia). pose proof (Z.mul_div_le v (10 ^ j)). nia.
  Qed.
  Lemma round_nonpos : v <= 0 -> v <= r <= 0.
  Proof.
    intros H0. destruct (dfloat_round_spec v r Hv H) as [[-> ->]|(j & s & Hj & Hs & Hr & _)]; [lia|].
    assert (0 < 10 ^ j) by (apply Z.pow_pos_nonneg; lia). pose proof (Z.quot_opp_l v (10 ^ j)) as Ho.
    rewrite Z.quot_div_nonneg in Ho by lia. assert (0 <= - v / 10 ^ j) by (apply Z.div_pos; lia).
    pose proof (Z.mul_div_le (- v) (10 ^ j)). subst s r. nia.
  Qed.
  Lemma round_abs : Z.abs r <= Z.abs v.
  Proof. destruct (Z.le_gt_cases 0 v) as [Hs|Hs]; [pose proof (round_nonneg Hs)|pose proof (round_nonpos ltac:(lia))]; lia. Qed.
  Lemma round_zero : r = 0 -> v = 0.
  Proof.
    intros H0. destruct (dfloat_round_spec v r Hv H) as [[-> _]|(j & s & Hj & Hs & Hr & Hb & Hd)]; [reflexivity|].
    assert (0 < 10 ^ j) by (apply Z.pow_pos_nonneg; lia). destruct Hd as [->|Hd].
    - rewrite Z.quot_1_r in Hs. subst. lia.
    - nia.
  Qed.
  (** relative error below 1/100 *)
  Lemma round_error : 100 * Z.abs (v - r) <= Z.abs v.
  Proof.
    destruct (dfloat_round_spec v r Hv H) as [[-> ->]|(j & s & Hj & Hs & Hr & Hb & Hd)]; [lia|].
    assert (0 < 10 ^ j) by (apply Z.pow_pos_nonneg; lia). destruct Hd as [->|Hd].
    { rewrite Z.quot_1_r in Hs. subst. rewrite Z.mul_1_r. lia. }
    pose proof (Z.quot_rem' v (10 ^ j)) as Hq. pose proof (Z.rem_bound_abs v (10 ^ j)) as Hrm.
    rewrite <- Hs in Hq. assert (v - r = Z.rem v (10 ^ j)) as -> by lia. rewrite (Z.abs_eq (10 ^ j)) in Hrm by lia.
    pose proof round_abs as Ha. rewrite Hr, Z.abs_mul, (Z.abs_eq (10 ^ j)) in Ha by lia. nia.
  Qed.
  (** three significant digits survive *)
  Lemma round_ge_3digits d k : 0 <= k -> 0 <= d < 1000 -> d * 10 ^ k <= v -> d * 10 ^ k <= r.
  Proof.
    intros Hk Hd3 Hle. destruct (Z.le_gt_cases v 0) as [Hn|Hp].
    { assert (0 < 10 ^ k) by (apply Z.pow_pos_nonneg; lia). assert (0 <= d * 10 ^ k) by nia.
      assert (v = 0) as Hv0 by lia. pose proof (round_nonpos Hn). lia. }
    destruct (dfloat_round_spec v r Hv H) as [[-> ->]|(j & s & Hj & Hs & Hr & Hb & Hd)]; [lia|].
    assert (0 < 10 ^ j) as Hpj by (apply Z.pow_pos_nonneg; lia). rewrite Z.quot_div_nonneg in Hs by lia.
    destruct (Z.le_gt_cases j k) as [Hjk|Hjk].
    - assert (10 ^ k = 10 ^ (k - j) * 10 ^ j) as Hkk by (rewrite <- Z.pow_add_r by lia; f_equal; lia).
      rewrite Hkk, Hr, Z.mul_assoc. apply Z.mul_le_mono_nonneg_r; [lia|]. rewrite Hs. apply Z.div_le_lower_bound; [lia|].
      rewrite Hkk in Hle. nia.
    - destruct Hd as [->|Hd]; [lia|].
      assert (0 <= s) by (rewrite Hs; apply Z.div_pos; lia).
      assert (10 ^ k * 10 <= 10 ^ j) by (replace (10 ^ k * 10) with (10 ^ (k + 1)) by (rewrite Z.pow_add_r by lia; lia); apply Z.pow_le_mono_r; lia).
      assert (0 < 10 ^ k) by (apply Z.pow_pos_nonneg; lia). nia.
  Qed.
End round.

Lemma round_exact v r d k : DMIN <= v <= DMAX -> dfloat_round v = Ok r -> 0 <= k -> Z.abs d < 1000 -> v = d * 10 ^ k -> r = v.
Proof.
  intros Hv H Hk Hd Hvd. destruct (dfloat_round_spec v r Hv H) as [[-> ->]|(j & s & Hj & Hs & Hr & Hb & Hc)]; [reflexivity|].
  assert (0 < 10 ^ j) as Hpj by (apply Z.pow_pos_nonneg; lia). assert (0 < 10 ^ k) by (apply Z.pow_pos_nonneg; lia).
  destruct (Z.le_gt_cases j k) as [Hjk|Hjk].
  - assert (10 ^ k = 10 ^ (k - j) * 10 ^ j) as Hkk by (rewrite <- Z.pow_add_r by lia; f_equal; lia).
    rewrite Hvd, Hkk, Z.mul_assoc, Z.quot_mul in Hs by lia. rewrite Hr, Hs, Hvd, Hkk. lia.
  - destruct Hc as [->|Hc]; [lia|]. exfalso. pose proof (round_abs v r Hv H) as Ha.
    rewrite Hr, Hvd, !Z.abs_mul, !(Z.abs_eq (10 ^ _)) in Ha by lia.
    assert (10 ^ k * 10 <= 10 ^ j) by (replace (10 ^ k * 10) with (10 ^ (k + 1)) by (rewrite Z.pow_add_r by lia; lia); apply Z.pow_le_mono_r; lia).
    nia.
Qed.
Lemma dfloat_from_ok_iff v : DMIN <= v <= DMAX -> is_ok (dfloat_from v) <-> - 1024 * 10 ^ 31 < v < 1025 * 10 ^ 31.
Proof.
  intros Hv. split; [|apply dfloat_from_ok]. intros [f Hf]. assert (dfloat_round v = Ok (dfloat_to f)) as H by (unfold dfloat_round; rewrite Hf; reflexivity).
  destruct (dfloat_round_spec v _ Hv H) as [[-> _]|(j & s & Hj & Hs & Hr & Hb & Hc)]; [lia|].
  assert (0 < 10 ^ j) as Hpj by (apply Z.pow_pos_nonneg; lia). assert (10 ^ j <= 10 ^ 31) as Hle by (apply Z.pow_le_mono_r; lia).
  pose proof (Z.quot_rem' v (10 ^ j)) as Hq. pose proof (Z.rem_bound_abs v (10 ^ j)) as Hrm. rewrite <- Hs in Hq.
  rewrite (Z.abs_eq (10 ^ j)) in Hrm by lia. clear Hr Hs H. nia.
Qed.
Lemma pow_gap a s X Y k m : 0 < X -> X * k <= Y -> 0 <= m <= a -> a * Y <= s * X -> s <= 1024 -> 1024 < m * k -> False.
Proof.
  intros HX HY Ha Hle Hs Hm. assert (m * (X * k) <= a * Y) as H1.
  { apply Z.mul_le_mono_nonneg; nia. }
  assert (s * X <= 1024 * X) by (apply Z.mul_le_mono_nonneg_r; lia).
  assert (1025 * X <= m * k * X) by (apply Z.mul_le_mono_nonneg_r; lia). lia.
Qed.
Lemma round_idem v r : DMIN <= v <= DMAX -> dfloat_round v = Ok r -> dfloat_round r = Ok r.
Proof.
  intros Hv H. pose proof (round_abs v r Hv H) as Ha.
  destruct (dfloat_round_spec v r Hv H) as [[_ ->]|(j & s & Hj & Hs & Hr & Hb & Hc)]; [vm_compute; reflexivity|].
  assert (0 < 10 ^ j) as Hpj by (apply Z.pow_pos_nonneg; lia). assert (10 ^ j <= 10 ^ 31) as Hle by (apply Z.pow_le_mono_r; lia).
  assert (- 1024 * 10 ^ 31 < r < 1025 * 10 ^ 31) as Hrng by (clear Ha Hs H; nia).
  assert (DMIN <= r <= DMAX) as Hrd by (unfold DMIN, DMAX; lia).
  destruct (proj2 (dfloat_from_ok_iff r Hrd) Hrng) as [f Hf].
  assert (dfloat_round r = Ok (dfloat_to f)) as H' by (unfold dfloat_round; rewrite Hf; reflexivity). rewrite H'. f_equal.
  set (r' := dfloat_to f) in *. clearbody r'.
  destruct (dfloat_round_spec' r r' Hrd H') as [[-> ->]|(j' & s' & (Hj' & Hs' & Hr' & Hb' & Hc') & Hx)]; [reflexivity|].
  destruct (Z.le_gt_cases j' j) as [Hjk|Hjk].
  { assert (10 ^ j = 10 ^ (j - j') * 10 ^ j') as Hkk by (rewrite <- Z.pow_add_r by lia; f_equal; lia).
    assert (0 < 10 ^ j') by (apply Z.pow_pos_nonneg; lia).
    rewrite Hr, Hkk, Z.mul_assoc, Z.quot_mul in Hs' by lia. rewrite Hr', Hs', Hr, Hkk. lia. }
  exfalso. pose proof (round_abs r r' Hrd H') as Ha'. rewrite Hr', Hr, !Z.abs_mul in Ha'.
  assert (0 < 10 ^ j') by (apply Z.pow_pos_nonneg; lia). rewrite !(Z.abs_eq (10 ^ _)) in Ha' by lia.
  assert (10 ^ j * 10 <= 10 ^ j') as Hten by (replace (10 ^ j * 10) with (10 ^ (j + 1)) by (rewrite Z.pow_add_r by lia; lia); apply Z.pow_le_mono_r; lia).
  destruct Hx as [->|[Hx|[H1 Hx]]]; [lia|eapply (pow_gap (Z.abs s') (Z.abs s) (10 ^ j) (10 ^ j') 10 500); lia|].
  destruct (decide (j' = j + 1)) as [->|Hne].
  - replace (j + 1 - 1) with j in Hx by lia. rewrite Hr, Z.quot_mul in Hx by lia. lia.
  - assert (10 ^ j * 100 <= 10 ^ j') by (replace (10 ^ j * 100) with (10 ^ (j + 2)) by (rewrite Z.pow_add_r by lia; lia); apply Z.pow_le_mono_r; lia).
    destruct Hc' as [->|Hc']; [lia|]. eapply (pow_gap (Z.abs s') (Z.abs s) (10 ^ j) (10 ^ j') 100 102); lia.
Qed.

(** Everything accepted is a decimal, so the range hypotheses above are free. *)
Lemma dfloat_from_range v f : dfloat_from v = Ok f -> DMIN <= v <= DMAX.
Proof.
  unfold dfloat_from. destruct (Z.eqb_spec v 0) as [->|Hnz]; [unfold DMIN, DMAX; lia|]. intros H.
  assert (dfloat_pos10 v <= 34) as Hp.
  { bd H as (? & _ & H). destruct (_ || _); unfold dfloat_new in H; bd H as (? & He & _); apply guard_Ok, andb_true_iff in He; lia. }
  unfold dfloat_pos10 in Hp. assert (bit_len v * 30103 / 100000 <= 34) as Hq by lia.
  assert (bit_len v <= 116) as Hn. { destruct (Z.le_gt_cases (bit_len v) 116); [assumption|]. exfalso.
    assert (35 <= bit_len v * 30103 / 100000) by (apply Z.div_le_lower_bound; lia). lia. }
  pose proof (bit_len_bounds v Hnz) as Hb. assert (2 ^ bit_len v <= 2 ^ 116) by (apply Z.pow_le_mono_r; lia).
  unfold DMIN, DMAX. lia.
Qed.
Section field.
  Context (v : Z) (f : dfloat) (H : dfloat_from v = Ok f).
  Lemma field_round : dfloat_round v = Ok (dfloat_to f).
  Proof. unfold dfloat_round. rewrite H. reflexivity. Qed.
  Lemma field_nonneg : 0 <= v -> 0 <= dfloat_to f <= v.
  Proof. apply round_nonneg; [eapply dfloat_from_range; eauto|apply field_round]. Qed.
  Lemma field_pos : 0 < v -> 0 < dfloat_to f.
  Proof.
    intros Hv. pose proof (field_nonneg ltac:(lia)). destruct (decide (dfloat_to f = 0)) as [Hz|]; [|lia].
    apply (round_zero v) in Hz; [lia|eapply dfloat_from_range; eauto|apply field_round].
  Qed.
  Lemma field_ge d k : 0 <= k -> 0 <= d < 1000 -> d * 10 ^ k <= v -> d * 10 ^ k <= dfloat_to f.
  Proof. apply round_ge_3digits; [eapply dfloat_from_range; eauto|apply field_round]. Qed.
  Lemma field_exact d k : 0 <= k -> Z.abs d < 1000 -> v = d * 10 ^ k -> dfloat_to f = v.
  Proof. apply round_exact; [eapply dfloat_from_range; eauto|apply field_round]. Qed.
End field.
