(** * When a withdrawal cannot fail (for C67). *)
From Verif Require Import Base DFloat Lists Types Config Oracle Pool Account Fees Referral ExInternal Exchange System Sums Trace Frames Calls Spec SpecAuth SpecOracle SpecTrading SpecRequests SpecMargin SpecRefuse P_Ledger P_Accounts P_Fees P_Refs Frames2 P_Requests P_Requests2 P_Requests3 P_Requests4 P_Tokens Trading P_Positions P_Positions2 P_Oracle P_Keeper P_Coll P_Remove P_Whole P_Final P_OrderCall P_Configured Props_Collateral P_Refuse P_Refuse2 P_Refuse3 P_Refuse4 P_Refuse5 Props_Rates Props_Referral.

Lemma n_chk x : DMIN <= x <= DMAX -> fails none (chk x).
Proof. intros H. unfold chk. destruct (in_dec x) eqn:Hi; [apply f_Ok|]. exfalso. apply in_dec_spec in H. congruence. Qed.
Lemma n_ineg x : 0 <= x < 65536 -> fails none (ineg x).
Proof. intros H. unfold ineg. destruct (in_i64 (- x)) eqn:Hi; [apply f_Ok|]. exfalso. unfold in_i64, I64MIN, I64MAX in Hi. apply andb_false_iff in Hi as [Hi|Hi]; first [apply Z.leb_gt in Hi|apply Z.ltb_ge in Hi]; lia. Qed.
Lemma n_iadd x y : - 2 ^ 63 <= x + y < 2 ^ 63 -> fails none (iadd x y).
Proof. intros H. unfold iadd. destruct (in_i64 (x + y)) eqn:Hi; [apply f_Ok|]. exfalso. unfold in_i64, I64MIN, I64MAX in Hi. apply andb_false_iff in Hi as [Hi|Hi]; first [apply Z.leb_gt in Hi|apply Z.ltb_ge in Hi]; lia. Qed.

(** Claims of positive amounts. *)
Lemma claims_nonneg r cs : Forall (fun c : resource * Z => 0 < snd c) cs -> 0 <= amount_in r cs.
Proof. induction 1 as [|[q x] l H _ IH]; [cbn; lia|]. rewrite amount_cons. cbn in *. destruct (q =? r)%N; lia. Qed.
Lemma n_merge cs : Forall (fun c : resource * Z => 0 < snd c) cs -> (forall r, amount_in r cs <= DMAX) -> fails none (x_merge_claims cs) /\
  forall m, x_merge_claims cs = Ok m -> forall r x, m !! r = Some x -> 0 < x.
Proof.
  intros Hp Hb. unfold x_merge_claims.
  match goal with |- fails none (rfold ?f _ _) /\ _ => assert (forall l (m0 : gmap resource Z), Forall (fun c : resource * Z => 0 < snd c) l -> (forall r x, m0 !! r = Some x -> 0 < x) -> (forall r, default 0 (m0 !! r) + amount_in r l <= DMAX) ->
    fails none (rfold f m0 l) /\ forall m, rfold f m0 l = Ok m -> forall r x, m !! r = Some x -> 0 < x) as Hg end.
  { induction l as [|[q x] l IH]; intros m0 Hl Hm Hd; cbn [rfold]; [split; [apply f_Ok|intros m [= <-]; exact Hm]|]. inversion Hl as [|? ? Hx Hl']; subst. cbn [snd] in Hx.
    set (y := default 0 (m0 !! q) + x). assert (0 < y <= DMAX) as Hy. { unfold y. pose proof (Hd q) as D. rewrite amount_cons in D. cbn in D. rewrite N.eqb_refl in D. pose proof (claims_nonneg q l Hl'). destruct (m0 !! q) as [z|] eqn:Hz; cbn in *; [pose proof (Hm _ _ Hz)|]; lia. }
    assert (match m0 !! q with Some z => (y ← dadd z x; Ok (<[q := y]> m0)) | None => Ok (<[q := x]> m0) end = Ok (<[q := y]> m0)) as Hone.
    { unfold y in *. destruct (m0 !! q) as [z|] eqn:Hz; cbn in *; [|reflexivity]. assert (dadd z x = Ok (z + x)) as -> by (apply dadd_Ok; split; [reflexivity|]; unfold DMIN; lia). reflexivity. }
    cbn [fst snd]. rewrite Hone. cbn [mbind res_bind]. apply IH; [exact Hl'| |].
    - intros r z Hz. destruct (decide (r = q)) as [->|Hn]; [rewrite lookup_insert in Hz; injection Hz as <-; lia|rewrite lookup_insert_ne in Hz by congruence; exact (Hm _ _ Hz)].
    - intros r. pose proof (Hd r) as D. rewrite amount_cons in D. cbn in D. destruct (decide (r = q)) as [->|Hn]; [rewrite lookup_insert; rewrite N.eqb_refl in D; unfold y; cbn; lia|].
      rewrite lookup_insert_ne by congruence. assert ((q =? r)%N = false) as E1 by (apply N.eqb_neq; congruence). rewrite E1 in D. lia. }
  apply Hg; [exact Hp|intros r x H; rewrite lookup_empty in H; discriminate H|]. intros r. rewrite lookup_empty. cbn. apply Hb.
Qed.
Lemma n_take_adv E r have amt : 0 < amt <= have -> have <= DMAX -> fails none (take_adv E r ToZero have amt).
Proof.
  intros H1 H2. unfold take_adv, round_amount. fold (units E r amt). pose proof (units_nonneg E r amt ltac:(lia)). pose proof (units_le E r amt ltac:(lia)). cbv zeta.
  apply f_bind; [apply n_chk; fold (units E r amt); unfold DMIN; lia|]. intros a Ha. apply chk_Ok in Ha as [-> _]. fold (units E r amt). apply f_bind; [|intros; apply f_Ok]. apply f_guard. intros Hf. exfalso. apply andb_false_iff in Hf as [Hf|Hf]; apply Z.leb_gt in Hf; lia.
Qed.
Lemma n_settle p v x : 0 <= x <= va_vb v -> va_vb v <= DMAX -> DMIN <= vp_vb p + x <= DMAX -> fails none (x_settle_account p v (- x)).
Proof.
  intros H1 H2 H3. unfold x_settle_account, vp_add_vb, va_add_vb. apply f_bind; [apply n_chk; unfold DMIN; lia|]. intros n Hn. apply dneg_Ok in Hn as [-> _].
  apply f_bind; [apply f_bind; [apply n_chk; lia|intros; apply f_Ok]|]. intros p1 _. apply f_bind; [apply f_bind; [apply n_chk; unfold DMIN; lia|intros; apply f_Ok]|]. intros a1 _. apply f_Ok.
Qed.
Lemma n_claims E base vb v0 l : NoDup (map fst l) ->
  (forall r x, (r, x) ∈ l -> 0 < x <= (if (r =? BASE)%N then vb else va_collateral_amount v0 r)) -> (forall x, (BASE, x) ∈ l -> x <= base) -> vb <= DMAX -> base <= DMAX ->
  forall p v toks rest, same_but_vb v0 v -> (BASE ∈ map fst l -> va_vb v = vb /\ vp_base p = base /\ po_base (vp_comp p) = base /\ - 2 ^ 190 <= vp_vb p /\ vp_vb p + vb <= DMAX) -> fails none (rfold (x_claim1 E) (p, v, toks, rest) l).
Proof.
  intros Hnd HB HP Hvb Hbs. induction l as [|[r x] l IH]; intros p v toks rest Hs Hin; cbn [rfold]; [apply f_Ok|]. cbn [map fst] in Hnd, Hin. apply NoDup_cons in Hnd as [Hni Hnd].
  specialize (fun a b c => IH a b c). specialize (IH Hnd ltac:(intros r' x' H'; apply (HB r'); right; exact H') ltac:(intros x' H'; apply (HP x'); right; exact H')).
  pose proof (HB r x ltac:(left)) as Hx. unfold x_claim1 at 2. destruct (N.eqb_spec r BASE) as [->|Hr].
  - destruct (Hin ltac:(left)) as (V1 & V2 & V3 & V4 & V5). pose proof (HP x ltac:(left)) as Hxb. apply f_bind.
    + apply f_bind; [apply f_guard; intros Hg; apply Z.leb_gt in Hg; lia|]. intros [] _. apply f_bind; [apply f_guard; intros Hg; apply Z.leb_gt in Hg; lia|]. intros [] _.
      pose proof (units_nonneg E BASE x ltac:(lia)) as U1. pose proof (units_le E BASE x ltac:(lia)) as U2.
      apply f_bind. { unfold vp_withdraw, pool_withdraw. apply f_bind; [apply f_bind; [apply n_take_adv; lia|intros; apply f_Ok]|]. intros [p1 y] Hy. bd Hy as (z & Hz & Hy). apply Ok_inj in Hy. injection Hy as _ <-. unfold take_adv, round_amount in Hz. cbv zeta in Hz. bd Hz as (t & Ht & Hz). apply chk_Ok in Ht as [-> _]. bd Hz as ([] & _ & Hz). apply Ok_inj in Hz. subst z. fold (units E BASE x).
        apply f_bind; [apply n_chk; unfold DMIN; lia|]. intros; apply f_Ok. }
      intros [p1 y] Hy. unfold vp_withdraw, pool_withdraw in Hy. bd Hy as ([q z] & Hz & Hy). bd Hz as (z' & Hz' & Hz). apply Ok_inj in Hz. injection Hz as <- <-. bd Hy as (b & _ & Hy). apply Ok_inj in Hy. injection Hy as <- <-.
      unfold take_adv, round_amount in Hz'. cbv zeta in Hz'. bd Hz' as (t & Ht & Hz'). apply chk_Ok in Ht as [-> _]. bd Hz' as ([] & _ & Hz'). apply Ok_inj in Hz'. subst z'. fold (units E BASE x).
      apply f_bind; [apply n_chk; unfold DMIN, DMAX in *; lia|]. intros nv Hnv. apply dneg_Ok in Hnv as [-> _]. apply f_bind; [|intros [? ?] _; apply f_Ok]. apply n_settle; cbn; unfold DMIN, DMAX in *; lia.
    + intros [[[p1 v1] t1] r1] H. bd H as ([] & _ & H). bd H as ([] & _ & H). bd H as ([p2 val] & _ & H). bd H as (nv & _ & H). bd H as ([p3 v3] & Hst & H). apply Ok_inj in H. injection H as <- <- <- <-. apply x_settle_account_inv in Hst as [-> ->]. apply IH; [exact Hs|]. intros Hb. contradiction.
  - apply f_bind.
    + apply f_bind; [|intros [] _; apply f_Ok]. apply f_guard. intros Hg. apply Z.leb_gt in Hg. unfold va_collateral_amount in *. rewrite (proj1 Hs) in Hg. lia.
    + intros [[[p1 v1] t1] r1] H. bd H as ([] & _ & H). apply Ok_inj in H. injection H as <- <- <- <-. apply IH; [exact Hs|]. intros Hb. apply Hin. right. exact Hb.
Qed.
(** Tokens taken from the account's vaults. *)
Lemma n_take E : forall cs v, NoDup (map fst cs) -> (forall r x, (r, x) ∈ cs -> 0 < x <= vts_amount v r /\ vts_amount v r <= DMAX) ->
  fails none (vts_take_adv_batch E v cs ToZero) /\ forall v' bs, vts_take_adv_batch E v cs ToZero = Ok (v', bs) -> bs = map (fun c => (fst c, units E (fst c) (snd c))) cs.
Proof.
  induction cs as [|[r x] cs IH]; intros v Hn Hx; cbn [vts_take_adv_batch]; [split; [apply f_Ok|intros v' bs [= <- <-]; reflexivity]|].
  destruct (Hx r x ltac:(left)) as (E1 & E3). cbn [map fst] in Hn. apply NoDup_cons in Hn as [Hni Hn].
  assert (forall v1 b, vts_take_adv E v r x ToZero = Ok (v1, b) -> b = (r, units E r x) /\ fails none (vts_take_adv_batch E v1 cs ToZero) /\ forall v' bs, vts_take_adv_batch E v1 cs ToZero = Ok (v', bs) -> bs = map (fun c => (fst c, units E (fst c) (snd c))) cs) as Hone.
  { intros v1 b H. unfold vts_take_adv in H. bd H as (z & Hz & H). apply Ok_inj in H. injection H as <- <-. split.
    { unfold take_adv, round_amount in Hz. cbv zeta in Hz. bd Hz as (t & Ht & Hz). apply chk_Ok in Ht as [-> _]. bd Hz as ([] & _ & Hz). apply Ok_inj in Hz. subst z. reflexivity. }
    apply IH; [exact Hn|]. intros r' x' Hin. destruct (Hx r' x' ltac:(right; exact Hin)) as (F1 & F3).
    assert (vts_amount (<[r:=vts_amount v r - z]> v) r' = vts_amount v r') as ->; [|auto]. unfold vts_amount, vaults in *. rewrite (lookup_insert_ne (M := gmap resource)); [reflexivity|]. intros ->. apply Hni. apply elem_of_list_In. change r' with (fst (r', x')). apply in_map. apply elem_of_list_In. exact Hin. }
  split.
  - apply f_bind. { unfold vts_take_adv. apply f_bind; [|intros; apply f_Ok]. apply n_take_adv; lia. }
    intros [v1 b] H1. destruct (Hone _ _ H1) as (_ & Hf & _). apply f_bind; [exact Hf|]. intros [? ?] _. apply f_Ok.
  - intros v' bs H. bd H as ([v1 b] & H1 & H). destruct (Hone _ _ H1) as (Hb & _ & Hm). bd H as ([v2 bs'] & H2 & H). apply Ok_inj in H. injection H as <- <-. cbn. rewrite Hb. f_equal. exact (Hm _ _ H2).
Qed.
Lemma n_collsub : forall (cs : list (resource * Z)) (m : gmap resource Z), NoDup (map fst cs) -> (forall r x, (r, x) ∈ cs -> exists y, m !! r = Some y /\ 0 <= x <= y /\ y <= DMAX) ->
  fails none (rfold coll_sub m cs) /\ forall m', rfold coll_sub m cs = Ok m' -> forall r y, m' !! r = Some y -> exists y0, m !! r = Some y0 /\ (y = y0 \/ 0 <= y <= y0).
Proof.
  induction cs as [|[r x] cs IH]; intros m Hn Hm; cbn [rfold]; [split; [apply f_Ok|intros m' [= <-] r y Hy; eauto]|]. cbn [map fst] in Hn. apply NoDup_cons in Hn as [Hni Hn].
  destruct (Hm r x ltac:(left)) as (y & Hy & Hxy & Hd).
  assert (forall m', coll_sub m (r, x) = Ok m' -> (forall q z, m' !! q = Some z -> exists y0, m !! q = Some y0 /\ (z = y0 \/ 0 <= z <= y0)) /\ forall q, q <> r -> m' !! q = m !! q) as Hone.
  { intros m' H. unfold coll_sub in H. cbn [fst snd b_res b_amt] in H. match type of H with context [expect ?t _] => assert (t = Some y) as E1 by exact Hy; rewrite E1 in H end. cbn [expect mbind res_bind] in H. bd H as (t & Ht & H). apply dsub_Ok in Ht as [-> _]. apply Ok_inj in H. subst m'. split.
    - intros q z Hz. destruct (decide (q = r)) as [->|Hne].
      + destruct (y - x =? 0); [rewrite lookup_delete in Hz; discriminate Hz|rewrite lookup_insert in Hz; injection Hz as <-]. exists y. split; [exact Hy|right; lia].
      + exists z. split; [|auto]. destruct (y - x =? 0); [rewrite lookup_delete_ne in Hz by congruence|rewrite lookup_insert_ne in Hz by congruence]; exact Hz.
    - intros q Hne. destruct (y - x =? 0); [rewrite lookup_delete_ne by congruence|rewrite lookup_insert_ne by congruence]; reflexivity. }
  assert (forall m', coll_sub m (r, x) = Ok m' -> fails none (rfold coll_sub m' cs) /\ forall m'', rfold coll_sub m' cs = Ok m'' -> forall q z, m'' !! q = Some z -> exists y0, m' !! q = Some y0 /\ (z = y0 \/ 0 <= z <= y0)) as Hrest.
  { intros m' H. apply IH; [exact Hn|]. intros q z Hq. destruct (Hm q z ltac:(right; exact Hq)) as (y0 & H1 & H2). exists y0. split; [|exact H2]. rewrite (proj2 (Hone _ H)); [exact H1|]. intros ->. apply Hni. apply elem_of_list_In. change r with (fst (r, z)). apply in_map. apply elem_of_list_In. exact Hq. }
  split.
  - apply f_bind; [|intros m' H; apply Hrest; exact H]. unfold coll_sub. cbn [fst snd b_res b_amt]. apply f_bind; [apply f_some; exists y; exact Hy|]. intros y' Hy'. apply expect_Ok in Hy'. match type of Hy' with ?t = _ => assert (t = Some y) as E1 by exact Hy; rewrite E1 in Hy' end. injection Hy' as <-. apply f_bind; [apply n_chk; unfold DMIN; lia|]. intros t _. destruct (t =? 0); apply f_Ok.
  - intros m'' H. bd H as (m' & H1 & H). intros q z Hz. destruct (proj2 (Hrest _ H1) _ H _ _ Hz) as (y1 & Y1 & Y2). destruct (proj1 (Hone _ H1) _ _ Y1) as (y0 & Y3 & Y4). exists y0. split; [exact Y3|]. destruct Y2 as [->|Y2], Y4 as [->|Y4]; try (left; reflexivity); right; lia.
Qed.
Lemma quot_bound a b A B : 0 <= a <= A -> 0 <= b <= B -> (10 ^ 18 | A * B) -> 0 <= Z.quot (a * b) (10 ^ 18) <= A * B / 10 ^ 18.
Proof.
  intros Ha Hb _. assert (0 <= a * b <= A * B) by nia. rewrite Z.quot_div_nonneg by lia. split; [apply Z.div_pos; lia|apply Z.div_le_mono; lia].
Qed.
(** What collateral is worth, when no amount is extravagant: nothing overflows, and what counts is at least what it requires as margin. *)
Lemma n_value_coll c v o : feeds_ok c o -> (forall r x, va_coll v !! r = Some x -> 0 <= x <= 10 ^ 36) -> (forall r k p, vo_resources o !! r = Some k -> vo_prices o !! k = Some p -> 0 <= p <= 10 ^ 30) ->
  (forall r cc, vc_collaterals c !! r = Some cc -> collateral_rates cc) -> (N.of_nat (size (va_coll v)) <= 1000000)%N ->
  fails none (x_value_collateral c v o) /\ forall d m, x_value_collateral c v o = Ok (d, m) -> 0 <= m <= d /\ d <= 10 ^ 54.
Proof.
  intros Hf Hx Hp Hr Hs. unfold x_value_collateral.
  assert (forall l t1 t2 n, (forall r x, (r, x) ∈ l -> 0 <= x <= 10 ^ 36) -> 0 <= t2 <= t1 -> 0 <= n -> t1 <= n * 10 ^ 48 -> n + Z.of_nat (length l) <= 1000000 ->
    fails none (rfold (x_value_collateral1 c o) (t1, t2) l) /\ forall d m, rfold (x_value_collateral1 c o) (t1, t2) l = Ok (d, m) -> 0 <= m <= d /\ d <= 10 ^ 54) as G.
  { induction l as [|[r x] l IH]; intros t1 t2 n Hl Ht Hn Hb Hlen; cbn [rfold]; [split; [apply f_Ok|intros d m [= <- <-]; split; [exact Ht|cbn [length] in Hlen; nia]]|].
    cbn [length] in Hlen. assert (forall r x, (r, x) ∈ l -> 0 <= x <= 10 ^ 36) as Hl' by (intros; eapply Hl; right; eassumption).
    unfold x_value_collateral1 at 2 4. cbn [fst snd]. destruct (vc_collaterals c !! r) as [cc|] eqn:Hc.
    2:{ cbn [mbind res_bind]. apply (IH _ _ n); try assumption; lia. }
    destruct (Hf r ltac:(eauto)) as (k & K1 & [price K2]). assert (vo_price_resource o r = Ok price) as ->. { unfold vo_price_resource, vo_price. match goal with |- context [expect ?t _] => assert (t = Some k) as -> by exact K1 end. cbn [expect mbind res_bind]. match goal with |- context [expect ?t _] => assert (t = Some price) as -> by exact K2 end. reflexivity. }
    cbn [mbind res_bind]. pose proof (Hp _ _ _ K1 K2) as Hpr. pose proof (Hl r x ltac:(left)) as Hxx. destruct (Hr _ _ Hc) as [_ C1 C2].
    set (value := Z.quot (x * price) E18). assert (0 <= value <= 10 ^ 48) as Hv. { unfold value, E18. change (10 ^ 48) with (10 ^ 36 * 10 ^ 30 / 10 ^ 18). apply quot_bound; [exact Hxx|exact Hpr|]. exists (10 ^ 48). reflexivity. }
    set (disc := Z.quot (value * cc_discount cc) E18). set (mg := Z.quot (value * cc_margin cc) E18).
    assert (0 <= mg <= disc /\ disc <= 10 ^ 48) as (Hm & Hd).
    { unfold mg, disc, E18. rewrite !Z.quot_div_nonneg by nia. split; [split; [apply Z.div_pos; nia|apply Z.div_le_mono; nia]|]. apply Z.le_trans with (10 ^ 48 * 10 ^ 18 / 10 ^ 18); [apply Z.div_le_mono; nia|vm_compute; discriminate]. }
    assert (t1 + disc <= (n + 1) * 10 ^ 48) as Hb' by lia. assert (t1 + disc <= 10 ^ 54) as Ht' by nia.
    assert (dmul x price = Ok value) as ->. { apply dmul_Ok. split; [reflexivity|]. fold value. unfold DMIN, DMAX. lia. } cbn [mbind res_bind].
    assert (dmul value (cc_discount cc) = Ok disc) as ->. { apply dmul_Ok. split; [reflexivity|]. fold disc. unfold DMIN, DMAX. lia. } cbn [mbind res_bind].
    assert (dmul value (cc_margin cc) = Ok mg) as ->. { apply dmul_Ok. split; [reflexivity|]. fold mg. unfold DMIN, DMAX. lia. } cbn [mbind res_bind].
    assert (dadd t1 disc = Ok (t1 + disc)) as ->. { apply dadd_Ok. split; [reflexivity|]. unfold DMIN, DMAX. lia. } cbn [mbind res_bind].
    assert (dadd t2 mg = Ok (t2 + mg)) as ->. { apply dadd_Ok. split; [reflexivity|]. unfold DMIN, DMAX. lia. } cbn [mbind res_bind].
    apply (IH _ _ (n + 1)); [exact Hl'|lia|lia|exact Hb'|lia]. }
  apply (G _ _ _ 0); try lia.
  - intros r x H. apply elem_of_map_to_list in H. eauto.
  - assert (length (map_to_list (va_coll v)) = size (va_coll v)) as -> by reflexivity. lia.
Qed.
Lemma n_integrity c p v o : va_positions v = ∅ -> (forall d, va_ref v = Some d -> 0 <= rf_fee_rebate d <= 10 ^ 18) -> 0 <= va_vb v <= 10 ^ 50 ->
  feeds_ok c o -> (forall r x, va_coll v !! r = Some x -> 0 <= x <= 10 ^ 36) -> (forall r k p, vo_resources o !! r = Some k -> vo_prices o !! k = Some p -> 0 <= p <= 10 ^ 30) ->
  (forall r cc, vc_collaterals c !! r = Some cc -> collateral_rates cc) -> (N.of_nat (size (va_coll v)) <= 1000000)%N ->
  fails none (x_assert_account_integrity c p v o).
Proof.
  intros Hpos Href Hvb Hf Hx Hp Hr Hs. unfold x_assert_account_integrity.
  assert (x_value_positions c p v o = Ok (0, 0)) as ->.
  { unfold x_value_positions. rewrite Hpos, map_to_list_empty. unfold va_fee_rebate. destruct (va_ref v) as [d|]; [|reflexivity]. assert (dsub (dec 1) (rf_fee_rebate d) = Ok (dec 1 - rf_fee_rebate d)) as ->; [|reflexivity]. apply dsub_Ok. split; [reflexivity|]. pose proof (Href d eq_refl). unfold dec, E18, DMIN, DMAX. lia. }
  cbn [mbind res_bind]. destruct (n_value_coll c v o Hf Hx Hp Hr Hs) as [G1 G2]. apply f_bind; [exact G1|]. intros [d m] Hdm. destruct (G2 _ _ Hdm) as [H1 H2].
  apply f_bind; [apply n_chk; unfold DMIN, DMAX; lia|]. intros t Ht. apply dadd_Ok in Ht as [-> _]. apply f_bind; [apply n_chk; unfold DMIN, DMAX; lia|]. intros av Ht. apply dadd_Ok in Ht as [-> _]. apply f_bind; [apply n_chk; unfold DMIN, DMAX; lia|]. intros mm Ht. apply dadd_Ok in Ht as [-> _].
  apply f_guard. intros Hg. apply Z.leb_gt in Hg. exfalso. lia.
Qed.
Lemma collsub_size : forall (cs : list (resource * Z)) (m m' : gmap resource Z), rfold coll_sub m cs = Ok m' -> (size m' <= size m)%nat.
Proof.
  induction cs as [|b cs IH]; intros m m' H; cbn [rfold] in H; [apply Ok_inj in H; subst; reflexivity|]. bd H as (m1 & H1 & H). etransitivity; [exact (IH _ _ H)|]. unfold coll_sub in H1. bd H1 as (x & Hx & H1). apply expect_Ok in Hx. bd H1 as (y & _ & H1). apply Ok_inj in H1. subst m1.
  rewrite <- !size_dom. apply subseteq_size. destruct (y =? 0); [rewrite dom_delete_L; set_solver|rewrite dom_insert_L]. assert (b_res b ∈ dom m) by (apply elem_of_dom; eauto). set_solver.
Qed.
(** A withdrawal from an account without positions goes through, when what is claimed is there. *)
Lemma n_withdraw E cx c p v o rq : va_coll v = ac_coll (va_comp v) -> coll_ok (va_comp v) -> vp_base p = po_base (vp_comp p) -> feeds_ok c o ->
  Forall (fun b : resource * Z => 0 < snd b) (rr_claims rq) -> (forall r, r ∈ map fst (rr_claims rq) -> amount_in r (rr_claims rq) <= (if (r =? BASE)%N then va_vb v else va_collateral_amount v r)) ->
  amount_in BASE (rr_claims rq) <= po_base (vp_comp p) <= DMAX -> (forall toks, (forall r, amount_in r toks = units E r (amount_in r (rr_claims rq))) -> cx_accepts cx (rr_target rq) toks = true) ->
  va_positions v = ∅ -> (forall d, va_ref v = Some d -> 0 <= rf_fee_rebate d <= 10 ^ 18) -> 0 <= va_vb v <= 10 ^ 36 -> - 10 ^ 50 <= vp_vb p <= 10 ^ 50 ->
  (forall r x, va_coll v !! r = Some x -> 0 <= x <= 10 ^ 36) -> (forall r k p, vo_resources o !! r = Some k -> vo_prices o !! k = Some p -> 0 <= p <= 10 ^ 30) ->
  (forall r cc, vc_collaterals c !! r = Some cc -> collateral_rates cc) -> (N.of_nat (size (va_coll v)) <= 1000000)%N ->
  fails none (x_remove_collateral E cx c p v o rq).
Proof.
  intros Hsy Hco Hb Hf Hpos Hen Hpb Hacc Hnp Href Hvb Hpv Hcb Hpr Hrt Hsz. unfold x_remove_collateral.
  assert (forall r, amount_in r (rr_claims rq) <= 10 ^ 36) as Hle.
  { intros r. destruct (decide (r ∈ map fst (rr_claims rq))) as [Hin|Hin].
    - pose proof (Hen r Hin) as H. destruct (r =? BASE)%N; [lia|]. unfold va_collateral_amount in H. match type of H with _ <= default 0 ?t => destruct t as [x|] eqn:Hx end; cbn in H; [pose proof (Hcb _ _ Hx)|]; lia.
    - assert (amount_in r (rr_claims rq) = 0) as ->; [|lia]. revert Hin. clear. induction (rr_claims rq) as [|[q x] l IH]; [reflexivity|]. cbn [map fst]. intros H. apply not_elem_of_cons in H as [H1 H2]. rewrite amount_cons. cbn [b_res b_amt fst snd]. assert ((q =? r)%N = false) as -> by (apply N.eqb_neq; congruence). rewrite (IH H2). reflexivity. }
  destruct (n_merge (rr_claims rq) Hpos) as [M1 M2]. { intros r. pose proof (Hle r). unfold DMAX. lia. }
  apply f_bind; [exact M1|]. intros m Hm. specialize (M2 m Hm). assert (NoDup (map fst (map_to_list m))) as Hnd by apply NoDup_fst_map_to_list.
  assert (forall r x, (r, x) ∈ map_to_list m -> r ∈ map fst (rr_claims rq) /\ x = amount_in r (rr_claims rq) /\ 0 < x) as Hmr.
  { intros r x Hx. apply elem_of_map_to_list in Hx. split; [exact (merge_keys _ _ Hm _ _ Hx)|]. split; [|exact (M2 _ _ Hx)]. rewrite <- (merge_claims_amount r _ _ Hm), Hx. reflexivity. }
  apply f_bind.
  { eapply (n_claims E (po_base (vp_comp p)) (va_vb v) v); [exact Hnd| | | | |split; reflexivity|].
    - intros r x Hx. destruct (Hmr _ _ Hx) as (H1 & H2 & H3). split; [exact H3|]. rewrite H2. apply Hen. exact H1.
    - intros x Hx. destruct (Hmr _ _ Hx) as (H1 & H2 & H3). rewrite H2. apply Hpb.
    - unfold DMAX. lia.
    - apply Hpb.
    - intros _. split; [reflexivity|]. split; [exact Hb|]. split; [reflexivity|]. unfold DMAX. lia. }
  intros [[[p1 a1] t1] r1] Hcl. destruct (claims_checked _ _ _ _ _ _ _ _ _ _ Hcl) as [[K1 K2] K3]. destruct (claims_served _ _ _ _ _ _ _ _ _ _ Hcl Hnd) as (-> & Hcase). cbn [app].
  assert (va_positions a1 = va_positions v /\ va_ref a1 = va_ref v /\ 0 <= va_vb a1 <= 10 ^ 50) as (Hap & Har & Hav).
  { destruct Hcase as [(_ & _ & -> & _)|(amt & x & Hin & Hx0 & Hx1 & Hx2 & _ & _ & ->)]; [split; [reflexivity|split; [reflexivity|lia]]|]. cbn. split; [reflexivity|]. split; [reflexivity|].
    apply elem_of_list_In in Hin. destruct (Hmr _ _ Hin) as (_ & _ & H0). pose proof (units_le E BASE amt ltac:(lia)). lia. }
  set (cs := List.filter (fun x => negb (fst x =? BASE)%N) (map_to_list m)). assert (NoDup (map fst cs)) as Hnc by (apply filter_nodup; exact Hnd).
  assert (forall r x, (r, x) ∈ cs -> (r, x) ∈ map_to_list m /\ r <> BASE) as Hcs.
  { intros r x Hx. unfold cs in Hx. split; [exact (filter_in _ _ _ Hx)|]. apply elem_of_list_In, filter_In in Hx as [_ Hx]. cbn in Hx. apply negb_true_iff, N.eqb_neq in Hx. exact Hx. }
  assert (forall r x, (r, x) ∈ cs -> exists y, ac_coll (va_comp v) !! r = Some y /\ 0 < x <= y /\ y <= 10 ^ 36) as Hcv.
  { intros r x Hx. destruct (Hcs _ _ Hx) as [X1 X2]. destruct (Hmr _ _ X1) as (_ & _ & H0). pose proof (K3 _ _ X1 X2) as K. unfold va_collateral_amount in K. rewrite Hsy in K, Hcb. match type of K with _ <= default 0 ?t => destruct t as [y|] eqn:Hy end; cbn in K; [|lia]. exists y. split; [exact Hy|]. split; [lia|]. apply (Hcb _ _ Hy). }
  destruct (n_take E cs (ac_vaults (va_comp v)) Hnc) as [T1 T2].
  { intros r x Hx. destruct (Hcv _ _ Hx) as (y & Hy & L1 & L2). destruct (Hco r) as [C1 C2]. unfold in_vault, held_coll in C1. match type of C1 with default 0 ?t = _ => assert (t = Some y) as E1 by exact Hy; rewrite E1 in C1 end. cbn in C1. unfold vts_amount. rewrite <- C1. unfold DMAX. lia. }
  set (bs0 := map (fun c0 : resource * Z => (fst c0, units E (fst c0) (snd c0))) cs) in *.
  assert (map fst bs0 = map fst cs) as Hf0. { unfold bs0. rewrite map_map. cbn. reflexivity. }
  destruct (n_collsub bs0 (ac_coll (va_comp v))) as [S1 S2].
  { rewrite Hf0. exact Hnc. }
  { intros r x Hx. apply elem_of_list_In, in_map_iff in Hx as ([q z] & Hq & Hin). cbn in Hq. injection Hq as <- <-. apply elem_of_list_In in Hin. destruct (Hcv _ _ Hin) as (y & Hy & L1 & L2). exists y. split; [exact Hy|]. pose proof (units_nonneg E q z ltac:(lia)). pose proof (units_le E q z ltac:(lia)). unfold DMAX. lia. }
  apply f_bind.
  { unfold va_withdraw, acc_withdraw. rewrite K2, K1, Hsy. apply f_bind.
    - apply f_bind; [exact T1|]. intros [v1 bs] Hbs. rewrite (T2 _ _ Hbs). apply f_bind; [exact S1|]. intros; apply f_Ok.
    - intros [ac bs] Hbs. bd Hbs as ([v1 bs1] & Hb1 & Hbs). bd Hbs as (c1 & _ & Hbs). apply Ok_inj in Hbs. injection Hbs as _ <-. rewrite (T2 _ _ Hb1). apply f_bind; [exact S1|]. intros; apply f_Ok. }
  intros [a2 more] Hw. destruct (va_withdraw_inv _ _ _ _ _ Hw) as (vt & Htk & _). rewrite K2 in Htk. pose proof (more_amount _ _ _ _ _ _ Hm Htk) as Hmore.
  apply f_bind.
  { apply f_guard. intros Hno. exfalso. rewrite Hacc in Hno; [discriminate Hno|]. intros r. rewrite amount_app, Hmore. destruct (N.eqb_spec r BASE) as [->|Hne].
    - rewrite <- (merge_claims_amount BASE _ _ Hm). destruct Hcase as [(Hn0 & _ & _ & ->)|(amt & x & Hin & -> & _ & _ & -> & _)].
      + destruct (m !! BASE) as [y|] eqn:Hy; [exfalso; apply Hn0; change BASE with (fst (BASE, y)); apply in_map, elem_of_list_In, elem_of_map_to_list; exact Hy|]. reflexivity.
      + apply elem_of_list_In, elem_of_map_to_list in Hin. rewrite Hin. cbn [app]. rewrite amount_cons. cbn [b_res b_amt fst snd]. rewrite N.eqb_refl. cbn [default]. unfold amount_in. cbn. lia.
    - destruct Hcase as [(_ & _ & _ & ->)|(amt & x & _ & _ & _ & _ & -> & _)]; [cbn; lia|]. cbn [app]. rewrite amount_cons. cbn [b_res b_amt fst snd]. apply N.eqb_neq in Hne. rewrite N.eqb_sym, Hne. unfold amount_in. cbn. lia. }
  intros [] _. apply f_bind; [|intros; apply f_Ok].
  unfold va_withdraw, acc_withdraw in Hw. rewrite K2, K1, Hsy in Hw. bd Hw as ([ac bs] & Hw1 & Hw). bd Hw1 as ([v1 bs1] & Hb1 & Hw1). bd Hw1 as (c1 & _ & Hw1). apply Ok_inj in Hw1. injection Hw1 as _ <-. bd Hw as (c2 & Hc2 & Hw). apply Ok_inj in Hw. injection Hw as <- _. fold cs in Hb1. rewrite (T2 _ _ Hb1) in Hc2.
  apply n_integrity; cbn [va_positions va_ref va_vb va_coll].
  - cbn. rewrite Hap. exact Hnp.
  - cbn. rewrite Har. exact Href.
  - cbn. exact Hav.
  - exact Hf.
  - cbn. intros r x Hx. destruct (S2 _ Hc2 _ _ Hx) as (y & Hy & Hxy). rewrite <- Hsy in Hy. pose proof (Hcb _ _ Hy). destruct Hxy as [->|?]; lia.
  - exact Hpr.
  - exact Hrt.
  - cbn. pose proof (collsub_size _ _ _ Hc2) as Hz. rewrite <- Hsy in Hz. lia.
Qed.
