(** * The oracle component and the prices a call reads. *)
From Verif Require Import Base DFloat Lists Types Config Oracle Pool Account Fees Referral ExInternal Exchange System Sums Trace Frames Calls Shape SpecOracle P_Ledger P_Accounts.

Definition ages_le (a b : gmap pair_id Z) : Prop := forall k x, b !! k = Some x -> exists y, a !! k = Some y /\ y <= x.
Lemma ages_le_refl a : ages_le a a.
Proof. intros k x H. exists x. split; [exact H|lia]. Qed.
Lemma feed1_le m r p age : ages_le (vo_feed1 m (r, (p, age))) m /\ exists y, vo_feed1 m (r, (p, age)) !! p = Some y /\ y <= age.
Proof.
  unfold vo_feed1. destruct (m !! p) as [a|] eqn:Hp.
  - destruct (Z.ltb_spec age a).
    + split; [|exists age; rewrite lookup_insert; split; [reflexivity|lia]]. intros k x Hk. destruct (decide (p = k)) as [->|Hn].
      * rewrite Hp in Hk. injection Hk as <-. exists age. rewrite lookup_insert. split; [reflexivity|lia].
      * exists x. rewrite lookup_insert_ne by exact Hn. split; [exact Hk|lia].
    + split; [apply ages_le_refl|]. exists a. split; [exact Hp|lia].
  - split; [|exists age; rewrite lookup_insert; split; [reflexivity|lia]]. intros k x Hk. destruct (decide (p = k)) as [->|Hn]; [congruence|].
    exists x. rewrite lookup_insert_ne by exact Hn. split; [exact Hk|lia].
Qed.
Lemma ages_le_trans a b c : ages_le a b -> ages_le b c -> ages_le a c.
Proof. intros H1 H2 k x Hk. destruct (H2 k x Hk) as (y & Hy & Hl). destruct (H1 k y Hy) as (z & Hz & Hl'). exists z. split; [exact Hz|lia]. Qed.
Lemma feeds_le l m : ages_le (foldl vo_feed1 m l) m /\ forall r p age, (r, (p, age)) ∈ l -> exists y, foldl vo_feed1 m l !! p = Some y /\ y <= age.
Proof.
  revert m. induction l as [|[r [p age]] l IH]; intros m; simpl; [split; [apply ages_le_refl|]; intros r p age H; inversion H|].
  destruct (IH (vo_feed1 m (r, (p, age)))) as [I1 I2]. destruct (feed1_le m r p age) as [F1 (y & F2 & F3)]. split; [eapply ages_le_trans; eauto|].
  intros r' p' age' H. apply elem_of_cons in H as [H|H]; [|eauto]. injection H as -> -> ->. destruct (I1 _ _ F2) as (z & Hz & Hl). exists z. split; [exact Hz|lia].
Qed.
Lemma merge_feeds_spec feeds pairs :
  ages_le (vo_merge_feeds feeds pairs) pairs /\
  forall r p age, feeds !! r = Some (p, age) -> exists y, vo_merge_feeds feeds pairs !! p = Some y /\ y <= age.
Proof.
  unfold vo_merge_feeds. destruct (feeds_le (map_to_list feeds) pairs) as [H1 H2]. split; [exact H1|]. intros r p age H. apply (H2 r). apply elem_of_map_to_list. exact H.
Qed.
Lemma oracle_get_spec o ids m : oracle_get o ids = Ok m -> forall k, m !! k = if bool_decide (k ∈ ids) then or_prices o !! k else None.
Proof.
  unfold oracle_get. intros H k.
  assert (forall l (m0 m : gmap pair_id (Z * Z)), rfold (fun (m : gmap pair_id (Z * Z)) p => q ← expect (or_prices o !! p) EMissingPair; Ok (<[p := q]> m)) m0 l = Ok m ->
    (forall k, k ∈ l -> m !! k = or_prices o !! k) /\ (forall k, k ∉ l -> m !! k = m0 !! k)) as G.
  { clear. induction l as [|p l IH]; intros m0 m H; simpl in H.
    - apply Ok_inj in H. subst. split; [intros k Hk; inversion Hk|reflexivity].
    - bd H as (m1 & H1 & H). bd H1 as (q & Hq & H1). apply Ok_inj in H1. subst m1. apply expect_Ok in Hq. destruct (IH _ _ H) as [I1 I2]. split.
      + intros k Hk. destruct (decide (k ∈ l)) as [Hin|Hn]; [auto|]. rewrite (I2 k Hn). apply elem_of_cons in Hk as [->|Hk]; [|contradiction]. rewrite lookup_insert. congruence.
      + intros k Hk. rewrite not_elem_of_cons in Hk. destruct Hk as [Hk1 Hk2]. rewrite (I2 k Hk2). apply lookup_insert_ne. congruence. }
  destruct (G _ _ _ H) as [G1 G2]. case_bool_decide as Hin.
  - apply G1. apply elem_of_elements. exact Hin.
  - rewrite G2; [apply lookup_empty|]. rewrite elem_of_elements. exact Hin.
Qed.
Lemma price1_spec now ages l m m' : NoDup l.*1 -> rfold (vo_price1 now ages) m l = Ok m' ->
  (forall k p t, (k, (p, t)) ∈ l -> m' !! k = Some p /\ 0 < p /\ exists age, ages !! k = Some age /\ now < t + age) /\
  (forall k, k ∉ l.*1 -> m' !! k = m !! k).
Proof.
  revert m. induction l as [|[k0 [p0 t0]] l IH]; intros m Hnd H; simpl in H.
  - apply Ok_inj in H. subst. split; [intros k p t Hk; inversion Hk|reflexivity].
  - bd H as (m1 & H1 & H). bd H1 as (age & Ha & H1). bd H1 as (na & Hna & H1). bd H1 as (mt & Hmt & H1). bd H1 as (? & Hg1 & H1). bd H1 as (? & Hg2 & H1). apply Ok_inj in H1. subst m1.
    apply expect_Ok in Ha. apply ineg_Ok in Hna as [-> _]. apply iadd_Ok in Hmt as [-> _]. apply guard_Ok in Hg1, Hg2. apply Z.ltb_lt in Hg1, Hg2.
    inversion Hnd as [|? ? Hni Hnd']. subst. destruct (IH _ Hnd' H) as [I1 I2]. split.
    + intros k p t Hk. apply elem_of_cons in Hk as [Hk|Hk]; [|eauto]. injection Hk as -> -> ->. rewrite (I2 k0 Hni), lookup_insert. split; [reflexivity|]. split; [exact Hg2|]. exists age. split; [exact Ha|lia].
    + intros k Hk. simpl in Hk. rewrite not_elem_of_cons in Hk. destruct Hk as [Hk1 Hk2]. rewrite (I2 k Hk2). apply lookup_insert_ne. congruence.
Qed.
Lemma vo_new_spec E now o feeds pairs upd o1 vo : vo_new E now o feeds pairs upd = Ok (o1, vo) ->
  (match upd with Some msg => oracle_push E o msg = Ok o1 | None => o1 = o end) /\ vo_resources vo = fst <$> feeds /\
  (forall k p, vo_prices vo !! k = Some p -> fst <$> or_prices o1 !! k = Some p) /\
  (forall k age, pairs !! k = Some age -> exists x, or_prices o1 !! k = Some x /\ fresh now age x /\ vo_prices vo !! k = Some (fst x)) /\
  (forall r k age, feeds !! r = Some (k, age) -> exists x, or_prices o1 !! k = Some x /\ fresh now age x /\ vo_prices vo !! k = Some (fst x)).
Proof.
  unfold vo_new. intros H. cbv zeta in H. bd H as (o2 & Ho & H). bd H as (got & Hg & H). bd H as (pr & Hp & H). apply Ok_inj in H. injection H as <- <-.
  split; [destruct upd; [exact Ho|apply Ok_inj in Ho; congruence]|]. split; [reflexivity|]. cbn [vo_prices].
  pose proof (oracle_get_spec _ _ _ Hg) as G. destruct (price1_spec _ _ _ _ _ (NoDup_fst_map_to_list _) Hp) as [P1 P2]. destruct (merge_feeds_spec feeds pairs) as [M1 M2].
  assert (forall k age, vo_merge_feeds feeds pairs !! k = Some age -> exists x, or_prices o2 !! k = Some x /\ fresh now age x /\ pr !! k = Some (fst x)) as K.
  { intros k age Hk. assert (exists x, got !! k = Some x) as [x Hx].
    { clear - Hg Hk. unfold oracle_get in Hg. assert (k ∈ elements (dom (vo_merge_feeds feeds pairs))) as Hin by (apply elem_of_elements, elem_of_dom; eauto).
      revert Hg Hin. generalize (elements (dom (vo_merge_feeds feeds pairs))), (∅ : gmap pair_id (Z * Z)). intros l.
      assert (forall (m0 : gmap pair_id (Z * Z)), rfold (fun (m : gmap pair_id (Z * Z)) p => q ← expect (or_prices o2 !! p) EMissingPair; Ok (<[p := q]> m)) m0 l = Ok got -> (is_Some (m0 !! k) \/ k ∈ l) -> exists x, got !! k = Some x) as G.
      { induction l as [|p l IH]; intros m0 H Hin; simpl in H.
        - apply Ok_inj in H. subst. destruct Hin as [Hin|Hin]; [exact Hin|inversion Hin].
        - bd H as (m1 & H1 & H). bd H1 as (q & Hq & H1). apply Ok_inj in H1. subst m1. apply (IH _ H). destruct Hin as [Hin|Hin].
          + left. destruct (decide (p = k)) as [->|Hn]; [rewrite lookup_insert; eauto|rewrite lookup_insert_ne by exact Hn; exact Hin].
          + apply elem_of_cons in Hin as [->|Hin]; [left; rewrite lookup_insert; eauto|right; exact Hin]. }
      intros m0 Hg Hin. apply (G m0 Hg). right. exact Hin. }
    pose proof (G k) as Gk. rewrite bool_decide_eq_true_2 in Gk by (apply elem_of_dom; eauto). rewrite Hx in Gk. destruct x as [p t].
    destruct (P1 k p t) as (Q1 & Q2 & age' & Q3 & Q4); [apply elem_of_map_to_list; exact Hx|]. rewrite Hk in Q3. injection Q3 as <-.
    exists (p, t). split; [congruence|]. split; [split; simpl; lia|exact Q1]. }
  assert (forall k age age', fresh now age' k -> age' <= age -> fresh now age k) as FR by (unfold fresh; intros; simpl; lia).
  split; [|split].
  - intros k p Hk. destruct (decide (k ∈ dom (vo_merge_feeds feeds pairs))) as [Hin|Hn].
    + apply elem_of_dom in Hin as [age Ha]. destruct (K k age Ha) as (x & X1 & _ & X3). rewrite X1. simpl. congruence.
    + exfalso. rewrite P2 in Hk; [rewrite lookup_empty in Hk; discriminate|]. intros Hi. apply elem_of_list_fmap in Hi as ([k' x] & -> & Hi). apply elem_of_map_to_list in Hi.
      rewrite (G k') in Hi. simpl in Hn. rewrite bool_decide_eq_false_2 in Hi by exact Hn. discriminate.
  - intros k age Hk. destruct (M1 _ _ Hk) as (y & Hy & Hl). destruct (K _ _ Hy) as (x & X1 & X2 & X3). exists x. split; [exact X1|]. split; [eapply FR; eauto|exact X3].
  - intros r k age Hk. destruct (M2 _ _ _ Hk) as (y & Hy & Hl). destruct (K _ _ Hy) as (x & X1 & X2 & X3). exists x. split; [exact X1|]. split; [eapply FR; eauto|exact X3].
Qed.

(** The configuration a call reads. *)
Lemma vc_new_spec c ids v : vc_new c ids = Ok v ->
  vc_exchange v = ec_decompress (cf_exchange c) /\ vc_collaterals v = cc_decompress <$> cf_collaterals c /\
  (forall k, k ∈ ids -> exists pc, hl_kvs (cf_pairs c) !! k = Some pc /\ vc_pairs v !! k = Some (pc_decompress pc)) /\
  (forall k, k ∉ ids -> vc_pairs v !! k = None).
Proof.
  unfold vc_new. intros H. bd H as (ps & Hps & H). apply Ok_inj in H. subst v. cbn [vc_exchange vc_collaterals vc_pairs]. split; [reflexivity|]. split; [reflexivity|].
  assert (forall l (m0 m : gmap pair_id pair_config), rfold (fun (m : gmap pair_id pair_config) p => pc ← expect (config_get_pair c p) EMissingPairConfig; Ok (<[p := pc_decompress pc]> m)) m0 l = Ok m ->
    (forall k, k ∈ l -> exists pc, hl_kvs (cf_pairs c) !! k = Some pc /\ m !! k = Some (pc_decompress pc)) /\ (forall k, k ∉ l -> m !! k = m0 !! k)) as G.
  { clear. induction l as [|p l IH]; intros m0 m H; simpl in H.
    - apply Ok_inj in H. subst. split; [intros k Hk; inversion Hk|reflexivity].
    - bd H as (m1 & H1 & H). bd H1 as (q & Hq & H1). apply Ok_inj in H1. subst m1. apply expect_Ok in Hq. destruct (IH _ _ H) as [I1 I2]. split.
      + intros k Hk. destruct (decide (k ∈ l)) as [Hin|Hn]; [auto|]. rewrite (I2 k Hn). apply elem_of_cons in Hk as [->|Hk]; [|contradiction]. rewrite lookup_insert. eauto.
      + intros k Hk. rewrite not_elem_of_cons in Hk. destruct Hk as [Hk1 Hk2]. rewrite (I2 k Hk2). apply lookup_insert_ne. congruence. }
  destruct (G _ _ _ Hps) as [G1 G2]. split; intros k Hk; [apply G1, elem_of_elements, Hk|]. rewrite G2; [apply lookup_empty|]. rewrite elem_of_elements. exact Hk.
Qed.
Lemma pair_feeds_spec c ids m : x_pair_feeds c ids = Ok m ->
  forall k, k ∈ ids -> exists pc, vc_pairs c !! k = Some pc /\ m !! k = Some (pc_price_age_max pc).
Proof.
  unfold x_pair_feeds, vc_pair. intros H.
  assert (forall l (m0 m : gmap pair_id Z), rfold (fun (m : gmap pair_id Z) p => pc ← expect (vc_pairs c !! p) EMissingPairConfig; Ok (<[p := pc_price_age_max pc]> m)) m0 l = Ok m ->
    (forall k, k ∈ l -> exists pc, vc_pairs c !! k = Some pc /\ m !! k = Some (pc_price_age_max pc)) /\ (forall k, k ∉ l -> m !! k = m0 !! k)) as G.
  { clear. induction l as [|p l IH]; intros m0 m H; simpl in H.
    - apply Ok_inj in H. subst. split; [intros k Hk; inversion Hk|reflexivity].
    - bd H as (m1 & H1 & H). bd H1 as (q & Hq & H1). apply Ok_inj in H1. subst m1. apply expect_Ok in Hq. destruct (IH _ _ H) as [I1 I2]. split.
      + intros k Hk. destruct (decide (k ∈ l)) as [Hin|Hn]; [auto|]. rewrite (I2 k Hn). apply elem_of_cons in Hk as [->|Hk]; [|contradiction]. rewrite lookup_insert. eauto.
      + intros k Hk. rewrite not_elem_of_cons in Hk. destruct Hk as [Hk1 Hk2]. rewrite (I2 k Hk2). apply lookup_insert_ne. congruence. }
  intros k Hk. destruct (G _ _ _ H) as [G1 _]. apply G1, elem_of_elements, Hk.
Qed.

(** The prices of a keeper call: [o] holds, for every pair of [ids] and every collateral, the price stored after the call's own message, fresh. *)
Record prices_ok (E : env) (w : world) (upd : option price_msg) (ids : gset pair_id) (c : vconfig) (orc : oracle) (o : voracle) : Prop := {
  pk_push : match upd with Some msg => oracle_push E (w_oracle w) msg = Ok orc | None => orc = w_oracle w end;
  pk_stored : forall k p, vo_prices o !! k = Some p -> fst <$> or_prices orc !! k = Some p;
  pk_pair : forall k, k ∈ ids -> exists x pc, hl_kvs (cf_pairs (w_config w)) !! k = Some pc /\ or_prices orc !! k = Some x /\ fresh (w_now w) (pc_price_age_max pc) x /\ vo_prices o !! k = Some (fst x);
  pk_feed : forall r cc, cf_collaterals (w_config w) !! r = Some cc -> exists x, or_prices orc !! cc_pair_id cc = Some x /\ fresh (w_now w) (cc_price_age_max cc) x /\
              vo_prices o !! cc_pair_id cc = Some (fst x);
  pk_res : forall r, vo_resources o !! r = cc_pair_id <$> cf_collaterals (w_config w) !! r }.
Lemma prices_ok_intro E w upd ids c feeds orc o : get_config w ids = Ok c -> (forall k, k ∈ ids -> exists pc, vc_pairs c !! k = Some pc /\ feeds !! k = Some (pc_price_age_max pc)) ->
  get_oracle E w c feeds upd = Ok (orc, o) -> prices_ok E w upd ids c orc o.
Proof.
  unfold get_config, get_oracle. intros Hc Hf Ho. apply vc_new_spec in Hc as (_ & C2 & C3 & _). apply vo_new_spec in Ho as (O1 & O2 & O3 & O4 & O5). unfold vc_feeds in *. rewrite C2 in *.
  constructor.
  - destruct upd; auto.
  - exact O3.
  - intros k Hk. destruct (C3 k Hk) as (pc & P1 & P2). destruct (Hf k Hk) as (pc' & F1 & F2). rewrite P2 in F1. injection F1 as <-. destruct (O4 _ _ F2) as (x & X1 & X2 & X3). exists x, pc. auto.
  - intros r cc Hr. destruct (O5 r (cc_pair_id cc) (cc_price_age_max cc)) as (x & X1 & X2 & X3); [|eauto]. rewrite !lookup_fmap. match goal with |- context[@lookup ?K ?A ?M ?i ?k ?m] => assert (@lookup K A M i k m = Some cc) as -> by exact Hr end. reflexivity.
  - intros r. rewrite O2, !lookup_fmap. match goal with |- context[@lookup ?K ?A ?M ?i ?k ?m] => destruct (@lookup K A M i k m) eqn:Hr end; match goal with |- context[cc_pair_id <$> ?z] => assert (z = _) as -> by exact Hr end; reflexivity.
Qed.
Lemma prices_ok_feeds E w upd ids c feeds orc o : get_config w ids = Ok c -> x_pair_feeds c ids = Ok feeds -> get_oracle E w c feeds upd = Ok (orc, o) -> prices_ok E w upd ids c orc o.
Proof. intros Hc Hf Ho. eapply prices_ok_intro; eauto. apply pair_feeds_spec. exact Hf. Qed.
