(** * Token wrapper (C37, C38). *)
From Verif Require Import Base DFloat Lists Types Wrapper Sums Scenario Trace Shape SpecWrapper P_Whole P_Gen.

Lemma take_down E r have amt a : 0 <= amt -> take_adv E r ToZero have amt = Ok a -> 0 <= a <= amt.
Proof. intros Hp H. apply take_adv_inv in H as [H _]. exact (round_down _ _ _ _ Hp H). Qed.
Lemma tw_bucket_inv E t b : tw_bucket_ok E t b = true -> 0 <= b_amt b /\ ((b_res b =? BASE)%N = true -> b_amt b <= tw_base t) /\ ((b_res b =? FLASH_OATH)%N = true -> b_amt b <= tw_flash t).
Proof.
  unfold tw_bucket_ok, bucket_ok. rewrite !andb_true_iff. intros [[[H1 H2] H3] H4]. split; [lia|]. destruct (N.eqb_spec (b_res b) BASE) as [->|Hn]; [split; [intros _; lia|vm_compute; discriminate]|]. split; [discriminate|]. destruct (b_res b =? FLASH_OATH)%N; [intros _; lia|discriminate].
Qed.
(** What one call does to the two supplies and the vaults, for any call whatever. *)
Theorem tw_effect E burnable t o t' out : tw_step E burnable t o = Ok (t', out) ->
  tw_base t' = tw_base t + wrapped1 (o, out) + loaned1 (o, out) - unwrapped1 BASE (o, out) - repaid1 (o, out) - burnt1 (o, out) /\
  tw_flash t' = tw_flash t + loaned1 (o, out) - repaid1 (o, out) - unwrapped1 FLASH_OATH (o, out) /\
  vaults_total t' = vaults_total t + wrapped1 (o, out) - paid1 (o, out).
Proof.
  intros H. destruct o; cbn [tw_step] in H.
  - bd H as (? & _ & H). bd H as (? & _ & H). bd H as (z & _ & H). apply Ok_inj in H. injection H as <- <-. cbn. change (vaults_total (t <| tw_auth := z |>)) with (vaults_total t). lia.
  - apply Ok_inj in H. injection H as <- <-. cbn. change (vaults_total (t <| tw_auth := 0 |>)) with (vaults_total t). lia.
  - bd H as (t1 & H1 & H). apply Ok_inj in H. injection H as <- <-. unfold tw_add_input in H1. cbn. destruct (tw_inputs t !! r) eqn:Er; [apply Ok_inj in H1; subst; lia|]. bd H1 as (l & _ & H1). apply Ok_inj in H1. subst t1. cbn. unfold vaults_total. cbn. rewrite msum_insert_new by exact Er. cbn. lia.
  - bd H as (t1 & H1 & H). apply Ok_inj in H. injection H as <- <-. unfold tw_update_wrappable in H1. bd H1 as (i & Hi & H1). apply expect_Ok in Hi. apply Ok_inj in H1. subst t1. cbn. unfold vaults_total. cbn. rewrite (msum_insert_some _ _ _ _ _ Hi). cbn. lia.
  - bd H as (? & _ & H). bd H as ([t1 xb] & H1 & H). apply Ok_inj in H. injection H as <- <-. unfold tw_wrap in H1. bd H1 as (i & Hi & H1). apply expect_Ok in Hi. bd H1 as (? & _ & H1). bd H1 as (? & _ & H1). bd H1 as (? & _ & H1). bd H1 as (s & Hs & H1). bd H1 as (? & _ & H1). bd H1 as (v & Hv & H1). apply Ok_inj in H1. injection H1 as <- <-. apply dadd_Ok in Hs as [-> _]. apply dadd_Ok in Hv as [-> _]. cbn. unfold vaults_total. cbn. rewrite (msum_insert_some _ _ _ _ _ Hi). cbn. lia.
  - bd H as (? & Hb & H). apply guard_Ok in Hb. destruct (tw_bucket_inv _ _ _ Hb) as (Hp & _). bd H as ([t1 xb] & H1 & H). apply Ok_inj in H. injection H as <- <-. unfold tw_unwrap in H1. bd H1 as (i & Hi & H1). apply expect_Ok in Hi. bd H1 as (a & Ha & H1). bd H1 as (t2 & H2 & H1). apply Ok_inj in H1. injection H1 as <- <-.
    unfold wrapped1, loaned1, repaid1, burnt1, unwrapped1, paid1. cbn [fst snd]. change (lsum b_amt [(r, a)]) with (a + 0). unfold tw_burn in H2. destruct (N.eqb_spec (b_res b) BASE) as [Hr|Hn].
    + bd H2 as (? & _ & H2). apply Ok_inj in H2. subst t2. rewrite Hr. cbn. unfold vaults_total. cbn. rewrite (msum_insert_some _ _ _ _ _ Hi). cbn. lia.
    + destruct (N.eqb_spec (b_res b) FLASH_OATH) as [Hf|Hnf].
      * bd H2 as (? & _ & H2). apply Ok_inj in H2. subst t2. cbn. unfold vaults_total. cbn. rewrite (msum_insert_some _ _ _ _ _ Hi). cbn. lia.
      * bd H2 as (? & _ & H2). apply Ok_inj in H2. subst t2. cbn. unfold vaults_total. cbn. rewrite (msum_insert_some _ _ _ _ _ Hi). cbn. lia.
  - unfold tw_flash_loan in H. bd H as (? & _ & H). bd H as (f & Hf & H). bd H as (? & _ & H). bd H as (? & _ & H). bd H as (s & Hs & H). apply Ok_inj in H. injection H as <- <-. apply dadd_Ok in Hs as [-> _]. apply dadd_Ok in Hf as [-> _]. cbn. change (vaults_total (t <| tw_flash := tw_flash t + amt |> <| tw_base := tw_base t + amt |>)) with (vaults_total t). lia.
  - bd H as (? & _ & H). bd H as ([t1 xb] & H1 & H). apply Ok_inj in H. injection H as <- <-. unfold tw_repay in H1. bd H1 as (? & G1 & H1). bd H1 as (? & G2 & H1). bd H1 as (? & G3 & H1). bd H1 as (a & Ha & H1). bd H1 as (t2 & H2 & H1). bd H1 as (t3 & H3 & H1). apply Ok_inj in H1. injection H1 as <- <-. apply take_adv18 in Ha as [-> _]; [|reflexivity]. apply guard_Ok, N.eqb_eq in G1.
    unfold tw_burn in H2. cbn [b_res b_amt fst snd] in H2. change (BASE =? BASE)%N with true in H2. cbv iota in H2. bd H2 as (? & _ & H2). apply Ok_inj in H2. subst t2. unfold tw_burn in H3. rewrite G1 in H3. change (FLASH_OATH =? BASE)%N with false in H3. change (FLASH_OATH =? FLASH_OATH)%N with true in H3. cbv iota in H3. bd H3 as (? & _ & H3). apply Ok_inj in H3. subst t3. cbn. match goal with |- context [vaults_total ?x] => change (vaults_total x) with (vaults_total t) end. lia.
  - bd H as (? & _ & H). bd H as (t1 & H1 & H). apply Ok_inj in H. injection H as <- <-. unfold tw_burn in H1. cbn [b_res b_amt fst snd] in H1. change (BASE =? BASE)%N with true in H1. cbv iota in H1. bd H1 as (? & _ & H1). apply Ok_inj in H1. subst t1. cbn. match goal with |- context [vaults_total ?x] => change (vaults_total x) with (vaults_total t) end. lia.
Qed.
(** The same over a whole history. *)
Theorem C38_supplies E burnable t l t' : tw_steps E burnable t l t' ->
  tw_base t' = tw_base t + lsum wrapped1 l + lsum loaned1 l - lsum (unwrapped1 BASE) l - lsum repaid1 l - lsum burnt1 l /\
  tw_flash t' = tw_flash t + lsum loaned1 l - lsum repaid1 l - lsum (unwrapped1 FLASH_OATH) l /\
  vaults_total t' = vaults_total t + lsum wrapped1 l - lsum paid1 l.
Proof.
  induction 1 as [t|t o out t1 l t2 H1 H2 IH]; [cbn; lia|]. destruct (tw_effect _ _ _ _ _ _ H1) as (A & B & C). destruct IH as (A' & B' & C'). rewrite !lsum_cons. lia.
Qed.
Lemma tw_amounts E burnable t o t' out : tw_step E burnable t o = Ok (t', out) ->
  0 <= wrapped1 (o, out) /\ 0 <= loaned1 (o, out) /\ 0 <= repaid1 (o, out) /\ 0 <= burnt1 (o, out) /\ (forall r, 0 <= unwrapped1 r (o, out)) /\ 0 <= paid1 (o, out) /\
  match o with TUnwrap b r => exists a, out = [(r, a)] /\ 0 <= a <= b_amt b | _ => True end.
Proof.
  intros H. assert (forall (x : list bucket), snd (o, x) = x) by reflexivity. destruct o; cbn [tw_step] in H; unfold wrapped1, loaned1, repaid1, burnt1, unwrapped1, paid1; cbn [fst snd]; try (repeat split; lia).
  - bd H as (? & Hb & H). apply guard_Ok in Hb. destruct (tw_bucket_inv _ _ _ Hb) as (Hp & _). repeat split; lia.
  - bd H as (? & Hb & H). apply guard_Ok in Hb. destruct (tw_bucket_inv _ _ _ Hb) as (Hp & _). bd H as ([t1 xb] & H1 & H). apply Ok_inj in H. injection H as <- <-. unfold tw_unwrap in H1. bd H1 as (i & Hi & H1). bd H1 as (a & Ha & H1). bd H1 as (t2 & H2 & H1). apply Ok_inj in H1. injection H1 as <- <-. apply take_down in Ha; [|exact Hp].
    change (lsum b_amt [(r, a)]) with (a + 0). do 4 (split; [lia|]). split; [intros r0; destruct (b_res b =? r0)%N; lia|]. split; [lia|]. exists a. split; [reflexivity|exact Ha].
  - unfold tw_flash_loan in H. bd H as (? & Hm & H). apply guard_Ok in Hm. unfold mint_ok in Hm. rewrite !andb_true_iff in Hm. repeat split; lia.
  - bd H as (? & Hb & H). apply guard_Ok, andb_true_iff in Hb as [Hb _]. destruct (tw_bucket_inv _ _ _ Hb) as (Hp & _). repeat split; lia.
  - bd H as (? & Hb & H). apply guard_Ok in Hb. destruct (tw_bucket_inv _ _ _ Hb) as (Hp & _). cbn [b_amt snd] in Hp. repeat split; lia.
Qed.
(** ** C37. If only base tokens are ever unwrapped, the vaults hold at least the base supply less the flash loans
    outstanding - from deployment, for every history. *)
Theorem C37_backed_base_only E burnable auth l t : tw_steps E burnable (tw_new auth) l t -> Forall unwraps_base l -> tw_base t - tw_flash t <= vaults_total t.
Proof.
  intros H Hf. destruct (C38_supplies _ _ _ _ _ H) as (A & B & C). cbn in A, B. change (vaults_total (tw_new auth)) with (msum (fun _ i => ti_vault i) (∅ : gmap resource tw_input)) in C. rewrite msum_empty in C.
  assert (lsum paid1 l <= lsum (unwrapped1 BASE) l /\ 0 <= lsum (unwrapped1 FLASH_OATH) l <= 0 /\ 0 <= lsum burnt1 l) as (P & Q & R); [|lia]. clear - H Hf. revert Hf. induction H as [t|t o out t1 l t2 H1 H2 IH]; intros Hf; [cbn; lia|]. inversion Hf as [|? ? F1 F2]; subst. specialize (IH F2). destruct (tw_amounts _ _ _ _ _ _ H1) as (_ & _ & _ & Hbn & Hu & Hpd & Ho). rewrite !lsum_cons.
  assert (paid1 (o, out) <= unwrapped1 BASE (o, out) /\ unwrapped1 FLASH_OATH (o, out) = 0); [|lia]. unfold unwraps_base in F1. unfold paid1, unwrapped1. cbn [fst snd] in *. destruct o; try (split; [lia|reflexivity]). destruct Ho as (a & -> & Ha). rewrite F1. change (BASE =? BASE)%N with true. change (BASE =? FLASH_OATH)%N with false. cbv iota. change (lsum b_amt [(r, a)]) with (a + 0). split; [lia|reflexivity].
Qed.
(** In particular between transactions, when no flash oath exists, every base token in circulation is backed. *)
Theorem C37_backed_between_transactions E burnable auth l t : tw_steps E burnable (tw_new auth) l t -> Forall unwraps_base l -> tw_flash t = 0 -> tw_base t <= vaults_total t.
Proof. intros H Hf Hz. pose proof (C37_backed_base_only _ _ _ _ _ H Hf). lia. Qed.
(** A vault is never negative, whatever is unwrapped. *)
Theorem C37_vaults_nonnegative E burnable auth l t r i : tw_steps E burnable (tw_new auth) l t -> tw_inputs t !! r = Some i -> 0 <= ti_vault i.
Proof.
  intros H. revert r i. assert (forall t t' l, tw_steps E burnable t l t' -> (forall r i, tw_inputs t !! r = Some i -> 0 <= ti_vault i) -> forall r i, tw_inputs t' !! r = Some i -> 0 <= ti_vault i) as Hg; [|apply (Hg _ _ _ H); intros r i Hi; change ((∅ : gmap resource tw_input) !! r = Some i) in Hi; rewrite lookup_empty in Hi; discriminate].
  clear. intros t t' l H. induction H as [t|t o out t1 l t2 H1 H2 IH]; intros Hi; [exact Hi|]. apply IH. clear IH H2. intros r i Hr. destruct o; cbn [tw_step] in H1.
  - bd H1 as (? & _ & H1). bd H1 as (? & _ & H1). bd H1 as (z & _ & H1). apply Ok_inj in H1. injection H1 as <- <-. exact (Hi _ _ Hr).
  - apply Ok_inj in H1. injection H1 as <- <-. exact (Hi _ _ Hr).
  - bd H1 as (t3 & H3 & H1). apply Ok_inj in H1. injection H1 as <- <-. unfold tw_add_input in H3. destruct (tw_inputs t !! r0) eqn:Er; [apply Ok_inj in H3; subst; exact (Hi _ _ Hr)|]. bd H3 as (l0 & _ & H3). apply Ok_inj in H3. subst t3. cbn in Hr. destruct (decide (r0 = r)) as [->|Hn]; [rewrite lookup_insert in Hr; injection Hr as <-; cbn; lia|rewrite lookup_insert_ne in Hr by exact Hn; exact (Hi _ _ Hr)].
  - bd H1 as (t3 & H3 & H1). apply Ok_inj in H1. injection H1 as <- <-. unfold tw_update_wrappable in H3. bd H3 as (i0 & H0 & H3). apply expect_Ok in H0. apply Ok_inj in H3. subst t3. cbn in Hr. destruct (decide (r0 = r)) as [->|Hn]; [rewrite lookup_insert in Hr; injection Hr as <-; cbn; exact (Hi _ _ H0)|rewrite lookup_insert_ne in Hr by exact Hn; exact (Hi _ _ Hr)].
  - bd H1 as (? & Hb & H1). apply guard_Ok in Hb. destruct (tw_bucket_inv _ _ _ Hb) as (Hp & _). bd H1 as ([t3 xb] & H3 & H1). apply Ok_inj in H1. injection H1 as <- <-. unfold tw_wrap in H3. bd H3 as (i0 & H0 & H3). apply expect_Ok in H0. do 3 (bd H3 as (? & _ & H3)). bd H3 as (s & Hs & H3). bd H3 as (? & _ & H3). bd H3 as (v & Hv & H3). apply Ok_inj in H3. injection H3 as <- <-. apply dadd_Ok in Hv as [-> _]. cbn in Hr. destruct (decide (b_res b = r)) as [Hbr|Hn]; [rewrite Hbr, lookup_insert in Hr; injection Hr as <-; cbn; pose proof (Hi _ _ H0); lia|rewrite lookup_insert_ne in Hr by exact Hn; exact (Hi _ _ Hr)].
  - bd H1 as (? & Hb & H1). bd H1 as ([t3 xb] & H3 & H1). apply Ok_inj in H1. injection H1 as <- <-. unfold tw_unwrap in H3. bd H3 as (i0 & H0 & H3). apply expect_Ok in H0. bd H3 as (a & Ha & H3). bd H3 as (t4 & H4 & H3). apply Ok_inj in H3. injection H3 as <- <-. apply take_adv_inv in Ha as [_ Ha].
    assert (tw_inputs t4 = <[r0 := i0 <| ti_vault := ti_vault i0 - a |>]> (tw_inputs t)) as Ht4 by (unfold tw_burn in H4; destruct (b_res b =? BASE)%N; [|destruct (b_res b =? FLASH_OATH)%N]; bd H4 as (? & _ & H4); apply Ok_inj in H4; subst t4; reflexivity). rewrite Ht4 in Hr. destruct (decide (r0 = r)) as [->|Hn]; [rewrite lookup_insert in Hr; injection Hr as <-; cbn; lia|rewrite lookup_insert_ne in Hr by exact Hn; exact (Hi _ _ Hr)].
  - unfold tw_flash_loan in H1. bd H1 as (? & _ & H1). bd H1 as (f & Hf & H1). bd H1 as (? & _ & H1). bd H1 as (? & _ & H1). bd H1 as (s & Hs & H1). apply Ok_inj in H1. injection H1 as <- <-. exact (Hi _ _ Hr).
  - bd H1 as (? & _ & H1). bd H1 as ([t3 xb] & H3 & H1). apply Ok_inj in H1. injection H1 as <- <-. unfold tw_repay in H3. do 3 (bd H3 as (? & _ & H3)). bd H3 as (a & Ha & H3). bd H3 as (t4 & H4 & H3). bd H3 as (t5 & H5 & H3). apply Ok_inj in H3. injection H3 as <- <-. apply (Hi r). rewrite <- Hr.
    assert (forall bb u u' b, tw_burn bb u b = Ok u' -> tw_inputs u' = tw_inputs u) as Hbn. { clear. intros bb u u' b H. unfold tw_burn in H. destruct (b_res b =? BASE)%N; [|destruct (b_res b =? FLASH_OATH)%N]; bd H as (? & _ & H); apply Ok_inj in H; subst u'; reflexivity. } rewrite (Hbn _ _ _ _ H5), (Hbn _ _ _ _ H4). reflexivity.
  - bd H1 as (? & _ & H1). bd H1 as (t3 & H3 & H1). apply Ok_inj in H1. injection H1 as <- <-. apply (Hi r). rewrite <- Hr. unfold tw_burn in H3. cbn [b_res b_amt fst snd] in H3. change (BASE =? BASE)%N with true in H3. cbv iota in H3. bd H3 as (? & _ & H3). apply Ok_inj in H3. subst t3. reflexivity.
Qed.
(** The full claim is false. Any burnable token [j] other than the base token empties any vault at par, leaving every
    base token in circulation (no side condition on [j]'s worth)... *)
Lemma whole_take E r v : bucket_ok E (r, v) = true -> take_adv E r ToZero v v = Ok v.
Proof.
  unfold bucket_ok. cbn [b_res b_amt fst snd]. rewrite !andb_true_iff. intros [[H1 H2] H3]. apply Z.leb_le in H1, H2. apply Z.eqb_eq in H3. pose proof (unit_pos E r) as Hu. unfold take_adv, round_amount. cbv zeta. assert (Z.quot v (unit_of E r) * unit_of E r = v) as ->. { rewrite Z.quot_div_nonneg by lia. pose proof (Z.div_mod v (unit_of E r) ltac:(lia)). lia. }
  assert (chk v = Ok v) as ->. { apply chk_Ok. split; [reflexivity|]. split; [|exact H2]. apply Z.le_trans with 0; [vm_compute; discriminate|exact H1]. } cbn [mbind res_bind]. unfold guard_. rewrite Z.leb_refl. apply Z.leb_le in H1. rewrite H1. reflexivity.
Qed.
Theorem C37_any_burnable_token_drains E burnable t r i j : tw_inputs t !! r = Some i -> burnable j = true -> j <> BASE -> j <> FLASH_OATH ->
  bucket_ok E (r, ti_vault i) = true -> bucket_ok E (j, ti_vault i) = true ->
  exists t', tw_step E burnable t (TUnwrap (j, ti_vault i) r) = Ok (t', [(r, ti_vault i)]) /\ tw_inputs t' !! r = Some (mkTI 0 (ti_wrappable i)) /\ tw_base t' = tw_base t.
Proof.
  intros Hi Hj H1 H2 Hb Hb'. cbn [tw_step]. unfold tw_bucket_ok. rewrite Hb'. cbn [b_res b_amt fst snd]. apply N.eqb_neq in H1, H2. rewrite H1, H2. cbn [andb guard_ mbind res_bind]. unfold tw_unwrap. rewrite Hi. cbn [expect mbind res_bind b_res b_amt fst snd]. rewrite (whole_take _ _ _ Hb). cbn [mbind res_bind]. unfold tw_burn. cbn [b_res b_amt fst snd]. rewrite H1, H2, Hj. cbn [guard_ mbind res_bind].
  eexists. split; [reflexivity|]. cbn. rewrite lookup_insert, Z.sub_diag. split; reflexivity.
Qed.
(** ... and no other token is even needed: take a flash loan as large as the vault, unwrap the flash oath - the wrapper
    is its burner, so unwrap may burn it - and keep the borrowed base tokens. *)
Theorem C37_flash_oath_drains E burnable t r i : tw_inputs t !! r = Some i -> bucket_ok E (r, ti_vault i) = true -> ti_vault i <= 2 ^ 152 -> 1 <= tw_auth t -> 0 <= tw_flash t -> 0 <= tw_base t ->
  tw_flash t + ti_vault i <= DMAX -> tw_base t + ti_vault i <= DMAX ->
  exists t1 t', tw_step E burnable t (TFlashLoan (ti_vault i)) = Ok (t1, [(BASE, ti_vault i); (FLASH_OATH, ti_vault i)]) /\
    tw_step E burnable t1 (TUnwrap (FLASH_OATH, ti_vault i) r) = Ok (t', [(r, ti_vault i)]) /\
    tw_inputs t' !! r = Some (mkTI 0 (ti_wrappable i)) /\ tw_flash t' = tw_flash t /\ tw_base t' = tw_base t + ti_vault i.
Proof.
  intros Hi Hb Hm Ha Hf Hs Hf2 Hs2. assert (0 <= ti_vault i) as Hv by (unfold bucket_ok in Hb; cbn [b_res b_amt fst snd] in Hb; rewrite !andb_true_iff in Hb; lia). assert (DMIN <= 0) as Hdm by (vm_compute; discriminate).
  assert (forall x, (x < 10)%N -> mint_ok E x (ti_vault i) = true) as Hmint. { intros x Hx. unfold mint_ok, unit_of, divis. apply N.ltb_lt in Hx. rewrite Hx. change (10 ^ (18 - 18)) with 1. rewrite Z.mod_1_r. apply Z.leb_le in Hv, Hm. rewrite Hv, Hm. reflexivity. }
  assert (forall x, 0 <= x -> x + ti_vault i <= DMAX -> dadd x (ti_vault i) = Ok (x + ti_vault i)) as Hadd by (intros x Hx Hy; apply dadd_Ok; split; [reflexivity|lia]).
  eexists _, _. split; [|split].
  - cbn [tw_step]. unfold tw_flash_loan. rewrite (Hmint FLASH_OATH) by reflexivity. cbn [guard_ mbind res_bind]. rewrite Hadd by assumption. cbn [mbind res_bind]. apply Z.leb_le in Ha. rewrite Ha. cbn [guard_ mbind res_bind]. rewrite (Hmint BASE) by reflexivity. cbn [guard_ mbind res_bind]. rewrite Hadd by assumption. cbn [mbind res_bind]. reflexivity.
  - cbn [tw_step]. unfold tw_bucket_ok, bucket_ok. cbn [b_res b_amt fst snd tw_flash set]. change (FLASH_OATH =? BASE)%N with false. change (FLASH_OATH =? FLASH_OATH)%N with true. cbv iota. change (unit_of E FLASH_OATH) with 1. rewrite Z.mod_1_r.
    replace (0 <=? ti_vault i) with true by (symmetry; apply Z.leb_le; lia). replace (ti_vault i <=? DMAX) with true by (symmetry; apply Z.leb_le; lia). match goal with |- context [ti_vault i <=? ?x] => replace (ti_vault i <=? x) with true by (symmetry; apply Z.leb_le; cbn; lia) end. cbn [andb Z.eqb guard_ mbind res_bind].
    unfold tw_unwrap. match goal with |- context [tw_inputs ?x !! r] => change (tw_inputs x !! r) with (tw_inputs t !! r) end. rewrite Hi. cbn [expect mbind res_bind b_res b_amt fst snd]. rewrite (whole_take _ _ _ Hb). cbn [mbind res_bind]. unfold tw_burn. cbn [b_res b_amt fst snd]. change (FLASH_OATH =? BASE)%N with false. change (FLASH_OATH =? FLASH_OATH)%N with true. cbv iota. match goal with |- context [ti_vault i <=? ?x] => replace (ti_vault i <=? x) with true by (symmetry; apply Z.leb_le; cbn; lia) end. cbn [guard_ mbind res_bind]. reflexivity.
  - cbn. rewrite lookup_insert, Z.sub_diag. split; [reflexivity|]. split; [lia|reflexivity].
Qed.
(** A concrete history from deployment after which 200 base tokens circulate and the vaults are empty. *)
Theorem C37_refuted : exists l t, tw_steps sc_env (fun _ => false) (tw_new 1) l t /\ tw_flash t = 0 /\ tw_base t = dec 200 /\ vaults_total t = 0.
Proof.
  eexists [(TAddInput 20%N, []); (TWrap (20%N, dec 100), [(BASE, dec 100)]); (TFlashLoan (dec 100), [(BASE, dec 100); (FLASH_OATH, dec 100)]); (TUnwrap (FLASH_OATH, dec 100) 20%N, [(20%N, dec 100)])], _.
  split; [repeat (eapply tws_cons; [vm_compute; reflexivity|]); apply tws_nil|]. split; [vm_compute; reflexivity|]. split; vm_compute; reflexivity.
Qed.
(** ** C38 *)
(** Repaying takes exactly the oath's amount of base tokens, burns both, and returns the rest. *)
Theorem C38_repay_exact E burnable t o b t' out : tw_step E burnable t (TRepay o b) = Ok (t', out) ->
  b_res o = FLASH_OATH /\ b_res b = BASE /\ b_amt o <= b_amt b /\ out = [(BASE, b_amt b - b_amt o)] /\ tw_base t' = tw_base t - b_amt o /\ tw_flash t' = tw_flash t - b_amt o /\ tw_inputs t' = tw_inputs t.
Proof.
  intros H. pose proof (tw_effect _ _ _ _ _ _ H) as (A & B & _). cbn in A, B. cbn [tw_step] in H. bd H as (? & _ & H). bd H as ([t1 xb] & H1 & H). apply Ok_inj in H. injection H as <- <-. unfold tw_repay in H1. bd H1 as (? & G1 & H1). bd H1 as (? & G2 & H1). bd H1 as (? & G3 & H1). bd H1 as (a & Ha & H1). bd H1 as (t4 & H4 & H1). bd H1 as (t5 & H5 & H1). apply Ok_inj in H1. injection H1 as <- <-. apply take_adv18 in Ha as [-> _]; [|reflexivity]. apply guard_Ok, N.eqb_eq in G1, G2. apply guard_Ok, Z.leb_le in G3.
  split; [exact G1|]. split; [exact G2|]. split; [exact G3|]. split; [reflexivity|]. split; [lia|]. split; [lia|].
  assert (forall bb u u' b, tw_burn bb u b = Ok u' -> tw_inputs u' = tw_inputs u) as Hbn. { clear. intros bb u u' b H. unfold tw_burn in H. destruct (b_res b =? BASE)%N; [|destruct (b_res b =? FLASH_OATH)%N]; bd H as (? & _ & H); apply Ok_inj in H; subst u'; reflexivity. } rewrite (Hbn _ _ _ _ H5), (Hbn _ _ _ _ H4). reflexivity.
Qed.
(** A loan hands out equal amounts of base tokens and oath. *)
Theorem C38_loan_exact E burnable t amt t' out : tw_step E burnable t (TFlashLoan amt) = Ok (t', out) ->
  out = [(BASE, amt); (FLASH_OATH, amt)] /\ tw_base t' = tw_base t + amt /\ tw_flash t' = tw_flash t + amt /\ tw_inputs t' = tw_inputs t.
Proof.
  intros H. cbn [tw_step] in H. unfold tw_flash_loan in H. bd H as (? & _ & H). bd H as (f & Hf & H). bd H as (? & _ & H). bd H as (? & _ & H). bd H as (s & Hs & H). apply Ok_inj in H. injection H as <- <-. apply dadd_Ok in Hs as [-> _]. apply dadd_Ok in Hf as [-> _]. cbn. split; [reflexivity|]. split; [reflexivity|]. split; reflexivity.
Qed.
(** If no oath is handed to unwrap, a history that leaves no oath outstanding has repaid, in base tokens that were
    burnt, exactly what it borrowed. *)
Theorem C38_repaid_base_only E burnable t l t' : tw_steps E burnable t l t' -> Forall unwraps_base l -> tw_flash t = 0 -> tw_flash t' = 0 -> lsum repaid1 l = lsum loaned1 l.
Proof.
  intros H Hf H0 H1. destruct (C38_supplies _ _ _ _ _ H) as (_ & B & _). assert (lsum (unwrapped1 FLASH_OATH) l = 0); [|lia]. apply lsum_zero. intros [o out] Hin. rewrite Forall_forall in Hf. specialize (Hf _ Hin). unfold unwraps_base in Hf. unfold unwrapped1. cbn [fst] in *. destruct o; try reflexivity. rewrite Hf. reflexivity.
Qed.
(** The full claim is false: the loan of this history is never repaid although no oath is left. *)
Theorem C38_refuted : exists l t, tw_steps sc_env (fun _ => false) (tw_new 1) l t /\ tw_flash t = 0 /\ lsum loaned1 l = dec 100 /\ lsum repaid1 l = 0.
Proof.
  eexists [(TAddInput 20%N, []); (TWrap (20%N, dec 100), [(BASE, dec 100)]); (TFlashLoan (dec 100), [(BASE, dec 100); (FLASH_OATH, dec 100)]); (TUnwrap (FLASH_OATH, dec 100) 20%N, [(20%N, dec 100)])], _.
  split; [repeat (eapply tws_cons; [vm_compute; reflexivity|]); apply tws_nil|]. split; [vm_compute; reflexivity|]. split; vm_compute; reflexivity.
Qed.
(** An honest history: two wraps, a loan repaid with a surplus, an unwrap of base tokens into a token with 8 decimals. *)
Theorem C37_ex : exists l t, tw_steps sc_env (fun _ => false) (tw_new 1) l t /\ Forall unwraps_base l /\ tw_flash t = 0 /\ tw_base t = dec 90 /\ vaults_total t = dec 90 /\ lsum loaned1 l = dec 50.
Proof.
  eexists [(TAddInput 20%N, []); (TAddInput 21%N, []); (TWrap (20%N, dec 60), [(BASE, dec 60)]); (TWrap (21%N, dec 40), [(BASE, dec 40)]); (TFlashLoan (dec 50), [(BASE, dec 50); (FLASH_OATH, dec 50)]); (TRepay (FLASH_OATH, dec 50) (BASE, dec 70), [(BASE, dec 20)]); (TUnwrap (BASE, dec 10) 21%N, [(21%N, dec 10)])], _.
  split; [repeat (eapply tws_cons; [vm_compute; reflexivity|]); apply tws_nil|]. split; [repeat constructor|]. split; [vm_compute; reflexivity|]. split; [vm_compute; reflexivity|]. split; vm_compute; reflexivity.
Qed.
