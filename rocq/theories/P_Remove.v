(** * Executing a collateral removal request (for C14, C25). *)
From Verif Require Import Base DFloat Lists Types Config Oracle Pool Account Fees Referral ExInternal Exchange System Sums Trace Frames Calls Shape Spec SpecOracle SpecTrading SpecMargin P_Ledger P_Accounts Frames2 Trading P_Positions P_Positions2 P_Refs P_Tokens P_Oracle P_Keeper P_Orders P_Final P_OrderCall P_Coll Props_Oracle.

(** Finishing any call: what is stored is what the caches held. *)
Lemma call_finish E w a acc v ids c o l s w1 w2 : reachable E w -> w_accounts w !! a = Some acc -> starts w acc v -> va_addr v = a ->
  ssteps E (w_now w) c o (mkS (get_pool w ids) v (w_fd w)) l s -> w_accounts w1 = w_accounts w -> realize_acc w1 (s_acc s) = Ok w2 ->
  exists acc', w_accounts w2 !! a = Some acc' /\ realized (s_acc s) acc' /\ (forall b, b <> a -> w_accounts w2 !! b = w_accounts w !! b) /\
    SI (w_now w) s /\ coll_sync (s_acc s) /\
    w_pool w2 = w_pool w1 /\ w_now w2 = w_now w1 /\ w_config w2 = w_config w1 /\ w_oracle w2 = w_oracle w1 /\ w_fd w2 = w_fd w1 /\ w_lp w2 = w_lp w1 /\ w_gen w2 = w_gen w1 /\ w_perms w2 = w_perms w1 /\ w_dl w2 = w_dl w1.
Proof.
  intros Hr Ha Hst Had Htr Hw1 Hz. pose proof (wi_nz _ (WI_reachable _ _ Hr)) as Hnz.
  assert (SI (w_now w) (mkS (get_pool w ids) v (w_fd w))) as HSI by (split; [apply cached_new|exact (st_si _ _ _ Hst)]).
  pose proof (proj1 (ssteps_si _ _ _ _ _ _ _ Htr HSI)) as HSI'. pose proof (ssteps_sync _ _ _ _ _ _ _ Htr (st_sync _ _ _ Hst)) as Hsy.
  assert (nonzero (va_comp (s_acc s))) as Hnzs.
  { pose proof Htr as Ht. apply ssteps_comp in Ht as (_ & Hcp & _). intros k x Hx. rewrite Hcp in Hx. cbn [s_acc] in Hx. rewrite (st_comp _ _ _ Hst) in Hx. exact (Hnz _ _ Ha _ _ Hx). }
  assert (va_addr (s_acc s) = a) as Had'. { apply ssteps_addr in Htr. cbn [s_acc] in Htr. congruence. }
  destruct (realize_acc_final _ _ _ Hz (proj2 HSI') Hnzs) as (acc' & Ha' & Hrz & Hoth & Hpo & Hno & Hcf & Hor & Hfd & Hlp & Hgen & Hpe & Hdl). rewrite Had' in *.
  exists acc'. split; [exact Ha'|]. split; [exact Hrz|]. split; [intros b Hb; rewrite (Hoth b Hb), Hw1; reflexivity|]. auto 20.
Qed.

Definition units (E : env) (r : resource) (x : Z) : Z := Z.quot x (unit_of E r) * unit_of E r.
Lemma merge_claims_amount (r : resource) cs m : x_merge_claims cs = Ok m -> default 0 (m !! r) = amount_in r cs.
Proof.
  unfold x_merge_claims.
  match goal with |- rfold ?f _ _ = _ -> _ => assert (forall l m0 m1, rfold f m0 l = Ok m1 ->
    default 0 (m1 !! r) = default 0 (m0 !! r) + amount_in r l) as Hg end.
  { induction l as [|b l IH]; intros m0 m1 H; simpl in H.
    - apply Ok_inj in H. subst. unfold amount_in. simpl. lia.
    - bd H as (m2 & H1 & H). apply IH in H. rewrite H, amount_cons.
      assert (default 0 (m2 !! r) = default 0 (m0 !! r) + (if (b_res b =? r)%N then b_amt b else 0)) as ->; [|lia]. unfold b_res, b_amt in *.
      destruct (m0 !! fst b) as [x|] eqn:Hx.
      + bd H1 as (y & Hy & H1). apply Ok_inj in H1. subst m2. inv_step Hy. subst y.
        destruct (N.eqb_spec (fst b) r) as [<-|Hn]; [rewrite lookup_insert, Hx; reflexivity|rewrite lookup_insert_ne by exact Hn; lia].
      + apply Ok_inj in H1. subst m2.
        destruct (N.eqb_spec (fst b) r) as [<-|Hn]; [rewrite lookup_insert, Hx; reflexivity|rewrite lookup_insert_ne by exact Hn; lia]. }
  intros H. apply Hg in H. rewrite H, lookup_empty. reflexivity.
Qed.
(** The merged claims are served one by one; only the one for base tokens moves something at this point. *)
Lemma claims_served E l : forall p a toks rest p' a' toks' rest', rfold (x_claim1 E) (p, a, toks, rest) l = Ok (p', a', toks', rest') -> NoDup (map fst l) ->
  rest' = rest ++ List.filter (fun x => negb (fst x =? BASE)%N) l /\
  ((~ In BASE (map fst l) /\ p' = p /\ a' = a /\ toks' = toks) \/
   (exists amt v, In (BASE, amt) l /\ v = units E BASE amt /\ 0 <= v <= po_base (vp_comp p) /\ amt <= va_vb a /\ toks' = toks ++ [(BASE, v)] /\
      p' = p <| vp_base := vp_base p - v |> <| vp_comp := vp_comp p <| po_base := po_base (vp_comp p) - v |> |> <| vp_vb := vp_vb p + v |> /\ a' = a <| va_vb := va_vb a - v |>)).
Proof.
  induction l as [|[r amt] l IH]; intros p a toks rest p' a' toks' rest' H Hn; cbn [rfold] in H.
  - apply Ok_inj in H. injection H as <- <- <- <-. split; [rewrite app_nil_r; reflexivity|]. left. auto.
  - bd H as ([[[p1 a1] t1] r1] & H1 & H). inversion Hn as [|? ? Hni Hn']; subst. unfold x_claim1 in H1. destruct (r =? BASE)%N eqn:Hr.
    + apply N.eqb_eq in Hr. subst r. bd H1 as (? & Hg1 & H1). bd H1 as (? & Hg2 & H1). bd H1 as ([p2 value] & Hw & H1). bd H1 as (n & Hne & H1). bd H1 as ([p3 a3] & Hs & H1). apply Ok_inj in H1. injection H1 as <- <- <- <-.
      destruct (IH _ _ _ _ _ _ _ _ H Hn') as (-> & [(_ & -> & -> & ->)|(amt' & v' & Hin & _)]).
      * split; [simpl; reflexivity|]. right. exists amt, value. apply vp_withdraw_inv in Hw as [Ht ->]. apply take_adv_inv in Ht as [Ht Hb]. unfold round_amount in Ht. apply chk_Ok in Ht as [Ht _].
        apply x_settle_account_inv in Hs as [-> ->]. apply dneg_Ok in Hne as [-> _]. apply guard_Ok, Z.leb_le in Hg1. split; [left; reflexivity|]. split; [exact Ht|]. split; [exact Hb|]. split; [exact Hg1|]. split; [reflexivity|].
        rewrite Z.sub_opp_r, Z.add_opp_r. split; reflexivity.
      * exfalso. apply Hni. apply elem_of_list_In. change BASE with (fst (BASE, amt')). apply in_map. exact Hin.
    + bd H1 as (? & Hg1 & H1). apply Ok_inj in H1. injection H1 as <- <- <- <-. destruct (IH _ _ _ _ _ _ _ _ H Hn') as (-> & Hor). split.
      * simpl. rewrite Hr. simpl. rewrite <- app_assoc. reflexivity.
      * destruct Hor as [(Hno & -> & -> & ->)|(amt' & v' & Hin & Hrest)]; [left|right].
        -- split; [|auto]. simpl. intros [E0|E0]; [rewrite E0, N.eqb_refl in Hr; discriminate|contradiction].
        -- exists amt', v'. split; [right; exact Hin|exact Hrest].
Qed.
Lemma claims_taken E s cs : forall v v' bs, s = ToZero -> vts_take_adv_batch E v cs s = Ok (v', bs) -> NoDup (map fst cs) ->
  forall r, amount_in r bs = match list_to_map (M := gmap resource Z) cs !! r with Some x => units E r x | None => 0 end.
Proof.
  intros v v' bs ->. revert v v' bs. induction cs as [|[q amt] cs IH]; intros v v' bs H Hn r; cbn [vts_take_adv_batch] in H.
  - apply Ok_inj in H. injection H as <- <-. cbn. rewrite lookup_empty. reflexivity.
  - bd H as ([v1 b] & H1 & H). bd H as ([v2 bs2] & H2 & H). apply Ok_inj in H. injection H as <- <-. inversion Hn as [|? ? Hni Hn']; subst.
    unfold vts_take_adv in H1. bd H1 as (x & Hx & H1). apply Ok_inj in H1. injection H1 as _ <-. apply take_adv_inv in Hx as [Hx _]. unfold round_amount in Hx. apply chk_Ok in Hx as [Hx _].
    rewrite amount_cons, (IH _ _ _ H2 Hn' r). cbn [b_res b_amt fst snd list_to_map foldr uncurry]. destruct (N.eqb_spec q r) as [<-|Hne].
    + cbn. rewrite lookup_insert. assert (list_to_map (M := gmap resource Z) cs !! q = None) as ->; [|rewrite Hx; unfold units; lia].
      apply not_elem_of_list_to_map_1. exact Hni.
    + cbn. rewrite lookup_insert_ne by exact Hne. lia.
Qed.
Record removal_call (E : env) (w w' : world) (a : addr) (rq : req_remove) (upd : option price_msg) (out : outp)
    (acc acc' : account) (ids : gset pair_id) (c : vconfig) (o : voracle) (v v2 : vacc) (p : vpool) (toks : list bucket) : Prop := {
  rc_acc : w_accounts w !! a = Some acc; rc_start : starts w acc v; rc_ids : ids = dom (ac_positions acc);
  rc_config : get_config w ids = Ok c; rc_prices : prices_ok E w upd ids c (w_oracle w') o;
  rc_integrity : x_assert_account_integrity c p v2 o = Ok tt;
  rc_acc' : w_accounts w' !! a = Some acc'; rc_oth : forall b, b <> a -> w_accounts w' !! b = w_accounts w !! b; rc_real : realized v2 acc';
  rc_pool : w_pool w' = vp_realize p; rc_now : w_now w' = w_now w; rc_cf : w_config w' = w_config w;
  rc_si : SI (w_now w) (mkS p v2 (w_fd w)); rc_sync : coll_sync v2; rc_out : o_payouts out = [(rr_target rq, toks)];
  rc_trace : exists k bs, ssteps E (w_now w) c o (mkS (get_pool w ids) v (w_fd w)) (map ATakeBase k ++ [AWithdraw bs]) (mkS p v2 (w_fd w)) /\ toks = map (fun v => (BASE, v)) k ++ bs;
  rc_base : exists b, 0 <= b /\ amount_in BASE toks = b /\ b = units E BASE (amount_in BASE (rr_claims rq)) /\ (0 < b -> b <= va_vb v) /\ va_vb v2 = va_vb v - b /\ po_base (w_pool w') = po_base (w_pool w) - b;
  rc_paid : forall r, r <> BASE -> amount_in r toks = units E r (amount_in r (rr_claims rq)) }.
Lemma va_withdraw_inv E v cs v' bs : va_withdraw E v cs ToZero = Ok (v', bs) -> exists vt, vts_take_adv_batch E (ac_vaults (va_comp v)) cs ToZero = Ok (vt, bs) /\ va_vb v' = va_vb v.
Proof.
  unfold va_withdraw, acc_withdraw. intros Hd. bd Hd as ([a1 b1] & H2 & Hd). bd Hd as (c1 & H1 & Hd). bd H2 as ([v2 b2] & H2a & H2). bd H2 as (c2 & H2b & H2).
  apply Ok_inj in Hd, H2. injection Hd as <- <-. injection H2 as <- <-. eauto.
Qed.
Lemma units_le E r x : 0 <= x -> units E r x <= x.
Proof. intros Hx. unfold units. destruct (Z.le_gt_cases (unit_of E r) 0) as [Hu|Hu]. - unfold unit_of in *. destruct (Z.le_gt_cases 0 (18 - divis E r)); [pose proof (Z.pow_pos_nonneg 10 (18 - divis E r)); lia|]. rewrite Z.pow_neg_r by lia. lia.
  - rewrite Z.quot_div_nonneg by lia. pose proof (Z.mul_div_le x (unit_of E r) Hu). lia. Qed.
Lemma units_neg E r x : x <= 0 -> units E r x <= 0.
Proof.
  intros Hx. unfold units. assert (0 <= unit_of E r) as Hu. { unfold unit_of. apply Z.pow_nonneg. lia. }
  destruct (Z.eq_dec (unit_of E r) 0) as [->|Hn]; [lia|]. pose proof (Z.quot_opp_l (- x) (unit_of E r) Hn). rewrite Z.opp_involutive in H. rewrite H. pose proof (Z.quot_pos (- x) (unit_of E r)). nia.
Qed.
Lemma removal_call_intro E cx w o w' out a rq : reachable E w -> step E cx w o = Ok (w', out) -> executes_removal w o a rq ->
  exists i upd acc acc' ids c vo v v2 p toks, o = OProcessRequest a i upd /\ removal_call E w w' a rq upd out acc acc' ids c vo v v2 p toks.
Proof.
  intros Hr H (i & upd & acc & kr & -> & Ha & Hk & Hq & Hl). exists i, upd.
  apply process_inv in H as (v0 & v1 & rq1 & ex & ids & c & w1 & v2 & pay & evs & w2 & Hv & Hp & Hids & Hc & Hx & Hz & -> & Hpay & Hev & Htok).
  destruct (executes_ex w a i upd _ _ _ _ Hv Hp) as (-> & acc1 & kr1 & Ha1 & Hk1 & Hq1 & Hpos). { exists acc, kr. auto. }
  rewrite Ha in Ha1. injection Ha1 as <-. rewrite Hk in Hk1. injection Hk1 as <-. rewrite Hq in Hq1. subst rq1.
  destruct Hx as (orc & vo & Hpk & p & toks & ev & Hm & -> & -> & ->).
  pose proof (wi_nz _ (WI_reachable _ _ Hr)) as Hnz.
  pose proof (starts_intro _ _ _ _ Hv Ha (Hnz _ _ Ha)) as Hst. apply va_process_frame in Hp as [Hg Hcm]. pose proof (starts_norq _ _ _ _ Hg Hcm Hst) as Hst1.
  assert (va_addr v1 = a) as Had. { unfold g_norq in Hg. injection Hg. intros. assert (va_addr v1 = va_addr v0) as -> by congruence. apply get_acc_addr in Hv. exact Hv. }
  destruct (tr_remove_collateral E (w_now w) c vo _ (w_fd w) _ _ _ _ _ _ _ Hm) as (k & bs & Htr & Hto).
  match type of Hz with realize_acc ?x _ = _ => set (w1 := x) in Hz end. assert (w_pool w1 = vp_realize p) as Hp1 by reflexivity.
  destruct (call_finish E w a acc v1 ids c vo _ (mkS p v2 (w_fd w)) w1 w2 Hr Ha Hst1 Had Htr eq_refl Hz) as (acc' & Ha' & Hrz & Hoth & HSI & Hsy & Hpo & Hno & Hcf & Hor & Hfd & _).
  unfold x_remove_collateral in Hm. bd Hm as (m & Hmm & Hm). bd Hm as ([[[p1 a1] t1] r1] & Hf & Hm). bd Hm as ([a2 more] & Hw & Hm). bd Hm as (? & Hgd & Hm). bd Hm as ([] & Hint & Hm). apply Ok_inj in Hm. injection Hm as -> -> <- <-.
  assert (NoDup (map fst (map_to_list m))) as Hnd by apply NoDup_fst_map_to_list.
  destruct (claims_served _ _ _ _ _ _ _ _ _ _ Hf Hnd) as (-> & Hb). simpl in Hw. rewrite ?app_nil_l in Hw.
  destruct (va_withdraw_inv _ _ _ _ _ Hw) as (vt & Htk & Hvb).
  assert (forall r, amount_in r more = if (r =? BASE)%N then 0 else units E r (amount_in r (rr_claims rq))) as Hmore.
  { intros r. rewrite (claims_taken _ _ _ _ _ _ eq_refl Htk).
    2:{ clear - Hnd. induction (map_to_list m) as [|[q x] l IH]; [constructor|]. inversion Hnd; subst. simpl. destruct (q =? BASE)%N; simpl; [auto|]. constructor; [|auto]. intros Hin. apply H1. apply elem_of_list_In, in_map_iff in Hin as ([q' x'] & E1 & Hin). apply filter_In in Hin as [Hin _].
        apply elem_of_list_In, in_map_iff. exists (q', x'). auto. }
    rewrite <- (merge_claims_amount r _ _ Hmm).
    match goal with |- match ?t with _ => _ end = _ => assert (t = if (r =? BASE)%N then None else m !! r) as -> end.
    { rewrite <- (list_to_map_to_list m) at 2. clear - Hnd. induction (map_to_list m) as [|[q x] l IH]; [simpl; rewrite !lookup_empty; destruct (r =? BASE)%N; reflexivity|]. inversion Hnd; subst. cbn [List.filter fst].
      destruct (N.eqb_spec q BASE) as [->|Hq]; cbn [negb].
      - rewrite (IH H2). destruct (N.eqb_spec r BASE); [reflexivity|]. cbn [list_to_map foldr uncurry]. cbn. rewrite lookup_insert_ne by congruence. reflexivity.
      - cbn. destruct (decide (q = r)) as [->|Hne]; [rewrite !lookup_insert; apply N.eqb_neq in Hq; rewrite Hq; reflexivity|rewrite !lookup_insert_ne by congruence; exact (IH H2)]. }
    destruct (N.eqb_spec r BASE); [reflexivity|]. destruct (m !! r); [reflexivity|]. cbn. reflexivity. }
  exists acc, acc', ids, c, vo, v1, v2, p, (t1 ++ more). split; [reflexivity|]. constructor; auto.
  - rewrite Hids, Hpos. set_solver.
  - simpl. rewrite Hor. exact Hpk.
  - exists k, bs. split; [exact Htr|exact Hto].
  - cbn [w_pool]. simpl. rewrite Hpo, Hp1. destruct (vp_realize_pool p) as (_ & _ & _ & _ & ->).
    rewrite <- (merge_claims_amount BASE _ _ Hmm), amount_app, (Hmore BASE). change (BASE =? BASE)%N with true. cbv iota.
    destruct Hb as [(Hno0 & -> & -> & ->)|(amt & vv & Hin & -> & Hb1 & Hb2 & -> & -> & ->)].
    + exists 0. assert (m !! BASE = None) as ->. { destruct (m !! BASE) as [y0|] eqn:Hx; [|reflexivity]. exfalso. apply Hno0. change BASE with (fst (BASE, y0)). apply in_map. apply elem_of_list_In, elem_of_map_to_list. exact Hx. }
      cbn. rewrite Hvb. repeat split; lia.
    + exists (units E BASE amt). apply elem_of_list_In, elem_of_map_to_list in Hin. rewrite Hin. rewrite Hvb. cbn. change (po_base (vp_comp (get_pool w (dom (va_positions v1) ∪ ∅)))) with (po_base (w_pool w)) in *. 
      split; [lia|]. split; [lia|]. split; [reflexivity|]. split; [intros Hpos0; destruct (Z.le_gt_cases 0 amt); [pose proof (units_le E BASE amt); lia|pose proof (units_neg E BASE amt); lia]|split; reflexivity].
  - intros r Hne. rewrite amount_app, (Hmore r). apply N.eqb_neq in Hne. rewrite Hne. assert (amount_in r t1 = 0) as ->; [|lia].
    destruct Hb as [(_ & _ & _ & ->)|(amt & vv & _ & _ & _ & _ & -> & _)]; [reflexivity|]. rewrite app_nil_l, amount_cons. change (b_res (BASE, vv)) with BASE. rewrite N.eqb_sym, Hne. reflexivity.
Qed.
