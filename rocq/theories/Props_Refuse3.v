(** * C65, continued: trades with take-profit and stop-loss, and deposits. *)
From Verif Require Import Base DFloat Lists Types Config Oracle Pool Account Fees Referral ExInternal Exchange System Scenario Sums Trace Frames Calls Spec SpecAuth SpecRequests SpecMargin SpecRefuse P_Ledger P_Accounts P_Refs Frames2 P_Requests P_Requests2 P_Requests3 P_Requests4 P_Oracle P_Coll Props_Collateral P_Refuse P_Refuse2 Props_Requests2 Props_Deposits Props_Refuse Props_Refuse2.

Definition optn {A} (x : option A) : N := match x with Some _ => 1%N | None => 0%N end.
Theorem C65_tp_sl_request E cx w delay expiry a pair amount ro pl slip tp sl e : reachable E w ->
  step E cx w (OMarginOrderTpSlRequest None delay expiry a pair amount ro pl slip tp sl) = Err e ->
  at_the_door E cx w RMarginOrderRequest a 3 [] e \/
  e = EMissingPairConfig /\ pair_cfg w pair = None \/
  e = ETradeSizeMinNotMet /\ (exists pc, pair_cfg w pair = Some pc /\ Z.abs amount < pc_trade_size_min pc) \/
  e = EActiveRequestsTooMany /\ (ec_active_requests_max (g_exchange_config w) < N.of_nat (size (active_set w a)) + (1 + optn tp + optn sl))%N \/
  e = EArithmetic /\ (DMAX < Z.abs amount \/ no_time (after (w_now w) delay) \/ no_time (after (after (w_now w) delay) expiry) \/ no_index_left w a (1 + optn tp + optn sl)).
Proof.
  intros Hr. revert e. door Hr RMarginOrderRequest 3%N (@nil bucket).
  intros v acc Hv Hc Ha Hok _. cbn [settle_oath_opt]. pose proof (pushing_new _ _ _ _ Hv Hc Hok) as P0. unfold no_index_left. rewrite <- (active_of _ _ _ Ha), <- (count_of _ _ _ Ha).
  assert (va_rlen v = kl_ptr (ac_requests acc)) as Hrl. { destruct P0 as (A1 & A2 & _). rewrite (rk_len _ _ A1), A2. reflexivity. }
  pose proof (f_config w {[pair]}) as Hfc. destruct (get_config w {[pair]}) as [c|e] eqn:Hcf; cbn [mbind res_bind].
  2: { apply f_Err. destruct (Hfc e eq_refl) as (-> & k & Hk & Hn). apply elem_of_singleton in Hk. subst k. left. auto. }
  clear Hfc. destruct (config_pair_in _ _ _ Hcf) as (pc & Hp1 & Hp2). unfold vc_pair. match goal with |- context [expect ?t _] => assert (t = Some pc) as -> by exact Hp1 end. cbn [expect mbind res_bind].
  set (n := (1 + optn tp + optn sl)%N).
  apply f_bind. { eapply f_mono; [apply f_dabs_big|]. intros e [-> H]. right; right; right. auto. }
  intros ab Hab. apply dabs_Ok in Hab as [-> Hab]. apply f_bind. { apply f_guard. intros H. apply Z.leb_gt in H. right; left. split; [reflexivity|]. exists pc. auto. }
  intros [] _. cbv zeta. rewrite Hrl. clear Hrl Hv.
  match goal with |- fails ?Q _ => set (P := Q) end.
  assert (forall (j : N) (m : N), (m <= n)%N -> (j + 1 <= kl_ptr (ac_requests acc) + m)%N -> fails P (uadd j 1)) as Hua.
  { intros j m Hm Hj. unfold uadd. destruct (N.leb_spec (j + 1) 18446744073709551615); [apply f_Ok|]. apply f_Err. right; right; right. split; [reflexivity|]. right; right; right. change (2 ^ 64)%N with 18446744073709551616%N. lia. }
  assert (forall k v r st, pushing acc k v -> (N.of_nat k + 1 <= n)%N -> is_pending st = true -> fails P (va_push_request (w_now w) v r delay expiry st []) /\ forall v', va_push_request (w_now w) v r delay expiry st [] = Ok v' -> pushing acc (S k) v') as Hpush.
  { intros k v1 r st Hp Hk Hst. destruct (f_push (w_now w) acc k v1 r delay expiry st [] Hp) as [F1 F2]. split; [|exact F2]. eapply f_mono; [exact F1|]. intros e [(-> & H)|(-> & H)]; [congruence|]. right; right; right. split; [reflexivity|]. destruct H as [H|[H|H]]; [auto|auto|]. right; right; right. lia. }
  assert (fails P (dneg amount)) as Hng. { eapply f_mono; [apply f_dneg_big|]. intros e [-> H]. right; right; right. auto. }
  assert (forall v', pushing acc (N.to_nat n) v' -> fails P (_ ← x_assert_active_requests_limit c v'; w0 ← realize_acc w v'; Ok w0)) as Hend.
  { intros v' Hp. apply f_bind; [eapply f_mono; [eapply f_active; [exact Hp|exact (config_exchange _ _ _ Hcf)]|]; intros e [-> H]; right; right; left; split; [reflexivity|]; rewrite N2Nat.id in H; exact H|].
    intros [] _. apply f_bind; [|intros; apply f_Ok]. eapply f_mono; [eapply f_realize_push; exact Hp|]. intros e [-> H]. right; right; right. split; [reflexivity|]. right; right; right. rewrite N2Nat.id in H. exact H. }
  assert (forall A v' (k : world -> A), pushing acc (N.to_nat n) v' -> fails P (_ ← x_assert_active_requests_limit c v'; w0 ← realize_acc w v'; Ok (k w0))) as Hend'.
  { intros A v' k Hp e He. apply (Hend v' Hp e). destruct (x_assert_active_requests_limit c v') as [[]|e1]; cbn [mbind res_bind] in *; [|injection He as <-; reflexivity]. destruct (realize_acc w v'); cbn [mbind res_bind] in *; [discriminate He|injection He as <-; reflexivity]. }
  clear Hend. set (i0 := kl_ptr (ac_requests acc)) in *.
  destruct tp as [ptp|], sl as [psl|]; cbn [optn] in n; cbn [mbind res_bind].
  - apply f_bind; [apply f_bind; [apply (Hua i0 1%N); unfold n; lia|intros; apply f_Ok]|]. intros [i1 itp] Hi. bd Hi as (z & Hz & Hi). apply uadd_Ok in Hz as [-> _]. apply Ok_inj in Hi. injection Hi as <- <-.
    apply f_bind; [apply f_bind; [apply (Hua (i0 + 1)%N 2%N); unfold n; lia|intros; apply f_Ok]|]. intros isl _.
    match goal with |- context [va_push_request ?nw ?v0 ?r ?d ?x STATUS_ACTIVE ?ef] => destruct (Hpush 0%nat v0 r STATUS_ACTIVE P0) as [F1 F2]; [unfold n; lia|reflexivity|] end. apply f_bind; [exact F1|]. intros v1 H1. specialize (F2 v1 H1).
    apply f_bind. { apply f_bind; [exact Hng|]. intros ng _. apply (Hpush 1%nat); [exact F2|unfold n; lia|reflexivity]. }
    intros v2 H2. bd H2 as (ng & _ & H2). apply (Hpush 1%nat _ _ _ F2) in H2; [|unfold n; lia|reflexivity].
    apply f_bind. { apply f_bind; [exact Hng|]. intros ng' _. apply (Hpush 2%nat); [exact H2|unfold n; lia|reflexivity]. }
    intros v3 H3. bd H3 as (ng' & _ & H3). apply (Hpush 2%nat _ _ _ H2) in H3; [|unfold n; lia|reflexivity]. apply Hend'. exact H3.
  - apply f_bind; [apply f_bind; [apply (Hua i0 1%N); unfold n; lia|intros; apply f_Ok]|]. intros [i1 itp] Hi. cbn [mbind res_bind].
    match goal with |- context [va_push_request ?nw ?v0 ?r ?d ?x STATUS_ACTIVE ?ef] => destruct (Hpush 0%nat v0 r STATUS_ACTIVE P0) as [F1 F2]; [unfold n; lia|reflexivity|] end. apply f_bind; [exact F1|]. intros v1 H1. specialize (F2 v1 H1).
    apply f_bind. { apply f_bind; [exact Hng|]. intros ng _. apply (Hpush 1%nat); [exact F2|unfold n; lia|reflexivity]. }
    intros v2 H2. bd H2 as (ng & _ & H2). apply (Hpush 1%nat _ _ _ F2) in H2; [|unfold n; lia|reflexivity]. cbn [mbind res_bind]. apply Hend'. exact H2.
  - apply f_bind; [apply f_bind; [apply (Hua i0 1%N); unfold n; lia|intros; apply f_Ok]|]. intros isl _.
    match goal with |- context [va_push_request ?nw ?v0 ?r ?d ?x STATUS_ACTIVE ?ef] => destruct (Hpush 0%nat v0 r STATUS_ACTIVE P0) as [F1 F2]; [unfold n; lia|reflexivity|] end. apply f_bind; [exact F1|]. intros v1 H1. specialize (F2 v1 H1). cbn [mbind res_bind].
    apply f_bind. { apply f_bind; [exact Hng|]. intros ng _. apply (Hpush 1%nat); [exact F2|unfold n; lia|reflexivity]. }
    intros v2 H2. bd H2 as (ng & _ & H2). apply (Hpush 1%nat _ _ _ F2) in H2; [|unfold n; lia|reflexivity]. apply Hend'. exact H2.
  - match goal with |- context [va_push_request ?nw ?v0 ?r ?d ?x STATUS_ACTIVE ?ef] => destruct (Hpush 0%nat v0 r STATUS_ACTIVE P0) as [F1 F2]; [unfold n; lia|reflexivity|] end. apply f_bind; [exact F1|]. intros v1 H1. specialize (F2 v1 H1). cbn [mbind res_bind]. apply Hend'. exact F2.
Qed.

(** Deposits. *)
Lemma f_dadd_over x y : fails (fun e => e = EArithmetic /\ overflows x y) (dadd x y).
Proof. unfold dadd, chk. destruct (in_dec (x + y)) eqn:H; [apply f_Ok|]. apply f_Err. split; [reflexivity|]. intros Ho. apply in_dec_spec in Ho. congruence. Qed.
Lemma prefix_filter (f : bucket -> bool) ts : forall l, l `prefix_of` List.filter f ts -> exists ts', ts' `prefix_of` ts /\ List.filter f ts' = l.
Proof.
  induction ts as [|b ts IH]; intros l Hl; cbn [List.filter] in Hl.
  - apply prefix_nil_inv in Hl. subst l. exists []. split; [apply prefix_nil|reflexivity].
  - destruct (f b) eqn:Hb.
    + destruct l as [|x l]; [exists []; split; [apply prefix_nil|reflexivity]|]. apply prefix_cons_inv_1 in Hl as Hx. apply prefix_cons_inv_2 in Hl. subst x. destruct (IH l Hl) as (t & T1 & T2). exists (b :: t). split; [apply prefix_cons; exact T1|]. cbn [List.filter]. rewrite Hb, T2. reflexivity.
    + destruct (IH l Hl) as (t & T1 & T2). exists (b :: t). split; [apply prefix_cons; exact T1|]. cbn [List.filter]. rewrite Hb, T2. reflexivity.
Qed.
Lemma amount_bases ts : lsum b_amt (List.filter is_base ts) = amount_in BASE ts.
Proof. unfold amount_in. induction ts as [|b ts IH]; [reflexivity|]. cbn [List.filter]. unfold is_base at 1. rewrite lsum_cons. destruct (N.eqb_spec (b_res b) BASE); rewrite ?lsum_cons, IH; lia. Qed.
Definition base_over (p : vpool) (v : vacc) (l : list bucket) : Prop :=
  exists l', l' `prefix_of` l /\ (overflows (vp_base p) (lsum b_amt l') \/ overflows (vp_vb p) (- lsum b_amt l') \/ overflows (va_vb v) (lsum b_amt l')).
Lemma f_add_bases l : forall p v, Forall (fun b => 0 <= b_amt b <= DMAX) l -> vp_base p = po_base (vp_comp p) ->
  fails (fun e => e = EArithmetic /\ base_over p v l) (rfold x_add_base (p, v) l).
Proof.
  induction l as [|b l IH]; intros p v Hl Hb; [apply f_Ok|]. cbn [rfold]. apply Forall_cons in Hl as [Hbb Hl].
  assert ([b] `prefix_of` b :: l) as Hpre by (apply prefix_cons, prefix_nil). assert (lsum b_amt [b] = b_amt b) as Hs by (rewrite lsum_cons; unfold lsum; cbn; lia).
  apply f_bind.
  - unfold x_add_base, vp_deposit, pool_deposit, x_settle_account, vp_add_vb, va_add_vb. rewrite <- Hb. destruct (dadd (vp_base p) (b_amt b)) as [y|e] eqn:Hd; cbn [mbind res_bind].
    2: { apply f_Err. destruct (f_dadd_over _ _ _ Hd) as [-> Ho]. split; [reflexivity|]. exists [b]. rewrite Hs. auto. }
    unfold dneg. destruct (chk (- b_amt b)) as [ng|e] eqn:Hng; cbn [mbind res_bind]; [apply chk_Ok in Hng as [-> _]|exfalso; unfold chk in Hng; destruct (in_dec (- b_amt b)) eqn:Hin; [discriminate Hng|]; assert (in_dec (- b_amt b) = true); [apply in_dec_spec; unfold DMIN, DMAX in *; lia|congruence]].
    cbn [vp_vb set]. apply f_bind; [apply f_bind; [|intros; apply f_Ok]; eapply f_mono; [apply f_dadd_over|]; intros e [-> Ho]; split; [reflexivity|]; exists [b]; rewrite Hs; auto|]. intros p1 _.
    apply f_bind; [|intros; apply f_Ok]. apply f_bind; [|intros; apply f_Ok]. eapply f_mono; [apply f_dadd_over|]. intros e [-> Ho]. split; [reflexivity|]. exists [b]. rewrite Hs. auto.
  - intros [p1 v1] H1. assert (vp_base p1 = vp_base p + b_amt b /\ po_base (vp_comp p1) = vp_base p + b_amt b /\ vp_vb p1 = vp_vb p - b_amt b /\ va_vb v1 = va_vb v + b_amt b) as (E1 & E2 & E3 & E4).
    { unfold x_add_base, vp_deposit, pool_deposit, x_settle_account, vp_add_vb, va_add_vb in H1. bd H1 as (q & Hq & H1). bd Hq as (y & Hy & Hq). bd Hq as (pc & Hpc & Hq). apply Ok_inj in Hq. subst q. bd Hpc as (z & Hz & Hpc). apply Ok_inj in Hpc. subst pc. apply dadd_Ok in Hy as [-> _]. apply dadd_Ok in Hz as [-> _].
      bd H1 as (ng & Hng & H1). apply dneg_Ok in Hng as [-> _]. bd H1 as (q & Hq & H1). bd Hq as (y & Hy & Hq). apply Ok_inj in Hq. subst q. apply dadd_Ok in Hy as [-> _]. bd H1 as (u & Hu & H1). bd Hu as (y & Hy & Hu). apply Ok_inj in Hu. subst u. apply dadd_Ok in Hy as [-> _]. apply Ok_inj in H1. injection H1 as <- <-.
      cbn. rewrite <- Hb. repeat split; lia. }
    eapply f_mono; [apply IH; [exact Hl|congruence]|]. intros e (-> & l' & Hl' & Ho). split; [reflexivity|]. exists (b :: l'). split; [apply prefix_cons; exact Hl'|]. rewrite lsum_cons. unfold overflows in *. rewrite E1, E3, E4 in Ho.
    destruct Ho as [Ho|[Ho|Ho]]; [left|right; left|right; right]; intros Hx; apply Ho; lia.
Qed.
Definition coll_over (m : gmap resource Z) (l : list bucket) : Prop := exists l' b, l' `prefix_of` l /\ b ∈ l' /\ overflows (default 0 (m !! b_res b)) (amount_in (b_res b) l').
Lemma coll_over_next m m' b l : (forall r, default 0 (m' !! r) = default 0 (m !! r) + (if (b_res b =? r)%N then b_amt b else 0)) -> coll_over m' l -> coll_over m (b :: l).
Proof.
  intros Hm (l' & x & H1 & H2 & H3). exists (b :: l'), x. split; [apply prefix_cons; exact H1|]. split; [right; exact H2|]. unfold overflows in *. intros Hx. apply H3. rewrite Hm. unfold amount_in in *. rewrite lsum_cons in Hx. rewrite <- Z.add_assoc. exact Hx.
Qed.
Lemma f_coll_adds l : forall m, fails (fun e => e = EArithmetic /\ coll_over m l) (rfold coll_add m l).
Proof.
  induction l as [|b l IH]; intros m; [apply f_Ok|]. cbn [rfold]. apply f_bind.
  - unfold coll_add. destruct (m !! b_res b) as [x|] eqn:Hx; [|apply f_Ok]. apply f_bind; [|intros; apply f_Ok]. eapply f_mono; [apply f_dadd_over|]. intros e [-> Ho]. split; [reflexivity|]. exists [b], b. split; [apply prefix_cons, prefix_nil|]. split; [left|]. rewrite Hx. cbn [default].
    unfold amount_in. rewrite lsum_cons, N.eqb_refl. unfold lsum. cbn. rewrite Z.add_0_r. exact Ho.
  - intros m' H. eapply f_mono; [apply IH|]. intros e [-> Ho]. split; [reflexivity|]. eapply coll_over_next; [|exact Ho]. intros r. assert (rfold coll_add m [b] = Ok m') as H' by (cbn [rfold]; rewrite H; reflexivity). etransitivity; [exact (coll_adds_exact _ _ _ r H')|]. f_equal. unfold amount_in. rewrite lsum_cons. unfold lsum. cbn. lia.
Qed.
Lemma f_put_batch l : forall v (m : gmap resource Z), (forall r, vts_amount v r = default 0 (m !! r)) -> fails (fun e => e = EArithmetic /\ coll_over m l) (vts_put_batch v l).
Proof.
  unfold vts_put_batch. induction l as [|b l IH]; intros v m Hv; [apply f_Ok|]. cbn [rfold]. apply f_bind.
  - unfold vts_put. apply f_bind; [|intros; apply f_Ok]. eapply f_mono; [apply f_dadd_over|]. intros e [-> Ho]. split; [reflexivity|]. exists [b], b. split; [apply prefix_cons, prefix_nil|]. split; [left|]. rewrite <- Hv.
    unfold amount_in. rewrite lsum_cons, N.eqb_refl. unfold lsum. cbn. rewrite Z.add_0_r. exact Ho.
  - intros v' H. unfold vts_put in H. bd H as (x & Hx & H). apply dadd_Ok in Hx as [-> _]. apply Ok_inj in H. subst v'. eapply f_mono; [apply (IH _ (<[b_res b := vts_amount v (b_res b) + b_amt b]> m))|].
    + intros r. unfold vts_amount, vaults in *. destruct (decide (r = b_res b)) as [->|Hn]; [rewrite !lookup_insert; reflexivity|]. rewrite (lookup_insert_ne (M := gmap resource)) by congruence. rewrite lookup_insert_ne by congruence. apply Hv.
    + intros e [-> Ho]. split; [reflexivity|]. eapply coll_over_next; [|exact Ho]. intros r. destruct (N.eqb_spec (b_res b) r) as [<-|Hn]; [rewrite lookup_insert; cbn; rewrite Hv; reflexivity|]. rewrite lookup_insert_ne by exact Hn. lia.
Qed.
Lemma coll_adds_dom l : forall m m', rfold coll_add m l = Ok m' -> dom m' = dom m ∪ list_to_set (List.map b_res l).
Proof.
  induction l as [|b l IH]; intros m m' H; cbn [rfold List.map list_to_set] in *; [apply Ok_inj in H; subst; set_solver|]. bd H as (m1 & H1 & H). rewrite (IH _ _ H). assert (dom m1 = {[b_res b]} ∪ dom m) as ->; [|set_solver].
  unfold coll_add in H1. destruct (m !! b_res b); [bd H1 as (y & _ & H1)|]; apply Ok_inj in H1; subst m1; apply dom_insert_L.
Qed.
Theorem C65_deposit E cx w a ts e : reachable E w -> step E cx w (OAddCollateral None a ts) = Err e ->
  at_the_door E cx w RAccountManagement a 3 ts e \/
  exists acc, w_accounts w !! a = Some acc /\
  (e = EInvalidCollateral /\ (exists b, b ∈ ts /\ b_res b <> BASE /\ coll_cfg w (b_res b) = None) \/
   e = ECollateralsTooMany /\ (ec_collaterals_max (g_exchange_config w) < N.of_nat (size (dom (ac_coll acc) ∪ kinds ts)))%N \/
   e = EArithmetic /\ (exists ts', ts' `prefix_of` ts /\
     (overflows (po_base (w_pool w)) (amount_in BASE ts') \/ overflows (po_vb (w_pool w)) (- amount_in BASE ts') \/ overflows (ac_vb acc) (amount_in BASE ts') \/
      exists b, b ∈ ts' /\ b_res b <> BASE /\ overflows (default 0 (ac_coll acc !! b_res b)) (amount_in (b_res b) ts')))).
Proof.
  intros Hr. revert e. door Hr RAccountManagement 3%N ts. intros v acc Hv Hc Ha Hok Hbs.
  cbn [add_collateral_oath]. destruct (get_config w ∅) as [c|e] eqn:Hcf; [|destruct (f_config0 w e Hcf)]. cbn [mbind res_bind].
  pose proof (coll_ok_reachable _ _ Hr _ _ Ha) as Hco.
  assert (va_vb v = ac_vb acc /\ va_coll v = ac_coll acc) as [Hvb Hcl]. { pose proof Hv as Hv'. apply get_acc_inv in Hv' as (acc' & Ha' & Hc' & _ & _ & H5 & H6 & _). rewrite Ha in Ha'. injection Ha' as <-. auto. }
  match goal with |- fails ?Q _ => set (P := Q) end.
  assert (forall e, (e = EInvalidCollateral /\ (exists b, b ∈ ts /\ b_res b <> BASE /\ coll_cfg w (b_res b) = None) \/
   e = ECollateralsTooMany /\ (ec_collaterals_max (g_exchange_config w) < N.of_nat (size (dom (ac_coll acc) ∪ kinds ts)))%N \/
   e = EArithmetic /\ (exists ts', ts' `prefix_of` ts /\
     (overflows (po_base (w_pool w)) (amount_in BASE ts') \/ overflows (po_vb (w_pool w)) (- amount_in BASE ts') \/ overflows (ac_vb acc) (amount_in BASE ts') \/
      exists b, b ∈ ts' /\ b_res b <> BASE /\ overflows (default 0 (ac_coll acc !! b_res b)) (amount_in (b_res b) ts')))) -> P e) as HP by (intros e He; exists acc; split; [exact Ha|exact He]).
  assert (forall e, e = EArithmetic /\ coll_over (ac_coll acc) (List.filter (fun b => negb (is_base b)) ts) -> P e) as HPc.
  { intros e (-> & l' & b & L1 & L2 & L3). apply HP. right; right. split; [reflexivity|]. destruct (prefix_filter _ _ _ L1) as (ts' & T1 & T2). exists ts'. split; [exact T1|]. right; right; right. exists b. subst l'. apply elem_of_list_In, filter_In in L2 as [L2 L4]. split; [apply elem_of_list_In; exact L2|].
    assert (b_res b <> BASE) as Hnb by (unfold is_base in L4; apply negb_true_iff, N.eqb_neq in L4; exact L4). split; [exact Hnb|]. rewrite amount_others in L3 by exact Hnb. exact L3. }
  assert (Forall (fun b => 0 <= b_amt b <= DMAX) ts) as Hamt. { apply Forall_forall. intros b Hb. rewrite forallb_forall in Hbs. specialize (Hbs b (proj1 (elem_of_list_In _ _) Hb)). unfold bucket_ok in Hbs. apply andb_true_iff in Hbs as [Hbs _]. apply andb_true_iff in Hbs as [Hb1 Hb2]. apply Z.leb_le in Hb1, Hb2. lia. }
  apply f_bind; [|intros [[w1 v1] evs] H1; apply f_bind; [|intros; apply f_Ok]].
  - apply f_bind; [|intros [[p1 v1] ev] _; apply f_Ok]. unfold x_add_collateral. apply f_bind.
    { eapply f_mono; [apply f_add_bases; [|reflexivity]|]. { apply Forall_forall. intros b Hb. rewrite Forall_forall in Hamt. apply Hamt. apply elem_of_list_In, filter_In in Hb as [Hb _]. apply elem_of_list_In. exact Hb. }
      intros e (-> & l' & L1 & L2). apply HP. right; right. split; [reflexivity|]. destruct (prefix_filter _ _ _ L1) as (ts' & T1 & T2). exists ts'. split; [exact T1|]. subst l'. rewrite amount_bases, Hvb in L2. cbn [get_pool vp_new vp_base vp_vb] in L2. tauto. }
    intros [p1 v1] H1. assert (va_coll v1 = va_coll v /\ va_comp v1 = va_comp v /\ va_addr v1 = va_addr v) as (B1 & B2 & _).
    { clear - H1. revert H1. generalize (get_pool w ∅) v. induction (List.filter is_base ts) as [|b l IH]; intros p v0 H; cbn [rfold] in H; [apply Ok_inj in H; injection H as <- <-; auto|]. bd H as ([p2 v2] & H2 & H). destruct (IH _ _ H) as (-> & -> & ->). unfold x_add_base, x_settle_account, va_add_vb in H2. bd H2 as (q & _ & H2). bd H2 as (ng & _ & H2). bd H2 as (q1 & _ & H2). bd H2 as (u & Hu & H2). bd Hu as (y & _ & Hu). apply Ok_inj in Hu. subst u. apply Ok_inj in H2. injection H2 as <- <-. auto. }
    cbv zeta. apply f_bind.
    { apply f_rmap. intros b Hb. unfold x_assert_valid_collateral. apply f_guard. intros Hf. apply bool_decide_eq_false in Hf. apply HP. left. split; [reflexivity|]. apply elem_of_list_In, filter_In in Hb as [Hb Hb2]. exists b. split; [apply elem_of_list_In; exact Hb|]. split; [unfold is_base in Hb2; apply negb_true_iff, N.eqb_neq in Hb2; exact Hb2|].
      destruct (vc_new_spec _ _ _ Hcf) as (_ & C2 & _). unfold coll_cfg, g_collateral_configs. rewrite <- C2. apply eq_None_not_Some. exact Hf. }
    intros us _. unfold va_deposit. rewrite B1, Hcl. apply f_bind.
    { apply f_bind; [eapply f_mono; [apply f_coll_adds|exact HPc]|]. intros m Hm. apply f_bind; [|intros; apply f_Ok]. unfold acc_deposit. rewrite B2, Hc. apply f_bind; [eapply f_mono; [apply f_coll_adds|exact HPc]|]. intros m2 _. apply f_bind; [|intros; apply f_Ok].
      eapply f_mono; [apply (f_put_batch _ _ (ac_coll acc))|exact HPc]. intros r. destruct (Hco r) as [Hco1 _]. symmetry. exact Hco1. }
    intros v2 H2. bd H2 as (m & Hm & H2). bd H2 as (acc2 & _ & H2). apply Ok_inj in H2. subst v2. apply f_bind; [|intros; apply f_Ok].
    unfold x_assert_collaterals_limit. apply f_guard. intros Hf. apply N.leb_gt in Hf. apply HP. right; left. split; [reflexivity|]. rewrite (config_exchange _ _ _ Hcf) in Hf. cbn [va_coll set] in Hf. rewrite <- (size_dom m), (coll_adds_dom _ _ _ Hm) in Hf. exact Hf.
  - apply f_none. bd H1 as ([[p1 v2] ev] & Hx & H1). apply Ok_inj in H1. injection H1 as <- <- <-.
    assert (rq_ok fwd v2 /\ va_rewarded v2 = false /\ va_req_add v2 = [] /\ kl_ptr (ac_requests (va_comp v2)) = kl_ptr (ac_requests acc) /\ va_req_upd v2 = ∅) as (Q1 & Q2 & Q3 & _ & Q5).
    { assert (g_rq v2 = g_rq v /\ g_ref v2 = g_ref v) as [G1 G2].
      { unfold x_add_collateral in Hx. bd Hx as ([p2 v3] & H1 & Hx). bd Hx as (us & _ & Hx). bd Hx as (v4 & H4 & Hx). bd Hx as ([] & _ & Hx). apply Ok_inj in Hx. injection Hx as <- <- <-.
        apply va_deposit_frame in H4 as (D1 & _ & D3 & _). rewrite D1, D3. clear - H1. revert H1. generalize (get_pool w ∅) v. induction (List.filter is_base ts) as [|b l IH]; intros p v0 H; cbn [rfold] in H; [apply Ok_inj in H; injection H as <- <-; auto|]. bd H as ([p5 v5] & H2 & H). destruct (IH _ _ H) as (-> & ->).
        unfold x_add_base, x_settle_account, va_add_vb in H2. bd H2 as (q & _ & H2). bd H2 as (ng & _ & H2). bd H2 as (q1 & _ & H2). bd H2 as (u & Hu & H2). bd Hu as (y & _ & Hu). apply Ok_inj in Hu. subst u. apply Ok_inj in H2. injection H2 as <- <-. auto. }
      destruct (pushing_new _ _ _ _ Hv Hc Hok) as (A1 & A2 & A3 & _). assert (va_req_add v = [] /\ va_req_upd v = ∅) as [A4 A5]. { pose proof Hv as Hv'. unfold get_acc, va_new in Hv'. bd Hv' as (acc' & _ & Hv'). bd Hv' as (rd & _ & Hv'). apply Ok_inj in Hv'. subst v. auto. }
      split; [eapply rq_ok_frame; [exact A1|exact G1]|]. unfold g_rq in G1. unfold g_ref in G2. injection G1 as I1 I2 I3 I4 I5 I6 I7 I8 I9 I10 I11. injection G2 as J1 J2 J3 J4. rewrite J3, I8, I9, I2, A2. auto. }
    unfold realize_acc, va_realize. rewrite Q2. cbn [mbind res_bind]. apply f_bind; [|intros [? ?] _; apply f_Ok]. apply f_bind; [|intros; apply f_Ok]. unfold acc_update. cbv zeta. cbn [au_req_add va_updates]. rewrite Q3. cbn [rfold mbind res_bind]. apply f_bind; [|intros; apply f_Ok]. unfold va_updates. cbn. rewrite Q5. rewrite map_to_list_empty. apply f_Ok.
Qed.
