(** * Why executing a request fails (for C65). *)
From Verif Require Import Base DFloat Lists Types Config Oracle Pool Account Fees Referral ExInternal Exchange System Sums Trace Frames Calls Spec SpecOracle SpecTrading SpecRequests SpecMargin SpecRefuse P_Ledger P_Accounts P_Fees P_Refs Frames2 P_Requests P_Requests2 Trading P_Oracle P_Keeper P_Refuse P_Refuse2.

Lemma f_arP {A} (P : error -> Prop) (m : res A) : P EArithmetic -> fails ar m -> fails P m. Proof. intros H Hm e He. rewrite (Hm e He). exact H. Qed.
Ltac er HA := repeat (lazymatch goal with
  | |- fails _ (_ ≫= _) => apply f_bind; [|intros ? ?; cbv beta zeta]
  | |- fails _ (Ok _) => apply f_Ok
  | |- fails _ (if ?b then _ else _) => destruct b
  | |- fails _ (match ?x with (_, _) => _ end) => destruct x
  | |- fails _ (expect _ _) => apply f_some; eassumption
  | |- fails _ _ => apply (f_arP _ _ HA); first [ar1|apply f_fee|apply f_due|apply f_rebate|apply f_settle|apply f_vb|apply f_upf|apply f_skew|apply f_pnl|apply f_fees|apply f_deposit]
  end).
(** Everything the account's valuation looks up is there. *)
Definition feeds_ok (c : vconfig) (o : voracle) : Prop := forall r, is_Some (vc_collaterals c !! r) -> exists k, vo_resources o !! r = Some k /\ is_Some (vo_prices o !! k).
Definition have_all (c : vconfig) (o : voracle) (p : vpool) (v : vacc) : Prop := forall k, is_Some (va_positions v !! k) -> have c o p k.
Lemma f_value c p v o : have_all c o p v -> fails ar (x_value_positions c p v o).
Proof.
  intros H. unfold x_value_positions. apply f_bind; [apply f_rebate|]. intros fr _. apply (f_rfold ar (fun _ => True)); [|auto|exact I]. intros [t1 t2] [k pos] Hx _. apply elem_of_map_to_list in Hx. destruct (H k ltac:(eauto)) as (H1 & H2 & H3).
  unfold x_value_position1, vc_pair, vo_price, vp_position. ar_; first [apply f_fee|apply f_due].
Qed.
Lemma f_value_coll c v o : feeds_ok c o -> fails ar (x_value_collateral c v o).
Proof.
  intros H. unfold x_value_collateral. apply (f_rfold ar (fun _ => True)); [|auto|exact I]. intros [t1 t2] x _ _. unfold x_value_collateral1. destruct (vc_collaterals c !! fst x) as [cc|] eqn:Hc; [|apply f_Ok].
  destruct (H (fst x)) as (k & K1 & K2); [eauto|]. unfold vo_price_resource, vo_price. apply f_bind; [apply f_bind; [apply f_some; eauto|]; intros k' Hk'; apply f_some; rewrite K1 in Hk'; injection Hk' as <-; exact K2|]. intros price _. ar_.
Qed.
Lemma f_integrity c p v o : have_all c o p v -> feeds_ok c o -> fails (fun e => e = EInsufficientMargin \/ e = EArithmetic) (x_assert_account_integrity c p v o).
Proof.
  intros H1 H2. unfold x_assert_account_integrity. apply f_bind; [apply f_arP; [auto|apply f_value; exact H1]|]. intros [? ?] _. apply f_bind; [apply f_arP; [auto|apply f_value_coll; exact H2]|]. intros [? ?] _.
  assert (EArithmetic = EInsufficientMargin \/ EArithmetic = EArithmetic) as HA by auto. apply f_bind; [apply f_arP; [auto|apply f_dadd]|]. intros ? _. apply f_bind; [apply f_arP; [auto|apply f_dadd]|]. intros ? _. apply f_bind; [apply f_arP; [auto|apply f_dadd]|]. intros ? _. apply f_guard. auto.
Qed.
Lemma have_set c o p k x j : have c o p k -> have c o p j -> have c o (vp_set_position p k x) j.
Proof. intros _ (H1 & H2 & H3). split; [exact H1|]. split; [exact H2|]. cbn. destruct (decide (j = k)) as [->|Hn]; [rewrite lookup_insert; eauto|rewrite lookup_insert_ne by congruence; exact H3]. Qed.
Lemma f_settle_funding c o p v k : have c o p k -> fails ar (x_settle_funding p v k).
Proof.
  intros (_ & _ & H). unfold x_settle_funding, vp_position. apply f_bind; [apply f_some; exact H|]. intros pp _. apply f_bind.
  - destruct (va_positions v !! k); [|apply f_Ok]. apply f_bind; [apply f_due|intros; apply f_Ok].
  - intros [? ?] _. cbv zeta. apply f_bind; [apply f_dneg|]. intros nf _. apply f_bind; [apply f_upf|]. intros p1 _. apply f_bind; [apply f_settle|]. intros [? ?] _. apply f_Ok.
Qed.
Lemma f_split pa amount ro : fails ar (x_split pa amount ro). Proof. unfold x_split. ar_. Qed.
Lemma f_close c o p v k amount : have c o p k -> Z.sgn (ap_amount (pos_of v k)) * Z.sgn amount <= 0 -> Z.abs amount <= Z.abs (ap_amount (pos_of v k)) -> fails ar (x_close_position c o p v k amount).
Proof.
  intros Hh Hs Ha. pose proof Hh as (H1 & H2 & H3). unfold x_close_position, vc_pair, vo_price, vp_position. fold (pos_of v k).
  assert (ar EArithmetic) as HA by reflexivity.
  apply f_bind; [apply f_some; exact H1|]. intros pc _. apply f_bind; [apply f_rebate|]. intros fr _. apply f_bind; [apply f_some; exact H2|]. intros price _. apply f_bind; [apply f_dmul|]. intros value _. apply f_bind; [apply f_some; exact H3|]. intros pp _. cbv zeta.
  apply f_bind; [apply f_guard; intros H; apply Z.leb_gt in H; lia|]. intros [] _. apply f_bind; [apply f_guard; intros H; apply Z.leb_gt in H; lia|]. intros [] _.
  apply f_bind; [apply f_fee|]. intros fee _. do 6 (apply f_bind; [first [apply f_dneg|apply f_ddiv|apply f_dmul|apply f_dsub]|intros ? _]). apply f_bind; [ar_|]. intros pp1 _. do 3 (apply f_bind; [first [apply f_dsub|apply f_dadd]|intros ? _]).
  apply f_bind; [apply f_settle|]. intros [p2 v2] Hst. apply f_bind; [|intros; apply f_Ok]. apply (f_snaps o c). apply x_settle_account_inv in Hst as [-> _]. match goal with |- have _ _ (set _ _ ?q) _ => assert (have c o q k) as (G1 & G2 & G3) by (apply have_set; exact Hh) end. split; [exact G1|]. split; [exact G2|exact G3].
Qed.
Definition open_why (c : vconfig) (p : vpool) (v : vacc) (k : pair_id) (amount : Z) (e : error) : Prop :=
  e = EPairOiTooHigh /\ (exists pc pp, vc_pairs c !! k = Some pc /\ vp_positions p !! k = Some pp /\ (0 < amount /\ pc_oi_max pc < pp_oi_long pp + amount \/ amount <= 0 /\ pc_oi_max pc < pp_oi_short pp - amount)) \/
  e = EPositionsTooMany /\ (ec_positions_max (vc_exchange c) < N.of_nat (size (dom (va_positions v) ∪ {[k]})))%N \/
  e = EInsufficientMargin \/ e = EArithmetic.
Lemma f_open c o p v k amount : have c o p k -> have_all c o p v -> feeds_ok c o -> 0 <= Z.sgn (ap_amount (pos_of v k)) * Z.sgn amount -> fails (open_why c p v k amount) (x_open_position c o p v k amount).
Proof.
  intros Hh Hall Hf Hs. pose proof Hh as (H1 & H2 & H3). unfold x_open_position, vc_pair, vo_price, vp_position. fold (pos_of v k).
  assert (open_why c p v k amount EArithmetic) as HA by (unfold open_why; auto).
  apply f_bind; [apply f_some; exact H1|]. intros pc Hpc. apply expect_Ok in Hpc. apply f_bind; [apply f_arP; [exact HA|apply f_rebate]|]. intros fr _. apply f_bind; [apply f_some; exact H2|]. intros price _. apply f_bind; [apply f_arP; [exact HA|apply f_dmul]|]. intros value _. apply f_bind; [apply f_some; exact H3|]. intros pp Hpp. apply expect_Ok in Hpp. cbv zeta.
  apply f_bind; [apply f_guard; intros H; apply Z.leb_gt in H; lia|]. intros [] _.
  apply f_bind; [apply f_arP; [exact HA|apply f_fee]|]. intros fee _. apply f_bind; [apply f_arP; [exact HA|apply f_dadd]|]. intros cost _. apply f_bind.
  { destruct (0 <? amount) eqn:Hsg.
    - apply Z.ltb_lt in Hsg. apply f_bind; [apply f_arP; [exact HA|apply f_dadd]|]. intros x Hx. apply dadd_Ok in Hx as [-> _]. apply f_bind; [apply f_guard; intros Hg; apply Z.leb_gt in Hg; left; split; [reflexivity|]; exists pc, pp; auto|]. intros [] _. apply f_Ok.
    - apply Z.ltb_ge in Hsg. apply f_bind; [apply f_arP; [exact HA|apply f_dsub]|]. intros x Hx. apply dsub_Ok in Hx as [-> _]. apply f_bind; [apply f_guard; intros Hg; apply Z.leb_gt in Hg; left; split; [reflexivity|]; exists pc, pp; auto|]. intros [] _. apply f_Ok. }
  intros pp1 _. do 3 (apply f_bind; [apply f_arP; [exact HA|apply f_dadd]|intros ? _]).
  match goal with |- context [vp_set_position p k ?x] => assert (forall j, have c o p j -> have c o (vp_set_position p k x) j) as Hp1 by (intros j; apply have_set; exact Hh) end.
  apply f_bind; [apply f_arP; [exact HA|apply (f_snaps o c); apply Hp1; exact Hh]|]. intros p2 Hp2.
  apply f_bind.
  { unfold x_assert_position_limit. apply f_guard. intros Hg. apply N.leb_gt in Hg. right; left. split; [reflexivity|]. cbn in Hg. rewrite <- size_dom, dom_insert_L in Hg. rewrite union_comm_L. exact Hg. }
  intros [] _. apply f_bind; [|intros; apply f_Ok]. eapply f_mono; [apply f_integrity; [|exact Hf]|unfold open_why; tauto].
  intros j Hj. eapply have_snaps; [exact Hp2|]. apply Hp1. cbn in Hj. destruct (decide (j = k)) as [->|Hn]; [exact Hh|]. rewrite lookup_insert_ne in Hj by congruence. apply Hall. exact Hj.
Qed.
Lemma f_try_set v is_ st : st = STATUS_ACTIVE \/ st = STATUS_CANCELLED -> fails (fun e => e = EMissingRequest /\ (exists j, j ∈ is_ /\ va_keeper_request v j = Err EMissingRequest) \/ e = EArithmetic) (va_try_set_status v is_ st).
Proof.
  intros Hst. unfold va_try_set_status. apply f_bind; [destruct Hst as [-> | ->]; apply f_Ok|]. intros ph _. apply f_bind; [eapply f_mono; [apply f_requests|]; intros e He; left; exact He|].
  intros rs _. apply (f_rfold _ (fun _ => True)); [|auto|exact I]. intros [v1 l] [i r] _ _. unfold va_try_set1. destruct (in_list (kr_status r) ph); [|apply f_Ok]. apply f_bind; [|intros; apply f_Ok].
  destruct (is_pending st), (is_pending (kr_status r)); try apply f_Ok; apply f_arP; auto; unfold va_add_active, va_remove_active; ar_.
Qed.
Lemma f_pool_integrity c p d : fails (fun e => e = ESkewTooHigh /\ 0 <= d \/ e = EArithmetic) (x_assert_pool_integrity c p d).
Proof. unfold x_assert_pool_integrity, x_skew_ratio, x_pool_value. apply f_bind; [apply f_arP; [auto|ar_]|]. intros r _. apply f_guard. intros H. apply orb_false_iff in H as [_ H]. apply Z.ltb_ge in H. auto. Qed.
(** How much of the order is traded. *)
Definition change_of (v : vacc) (rq : req_order) : Z := order_change (ap_amount (pos_of v (ro_pair rq))) (ro_amount rq) (ro_reduce_only rq).
(** What stops an order: its price limit; a linked request that does not exist; a limit on opening; its slippage limit; the pool's skew. *)
Definition order_stop (c : vconfig) (o : voracle) (p : vpool) (v : vacc) (rq : req_order) (e : error) : Prop :=
  e = EPriceLimit /\ (exists price, vo_prices o !! ro_pair rq = Some price /\ pl_compare (ro_price_limit rq) price = false) \/
  e = EMissingRequest /\ (exists j, j ∈ ro_activate rq ++ ro_cancel rq /\ kl_get (ac_requests (va_comp v)) j = None) \/
  (ro_reduce_only rq = false /\ opens (ap_amount (pos_of v (ro_pair rq))) (ro_amount rq) <> 0 /\ open_why c p v (ro_pair rq) (opens (ap_amount (pos_of v (ro_pair rq))) (ro_amount rq)) e) \/
  e = ESlippageLimit /\ (exists price, vo_prices o !! ro_pair rq = Some price /\ ~ within_slippage (ro_slippage rq) (mul (mul price (Z.abs (change_of v rq))) (ec_fee_max (vc_exchange c))) (mul price (Z.abs (change_of v rq)))) \/
  e = ESkewTooHigh /\ (exists price pp, vo_prices o !! ro_pair rq = Some price /\ vp_positions p !! ro_pair rq = Some pp /\
    Z.abs (mul (pp_oi_long pp - pp_oi_short pp) price) <= Z.abs (mul (pp_oi_long pp - pp_oi_short pp + change_of v rq) price)) \/
  e = EArithmetic.
Lemma split_inv pa amount ro cl op : x_split pa amount ro = Ok (cl, op) ->
  Z.sgn pa * Z.sgn cl <= 0 /\ Z.abs cl <= Z.abs pa /\ (op <> 0 -> ro = false /\ op = opens pa amount) /\ 0 <= Z.sgn (pa + cl) * Z.sgn op /\ (op <> 0 -> cl <> 0 -> Z.sgn cl = Z.sgn op).
Proof.
  unfold x_split. intros H. bd H as (z & Hz & H). bd H as (y & Hy & H). apply Ok_inj in H. injection H as <- <-.
  assert ((0 < pa /\ amount < 0 /\ z = Z.max amount (- pa)) \/ (pa < 0 /\ 0 < amount /\ z = Z.min amount (- pa)) \/ (z = 0 /\ ~ (0 < pa /\ amount < 0) /\ ~ (pa < 0 /\ 0 < amount))) as Hc.
  { destruct ((0 <? pa) && (amount <? 0)) eqn:E1.
    - apply andb_true_iff in E1 as [E1 E2]. apply Z.ltb_lt in E1, E2. bd Hz as (n & Hn & Hz). apply dneg_Ok in Hn as [-> _]. apply Ok_inj in Hz. left. lia.
    - assert (~ (0 < pa /\ amount < 0)) as N1. { intros [E3 E4]. apply Z.ltb_lt in E3, E4. rewrite E3, E4 in E1. discriminate E1. }
      destruct ((pa <? 0) && (0 <? amount)) eqn:E2.
      + apply andb_true_iff in E2 as [E2 E3]. apply Z.ltb_lt in E2, E3. bd Hz as (n & Hn & Hz). apply dneg_Ok in Hn as [-> _]. apply Ok_inj in Hz. right; left. lia.
      + assert (~ (pa < 0 /\ 0 < amount)) as N2. { intros [E3 E4]. apply Z.ltb_lt in E3, E4. rewrite E3, E4 in E2. discriminate E2. } apply Ok_inj in Hz. right; right. auto. }
  assert (y = 0 \/ ro = false /\ y = amount - z) as Hy'. { destruct ro; cbn [negb] in Hy; [apply Ok_inj in Hy; auto|apply dsub_Ok in Hy as [-> _]; auto]. }
  clear Hz Hy. split; [destruct Hc as [(? & ? & ?)|[(? & ? & ?)|(? & ? & ?)]]; subst; destruct (Z.sgn_spec pa) as [[? ->]|[[? ->]|[? ->]]]; nia || lia|].
  assert (forall x, (0 < x /\ Z.sgn x = 1) \/ (x < 0 /\ Z.sgn x = -1) \/ (x = 0 /\ Z.sgn x = 0)) as Hsg by (intros x; lia).
  split; [lia|]. split; [|split].
  - intros Hn. destruct Hy' as [?|[Hro ->]]; [lia|]. split; [exact Hro|]. unfold opens. clear Hro ro.
    destruct (Hsg pa) as [[? E1]|[[? E1]|[? E1]]], (Hsg amount) as [[? E2]|[[? E2]|[? E2]]]; rewrite E1, E2; match goal with |- context [Z.eqb ?x ?y] => let b := eval vm_compute in (Z.eqb x y) in change (Z.eqb x y) with b end; cbv iota; try (destruct (Z.leb_spec (Z.abs amount) (Z.abs pa))); clear Hsg; lia.
  - destruct Hy' as [-> |[_ ->]]; [cbn; lia|]. clear ro. destruct (Hsg (pa + z)) as [[? E1]|[[? E1]|[? E1]]], (Hsg (amount - z)) as [[? E2]|[[? E2]|[? E2]]]; rewrite E1, E2; lia.
  - intros Hn Hz. destruct Hy' as [?|[_ ->]]; [lia|]. clear ro. destruct (Hsg z) as [[? E1]|[[? E1]|[? E1]]], (Hsg (amount - z)) as [[? E2]|[[? E2]|[? E2]]]; rewrite E1, E2; lia.
Qed.
