(** * C71: getting out of a position. *)
From Verif Require Import Base DFloat Lists Types Config Oracle Pool Account Fees Referral ExInternal Exchange System Scenario Sums Trace Spec SpecAuth SpecOracle SpecTrading SpecRequests SpecMargin SpecRefuse P_Ledger P_Fees Witness Props_Config Props_WellFormed.

(** The order only closes: it is reduce-only, or it opposes the position held and is no larger. *)
Definition only_closes (acc : account) (rq : req_order) : Prop :=
  ro_reduce_only rq = true \/ ap_amount (held acc (ro_pair rq)) * ro_amount rq < 0 /\ Z.abs (ro_amount rq) <= Z.abs (ap_amount (held acc (ro_pair rq))).
(** How much of the pair the order trades. *)
Definition trades (acc : account) (rq : req_order) : Z := order_change (ap_amount (held acc (ro_pair rq))) (ro_amount rq) (ro_reduce_only rq).
(** At price [p] the order makes the pair's imbalance (long less short open interest) smaller in value. *)
Definition rebalances (w : world) (acc : account) (rq : req_order) (p : Z) : Prop :=
  let imbalance := open_interest_long w (ro_pair rq) - open_interest_short w (ro_pair rq) in
  Z.abs (mul (imbalance + trades acc rq) p) < Z.abs (mul imbalance p).
(** The order's slippage limit leaves room for the highest fee the exchange may charge: it has none, or a percentage no lower than that fee's,
    or an amount no lower than that fee on what is traded. *)
Definition tolerant (w : world) (acc : account) (rq : req_order) (p : Z) : Prop :=
  match ro_slippage rq with
  | SLNone => True
  | SLPercent x => 100 * ec_fee_max (g_exchange_config w) <= x
  | SLAbsolute x => mul (mul p (Z.abs (trades acc rq))) (ec_fee_max (g_exchange_config w)) <= x
  end.
(** Orders that open nothing are refused neither for the margin nor for a limit on what is opened. *)
Lemma opens_nothing acc rq : only_closes acc rq -> ro_reduce_only rq = false -> opens (ap_amount (held acc (ro_pair rq))) (ro_amount rq) = 0.
Proof.
  intros [H|[H1 H2]] Hf; [congruence|]. unfold opens. destruct (Z.eqb_spec (Z.sgn (ap_amount (held acc (ro_pair rq))) * Z.sgn (ro_amount rq)) (-1)) as [_|Hn].
  - apply Z.leb_le in H2. rewrite H2. reflexivity.
  - exfalso. apply Hn. rewrite <- Z.sgn_mul. apply Z.sgn_neg_iff. exact H1.
Qed.
Theorem C71_closing_needs_no_margin E cx w a i upd acc kr rq e : reachable E w -> w_accounts w !! a = Some acc -> request_at w a i = Some kr -> kr_request kr = ROrder rq ->
  only_closes acc rq -> step E cx w (OProcessRequest a i upd) = Err e -> e <> EInsufficientMargin /\ e <> EPairOiTooHigh /\ e <> EPositionsTooMany.
Proof.
  intros Hr Ha Hk Hq Ho Hs.
  destruct (C65_process_configured _ _ _ _ _ _ _ Hr Hs) as [[-> _]|[[-> _]|[[-> _]|[H1|[->|(acc' & kr' & Ha' & Hk' & _ & _ & H1)]]]]]; try (repeat split; discriminate).
  - destruct H1 as [[-> _]|[[-> _]|(kr' & _ & [[-> _]|[-> _]])]]; repeat split; discriminate.
  - assert (acc' = acc) as -> by congruence. assert (kr' = kr) as -> by congruence. rewrite Hq in H1.
    destruct H1 as [[(d & s & k & _ & [[-> _]|[[-> _]|[-> _]]])|(k & age & _ & [[-> _]|[[-> _]|[-> _]]])]|H1]; try (repeat split; discriminate).
    destruct H1 as [[-> _]|[[-> _]|[(H1 & H2 & _)|[[-> _]|[-> _]]]]]; try (repeat split; discriminate).
    exfalso. exact (H2 (opens_nothing _ _ Ho H1)).
Qed.
Theorem C71_rebalancing_needs_no_skew E cx w a i upd acc kr rq p t : reachable E w -> w_accounts w !! a = Some acc -> request_at w a i = Some kr -> kr_request kr = ROrder rq ->
  told E w upd (ro_pair rq) = Some (p, t) -> rebalances w acc rq p -> step E cx w (OProcessRequest a i upd) <> Err ESkewTooHigh.
Proof.
  intros Hr Ha Hk Hq Ht Hb Hs.
  destruct (C65_process_configured _ _ _ _ _ _ _ Hr Hs) as [[H1 _]|[[H1 _]|[[H1 _]|[H1|[H1|(acc' & kr' & Ha' & Hk' & _ & _ & H1)]]]]]; try discriminate H1.
  - destruct H1 as [[H1 _]|[[H1 _]|(kr' & _ & [[H1 _]|[H1 _]])]]; discriminate H1.
  - assert (acc' = acc) as -> by congruence. assert (kr' = kr) as -> by congruence. rewrite Hq in H1.
    destruct H1 as [[(d & s & k & _ & [[H1 _]|[[H1 _]|[H1 _]]])|(k & age & _ & [[H1 _]|[[H1 _]|[H1 _]]])]|H1]; try discriminate H1.
    destruct H1 as [[H1 _]|[[H1 _]|[(_ & _ & [[H1 _]|[[H1 _]|H1]])|[[H1 _]|(_ & p' & t' & Ht' & Hle)]]]]; try discriminate H1.
    rewrite Ht in Ht'. injection Ht' as <- <-. unfold rebalances, trades in Hb. cbv zeta in Hb, Hle. lia.
Qed.
Lemma tolerant_within E w acc rq p : reachable E w -> 0 <= p -> tolerant w acc rq p ->
  let value := mul p (Z.abs (trades acc rq)) in within_slippage (ro_slippage rq) (mul value (ec_fee_max (g_exchange_config w))) value.
Proof.
  intros Hr Hp. unfold tolerant, within_slippage. cbv zeta. destruct (ro_slippage rq) as [|x|x]; [auto| |auto]. intros Hx.
  pose proof (ec_valid_shares _ (C40_exchange_config _ _ Hr)) as (_ & _ & _ & _ & _ & V & _). set (fm := ec_fee_max (g_exchange_config w)) in *. set (v := mul p (Z.abs (trades acc rq))).
  assert (0 <= v) as Hv by (unfold v, mul; apply Z.quot_pos; [|reflexivity]; apply Z.mul_nonneg_nonneg; [exact Hp|apply Z.abs_nonneg]). clearbody v fm. unfold mul. change (10 ^ 18) with E18.
  assert (0 < E18) as HE by reflexivity. assert (0 <= v * fm) by nia. assert (0 <= v * x) by nia. rewrite !Z.quot_div_nonneg; try lia; [|apply Z.quot_pos; lia]. apply Z.div_le_lower_bound; [lia|].
  apply Z.div_le_lower_bound; [exact HE|]. pose proof (Z.mul_div_le (v * fm) E18 HE). nia.
Qed.
Theorem C71_tolerant_order_never_slips E cx w a i upd acc kr rq p t : reachable E w -> w_accounts w !! a = Some acc -> request_at w a i = Some kr -> kr_request kr = ROrder rq ->
  told E w upd (ro_pair rq) = Some (p, t) -> 0 <= p -> tolerant w acc rq p -> step E cx w (OProcessRequest a i upd) <> Err ESlippageLimit.
Proof.
  intros Hr Ha Hk Hq Ht Hp Hb Hs. pose proof (tolerant_within _ _ _ _ _ Hr Hp Hb) as Hw.
  destruct (C65_process_configured _ _ _ _ _ _ _ Hr Hs) as [[H1 _]|[[H1 _]|[[H1 _]|[H1|[H1|(acc' & kr' & Ha' & Hk' & _ & _ & H1)]]]]]; try discriminate H1.
  - destruct H1 as [[H1 _]|[[H1 _]|(kr' & _ & [[H1 _]|[H1 _]])]]; discriminate H1.
  - assert (acc' = acc) as -> by congruence. assert (kr' = kr) as -> by congruence. rewrite Hq in H1.
    destruct H1 as [[(d & s & k & _ & [[H1 _]|[[H1 _]|[H1 _]]])|(k & age & _ & [[H1 _]|[[H1 _]|[H1 _]]])]|H1]; try discriminate H1.
    destruct H1 as [[H1 _]|[[H1 _]|[(_ & _ & [[H1 _]|[[H1 _]|H1]])|[(_ & p' & t' & Ht' & Hle)|[H1 _]]]]]; try discriminate H1.
    rewrite Ht in Ht'. injection Ht' as <- <-. exact (Hle Hw).
Qed.
(** C71. So an order that only closes, rebalances its pair, and whose own limits are met, is executed once it is due and alive, whatever the
    margin of the account, the open interest and the skew of the pool: the one thing that can still stop it is an amount outside the decimals. *)
Theorem C71_getting_out E cx w a i upd acc kr rq p t : reachable E w -> w_accounts w !! a = Some acc ->
  request_at w a i = Some kr -> (valid_start w a <= i)%N -> kr_request kr = ROrder rq -> kr_status kr = STATUS_ACTIVE -> kr_submission kr < w_now w < kr_expiry kr ->
  told E w upd (ro_pair rq) = Some (p, t) -> within_limit (ro_price_limit rq) p -> tolerant w acc rq p -> rebalances w acc rq p -> only_closes acc rq ->
  (forall j, j ∈ ro_activate rq ++ ro_cancel rq -> is_Some (request_at w a j)) ->
  (forall e, ~ price_trouble E w (OProcessRequest a i upd) e) ->
  has_role cx w RKeeperProcess = true -> 1 <= w_auth w -> ~ unmintable E w ->
  (exists w' out, step E cx w (OProcessRequest a i upd) = Ok (w', out)) \/ step E cx w (OProcessRequest a i upd) = Err EArithmetic.
Proof.
  intros Hr Ha Hk Hvs Hq Hst Htm Ht Hpl Htol Hreb Hcl Hlk Hpt Hrl Hau Hmi.
  destruct (step E cx w (OProcessRequest a i upd)) as [[w' out]|e] eqn:Hs; [left; eauto|right]. f_equal.
  assert (0 <= p) as Hp0.
  { destruct (Z_le_gt_dec 0 p) as [H|H]; [exact H|]. exfalso. pose proof (C70_stored_requests_well_formed _ _ _ _ _ Hr Hk) as Hw. rewrite Hq in Hw. destruct Hw as ([pc Hpc] & _).
    apply (Hpt EInvalidPrice). right. exists (ro_pair rq), (pc_price_age_max pc). split; [|right; right; split; [reflexivity|]; exists p, t; split; [exact Ht|lia]].
    split; [exists acc, kr; split; [exact Ha|]; split; [unfold request_at in Hk; rewrite Ha in Hk; exact Hk|apply Htm]|]. right.
    unfold pair_cfg in Hpc. split; [right; exists acc, kr, rq; split; [exact Ha|]; split; [unfold request_at in Hk; rewrite Ha in Hk; exact Hk|auto]|].
    unfold pair_max_age. match type of Hpc with _ <$> ?t = _ => destruct t as [pc0|] eqn:Hl end; [|discriminate Hpc]. cbn in Hpc. injection Hpc as <-. match goal with |- _ <$> ?t = _ => assert (t = Some pc0) as -> by exact Hl end. reflexivity. }
  pose proof (C71_closing_needs_no_margin _ _ _ _ _ _ _ _ _ _ Hr Ha Hk Hq Hcl Hs) as (N1 & N2 & N3).
  pose proof (fun H => C71_rebalancing_needs_no_skew _ cx _ _ _ _ _ _ _ _ _ Hr Ha Hk Hq Ht Hreb (eq_trans Hs (f_equal Err H))) as N4.
  pose proof (fun H => C71_tolerant_order_never_slips _ cx _ _ _ _ _ _ _ _ _ Hr Ha Hk Hq Ht Hp0 Htol (eq_trans Hs (f_equal Err H))) as N5.
  destruct (C65_process_configured _ _ _ _ _ _ _ Hr Hs) as [[_ H1]|[[_ H1]|[[_ H1]|[H1|[H1|(acc' & kr' & Ha' & Hk' & _ & _ & H1)]]]]].
  - congruence.
  - destruct H1; [lia|contradiction].
  - congruence.
  - exfalso. destruct H1 as [[_ H1]|[[_ H1]|(kr' & Hk' & [[_ H1]|[_ H1]])]]; [lia|congruence| |]; assert (kr' = kr) as -> by congruence.
    + destruct (Z.leb_spec (kr_expiry kr) (w_now w)); [lia|]. exact (H1 Hst).
    + lia.
  - exact H1.
  - exfalso. assert (acc' = acc) as -> by congruence. assert (kr' = kr) as -> by congruence. rewrite Hq in H1. destruct H1 as [H1|H1]; [exact (Hpt _ H1)|].
    destruct H1 as [(_ & p' & t' & Ht' & H1)|[(_ & j & Hj & Hn)|[(H1 & H2 & _)|[[H1 _]|[H1 _]]]]].
    + rewrite Ht in Ht'. injection Ht' as <- <-. unfold within_limit in Hpl. unfold pl_compare in H1. destruct (ro_price_limit rq); [discriminate H1| |]; apply Z.leb_gt in H1; lia.
    + destruct (Hlk _ Hj) as [x Hx]. congruence.
    + exact (H2 (opens_nothing _ _ Hcl H1)).
    + exact (N5 H1).
    + exact (N4 H1).
Qed.
(** ** Example. At 23,000 the account A2 (long 2 from 30,000) is worth less than its initial margin: it could not open anything. Its reduce-only order
    to sell 1 meets every hypothesis of [C71_getting_out], and is executed; the same order to buy 1 is refused for the margin. *)
Definition sc_exit : res world := go sc_env sc_w2 [order cx_u2 A2 1%N (- dec 1) true; order cx_u2 A2 1%N (dec 1) false; (cx_any, OAdvance 1030); (cx_any, OUpdatePairs [1%N; 2%N] (msg 23000%N 2000%N 1029%N))].
Definition WX := get sc_exit.
Lemma WX_ok : sc_exit = Ok WX. Proof. apply okb_get. vm_compute. reflexivity. Qed.
Lemma WX_reach : reachable sc_env WX. Proof. apply go_reachable; [vm_compute; reflexivity|]. intros w H. rewrite W2_ok in H. apply Ok_inj in H. subst w. exact W2_reach. Qed.
Definition exit_check (w : world) (a : addr) (i : N) : bool :=
  match w_accounts w !! a with
  | None => false
  | Some acc =>
    match kl_kvs (ac_requests acc) !! i with
    | None => false
    | Some kr =>
      match kr_request kr with
      | RRemove _ => false
      | ROrder rq =>
        match told sc_env w None (ro_pair rq) with
        | None => false
        | Some (p, t) =>
        (ac_vstart acc <=? i)%N && (kr_status kr =? STATUS_ACTIVE)%N && (kr_submission kr <? w_now w) && (w_now w <? kr_expiry kr) && ro_reduce_only rq && (ro_pair rq =? 1)%N &&
        match ro_price_limit rq with PLNone => true | _ => false end && match ro_slippage rq with SLPercent x => 100 * ec_fee_max (g_exchange_config w) <=? x | _ => false end &&
        match ro_activate rq ++ ro_cancel rq with [] => true | _ => false end &&
        (let imbalance := open_interest_long w (ro_pair rq) - open_interest_short w (ro_pair rq) in Z.abs (mul (imbalance + trades acc rq) p) <? Z.abs (mul imbalance p)) &&
        bool_decide (map_Forall (fun _ cc => match or_prices (w_oracle w) !! cc_pair_id cc with Some (p, t) => (w_now w <? t + cc_price_age_max cc) && (0 <? p) | None => false end = true) (cf_collaterals (w_config w))) &&
        bool_decide (map_Forall (fun _ pc => match or_prices (w_oracle w) !! 1%N with Some (p, t) => (w_now w <? t + pc_price_age_max pc) && (0 <? p) | None => false end = true) (hl_kvs (cf_pairs (w_config w)))) &&
        bool_decide (map_Forall (fun k _ => k = 1%N) (ac_positions acc)) &&
        has_role cx_any w RKeeperProcess && (1 <=? w_auth w) && mint_ok sc_env KEEPER_REWARD (ec_reward_keeper (g_exchange_config w)) &&
        match step sc_env cx_any w (OProcessRequest a i None) with Ok _ => true | _ => false end &&
        match step sc_env cx_any w (OProcessRequest a (i + 1)%N None) with Err EInsufficientMargin => true | _ => false end
        end
      end
    end
  end.
Example C71_check : exit_check WX A2 1%N = true. Proof. vm_compute. reflexivity. Qed.
Global Opaque WX.
Example C71_ex : exists acc kr rq p t, w_accounts WX !! A2 = Some acc /\ request_at WX A2 1%N = Some kr /\ kr_request kr = ROrder rq /\ told sc_env WX None (ro_pair rq) = Some (p, t) /\
  tolerant WX acc rq p /\ rebalances WX acc rq p /\ only_closes acc rq /\
  ((exists w' out, step sc_env cx_any WX (OProcessRequest A2 1%N None) = Ok (w', out)) \/ step sc_env cx_any WX (OProcessRequest A2 1%N None) = Err EArithmetic) /\
  (exists r, step sc_env cx_any WX (OProcessRequest A2 1%N None) = Ok r) /\ step sc_env cx_any WX (OProcessRequest A2 2%N None) = Err EInsufficientMargin.
Proof.
  pose proof C71_check as H. unfold exit_check in H. destruct (w_accounts WX !! A2) as [acc|] eqn:Ha; [|discriminate H]. destruct (kl_kvs (ac_requests acc) !! 1%N) as [kr|] eqn:Hk; [|discriminate H]. destruct (kr_request kr) as [rq|rq] eqn:Hq; [discriminate H|].
  destruct (told sc_env WX None (ro_pair rq)) as [[p t]|] eqn:Ht; [|discriminate H].
  repeat match type of H with (_ && _) = true => let H2 := fresh "K" in apply andb_true_iff in H as [H H2] end.
  change (1 + 1)%N with 2%N in K. destruct (step sc_env cx_any WX (OProcessRequest A2 2%N None)) as [?|e2] eqn:Hs2; [discriminate K|]. assert (e2 = EInsufficientMargin) as -> by (destruct e2; congruence). clear K.
  destruct (step sc_env cx_any WX (OProcessRequest A2 1%N None)) as [r|?] eqn:Hs; [|discriminate K0]. clear K0.
  destruct (ro_price_limit rq) eqn:Hpl; [|discriminate K10|discriminate K10]. destruct (ro_slippage rq) as [|x|x] eqn:Hsl; [discriminate K9| |discriminate K9]. destruct (ro_activate rq ++ ro_cancel rq) eqn:Hlk; [|discriminate K8].
  repeat match goal with X : (_ <=? _) = true |- _ => apply Z.leb_le in X | X : (_ <? _) = true |- _ => apply Z.ltb_lt in X | X : (_ <=? _)%N = true |- _ => apply N.leb_le in X | X : (_ =? _)%N = true |- _ => apply N.eqb_eq in X | X : bool_decide _ = true |- _ => apply bool_decide_eq_true in X end.
  assert (request_at WX A2 1%N = Some kr) as Hat by (unfold request_at; rewrite Ha; exact Hk).
  assert (tolerant WX acc rq p) as T1 by (unfold tolerant; rewrite Hsl; assumption).
  assert (rebalances WX acc rq p) as T2 by assumption.
  assert (only_closes acc rq) as T3 by (left; assumption).
  exists acc, kr, rq, p, t. split; [reflexivity|]. split; [exact Hat|]. split; [exact Hq|]. split; [exact Ht|]. split; [exact T1|]. split; [exact T2|]. split; [exact T3|]. split; [|split; [exists r; reflexivity|reflexivity]].
  rewrite <- Hs. eapply (C71_getting_out sc_env cx_any WX A2 1%N None acc kr rq p t); [exact WX_reach|exact Ha|exact Hat| |exact Hq|assumption| |exact Ht| |exact T1|exact T2|exact T3| | |assumption|assumption|].
  - unfold valid_start. rewrite Ha. assumption.
  - split; assumption.
  - rewrite Hpl. exact I.
  - intros j Hj. rewrite Hlk in Hj. inversion Hj.
  - intros e [(data & sig & key & Hu & _)|(k & age & Hn & Hb)]; [discriminate Hu|]. cbn [message_of] in Hb. unfold bad_price, told, stored_price in Hb. destruct Hn as [_ [(r0 & cc & H1 & <- & <-)|[Hn Hag]]].
    + match goal with X : map_Forall _ (cf_collaterals _) |- _ => pose proof (X r0 cc H1) as Hx end. cbn beta in Hx.
      match type of Hx with match ?t with _ => _ end = _ => destruct t as [[p1 t1]|] eqn:Hp end; [|discriminate Hx]. apply andb_true_iff in Hx as [X1 X2]. apply Z.ltb_lt in X1, X2.
      destruct Hb as [[_ Hb]|[(_ & p' & t' & Hb & Hl)|(_ & p' & t' & Hb & Hl)]]; [discriminate Hb| |]; injection Hb as <- <-; clear - X1 X2 Hl; lia.
    + assert (k = 1%N) as ->.
      { cbn in Hn. destruct Hn as [(acc' & pos & H2 & H3)|(acc' & kr' & r1 & H2 & H3 & H4 & H5)]; rewrite Ha in H2; injection H2 as <-; [match goal with X : map_Forall _ (ac_positions acc) |- _ => exact (X k pos H3) end|].
        rewrite Hk in H3. injection H3 as <-. rewrite Hq in H4. injection H4 as <-. congruence. }
      unfold pair_max_age in Hag. match type of Hag with _ <$> ?t = _ => destruct t as [pc|] eqn:H1 end; [|discriminate Hag]. cbn in Hag. injection Hag as <-.
      match goal with X : map_Forall _ (hl_kvs _) |- _ => pose proof (X _ pc H1) as Hx end. cbn beta in Hx. match type of Hx with match ?t with _ => _ end = _ => destruct t as [[p1 t1]|] eqn:Hp end; [|discriminate Hx]. apply andb_true_iff in Hx as [X1 X2]. apply Z.ltb_lt in X1, X2.
      destruct Hb as [[_ Hb]|[(_ & p' & t' & Hb & Hl)|(_ & p' & t' & Hb & Hl)]]; pose proof (eq_trans (eq_sym Hp) Hb) as Hpb; clear Hb; [discriminate Hpb| |]; injection Hpb as <- <-; clear - X1 X2 Hl; lia.
  - unfold unmintable. intros Hm. match goal with X : mint_ok _ _ _ = true |- _ => rewrite X in Hm end. discriminate Hm.
Qed.
