(** * Every successful call has one of the shapes below, with an explicit result state. *)
From Verif Require Import Base DFloat Lists Types Config Oracle Pool Account Fees Referral ExInternal Exchange System Trace Frames Calls.

Lemma vp_new_comp now p ids : vp_comp (vp_new now p ids) = p.
Proof. reflexivity. Qed.

(** The state after a payout of [amount] of which [a] was really taken. *)
Definition paid_world (w : world) (amount a : Z) : world :=
  w <| w_pool := w_pool w <| po_base := po_base (w_pool w) - a |> <| po_vb := po_vb (w_pool w) + amount |> |>.
Lemma take_adv_inv E r s have amt a : take_adv E r s have amt = Ok a ->
  round_amount E r s amt = Ok a /\ 0 <= a <= have.
Proof.
  unfold take_adv. intros H. bd H as (x & H1 & H). bd H as (? & H2 & H). apply Ok_inj in H. subst.
  apply guard_Ok, andb_true_iff in H2. split; [exact H1|]. lia.
Qed.
Lemma take_exact_inv E r have amt a : take_exact E r have amt = Ok a ->
  a = amt /\ 0 <= a <= have /\ amt mod unit_of E r = 0.
Proof.
  unfold take_exact. intros H. bd H as (x & H1 & H). apply Ok_inj in H. subst.
  apply guard_Ok in H1. rewrite !andb_true_iff in H1. lia.
Qed.
Lemma unit18 E r : (r < 10)%N -> unit_of E r = 1.
Proof. unfold unit_of, divis. intros H. apply N.ltb_lt in H. rewrite H. reflexivity. Qed.
Lemma round18 E r s amt a : (r < 10)%N -> round_amount E r s amt = Ok a -> a = amt.
Proof.
  unfold round_amount. intros H. rewrite unit18 by exact H. destruct s; intros H1; apply chk_Ok in H1 as [-> _].
  - rewrite Z.quot_1_r. lia.
  - rewrite Z.div_1_r. lia.
Qed.
Lemma take_adv18 E r s have amt a : (r < 10)%N -> take_adv E r s have amt = Ok a -> a = amt /\ 0 <= a <= have.
Proof. intros Hr H. apply take_adv_inv in H as [H1 H2]. apply round18 in H1; auto. Qed.

Lemma pool_pay_out_inv E w amount w' b : pool_pay_out E w amount = Ok (w', b) ->
  w' = paid_world w amount amount /\ b = (BASE, amount) /\ 0 <= amount <= po_base (w_pool w).
Proof.
  unfold pool_pay_out. intros H. bd H as (? & Hg & H). bd H as (p1 & H1 & H). bd H as ([p2 a] & H2 & H).
  apply Ok_inj in H. injection H as <- <-. apply vp_withdraw_inv in H2. destruct H2 as [Ht ->].
  apply take_adv18 in Ht; [|reflexivity]. destruct Ht as [-> Ha].
  unfold vp_add_vb in H1. bd H1 as (y & Hy & H1). apply Ok_inj in H1. subst. inv_step Hy. subst. cbn in Ha.
  split; [|split; [reflexivity|exact Ha]].
  unfold paid_world, realize_pool, vp_realize, pool_update. simpl. f_equal.
  match goal with |- context [@filter ?A ?B ?F ?P ?D ?m] => assert (@filter A B F P D m = ∅) as -> end.
  { apply map_filter_empty_iff. intros k0 y0 _. simpl. set_solver. }
  rewrite map_empty_union. destruct w as [? ? ? ? ? ? [] ?]; reflexivity.
Qed.

Lemma x_settle_fees_basic_inv c p fd fee p' fd' q : x_settle_fees_basic c p fd fee = Ok (p', fd', q) ->
  exists fp ft, fp = Z.quot (fee * ec_fee_share_protocol (vc_exchange c)) E18 /\
    ft = Z.quot (fee * ec_fee_share_treasury (vc_exchange c)) E18 /\
    p' = p <| vp_vb := vp_vb p + (- fp - ft) |> /\
    fd' = mkFD (fd_protocol fd + fp) (fd_treasury fd + ft) /\
    q = (- (fee - fp - ft), - fp, - ft).
Proof.
  unfold x_settle_fees_basic, vp_add_vb, fd_distribute. intros H. inv_go.
  do 2 eexists. do 2 (split; [reflexivity|]). repeat split.
Qed.

(** The state after liquidity moved: [d] base tokens in (or out), supply changed by [dl], a fee paid. *)
Definition liq_world (w : world) (d dl fp ft : Z) : world :=
  w <| w_pool := w_pool w <| po_base := po_base (w_pool w) + d |> <| po_vb := po_vb (w_pool w) + (- fp - ft) |> |>
    <| w_fd := mkFD (fd_protocol (w_fd w) + fp) (fd_treasury (w_fd w) + ft) |>
    <| w_lp := w_lp w + dl |>.

Lemma realize_same now p0 base vb :
  vp_realize (vp_new now p0 ∅ <| vp_base := base |> <| vp_comp := p0 <| po_base := base |> |> <| vp_vb := vb |>)
  = p0 <| po_base := base |> <| po_vb := vb |>.
Proof.
  unfold vp_realize, pool_update. simpl.
  match goal with |- context [@filter ?A ?B ?F ?P ?D ?m] => assert (@filter A B F P D m = ∅) as -> end.
  { apply map_filter_empty_iff. intros k0 y0 _. simpl. set_solver. }
  rewrite map_empty_union. destruct p0; reflexivity.
Qed.

Lemma call_add_liquidity E w b w' out : m_add_liquidity E w b = Ok (w', out) ->
  exists c fee lp fp ft, get_config w ∅ = Ok c /\ b_res b = BASE /\
    dmul (b_amt b) (ec_fee_liquidity_add (vc_exchange c)) = Ok fee /\
    fp = Z.quot (fee * ec_fee_share_protocol (vc_exchange c)) E18 /\
    ft = Z.quot (fee * ec_fee_share_treasury (vc_exchange c)) E18 /\
    o_tokens out = [(LP, lp)] /\ 0 <= lp /\
    w' = liq_world w (b_amt b) lp fp ft.
Proof.
  unfold m_add_liquidity. intros H. bd H as (c & Hc & H). bd H as ([[[[p1 fd1] s1] lpb] ev] & Hx & H).
  apply Ok_inj in H. injection H as <- <-. unfold x_add_liquidity in Hx.
  bd Hx as (? & Hg & Hx). bd Hx as (fee & Hfee & Hx). bd Hx as (pv & Hpv & Hx). bd Hx as ([lpa lpp] & Hlp & Hx).
  bd Hx as (p2 & Hd & Hx). bd Hx as (? & Hmi & Hx). bd Hx as (s2 & Hs & Hx). bd Hx as ([[p3 fd3] [[q0 q1] q2]] & Hf & Hx).
  apply Ok_inj in Hx. injection Hx as <- <- <- <- _. apply vp_deposit_inv in Hd. apply x_settle_fees_basic_inv in Hf.
  destruct Hf as (fp & ft & Hfp & Hft & -> & -> & _). exists c, fee, lpa, fp, ft.
  apply guard_Ok, N.eqb_eq in Hg. inv_step Hs. subst s2 p2.
  apply guard_Ok in Hmi. unfold mint_ok in Hmi. rewrite !andb_true_iff in Hmi.
  split; [exact Hc|]. split; [exact Hg|]. split; [exact Hfee|]. split; [exact Hfp|]. split; [exact Hft|].
  split; [reflexivity|]. split; [lia|]. unfold liq_world, realize_pool, get_pool.
  match goal with |- context [vp_realize ?p] => pose proof (realize_same (w_now w) (w_pool w) (vp_base p) (vp_vb p)) as Hr end.
  simpl in Hr. simpl. rewrite Hr. reflexivity.
Qed.
Lemma call_remove_liquidity E w b w' out : m_remove_liquidity E w b = Ok (w', out) ->
  exists c pv price value fee amt fp ft, get_config w ∅ = Ok c /\ b_res b = LP /\
    x_pool_value (get_pool w ∅) = Ok pv /\ ddiv (Z.max pv 0) (w_lp w) = Ok price /\ dmul (b_amt b) price = Ok value /\
    dmul value (ec_fee_liquidity_remove (vc_exchange c)) = Ok fee /\
    fp = Z.quot (fee * ec_fee_share_protocol (vc_exchange c)) E18 /\
    ft = Z.quot (fee * ec_fee_share_treasury (vc_exchange c)) E18 /\
    amt = value - fee /\ 0 <= amt <= po_base (w_pool w) /\ b_amt b <= w_lp w /\
    o_tokens out = [(BASE, amt)] /\
    w' = liq_world w (- amt) (- b_amt b) fp ft.
Proof.
  unfold m_remove_liquidity. intros H. bd H as (c & Hc & H). bd H as ([[[[p1 fd1] s1] lpb] ev] & Hx & H).
  apply Ok_inj in H. injection H as <- <-. unfold x_remove_liquidity in Hx.
  bd Hx as (? & Hg & Hx). bd Hx as (pv & Hpv & Hx). bd Hx as (price & Hpr & Hx). bd Hx as (value & Hv & Hx).
  bd Hx as (fee & Hfee & Hx). bd Hx as (wa & Hwa & Hx). bd Hx as (? & Hg2 & Hx). bd Hx as (? & Hg3 & Hx).
  bd Hx as ([p2 amt] & Hd & Hx). bd Hx as ([[p3 fd3] [[q0 q1] q2]] & Hf & Hx).
  bd Hx as (? & Hi & Hx). bd Hx as (nl & Hnl & Hx). bd Hx as (na & Hna & Hx).
  apply Ok_inj in Hx. injection Hx as <- <- <- <- _. apply vp_withdraw_inv in Hd. apply x_settle_fees_basic_inv in Hf.
  destruct Hf as (fp & ft & Hfp & Hft & -> & -> & _). destruct Hd as [Ht ->].
  apply take_adv18 in Ht; [|reflexivity]. destruct Ht as [-> Ha]. apply dsub_Ok in Hwa. destruct Hwa as [Hwa _].
  apply guard_Ok, N.eqb_eq in Hg. apply guard_Ok, Z.leb_le in Hg2, Hg3.
  exists c, pv, price, value, fee, wa, fp, ft. do 8 (split; [assumption|]). split; [exact Hwa|]. split; [exact Ha|].
  split; [exact Hg3|]. split; [reflexivity|]. unfold liq_world, realize_pool, get_pool.
  match goal with |- context [vp_realize ?p] => pose proof (realize_same (w_now w) (w_pool w) (vp_base p) (vp_vb p)) as Hr end.
  simpl in Hr. simpl. rewrite Hr. reflexivity.
Qed.

(** The existing margin account a call works on. *)
Definition op_account (o : op) : option addr :=
  match o with
  | OCreateRecoveryKey _ a | OAddAuthRule _ a _ _ | OSetLevel1Auth _ a _ | OSetLevel2Auth _ a _ | OSetLevel3Auth _ a _
  | OAddCollateral _ a _ | ORemoveCollateralRequest _ _ a _ _ | OMarginOrderRequest _ _ _ a _ _ _ _ _ _ _ _
  | OMarginOrderTpSlRequest _ _ _ a _ _ _ _ _ _ _ | OCancelRequests _ a _ | OProcessRequest a _ _
  | OSwapDebt a _ _ _ | OLiquidate a _ _ | OAutoDeleverage a _ _ => Some a
  | _ => None
  end.
(** Calls that only touch the oracle component. *)
Definition op_oracle (o : op) : bool :=
  match o with OOracleAddKey _ _ | OOracleRemoveKey _ | OOracleRemovePrice _ | OOraclePush _ _ => true | _ => false end.
(** Calls that only touch the fee delegator's vault or parameters. *)
Definition op_dl (o : op) : bool :=
  match o with ODlDeposit _ | ODlWithdraw _ | ODlMaxLock _ | ODlMultiplier _ | ODlContingent _ => true | _ => false end.

Inductive gstep (E : env) (cx : ctx) (w : world) : op -> outp -> world -> Prop :=
| gs_acct o out a w' : op_account o = Some a -> acct_spec E w a o out w' -> gstep E cx w o out w'
| gs_create oath rule ts code a out ref g more w' :
    w_accounts w !! a = None ->
    match code with
    | Some s => exists id, ref = Some id /\ gn_claim E (w_gen w) (e_hash E s) = Ok (g, id, more)
    | None => ref = None /\ g = w_gen w /\ more = []
    end ->
    acct_call E (new_account_world E w rule a ref g) a (add_acts (ts ++ more) ++ oath_acts oath) w' ->
    no_out out -> w_perms w' = foldl (reg_insert_all a) (w_perms w) (rule :: sub_rules rule) ->
    w_next w' = w_next w -> w_oracle w' = w_oracle w -> w_rewards w' = w_rewards w ->
    gstep E cx w (OCreateAccount oath rule ts code a) out w'
| gs_update_pairs ps upd c o orc p' fl n out :
    get_config w (list_to_set ps) = Ok c -> oracle_pos o ->
    rfold (upd_pair1 (w_now w) c o) (get_pool w (list_to_set ps), []) (elements (list_to_set ps : gset pair_id)) = Ok (p', fl) ->
    0 <= n -> pushed E upd w (w <| w_oracle := orc |>) -> o_tokens out = [(KEEPER_REWARD, n)] ->
    gstep E cx w (OUpdatePairs ps upd) out (w <| w_oracle := orc |> <| w_pool := vp_realize p' |> <| w_rewards := w_rewards w + n |>)
| gs_time t out : w_now w <= t <= I64MAX -> o_tokens out = [] -> gstep E cx w (OAdvance t) out (w <| w_now := t |>)
| gs_role r rule out : o_tokens out = [] -> gstep E cx w (OSetRole r rule) out (set_role w r rule)
| gs_auth_dep b out : b_res b = AUTHORITY -> o_tokens out = [] ->
    gstep E cx w (ODepositAuthority b) out (w <| w_auth := w_auth w + b_amt b |>)
| gs_auth_wd out : o_tokens out = [(AUTHORITY, w_auth w)] -> gstep E cx w OWithdrawAuthority out (w <| w_auth := 0 |>)
| gs_signal a out : o_tokens out = [] -> gstep E cx w (OSignalUpgrade a) out w
| gs_update_ref0 id out : o_tokens out = [] -> gstep E cx w (OUpdateReferral id None None None) out w
| gs_ec c cf out : config_update_exchange (w_config w) c = Ok cf -> o_tokens out = [] -> gstep E cx w (OUpdateExchangeConfig c) out (w <| w_config := cf |>)
| gs_pc cs cf out : config_update_pairs (w_config w) cs = Ok cf -> o_tokens out = [] -> gstep E cx w (OUpdatePairConfigs cs) out (w <| w_config := cf |>)
| gs_cc cs cf out : config_update_collaterals (w_config w) cs = Ok cf -> o_tokens out = [] -> gstep E cx w (OUpdateCollateralConfigs cs) out (w <| w_config := cf |>)
| gs_cr r out : o_tokens out = [] -> gstep E cx w (ORemoveCollateralConfig r) out (w <| w_config := config_remove_collateral (w_config w) r |>)
| gs_treasury out : 0 <= fd_treasury (w_fd w) <= po_base (w_pool w) ->
    o_tokens out = [(BASE, fd_treasury (w_fd w))] ->
    gstep E cx w OCollectTreasury out (paid_world w (fd_treasury (w_fd w)) (fd_treasury (w_fd w)) <| w_fd := w_fd w <| fd_treasury := 0 |> |>)
| gs_delegator out : 0 <= dl_vb (w_dl w) <= po_base (w_pool w) ->
    o_tokens out = [(BASE, dl_vb (w_dl w))] ->
    gstep E cx w OCollectFeeDelegator out (paid_world w (dl_vb (w_dl w)) (dl_vb (w_dl w)) <| w_dl := w_dl w <| dl_vb := 0 |> |>)
| gs_protocol b c burnt out : get_config w ∅ = Ok c -> b_res b = PROTOCOL ->
    burnt = ec_protocol_burn_amount (vc_exchange c) -> 0 <= burnt <= b_amt b ->
    0 <= fd_protocol (w_fd w) <= po_base (w_pool w) ->
    o_tokens out = [(BASE, fd_protocol (w_fd w)); (PROTOCOL, b_amt b - burnt)] ->
    gstep E cx w (OSwapProtocolFee b) out
      (paid_world w (fd_protocol (w_fd w)) (fd_protocol (w_fd w)) <| w_fd := w_fd w <| fd_protocol := 0 |> |> <| w_burnt := w_burnt w + burnt |>)
| gs_rewards pr d out : cx_proves cx (fst pr) (snd pr) = true -> fst pr = REFERRAL -> w_refs w !! snd pr = Some d ->
    0 <= rf_balance d <= po_base (w_pool w) -> o_tokens out = [(BASE, rf_balance d)] ->
    gstep E cx w (OCollectReferralRewards pr) out
      (paid_world w (rf_balance d) (rf_balance d) <| w_refs := <[snd pr := d <| rf_balance := 0 |>]> (w_refs w) |>)
| gs_mint fr fb mr out : 0 <= fr <= FEE_REF_MAX -> 0 <= fb <= FEE_REF_MAX -> w_refs w !! w_next w = None ->
    o_nfts out = [(REFERRAL, w_next w)] -> o_tokens out = [] ->
    gstep E cx w (OMintReferral fr fb mr) out
      (w <| w_refs := <[w_next w := mkRef fr fb 0 mr 0 0]> (w_refs w) |> <| w_next := (w_next w + 1)%N |>)
| gs_mint_alloc fr fb mr ts cs n g rest i out : 0 <= fr <= FEE_REF_MAX -> 0 <= fb <= FEE_REF_MAX -> w_refs w !! w_next w = None ->
    (n <= mr)%N -> gn_add_allocation E (w_gen w) ts (w_next w) cs n = Ok (g, rest, i) -> o_tokens out = rest ->
    gstep E cx w (OMintReferralWithAllocation fr fb mr ts cs n) out
      (w <| w_refs := <[w_next w := mkRef fr fb n mr 0 0]> (w_refs w) |> <| w_next := (w_next w + 1)%N |> <| w_gen := g |>)
| gs_update_ref id fr fb mr d out : w_refs w !! id = Some d ->
    match fr with Some x => 0 <= x <= FEE_REF_MAX | None => True end ->
    match fb with Some x => 0 <= x <= FEE_REF_MAX | None => True end -> o_tokens out = [] ->
    gstep E cx w (OUpdateReferral id fr fb mr) out
      (w <| w_refs := <[id := d <| rf_fee_referral := default (rf_fee_referral d) fr |> <| rf_fee_rebate := default (rf_fee_rebate d) fb |>
                                <| rf_max_referrals := default (rf_max_referrals d) mr |>]> (w_refs w) |>)
| gs_add_alloc id ts cs n d g rest i out : w_refs w !! id = Some d -> (rf_referrals d + n <= rf_max_referrals d)%N ->
    gn_add_allocation E (w_gen w) ts id cs n = Ok (g, rest, i) -> o_tokens out = rest ->
    gstep E cx w (OAddReferralAllocation id ts cs n) out
      (w <| w_refs := <[id := d <| rf_referrals := (rf_referrals d + n)%N |>]> (w_refs w) |> <| w_gen := g |>)
| gs_codes pr ts hs d n g rest out : cx_proves cx (fst pr) (snd pr) = true -> fst pr = REFERRAL -> w_refs w !! snd pr = Some d ->
    rfold (fun n x => uadd n (snd (snd x))) 0%N (map_to_list hs) = Ok n -> (rf_referrals d + n <= rf_max_referrals d)%N ->
    gn_create_codes E (w_gen w) ts (snd pr) hs = Ok (g, rest) -> o_tokens out = rest ->
    gstep E cx w (OCreateReferralCodes pr ts hs) out
      (w <| w_refs := <[snd pr := d <| rf_referrals := (rf_referrals d + n)%N |>]> (w_refs w) |> <| w_gen := g |>)
| gs_codes_alloc pr i hs d g out : cx_proves cx (fst pr) (snd pr) = true -> fst pr = REFERRAL -> w_refs w !! snd pr = Some d ->
    gn_create_from_alloc (w_gen w) (snd pr) i hs = Ok g -> o_tokens out = [] ->
    gstep E cx w (OCreateReferralCodesFromAllocation pr i hs) out (w <| w_gen := g |>)
| gs_add_liq b c fee lp fp ft out : get_config w ∅ = Ok c -> b_res b = BASE ->
    dmul (b_amt b) (ec_fee_liquidity_add (vc_exchange c)) = Ok fee ->
    fp = Z.quot (fee * ec_fee_share_protocol (vc_exchange c)) E18 ->
    ft = Z.quot (fee * ec_fee_share_treasury (vc_exchange c)) E18 -> 0 <= b_amt b -> 0 <= lp -> o_tokens out = [(LP, lp)] ->
    gstep E cx w (OAddLiquidity b) out (liq_world w (b_amt b) lp fp ft)
| gs_rem_liq b c pv price value fee amt fp ft out : get_config w ∅ = Ok c -> b_res b = LP ->
    x_pool_value (get_pool w ∅) = Ok pv -> ddiv (Z.max pv 0) (w_lp w) = Ok price -> dmul (b_amt b) price = Ok value ->
    dmul value (ec_fee_liquidity_remove (vc_exchange c)) = Ok fee ->
    fp = Z.quot (fee * ec_fee_share_protocol (vc_exchange c)) E18 ->
    ft = Z.quot (fee * ec_fee_share_treasury (vc_exchange c)) E18 -> 0 <= b_amt b <= w_lp w ->
    amt = value - fee -> 0 <= amt <= po_base (w_pool w) -> o_tokens out = [(BASE, amt)] ->
    gstep E cx w (ORemoveLiquidity b) out (liq_world w (- amt) (- b_amt b) fp ft)
| gs_lock amt value out : 0 <= amt <= dl_vault (w_dl w) -> 0 <= value -> w_oath w + value <= dl_max_lock (w_dl w) ->
    o_tokens out = [(FEE_OATH, value)] ->
    gstep E cx w (OLockFee amt) out
      (w <| w_dl := w_dl w <| dl_vault := dl_vault (w_dl w) - amt |> <| dl_vb := dl_vb (w_dl w) + value |> |> <| w_oath := w_oath w + value |>)
| gs_dl o d out : op_dl o = true -> dl_vb d = dl_vb (w_dl w) ->
    match o with
    | ODlDeposit b => b_res b = XRD /\ dl_vault d = dl_vault (w_dl w) + b_amt b /\ o_tokens out = [] /\ dl_max_lock d = dl_max_lock (w_dl w)
    | ODlWithdraw amt => exists a, dl_vault d = dl_vault (w_dl w) - a /\ 0 <= a /\ o_tokens out = [(XRD, a)] /\ dl_max_lock d = dl_max_lock (w_dl w)
    | ODlMaxLock x => dl_vault d = dl_vault (w_dl w) /\ o_tokens out = [] /\ dl_max_lock d = x /\ 0 <= x
    | _ => dl_vault d = dl_vault (w_dl w) /\ o_tokens out = [] /\ dl_max_lock d = dl_max_lock (w_dl w)
    end -> gstep E cx w o out (w <| w_dl := d |>)
| gs_oracle o x out : op_oracle o = true -> o_tokens out = [] ->
    match o with
    | OOracleAddKey id k => or_keys (w_oracle w) !! id = None /\ x = w_oracle w <| or_keys := <[id := k]> (or_keys (w_oracle w)) |>
    | OOracleRemoveKey id => x = oracle_remove_key (w_oracle w) id
    | OOracleRemovePrice p => x = oracle_remove_price (w_oracle w) p
    | OOraclePush ids msg => oracle_push E (w_oracle w) msg = Ok x
    | _ => False
    end ->
    gstep E cx w o out (w <| w_oracle := x |>).

Lemma mint_referral_nft_inv w fr fb mr w' id : mint_referral_nft w fr fb mr = Ok (w', id) ->
  0 <= fr <= FEE_REF_MAX /\ 0 <= fb <= FEE_REF_MAX /\ id = w_next w /\ w_refs w !! id = None /\
  w' = w <| w_refs := <[id := mkRef fr fb 0 mr 0 0]> (w_refs w) |> <| w_next := (id + 1)%N |>.
Proof.
  unfold mint_referral_nft, ref_fee_ok. intros H. bd H as (? & H1 & H). bd H as (? & H2 & H). bd H as (? & H3 & H).
  apply Ok_inj in H. injection H as <- <-. apply guard_Ok in H1, H2, H3. apply bool_decide_eq_true in H3.
  rewrite andb_true_iff in H1, H2. repeat split; try lia; auto.
Qed.
Lemma add_referral_allocation_inv E w id ts cs n w' rest i : add_referral_allocation E w id ts cs n = Ok (w', rest, i) ->
  exists d g, w_refs w !! id = Some d /\ (rf_referrals d + n <= rf_max_referrals d)%N /\
    gn_add_allocation E (w_gen w) ts id cs n = Ok (g, rest, i) /\
    w' = w <| w_refs := <[id := d <| rf_referrals := (rf_referrals d + n)%N |>]> (w_refs w) |> <| w_gen := g |>.
Proof.
  unfold add_referral_allocation. intros H. bd H as (c & H1 & H). bd H as (d & H2 & H). bd H as (? & H3 & H). bd H as (m & H4 & H).
  bd H as (? & H5 & H). bd H as ([[g r] j] & H6 & H). apply Ok_inj in H. injection H as <- <- <-.
  apply expect_Ok in H2. apply guard_Ok, N.leb_le in H5. inv_step H4. destruct H4 as [-> _] || subst m. eauto 10.
Qed.
Lemma check_ref_proof_inv cx w pr d : check_ref_proof cx w pr = Ok d ->
  cx_proves cx (fst pr) (snd pr) = true /\ fst pr = REFERRAL /\ w_refs w !! snd pr = Some d.
Proof.
  unfold check_ref_proof. intros H. bd H as (? & H1 & H). bd H as (? & H2 & H). apply guard_Ok in H1, H2. apply N.eqb_eq in H2.
  apply expect_Ok in H. auto.
Qed.
Lemma update_referral_inv w id fr fb mr w' out : m_update_referral w id fr fb mr = Ok (w', out) ->
  (o_tokens out = [] /\ fr = None /\ fb = None /\ mr = None /\ w' = w) \/
  o_tokens out = [] /\ exists d, w_refs w !! id = Some d /\
    match fr with Some x => 0 <= x <= FEE_REF_MAX | None => True end /\
    match fb with Some x => 0 <= x <= FEE_REF_MAX | None => True end /\
    w' = (w <| w_refs := <[id := d <| rf_fee_referral := default (rf_fee_referral d) fr |> <| rf_fee_rebate := default (rf_fee_rebate d) fb |>
                                <| rf_max_referrals := default (rf_max_referrals d) mr |>]> (w_refs w) |>).
Proof.
  unfold m_update_referral, ref_fee_ok. intros H. bd H as (w1 & H1 & H). bd H as (w2 & H2 & H). bd H as (w3 & H3 & H).
  apply Ok_inj in H. injection H as <- <-.
  destruct fr as [f1|], fb as [f2|], mr as [f3|];
  repeat match goal with
  | H : Ok _ = Ok _ |- _ => apply Ok_inj in H; subst
  | H : (_ ≫= _) = Ok _ |- _ => apply bind_Ok in H; destruct H as (? & ? & H)
  | H : guard_ _ _ = Ok _ |- _ => apply guard_Ok, andb_true_iff in H; destruct H
  | H : expect _ _ = Ok _ |- _ => apply expect_Ok in H
  end; simpl in *;
  repeat match goal with H : <[?k := _]> _ !! ?k = Some _ |- _ => rewrite lookup_insert in H; injection H as <- end; auto 10; right; (split; [reflexivity|]);
  eexists; (split; [eassumption|]); (split; [lia || exact I|]); (split; [lia || exact I|]);
  repeat match goal with x : world |- _ => destruct x end; simpl; rewrite ?insert_insert; reflexivity.
Qed.
Lemma lock_fee_inv E price d s amt d' s' b : dl_lock_fee E price d s amt = Ok (d', s', b) ->
  exists value, 0 <= amt <= dl_vault d /\ 0 <= value /\ s + value <= dl_max_lock d /\ b = (FEE_OATH, value) /\ s' = s + value /\
    value = Z.quot (Z.quot (price * dl_mult d) E18 * amt) E18 /\
    d' = d <| dl_vault := dl_vault d - amt |> <| dl_vb := dl_vb d + value |>.
Proof.
  unfold dl_lock_fee. intros H. bd H as (a & H1 & H). bd H as (p & H2 & H). bd H as (v & H3 & H). bd H as (vb & H4 & H).
  bd H as (? & H5 & H). bd H as (s1 & H6 & H). bd H as (? & H7 & H). apply Ok_inj in H. injection H as <- <- <-.
  apply take_exact_inv in H1. destruct H1 as (-> & Ha & _). inv_step H4. inv_step H6. subst. apply guard_Ok in H5, H7.
  apply Z.leb_le in H7. unfold mint_ok in H5. rewrite !andb_true_iff in H5.
  inv_step H2. inv_step H3. subst.
  eexists. split; [exact Ha|]. split; [|split; [exact H7|split; [reflexivity|split; [reflexivity|split; reflexivity]]]]. lia.
Qed.

Lemma step_inv E cx w o w' out : step E cx w o = Ok (w', out) ->
  forallb (bucket_ok E) (op_buckets o) = true /\ access_ok cx w (op_access o) = true /\
  (needs_authority o = true -> 1 <= w_auth w) /\ exec E cx w o = Ok (w', out).
Proof.
  unfold step. intros H. bd H as (? & H1 & H). bd H as (? & H2 & H). bd H as (? & H3 & H).
  apply guard_Ok in H1, H2, H3. do 2 (split; [assumption|]). split; [|exact H].
  intros Hn. rewrite Hn in H3. simpl in H3. lia.
Qed.
Lemma bucket_ok_nonneg E b : bucket_ok E b = true -> 0 <= b_amt b.
Proof. unfold bucket_ok. rewrite !andb_true_iff. lia. Qed.

Theorem step_gstep E cx w o w' out : step E cx w o = Ok (w', out) -> gstep E cx w o out w'.
Proof.
  intros H. apply step_inv in H. destruct H as (Hb & _ & _ & H). destruct o; simpl in H.
  - bd H as (? & H1 & H). apply Ok_inj in H. injection H as <- <-. apply guard_Ok, andb_true_iff in H1. destruct H1 as [H1 H2].
    unfold in_i64 in H2. apply andb_true_iff in H2. constructor; [lia|reflexivity].
  - apply Ok_inj in H. injection H as <- <-. constructor. reflexivity.
  - unfold m_deposit_authority in H. bd H as (? & H1 & H). bd H as (x1 & H2 & H). apply Ok_inj in H. injection H as <- <-.
    apply guard_Ok, N.eqb_eq in H1. inv_step H2. subst x1. constructor; [exact H1|reflexivity].
  - apply Ok_inj in H. injection H as <- <-. constructor. reflexivity.
  - apply Ok_inj in H. injection H as <- <-. constructor. reflexivity.
  - unfold m_update_exchange_config in H. bd H as (cf & H1 & H). apply Ok_inj in H. injection H as <- <-. apply gs_ec; [exact H1|reflexivity].
  - unfold m_update_pair_configs in H. bd H as (cf & H1 & H). apply Ok_inj in H. injection H as <- <-. apply gs_pc; [exact H1|reflexivity].
  - unfold m_update_collateral_configs in H. bd H as (cf & H1 & H). apply Ok_inj in H. injection H as <- <-. apply gs_cc; [exact H1|reflexivity].
  - apply Ok_inj in H. injection H as <- <-. apply gs_cr. reflexivity.
  - unfold m_collect_treasury in H. bd H as (fd & H1 & H). bd H as ([w1 b] & H2 & H). apply Ok_inj in H. injection H as <- <-.
    apply pool_pay_out_inv in H2. destruct H2 as (-> & -> & H2). unfold fd_update_treasury in H1. bd H1 as (? & _ & H1). apply Ok_inj in H1. subst fd.
    apply gs_treasury; [exact H2|reflexivity].
  - unfold m_collect_fee_delegator in H. bd H as (fd & H1 & H). bd H as ([w1 b] & H2 & H). apply Ok_inj in H. injection H as <- <-.
    apply pool_pay_out_inv in H2. destruct H2 as (-> & -> & H2). unfold dl_update_vb in H1. bd H1 as (? & _ & H1). apply Ok_inj in H1. subst fd.
    apply gs_delegator; [exact H2|reflexivity].
  - unfold m_mint_referral in H. bd H as ([w1 id] & H1 & H). apply Ok_inj in H. injection H as <- <-. apply mint_referral_nft_inv in H1.
    destruct H1 as (? & ? & -> & ? & ->). apply gs_mint; auto.
  - unfold m_mint_referral_with_allocation in H. bd H as ([w1 id] & H1 & H). bd H as ([[w2 rest] i] & H2 & H). apply Ok_inj in H. injection H as <- <-.
    apply mint_referral_nft_inv in H1. destruct H1 as (? & ? & -> & ? & ->). apply add_referral_allocation_inv in H2.
    destruct H2 as (d & g & Hd & Hn & Hg & ->). simpl in *. rewrite lookup_insert in Hd. injection Hd as <-. simpl in *.
    rewrite insert_insert. eapply gs_mint_alloc; eauto.
  - apply update_referral_inv in H. destruct H as [(Ht & -> & -> & -> & ->)|(Ht & d & Hd & H1 & H2 & ->)]; [apply gs_update_ref0; exact Ht|].
    eapply gs_update_ref; eauto.
  - unfold m_add_referral_allocation in H. bd H as ([[w2 rest] i] & H2 & H). apply Ok_inj in H. injection H as <- <-.
    apply add_referral_allocation_inv in H2. destruct H2 as (d & g & Hd & Hn & Hg & ->). eapply gs_add_alloc; eauto.
  - unfold m_swap_protocol_fee in H. bd H as (c & Hc & H). bd H as (? & H1 & H). bd H as (? & H2 & H). bd H as (bu & H3 & H).
    bd H as (fd & H4 & H). bd H as ([w1 b1] & H5 & H). apply Ok_inj in H. injection H as <- <-.
    apply pool_pay_out_inv in H5. destruct H5 as (-> & -> & H5). unfold fd_update_protocol in H4. bd H4 as (? & _ & H4). apply Ok_inj in H4. subst fd.
    apply guard_Ok, N.eqb_eq in H1. apply take_adv18 in H3; [|reflexivity]. destruct H3 as [-> H3].
    eapply gs_protocol; eauto.
  - apply call_add_liquidity in H. destruct H as (c & fee & lp & fp & ft & Hc & Hr & Hf & Hfp & Hft & Ht & Hl & ->).
    simpl in Hb. rewrite andb_true_r in Hb. apply bucket_ok_nonneg in Hb. eapply gs_add_liq; eauto.
  - apply call_remove_liquidity in H. destruct H as (c & pv & pr & va & fee & amt & fp & ft & ? & ? & ? & ? & ? & ? & ? & ? & ? & ? & ? & ? & ->).
    simpl in Hb. rewrite andb_true_r in Hb. apply bucket_ok_nonneg in Hb. eapply gs_rem_liq; eauto.
  - unfold m_create_referral_codes in H. bd H as (d & H1 & H). bd H as (c & H2 & H). bd H as (n & H3 & H). bd H as (? & H4 & H).
    bd H as (m & H5 & H). bd H as (? & H6 & H). bd H as ([g rest] & H7 & H). apply Ok_inj in H. injection H as <- <-.
    apply check_ref_proof_inv in H1. destruct H1 as (? & ? & ?). apply guard_Ok, N.leb_le in H6. inv_step H5. subst m. eapply gs_codes; eauto.
  - unfold m_create_referral_codes_from_allocation in H. bd H as (d & H1 & H). bd H as (g & H2 & H). apply Ok_inj in H. injection H as <- <-.
    apply check_ref_proof_inv in H1. destruct H1 as (? & ? & ?). eapply gs_codes_alloc; eauto.
  - unfold m_collect_referral_rewards in H. bd H as (d & H1 & H). bd H as ([w1 b] & H2 & H). apply Ok_inj in H. injection H as <- <-.
    apply check_ref_proof_inv in H1. destruct H1 as (? & ? & ?). apply pool_pay_out_inv in H2. destruct H2 as (-> & -> & H2). apply (gs_rewards E cx w proof d); auto.
  - apply call_create_account in H. destruct H as (ref & g & more & H1 & H2 & H3 & H4 & H5 & H6 & H7 & H8). eapply gs_create; eauto.
  - apply call_create_recovery_key in H. eapply gs_acct; [reflexivity|exact H].
  - apply call_add_auth_rule in H. eapply gs_acct; [reflexivity|exact H].
  - apply call_set_level_auth in H; [|lia]. destruct H as (l & acc & H1 & H2 & H3 & H4 & H5). eapply gs_acct; [reflexivity|].
    exists l. split; [exact H1|]. split; [split; assumption|]. exists acc. split; assumption.
  - apply call_set_level_auth in H; [|lia]. destruct H as (l & acc & H1 & H2 & H3 & H4 & H5). eapply gs_acct; [reflexivity|].
    exists l. split; [exact H1|]. split; [split; assumption|]. exists acc. split; assumption.
  - apply call_set_level_auth in H; [|lia]. destruct H as (l & acc & H1 & H2 & H3 & H4 & H5). eapply gs_acct; [reflexivity|].
    exists l. split; [exact H1|]. split; [split; assumption|]. exists acc. split; assumption.
  - apply call_add_collateral in H. eapply gs_acct; [reflexivity|exact H].
  - apply call_remove_collateral_request in H. eapply gs_acct; [reflexivity|exact H].
  - apply call_margin_order_request in H. eapply gs_acct; [reflexivity|exact H].
  - apply call_margin_order_tp_sl_request in H. eapply gs_acct; [reflexivity|exact H].
  - apply call_cancel_requests in H. eapply gs_acct; [reflexivity|exact H].
  - apply call_process_request in H. eapply gs_acct; [reflexivity|exact H].
  - apply call_swap_debt in H. eapply gs_acct; [reflexivity|exact H].
  - apply call_liquidate in H. eapply gs_acct; [reflexivity|exact H].
  - apply call_auto_deleverage in H. eapply gs_acct; [reflexivity|exact H].
  - unfold m_update_pairs in H. bd H as (c & H1 & H). bd H as (f & H2 & H). bd H as ([orc o] & H3 & H). bd H as ([p1 fl] & H4 & H).
    bd H as (n & H5 & H). bd H as ([w1 rw] & H6 & H). apply Ok_inj in H. injection H as <- <-. apply mint_reward_inv in H6.
    destruct H6 as (-> & -> & Hn). apply (gs_update_pairs E cx w pids upd c o orc p1 fl n); auto; [eapply get_oracle_pos; eauto|eapply get_oracle_pushed; [exact H3|reflexivity]].
  - bd H as ([[d s] b] & H1 & H). apply Ok_inj in H. injection H as <- <-. apply lock_fee_inv in H1.
    destruct H1 as (v & H1 & H2 & H3 & -> & -> & _ & ->). apply gs_lock; auto.
  - bd H as (d & H1 & H). apply Ok_inj in H. injection H as <- <-. unfold dl_deposit in H1. bd H1 as (? & Hr & H1). bd H1 as (x1 & Hx & H1).
    apply Ok_inj in H1. subst d. inv_step Hx. subst x1. apply guard_Ok, N.eqb_eq in Hr. apply gs_dl; [reflexivity|reflexivity|]. repeat split; auto.
  - bd H as ([d b] & H1 & H). apply Ok_inj in H. injection H as <- <-. unfold dl_withdraw in H1. bd H1 as (a & Ha & H1). apply Ok_inj in H1. injection H1 as <- <-.
    apply take_adv_inv in Ha as [_ Ha]. apply gs_dl; [reflexivity|reflexivity|]. exists a. repeat split; lia || auto.
  - bd H as (d & H1 & H). apply Ok_inj in H. injection H as <- <-. unfold dl_update_max_lock in H1. bd H1 as (? & Hx & H1). apply Ok_inj in H1. subst d.
    apply guard_Ok, Z.leb_le in Hx. apply gs_dl; [reflexivity|reflexivity|]. repeat split; auto.
  - bd H as (d & H1 & H). apply Ok_inj in H. injection H as <- <-. unfold dl_update_mult in H1. bd H1 as (? & Hx & H1). apply Ok_inj in H1. subst d.
    apply gs_dl; [reflexivity|reflexivity|]. repeat split; auto.
  - apply Ok_inj in H. injection H as <- <-. apply gs_dl; [reflexivity|reflexivity|]. repeat split; auto.
  - bd H as (x1 & H1 & H). apply Ok_inj in H. injection H as <- <-. unfold oracle_add_key in H1. bd H1 as (? & Hx & H1). apply Ok_inj in H1. subst x1.
    apply guard_Ok, bool_decide_eq_true in Hx. apply gs_oracle; [reflexivity|reflexivity|]. split; [exact Hx|reflexivity].
  - apply Ok_inj in H. injection H as <- <-. apply gs_oracle; reflexivity.
  - apply Ok_inj in H. injection H as <- <-. apply gs_oracle; reflexivity.
  - bd H as (x1 & H1 & H). bd H as (? & H2 & H). apply Ok_inj in H. injection H as <- <-. apply gs_oracle; [reflexivity|reflexivity|exact H1].
Qed.
