(** * The events of each kind of call. *)
From Verif Require Import Base DFloat Lists Types Config Oracle Pool Account Fees Referral ExInternal Exchange System Sums Trace Frames Calls Shape Spec SpecRequests SpecMargin SpecEvents
  Frames2 P_Ledger P_Accounts P_Requests P_Requests2 P_Oracle P_Keeper P_Liq P_Events.

(** Calls on an account that report its requests only. *)
Definition plain_op (o : op) : option addr :=
  match o with
  | OCreateRecoveryKey _ a | OAddAuthRule _ a _ _ | OSetLevel1Auth _ a _ | OSetLevel2Auth _ a _ | OSetLevel3Auth _ a _
  | ORemoveCollateralRequest _ _ a _ _ | OMarginOrderRequest _ _ _ a _ _ _ _ _ _ _ _
  | OMarginOrderTpSlRequest _ _ _ a _ _ _ _ _ _ _ | OCancelRequests _ a _ => Some a
  | _ => None
  end.
Ltac plain_fin Hv Hs Hz :=
  eapply told_realize with (s := mkS _ _ _); [exact Hv|exact Hs| |exact Hz|reflexivity| | |left; split; reflexivity];
    [reflexivity|cbn [s_pool]; rewrite realize_get_pool; apply realize_acc_inv in Hz as (? & ? & _ & ->); reflexivity|cbn [s_acc s_pool]; rewrite pool_events_new, !app_nil_r; reflexivity].
Lemma told_level E cx w oath a lvl rule w' out : (1 <= lvl <= 3)%N -> m_set_level_auth lvl E cx w oath a rule = Ok (w', out) -> told E w a [] [] out w'.
Proof.
  unfold m_set_level_auth. intros Hlv H. bd H as (v & Hv & H). bd H as (? & Hl & H). bd H as ([w1 v1] & Ho & H).
  apply (settle_oath_opt'_tr _ _ _ _ _ _ (w_fd w)) in Ho. destruct Ho as (c & o & ids & idsc & Hc & Hop & Hs & ->).
  destruct (x_set_level_auth _ _ _ _) as [g v2] eqn:Hx. bd H as (w3 & Hz & H). apply Ok_inj in H. injection H as <- <-.
  unfold x_set_level_auth in Hx. injection Hx as <- <-.
  eapply ssteps_snoc in Hs; [|eapply ss_level; exact Hlv]. plain_fin Hv Hs Hz.
Qed.
Lemma told_plain E cx w o a w' out : plain_op o = Some a -> exec E cx w o = Ok (w', out) -> told E w a [] [] out w'.
Proof.
  destruct o; cbn [plain_op]; intros Ho; try discriminate Ho; injection Ho as ->; cbn [exec]; try (lazymatch goal with |- m_set_level_auth _ _ _ _ _ _ _ = _ -> _ => apply told_level; lia end).
  - unfold m_create_recovery_key. intros H. bd H as (v & Hv & H). bd H as (? & Hl & H). bd H as ([w1 v1] & Ho & H).
    apply (settle_oath_opt'_tr _ _ _ _ _ _ (w_fd w)) in Ho. destruct Ho as (c & o & ids & idsc & Hc & Hop & Hs & ->).
    destruct (x_set_level_auth _ _ _ _) as [g v2] eqn:Hx. bd H as (w3 & Hz & H). apply Ok_inj in H. injection H as <- <-.
    unfold x_set_level_auth in Hx. injection Hx as <- <-.
    eapply ssteps_snoc in Hs; [|eapply (ss_level _ _ _ _ _ _ _ 1%N); lia]. plain_fin Hv Hs Hz.
  - unfold m_add_auth_rule. intros H. bd H as (v & Hv & H). bd H as (? & Hl & H). bd H as ([w1 v1] & Ho & H). bd H as (? & Hlv & H).
    assert (1 <= lvl <= 3)%N as Hlv3. { apply guard_Ok, andb_true_iff in Hlv. destruct Hlv as [L1 L2]. apply N.leb_le in L1, L2. lia. }
    apply (settle_oath_opt'_tr _ _ _ _ _ _ (w_fd w)) in Ho. destruct Ho as (c & o & ids & idsc & Hc & Hop & Hs & ->).
    destruct (x_set_level_auth _ _ _ _) as [g v2] eqn:Hx. bd H as (w3 & Hz & H). apply Ok_inj in H. injection H as <- <-.
    unfold x_set_level_auth in Hx. injection Hx as <- <-.
    eapply ssteps_snoc in Hs; [|eapply ss_level; exact Hlv3]. plain_fin Hv Hs Hz.
  - unfold m_remove_collateral_request. intros H. bd H as (v & Hv & H). bd H as (? & Hl & H). bd H as ([[w1 v1] c] & Ho & H).
    apply (settle_oath_opt_tr _ _ _ _ _ _ _ _ (w_fd w)) in Ho. destruct Ho as (o & ids & idsc & Hc & Hop & Hs & -> & _).
    bd H as (? & Hg & H). bd H as (v2 & Hp & H). bd H as (? & Hm & H). bd H as (w3 & Hz & H). apply Ok_inj in H. injection H as <- <-.
    eapply ssteps_snoc in Hs; [|eapply ss_push; exact Hp]. plain_fin Hv Hs Hz.
  - unfold m_margin_order_request. intros H. bd H as (v & Hv & H). bd H as (? & Hl & H). bd H as ([[w1 v1] c] & Ho & H).
    apply (settle_oath_opt_tr _ _ _ _ _ _ _ _ (w_fd w)) in Ho. destruct Ho as (o & ids & idsc & Hc & Hop & Hs & -> & _).
    bd H as (pc & Hpc & H). bd H as (aa & Haa & H). bd H as (? & Hg1 & H). bd H as (? & Hg2 & H). bd H as (? & Hg3 & H).
    bd H as (act & Hact & H). bd H as (can & Hcan & H).
    bd H as (v2 & Hp & H). bd H as (? & Hm & H). bd H as (w3 & Hz & H). apply Ok_inj in H. injection H as <- <-.
    eapply ssteps_snoc in Hs; [|eapply ss_push; exact Hp]. plain_fin Hv Hs Hz.
  - unfold m_margin_order_tp_sl_request. intros H. bd H as (v & Hv & H). bd H as (? & Hl & H). bd H as ([[w1 v1] c] & Ho & H).
    apply (settle_oath_opt_tr _ _ _ _ _ _ _ _ (w_fd w)) in Ho. destruct Ho as (o & ids & idsc & Hc & Hop & Hs & -> & _).
    bd H as (pc & Hpc & H). bd H as (aa & Haa & H). bd H as (? & Hg1 & H). bd H as ([i1 itp] & Hi1 & H). bd H as (isl & Hi2 & H).
    bd H as (v2 & Hp1 & H). bd H as (v3 & Hp2 & H). bd H as (v4 & Hp3 & H). bd H as (? & Hm & H).
    bd H as (w3 & Hz & H). apply Ok_inj in H. injection H as <- <-.
    assert (exists l2, ssteps E (w_now w) c o (mkS (get_pool w ids) v2 (w_fd w)) l2 (mkS (get_pool w ids) v3 (w_fd w))) as (l2 & Hl2).
    { match type of Hp2 with (match ?t with _ => _ end) = _ => destruct t as [ptp|] end; [|apply Ok_inj in Hp2; subst; exists []; constructor].
      bd Hp2 as (n & Hn & Hp2). eexists [_]. apply ssteps_one; eapply ss_push; exact Hp2. }
    assert (exists l3, ssteps E (w_now w) c o (mkS (get_pool w ids) v3 (w_fd w)) l3 (mkS (get_pool w ids) v4 (w_fd w))) as (l3 & Hl3).
    { match type of Hp3 with (match ?t with _ => _ end) = _ => destruct t as [psl|] end; [|apply Ok_inj in Hp3; subst; exists []; constructor].
      bd Hp3 as (n & Hn & Hp3). eexists [_]. apply ssteps_one; eapply ss_push; exact Hp3. }
    eapply ssteps_snoc in Hs; [|eapply ss_push; exact Hp1]. pose proof (ssteps_app _ _ _ _ _ _ _ _ _ (ssteps_app _ _ _ _ _ _ _ _ _ Hs Hl2) Hl3) as Hs'. plain_fin Hv Hs' Hz.
  - unfold m_cancel_requests. intros H. bd H as (v & Hv & H). bd H as (? & Hl & H). bd H as ([w1 v1] & Ho & H).
    apply (settle_oath_opt'_tr _ _ _ _ _ _ (w_fd w)) in Ho. destruct Ho as (c & o & ids & idsc & Hc & Hop & Hs & ->).
    bd H as (v2 & Hcn & H). bd H as (w3 & Hz & H). apply Ok_inj in H. injection H as <- <-.
    eapply ssteps_snoc in Hs; [|eapply ss_cancel; exact Hcn]. plain_fin Hv Hs Hz.
Qed.

(** Deposits. *)
Lemma add_oath_told E w v oath ts w1 v1 evs fd : add_collateral_oath E w v oath ts = Ok (w1, v1, evs) -> 
  exists c o ids l p, ssteps E (w_now w) c o (mkS (get_pool w ids) v fd) l (mkS p v1 fd) /\ w_pool w1 = vp_realize p /\ w_accounts w1 = w_accounts w /\ evs = EvAddCollateral (va_addr v) ts :: pool_events p.
Proof.
  assert (forall c p v ts p' v' ev, x_add_collateral c p v ts = Ok (p', v', ev) -> ev = EvAddCollateral (va_addr v') ts) as Hev.
  { intros c p v0 ts0 p' v' ev H. unfold x_add_collateral in H. bd H as ([p1 a1] & _ & H). cbv zeta in H. bd H as (? & _ & H). bd H as (a2 & _ & H). bd H as (? & _ & H). apply Ok_inj in H. injection H as <- <- <-. reflexivity. }
  destruct oath as [b|]; simpl; intros H.
  - bd H as (c & Hc & H). bd H as ([o0 o] & Ho & H). bd H as ([[p1 v2] ev] & Ha & H). bd H as ([v3 s] & Hs & H).
    apply Ok_inj in H. injection H as <- <- <-. pose proof (Hev _ _ _ _ _ _ _ Ha) as ->. apply (tr_add_collateral E (w_now w) c o fd) in Ha.
    exists c, o. do 3 eexists. split; [eapply ssteps_snoc; [exact Ha|eapply ss_oath; exact Hs]|]. split; [reflexivity|]. split; [reflexivity|]. apply ssteps_addr in Ha. cbn [s_acc] in Ha. rewrite Ha. reflexivity.
  - bd H as (c & Hc & H). bd H as ([[p1 v2] ev] & Ha & H). apply Ok_inj in H. injection H as <- <- <-. pose proof (Hev _ _ _ _ _ _ _ Ha) as ->. apply (tr_add_collateral E (w_now w) c (mkVO ∅ ∅) fd) in Ha.
    exists c, (mkVO ∅ ∅). do 3 eexists. split; [exact Ha|]. split; [reflexivity|]. split; [reflexivity|]. apply ssteps_addr in Ha. cbn [s_acc] in Ha. rewrite Ha. reflexivity.
Qed.
Lemma told_add E cx w oath a ts w' out : exec E cx w (OAddCollateral oath a ts) = Ok (w', out) -> told E w a [EvAddCollateral a ts] [] out w'.
Proof.
  cbn [exec]. unfold m_add_collateral. intros H. bd H as (v & Hv & H). bd H as (? & Hl & H). bd H as ([[w1 v1] evs] & Ho & H).
  apply (add_oath_told _ _ _ _ _ _ _ _ (w_fd w)) in Ho as (c & o & ids & l & p & Hs & Hp & Ha & ->). bd H as (w3 & Hz & H). apply Ok_inj in H. injection H as <- <-.
  eapply told_realize with (s := mkS _ _ _); [exact Hv|exact Hs|exact Ha|exact Hz|reflexivity| | |right; split; reflexivity].
  - apply realize_acc_inv in Hz as (? & ? & _ & ->). cbn. rewrite Hp. reflexivity.
  - cbn. rewrite (get_acc_addr _ _ _ Hv), app_nil_r. reflexivity.
Qed.
Lemma told_create E cx w oath rule ts code a w' out : exec E cx w (OCreateAccount oath rule ts code a) = Ok (w', out) ->
  exists ref g more w0, w_accounts w !! a = None /\
    match code with Some s => exists id, ref = Some id /\ gn_claim E (w_gen w) (e_hash E s) = Ok (g, id, more) | None => ref = None /\ more = [] end /\
    w_accounts w0 = <[a := acc_new rule rule rule ref]> (w_accounts w) /\ w_pool w0 = w_pool w /\ told E w0 a [EvAddCollateral a (ts ++ more)] [EvAccountCreation a ref] out w'.
Proof.
  cbn [exec]. unfold m_create_account. intros H. bd H as (? & Hn & H). apply guard_Ok in Hn. apply bool_decide_eq_true in Hn. bd H as ([[w1 ref] ts1] & Hc & H). cbv zeta in H.
  bd H as (v & Hv & H). bd H as ([[w2 v1] evs] & Ho & H). bd H as (w3 & Hz & H). apply Ok_inj in H. injection H as <- <-.
  match type of Hv with get_acc ?x _ = _ => set (w0 := x) in * end.
  apply (add_oath_told _ _ _ _ _ _ _ _ (w_fd w0)) in Ho as (c & o & ids & l & p & Hs & Hp & Ha & ->).
  assert (exists g more, ts1 = ts ++ more /\ w_accounts w1 = w_accounts w /\ w_pool w1 = w_pool w /\ match code with Some s => exists id, ref = Some id /\ gn_claim E (w_gen w) (e_hash E s) = Ok (g, id, more) | None => ref = None /\ more = [] end) as (g & more & -> & A1 & A2 & A3).
  { destruct code as [s|].
    - bd Hc as ([[g id] more] & Hg & Hc). apply Ok_inj in Hc. injection Hc as <- <- <-. exists g, more. eauto 10.
    - apply Ok_inj in Hc. injection Hc as <- <- <-. exists (w_gen w), []. rewrite app_nil_r. auto. }
  exists ref, g, more, w0. split; [exact Hn|]. split; [exact A3|]. split; [unfold w0; cbn; rewrite A1; reflexivity|]. split; [exact A2|].
  eapply told_realize with (s := mkS _ _ _); [exact Hv|exact Hs|exact Ha|exact Hz|reflexivity| | |right; split; reflexivity].
  - apply realize_acc_inv in Hz as (? & ? & _ & ->). cbn. rewrite Hp. reflexivity.
  - cbn. rewrite (get_acc_addr _ _ _ Hv). rewrite <- ?app_assoc. reflexivity.
Qed.

(** Keeper calls. *)
Lemma told_process E cx w a i upd w' out : step E cx w (OProcessRequest a i upd) = Ok (w', out) ->
  exists acc kr main, w_accounts w !! a = Some acc /\ kl_get (ac_requests acc) i = Some kr /\ told E w a main [] out w' /\
    (if kr_expiry kr <=? w_now w then main = [] else
     match kr_request kr with
     | RRemove r => exists toks, main = [EvRemoveCollateral a (rr_target r) toks] /\ o_payouts out = [(rr_target r, toks)]
     | ROrder r => exists e, main = [EvMarginOrder e] /\ eo_account e = a /\ eo_pair e = ro_pair r
     end).
Proof.
  intros H. apply process_inv in H as (v0 & v1 & rq & ex & ids & c & w1 & v2 & pay & evs & w2 & Hv & Hp & Hids & Hc & Hx & Hz & -> & Hpay & Hev & _).
  pose proof Hp as Hp0. apply process_request_inv in Hp0 as (r & n & _ & Hr & -> & _ & _ & _ & Hex).
  pose proof Hv as Hv'. apply get_acc_inv in Hv' as (acc & Hacc & Hcomp & Had & _ & _ & _ & _ & _ & _ & _ & _ & Hup & _).
  exists acc, r. unfold va_keeper_request in Hr. rewrite Hup, lookup_empty, Hcomp in Hr. apply expect_Ok in Hr.
  assert (ssteps E (w_now w) c (mkVO ∅ ∅) (mkS (get_pool w ids) v0 (w_fd w)) [AProcess i] (mkS (get_pool w ids) v1 (w_fd w))) as Hs0 by (apply ssteps_one; eapply ss_process; exact Hp).
  assert (va_addr v1 = a) as Had1 by (apply ssteps_addr in Hs0; cbn [s_acc] in Hs0; congruence). clear Hs0.
  destruct Hex as [[-> He]|[-> [He _]]].
  - destruct Hx as (-> & -> & -> & ->). exists []. split; [exact Hacc|]. split; [exact Hr|]. assert (kr_expiry r <=? w_now w = true) as -> by lia. split; [|reflexivity].
    assert (ssteps E (w_now w) c (mkVO ∅ ∅) (mkS (get_pool w ids) v0 (w_fd w)) [AProcess i] (mkS (get_pool w ids) v1 (w_fd w))) as Hs by (apply ssteps_one; eapply ss_process; exact Hp).
    eapply told_realize with (s := mkS _ _ _); [exact Hv|exact Hs| |exact Hz|reflexivity| | |left; split; reflexivity].
    + reflexivity.
    + apply realize_acc_inv in Hz as (? & ? & _ & ->). cbn [s_pool]. rewrite realize_get_pool. reflexivity.
    + rewrite Hev. cbn [s_acc s_pool]. rewrite pool_events_new, !app_nil_r. reflexivity.
  - destruct Hx as (orc & o & _ & Hx). assert (kr_expiry r <=? w_now w = false) as Hle by lia.
    assert (ssteps E (w_now w) c o (mkS (get_pool w ids) v0 (w_fd w)) [AProcess i] (mkS (get_pool w ids) v1 (w_fd w))) as Hs by (apply ssteps_one; eapply ss_process; exact Hp).
    destruct (kr_request r) as [rr|ro] eqn:Hk.
    + destruct Hx as (p & toks & ev & Hm & -> & -> & ->). exists [ev]. split; [exact Hacc|]. split; [exact Hr|]. rewrite Hle, ?Hk.
      assert (ev = EvRemoveCollateral a (rr_target rr) toks) as ->.
      { pose proof Hm as Hm'. apply (tr_remove_collateral E (w_now w) c o cx (w_fd w)) in Hm' as (k & bs & Hm' & _). apply ssteps_addr in Hm'. cbn [s_acc] in Hm'.
        unfold x_remove_collateral in Hm. bd Hm as (m & _ & Hm). bd Hm as ([[[p1 a1] t1] rest] & _ & Hm). bd Hm as ([a2 more] & _ & Hm). cbv zeta in Hm. bd Hm as (? & _ & Hm). bd Hm as (? & _ & Hm). apply Ok_inj in Hm. injection Hm as <- <- <- <-. rewrite Hm', Had1. reflexivity. }
      apply (tr_remove_collateral E (w_now w) c o cx (w_fd w)) in Hm as (k & bs & Hm & _). pose proof (ssteps_app _ _ _ _ _ _ _ _ _ Hs Hm) as Hs'.
      split; [|exists toks; auto].
      eapply told_realize with (s := mkS _ _ _); [exact Hv|exact Hs'| |exact Hz|reflexivity| | |right; split; reflexivity].
      * reflexivity.
      * apply realize_acc_inv in Hz as (? & ? & _ & ->). reflexivity.
      * rewrite Hev. cbn. rewrite app_nil_r. reflexivity.
    + destruct Hx as (s & ev & Hm & -> & -> & -> & ->). exists [ev]. split; [exact Hacc|]. split; [exact Hr|]. rewrite Hle, ?Hk.
      assert (exists e, ev = EvMarginOrder e /\ eo_account e = va_addr (s_acc s) /\ eo_pair e = ro_pair ro) as (e & -> & E1 & E2).
      { unfold x_margin_order in Hm. cbv zeta in Hm. bd Hm as (price & _ & Hm). bd Hm as (? & _ & Hm). bd Hm as ([p1 b1] & _ & Hm). bd Hm as ([[p2 a2] f2] & _ & Hm). bd Hm as ([ac ao] & _ & Hm).
        bd Hm as ([[[p3 a3] pnl] f3] & _ & Hm). bd Hm as ([[p4 a4] f4] & _ & Hm). do 4 (bd Hm as (? & _ & Hm)). bd Hm as (? & _ & Hm). bd Hm as ([s1 [[[q0 q1] q2] q3]] & _ & Hm). bd Hm as ([a5 l5] & _ & Hm). bd Hm as ([a6 l6] & _ & Hm).
        bd Hm as (? & _ & Hm). bd Hm as (? & _ & Hm). bd Hm as (? & _ & Hm). apply Ok_inj in Hm. injection Hm as <- <-. eexists. split; [reflexivity|]. split; reflexivity. }
      apply (tr_margin_order E) in Hm as (l0 & fee & Hm & _). pose proof (ssteps_addr _ _ _ _ _ _ _ Hm) as Had2. cbn [s_acc] in Had2. pose proof (ssteps_app _ _ _ _ _ _ _ _ _ Hs Hm) as Hs'.
      split; [|exists e; split; [reflexivity|split; [congruence|exact E2]]].
      eapply told_realize; [exact Hv|exact Hs'| |exact Hz|reflexivity| | |right; split; reflexivity].
      * reflexivity.
      * apply realize_acc_inv in Hz as (? & ? & _ & ->). reflexivity.
      * rewrite Hev. cbn. rewrite app_nil_r. reflexivity.
Qed.
Lemma told_swap E cx w a r b upd w' out : step E cx w (OSwapDebt a r b upd) = Ok (w', out) ->
  exists x price rest, told E w a [EvSwapDebt a r x price] [] out w' /\ o_tokens out = [(r, x); rest].
Proof.
  intros H. apply swap_inv in H as (v0 & c & orc & o & p & v & token & rest & ev & w1 & Hv & _ & _ & Hx & Hz & -> & Htok & Hev).
  assert (b_res token = r /\ exists price, ev = EvSwapDebt (va_addr v) r (b_amt token) price) as [Hr [price ->]].
  { unfold x_swap_debt in Hx. do 5 (bd Hx as (? & _ & Hx)). do 2 (bd Hx as (? & _ & Hx)). cbv zeta in Hx. do 3 (bd Hx as (? & _ & Hx)). bd Hx as ([am val] & _ & Hx). bd Hx as (paid & _ & Hx). bd Hx as (p1 & _ & Hx). bd Hx as ([p2 a2] & _ & Hx).
    bd Hx as ([a3 toks] & H15 & Hx). bd Hx as (tk & H16 & Hx). apply Ok_inj in Hx. injection Hx as <- <- <- <- <-. apply expect_Ok in H16.
    unfold va_withdraw, acc_withdraw in H15. cbn [vts_take_adv_batch] in H15. bd H15 as ([b1 b2] & H17 & H15). bd H17 as ([v1 bs] & H18 & H17).
    bd H18 as ([v2 bk] & H19 & H18). bd H18 as ([v3 bs3] & H20 & H18). apply Ok_inj in H20. injection H20 as <- <-. apply Ok_inj in H18. injection H18 as <- <-.
    bd H17 as (c1 & H21 & H17). apply Ok_inj in H17. injection H17 as <- <-. bd H15 as (c2 & H22 & H15). apply Ok_inj in H15. injection H15 as <- <-. simpl in H16. injection H16 as ->.
    unfold vts_take_adv in H19. split; [|eexists; reflexivity]. inv_go; reflexivity. }
  pose proof Hx as Hx'. apply (tr_swap_debt1 _ _ _ _ _ _ _ _ _ _ _ _ (w_fd w) (w_now w)) in Hx' as (paid & value & Hs & _).
  exists (b_amt token), price, rest. split; [|rewrite Htok; destruct token as [tr ta]; cbn in Hr; subst tr; reflexivity].
  eapply told_realize with (s := mkS _ _ _); [exact Hv|exact Hs| |exact Hz|reflexivity| | |left; split; reflexivity].
  - reflexivity.
  - reflexivity.
  - rewrite Hev, app_nil_r. apply ssteps_addr in Hs. cbn [s_acc] in Hs. rewrite Hs, (get_acc_addr _ _ _ Hv). reflexivity.
Qed.
Lemma told_adl E cx w a k upd w' out : step E cx w (OAutoDeleverage a k upd) = Ok (w', out) ->
  exists e, told E w a [EvAutoDeleverage e] [] out w' /\ ea_account e = a /\ ea_pair e = k.
Proof.
  intros H. apply adl_call_inv in H as (v0 & ids & c & orc & o & s & ev & w1 & Hv & _ & _ & _ & Hx & Hz & -> & _ & Hev).
  assert (exists e, ev = EvAutoDeleverage e /\ ea_account e = va_addr (s_acc s) /\ ea_pair e = k) as (e & -> & E1 & E2).
  { pose proof Hx as Hx'. unfold x_auto_deleverage in Hx. cbv zeta in Hx. bd Hx as ([p1 b1] & _ & Hx). bd Hx as ([[p2 a2] f2] & _ & Hx). bd Hx as (? & _ & Hx). bd Hx as (? & _ & Hx). destruct (va_position a2 k) as [a3 pos]. bd Hx as (price & _ & Hx). bd Hx as (? & _ & Hx). do 5 (bd Hx as (? & _ & Hx)). bd Hx as (? & _ & Hx). bd Hx as ([[p4 a4] [pnl fee]] & _ & Hx).
    bd Hx as ([s1 [[[q0 q1] q2] q3]] & Hfe & Hx). bd Hx as (? & _ & Hx). bd Hx as (? & _ & Hx). bd Hx as (? & _ & Hx). apply Ok_inj in Hx. injection Hx as <- <-. eexists. split; [reflexivity|]. split; [|reflexivity]. cbn.
    pose proof (fees_referral_frame _ _ _ _ _ Hfe) as Hff. cbn [s_acc] in Hff. unfold g_rq in Hff. split_ands. congruence. }
  apply (tr_auto_deleverage E) in Hx as (amt & fee & Hs). pose proof (ssteps_addr _ _ _ _ _ _ _ Hs) as Had. cbn [s_acc] in Had.
  exists e. split; [|split; [rewrite E1, Had; apply (get_acc_addr _ _ _ Hv)|exact E2]].
  eapply told_realize; [exact Hv|exact Hs| |exact Hz|reflexivity| | |left; split; reflexivity].
  - reflexivity.
  - reflexivity.
  - rewrite Hev, app_nil_r. reflexivity.
Qed.
Lemma told_liq E cx w a b upd w' out : step E cx w (OLiquidate a b upd) = Ok (w', out) ->
  exists acc e c, w_accounts w !! a = Some acc /\ get_config w (dom (ac_positions acc)) = Ok c /\ told E w a [EvValidStart a (request_count w a); EvLiquidate e] [] out w' /\ el_account e = a /\
    el_position_amounts e = map (fun x => (fst x, ap_amount (snd x))) (map_to_list (ac_positions acc)) /\
    el_collateral_amounts e = List.filter (fun x => match vc_collaterals c !! fst x with Some _ => true | None => false end) (map_to_list (ac_coll acc)).
Proof.
  intros H. apply liquidate_call_inv in H as (v0 & c & orc & o & s & toks & evs & w1 & Hv & Hc & _ & Hx & Hz & -> & _ & Hev).
  pose proof Hv as Hv'. apply get_acc_inv in Hv' as (acc & Hacc & Hcomp & Had & Hpos & Hcoll & _ & _ & Hlen & _ & _ & Hadd & _ & _).
  pose proof (tr_liquidate E _ _ _ _ _ _ _ _ Hx) as (paid & bs & st & lo & fee & Hs & _).
  pose proof (ssteps_addr _ _ _ _ _ _ _ Hs) as Had'. cbn [s_acc] in Had'.
  unfold x_liquidate in Hx. bd Hx as (? & _ & Hx). bd Hx as ([[p1 a1] rp] & Hlp & Hx). bd Hx as (rc & Hlc & Hx). cbv zeta in Hx. bd Hx as (? & _ & Hx). bd Hx as (? & _ & Hx). bd Hx as (? & _ & Hx). bd Hx as (? & _ & Hx). bd Hx as (? & _ & Hx). bd Hx as (? & _ & Hx). bd Hx as ([a2 t2] & _ & Hx). bd Hx as (? & _ & Hx). bd Hx as (? & _ & Hx). bd Hx as (? & _ & Hx). bd Hx as ([p3 a3] & _ & Hx). bd Hx as ([[p4 a4] pl] & _ & Hx). bd Hx as ([s1 [[[q0 q1] q2] q3]] & _ & Hx). apply Ok_inj in Hx. injection Hx as Es _ Ee.
  assert (va_rlen (s_acc s1) = request_count w a /\ va_addr (s_acc s1) = a) as [Hrl Ha1].
  { pose proof (ssteps_comp _ _ _ _ _ _ _ Hs) as Hcm. destruct Hcm as (_ & _ & _ & _ & _ & _ & Hcm). rewrite <- Es in Hcm, Had'. cbn in Hcm, Had'. split; [|congruence]. rewrite Hcm, Hlen. unfold request_count. rewrite Hacc. reflexivity. }
  cbn [va_update_valid_start] in Ee. 
  assert (lp_amounts rp = map (fun x => (fst x, ap_amount (snd x))) (map_to_list (va_positions v0)) /\ va_coll a1 = va_coll v0) as [La Ca].
  { unfold x_liquidate_positions in Hlp. bd Hlp as (fr & _ & Hlp). cbv zeta in Hlp. bd Hlp as (p5 & _ & Hlp). bd Hlp as ([p6 [[[q4 q5] q6] q7]] & _ & Hlp). bd Hlp as (? & _ & Hlp). bd Hlp as (? & _ & Hlp). bd Hlp as (? & _ & Hlp). bd Hlp as (? & _ & Hlp). apply Ok_inj in Hlp. injection Hlp as _ <- <-. split; reflexivity. }
  unfold x_liquidate_collateral in Hlc. destruct (liq_coll_fold _ _ _ _ _ Hlc) as (_ & _ & Lc). cbn [lc_amounts app] in Lc. rewrite Ca, Hcoll in Lc. rewrite Hpos in La, Hc.
  subst evs. exists acc. eexists _, c. split; [exact Hacc|]. split; [exact Hc|]. split.
  - eapply told_realize; [exact Hv|exact Hs| |exact Hz|reflexivity| | |left; split; reflexivity].
    + reflexivity.
    + reflexivity.
    + rewrite Hev, app_nil_r. cbn [va_update_valid_start]. unfold va_update_valid_start. cbn. rewrite Hrl, Ha1. reflexivity.
  - cbn. split; [reflexivity|]. split; [exact La|exact Lc].
Qed.
