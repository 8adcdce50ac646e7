(** * Frame lemmas: which parts of the caches each internal function leaves alone. *)
From Verif Require Import Base DFloat Lists Types Config Oracle Pool Account Fees Referral ExInternal Exchange System Trace.

(** The cache of an account, by group. *)
Definition g_rq (v : vacc) :=
  (va_addr v, ac_requests (va_comp v), ac_active (va_comp v), ac_vstart (va_comp v), va_vstart v, va_rlen v,
   va_alen v, va_req_add v, va_req_upd v, va_act_add v, va_act_rem v).
Definition g_pos (v : vacc) := (va_positions v, va_pos_upd v, ac_positions (va_comp v)).
Definition g_coll (v : vacc) := (va_coll v, ac_coll (va_comp v), ac_vaults (va_comp v)).
Definition g_ref (v : vacc) := (va_ref_id v, va_ref v, va_rewarded v, ac_ref (va_comp v)).
Definition g_rules (v : vacc) := (ac_l1 (va_comp v), ac_l2 (va_comp v), ac_l3 (va_comp v)).
(** The cache of the pool. *)
Definition g_ppos (p : vpool) := (vp_positions p, vp_updates p, po_positions (vp_comp p)).
Definition g_base (p : vpool) := (vp_base p, po_base (vp_comp p)).
Definition g_snap (p : vpool) := (vp_skew p, vp_pnl p).

Lemma vp_deposit_inv p amt p' : vp_deposit p amt = Ok p' ->
  p' = p <| vp_base := vp_base p + amt |> <| vp_comp := vp_comp p <| po_base := po_base (vp_comp p) + amt |> |>.
Proof. unfold vp_deposit, pool_deposit. intros H. inv_go. reflexivity. Qed.
Lemma vp_withdraw_inv E p amt s p' a : vp_withdraw E p amt s = Ok (p', a) ->
  take_adv E BASE s (po_base (vp_comp p)) amt = Ok a /\
  p' = p <| vp_base := vp_base p - a |> <| vp_comp := vp_comp p <| po_base := po_base (vp_comp p) - a |> |>.
Proof. unfold vp_withdraw, pool_withdraw. intros H. inv_go. split; [assumption|reflexivity]. Qed.
Lemma va_deposit_frame v bs v' : va_deposit v bs = Ok v' ->
  g_rq v' = g_rq v /\ g_pos v' = g_pos v /\ g_ref v' = g_ref v /\ g_rules v' = g_rules v /\ va_vb v' = va_vb v.
Proof. unfold va_deposit, acc_deposit. intros H. inv_go. repeat split. Qed.
Lemma va_withdraw_frame E v cs s v' bs : va_withdraw E v cs s = Ok (v', bs) ->
  g_rq v' = g_rq v /\ g_pos v' = g_pos v /\ g_ref v' = g_ref v /\ g_rules v' = g_rules v /\ va_vb v' = va_vb v.
Proof. unfold va_withdraw, acc_withdraw. intros H. inv_go. repeat split. Qed.
Lemma x_update_pair_frame now c o p pid p' b : x_update_pair now c o p pid = Ok (p', b) ->
  g_base p' = g_base p /\ vp_vb p' = vp_vb p /\ po_positions (vp_comp p') = po_positions (vp_comp p).
Proof. unfold x_update_pair, vp_add_skew, vp_add_pnl, vp_add_upf. intros H. inv_go; repeat split. Qed.
Lemma x_update_pair_snaps_frame o p pid p' : x_update_pair_snaps o p pid = Ok p' ->
  g_base p' = g_base p /\ vp_vb p' = vp_vb p /\ vp_upf p' = vp_upf p /\ po_positions (vp_comp p') = po_positions (vp_comp p).
Proof. unfold x_update_pair_snaps, vp_add_skew, vp_add_pnl. intros H. inv_go; repeat split. Qed.
Lemma x_settle_funding_frame p a pid p' a' f : x_settle_funding p a pid = Ok (p', a', f) ->
  g_rq a' = g_rq a /\ g_coll a' = g_coll a /\ g_ref a' = g_ref a /\ g_rules a' = g_rules a /\
  g_base p' = g_base p /\ g_ppos p' = g_ppos p /\ g_snap p' = g_snap p /\
  vp_vb p' = vp_vb p - f /\ va_vb a' = va_vb a + f /\ vp_upf p' = vp_upf p + f.
Proof.
  unfold x_settle_funding. intros H. bd H as (pp & Hpp & H). bd H as ([ps fn] & Hf & H).
  bd H as (nf & Hn & H). bd H as (p1 & Hp1 & H). bd H as ([p2 a2] & Hs & H).
  apply Ok_inj in H. injection H as <- <- <-. apply x_settle_account_inv in Hs as [-> ->].
  unfold vp_add_upf in Hp1. inv_step Hp1. inv_step Hb. inv_step Hk. subst. repeat split.
Qed.
Lemma x_open_position_frame c o p a pid amt p' a' fee : x_open_position c o p a pid amt = Ok (p', a', fee) ->
  g_rq a' = g_rq a /\ g_coll a' = g_coll a /\ g_ref a' = g_ref a /\ g_rules a' = g_rules a /\ va_vb a' = va_vb a /\
  g_base p' = g_base p /\ vp_vb p' = vp_vb p /\ vp_upf p' = vp_upf p /\ po_positions (vp_comp p') = po_positions (vp_comp p).
Proof.
  unfold x_open_position. intros H.
  bd H as (pc & H1 & H). bd H as (fr & H2 & H). bd H as (pr & H3 & H). bd H as (va & H4 & H). bd H as (pp & H5 & H).
  bd H as (? & H6 & H). bd H as (fe & H7 & H). bd H as (co & H8 & H). bd H as (pp1 & H9 & H). bd H as (pco & H10 & H).
  bd H as (am & H11 & H). bd H as (co' & H12 & H). bd H as (p1 & H13 & H). bd H as (? & H14 & H). bd H as (? & H15 & H).
  apply Ok_inj in H. injection H as <- <- <-. apply x_update_pair_snaps_frame in H13. simpl in H13.
  repeat split; apply H13.
Qed.
Lemma x_close_position_frame c o p a pid amt p' a' pnl fee : x_close_position c o p a pid amt = Ok (p', a', (pnl, fee)) ->
  g_rq a' = g_rq a /\ g_coll a' = g_coll a /\ g_ref a' = g_ref a /\ g_rules a' = g_rules a /\
  va_vb a' = va_vb a + pnl /\ vp_vb p' = vp_vb p - pnl /\
  g_base p' = g_base p /\ vp_upf p' = vp_upf p /\ po_positions (vp_comp p') = po_positions (vp_comp p).
Proof.
  unfold x_close_position. intros H.
  bd H as (pc & H1 & H). bd H as (fr & H2 & H). bd H as (pr & H3 & H). bd H as (va & H4 & H). bd H as (pp & H5 & H).
  bd H as (? & H6 & H). bd H as (? & H6' & H). bd H as (fe & H7 & H). bd H as (na & H8 & H). bd H as (ra & H9 & H).
  bd H as (co & H10 & H). bd H as (nv & H11 & H). bd H as (t & H12 & H). bd H as (pn & H13 & H). bd H as (pp1 & H14 & H).
  bd H as (pco & H15 & H). bd H as (am & H16 & H). bd H as (co' & H17 & H). bd H as ([p1 a1] & H18 & H). bd H as (p2 & H19 & H).
  apply Ok_inj in H. injection H as <- <- <- <-. apply x_settle_account_inv in H18 as [-> ->].
  apply x_update_pair_snaps_frame in H19. simpl in H19. destruct H19 as (? & ? & ? & ?). repeat split; assumption.
Qed.
Lemma va_reward_frame v amt v' : va_reward_referral v amt = Ok v' ->
  g_rq v' = g_rq v /\ g_pos v' = g_pos v /\ g_coll v' = g_coll v /\ g_rules v' = g_rules v /\ va_vb v' = va_vb v /\
  va_ref_id v' = va_ref_id v /\ ac_ref (va_comp v') = ac_ref (va_comp v).
Proof. unfold va_reward_referral. intros H. inv_go; repeat split. Qed.
Lemma fees_referral_inv c s fee s' q0 q1 q2 q3 :
  x_settle_fees_referral c s fee = Ok (s', (q0, q1, q2, q3)) ->
  exists fp ft fr, fp = Z.quot (fee * ec_fee_share_protocol (vc_exchange c)) E18 /\
    ft = Z.quot (fee * ec_fee_share_treasury (vc_exchange c)) E18 /\
    fr = Z.quot (Z.quot (fee * ec_fee_share_referral (vc_exchange c)) E18 * va_fee_share_referral (s_acc s)) E18 /\
    s_pool s' = s_pool s <| vp_vb := vp_vb (s_pool s) + (- fp - ft - fr) |> /\
    s_fd s' = mkFD (fd_protocol (s_fd s) + fp) (fd_treasury (s_fd s) + ft) /\
    va_reward_referral (s_acc s) fr = Ok (s_acc s') /\
    q0 = - (fee - fp - ft - fr) /\ q1 = - fp /\ q2 = - ft /\ q3 = - fr.
Proof.
  unfold x_settle_fees_referral, vp_add_vb, fd_distribute. intros H. inv_go.
  do 3 eexists. do 3 (split; [reflexivity|]). simpl. split; [reflexivity|]. split; [reflexivity|]. split; [assumption|].
  repeat split; lia.
Qed.
Lemma fees_referral_frame c s fee s' q : x_settle_fees_referral c s fee = Ok (s', q) ->
  g_rq (s_acc s') = g_rq (s_acc s) /\ g_pos (s_acc s') = g_pos (s_acc s) /\ g_coll (s_acc s') = g_coll (s_acc s) /\
  g_rules (s_acc s') = g_rules (s_acc s) /\ va_vb (s_acc s') = va_vb (s_acc s) /\
  va_ref_id (s_acc s') = va_ref_id (s_acc s) /\ ac_ref (va_comp (s_acc s')) = ac_ref (va_comp (s_acc s)) /\
  g_ppos (s_pool s') = g_ppos (s_pool s) /\ g_base (s_pool s') = g_base (s_pool s) /\ g_snap (s_pool s') = g_snap (s_pool s) /\
  vp_upf (s_pool s') = vp_upf (s_pool s).
Proof.
  destruct q as [[[q0 q1] q2] q3]. intros H. apply fees_referral_inv in H.
  destruct H as (fp & ft & fr & _ & _ & _ & Hp & _ & Ha & _). apply va_reward_frame in Ha.
  destruct Ha as (? & ? & ? & ? & ? & ? & ?). rewrite Hp. repeat split; assumption.
Qed.
(** Request operations touch the request group only. *)
Definition g_norq (v : vacc) := (va_addr v, va_vb v, g_pos v, g_coll v, g_ref v, g_rules v,
  (ac_requests (va_comp v), ac_active (va_comp v), ac_vstart (va_comp v), va_vstart v, va_rlen v)).
Lemma va_add_active_frame v i v' : va_add_active v i = Ok v' -> g_norq v' = g_norq v /\ va_comp v' = va_comp v.
Proof. unfold va_add_active. intros; inv_go; split; reflexivity. Qed.
Lemma va_remove_active_frame v i v' : va_remove_active v i = Ok v' -> g_norq v' = g_norq v /\ va_comp v' = va_comp v.
Proof. unfold va_remove_active. intros; inv_go; split; reflexivity. Qed.
Lemma va_try_set1_frame ph st v l x v' l' : va_try_set1 ph st (v, l) x = Ok (v', l') -> g_norq v' = g_norq v /\ va_comp v' = va_comp v.
Proof.
  unfold va_try_set1. destruct x as [i r]. intros H.
  destruct (in_list _ _); [|inv_go; split; reflexivity].
  bd H as (v1 & H1 & H). apply Ok_inj in H. injection H as <- <-.
  assert (g_norq v1 = g_norq v /\ va_comp v1 = va_comp v) as [<- <-]; [|split; reflexivity].
  destruct (is_pending st), (is_pending (kr_status r));
    first [apply va_add_active_frame in H1; exact H1 | apply va_remove_active_frame in H1; exact H1 | apply Ok_inj in H1; subst; split; reflexivity].
Qed.
Lemma va_try_set_frame v is_ st v' l : va_try_set_status v is_ st = Ok (v', l) -> g_norq v' = g_norq v /\ va_comp v' = va_comp v.
Proof.
  unfold va_try_set_status. intros H. bd H as (ph & H1 & H). bd H as (rs & H2 & H).
  revert H. apply (rfold_ind (va_try_set1 ph st) (fun s s' => g_norq (fst s') = g_norq (fst s) /\ va_comp (fst s') = va_comp (fst s))); [auto|].
  intros [v0 l0] x [v1 l1] [v2 l2] Hs Hr. apply va_try_set1_frame in Hs. cbn [fst] in *. destruct Hs, Hr. split; congruence.
Qed.
Lemma va_cancel1_frame v x v' : va_cancel1 v x = Ok v' -> g_norq v' = g_norq v /\ va_comp v' = va_comp v.
Proof.
  unfold va_cancel1. destruct x as [i r]. intros H. bd H as (ph & H0 & H). bd H as (? & H1 & H). bd H as (v1 & H2 & H).
  apply Ok_inj in H. subst v'.
  assert (g_norq v1 = g_norq v /\ va_comp v1 = va_comp v) as [<- <-]; [|split; reflexivity].
  destruct (is_pending _); [apply va_remove_active_frame in H2; exact H2|]. apply Ok_inj in H2; subst; split; reflexivity.
Qed.
Lemma va_cancel_frame v is_ v' : va_cancel_requests v is_ = Ok v' -> g_norq v' = g_norq v /\ va_comp v' = va_comp v.
Proof.
  unfold va_cancel_requests. intros H. bd H as (rs & H2 & H).
  revert H. apply (rfold_ind va_cancel1 (fun s s' => g_norq s' = g_norq s /\ va_comp s' = va_comp s)); [auto|].
  intros v0 x v1 v2 Hs Hr. apply va_cancel1_frame in Hs. destruct Hs, Hr. split; congruence.
Qed.
Lemma va_process_frame now v i v' rq ex : va_process_request now v i = Ok (v', rq, ex) -> g_norq v' = g_norq v /\ va_comp v' = va_comp v.
Proof.
  unfold va_process_request. intros H. bd H as (? & H0 & H). bd H as (r & H1 & H). bd H as (st & H2 & H). bd H as (? & H3 & H).
  bd H as (v1 & H4 & H). apply Ok_inj in H. injection H as <- _ _. apply va_remove_active_frame in H4 as [<- <-]. split; reflexivity.
Qed.
Lemma va_push_frame now v r d e st eff v' : va_push_request now v r d e st eff = Ok v' -> g_norq v' = g_norq v /\ va_comp v' = va_comp v.
Proof.
  unfold va_push_request. intros H. bd H as (? & H0 & H). bd H as (? & H1 & H). bd H as (? & H2 & H). bd H as (? & H3 & H).
  bd H as (v1 & H4 & H). apply Ok_inj in H. subst. apply va_add_active_frame in H4 as [<- <-]. split; reflexivity.
Qed.
Lemma va_position_frame v pid v' pos : va_position v pid = (v', pos) ->
  g_rq v' = g_rq v /\ g_coll v' = g_coll v /\ g_ref v' = g_ref v /\ g_rules v' = g_rules v /\ va_vb v' = va_vb v /\
  va_pos_upd v' = va_pos_upd v /\ va_comp v' = va_comp v.
Proof. unfold va_position. intros H. destruct (va_positions v !! pid); injection H as <- <-; repeat split. Qed.
Lemma x_liq_position1_frame c fr o p t x p' t' : x_liq_position1 c fr o (p, t) x = Ok (p', t') ->
  g_base p' = g_base p /\ vp_vb p' = vp_vb p /\ vp_upf p' = vp_upf p /\ g_snap p' = g_snap p /\ po_positions (vp_comp p') = po_positions (vp_comp p).
Proof.
  unfold x_liq_position1. destruct t as [[[t1 t2] t3] t4]. destruct x as [pid pos]. intros H.
  inv_go; repeat split.
Qed.
Lemma x_liquidate_positions_frame now c o p a p' a' rp : x_liquidate_positions now c o p a = Ok (p', a', rp) ->
  g_rq a' = g_rq a /\ g_coll a' = g_coll a /\ g_ref a' = g_ref a /\ g_rules a' = g_rules a /\ va_vb a' = va_vb a /\
  g_base p' = g_base p /\ vp_vb p' = vp_vb p /\ po_positions (vp_comp p') = po_positions (vp_comp p) /\
  a' = va_set_positions a ((fun _ => apos_zero) <$> va_positions a).
Proof.
  unfold x_liquidate_positions. intros H. bd H as (fr & H1 & H). bd H as (p1 & H2 & H). bd H as ([p2 [[[t1 t2] t3] t4]] & H3 & H).
  bd H as (prs & H4 & H). bd H as (nf & H5 & H). bd H as (p3 & H6 & H). bd H as (p4 & H7 & H).
  apply Ok_inj in H. injection H as <- <- <-.
  assert (g_base p1 = g_base p /\ vp_vb p1 = vp_vb p /\ po_positions (vp_comp p1) = po_positions (vp_comp p)) as (E1 & E2 & E3).
  { revert H2. apply (rfold_ind _ (fun p p1 => g_base p1 = g_base p /\ vp_vb p1 = vp_vb p /\ po_positions (vp_comp p1) = po_positions (vp_comp p))).
    - auto.
    - intros s x s1 s2 Hs (A & B & C). bd Hs as ([q b] & Hq & Hs). apply Ok_inj in Hs. subst.
      apply x_update_pair_frame in Hq. destruct Hq as (? & ? & ?). repeat split; congruence. }
  assert (g_base p2 = g_base p1 /\ vp_vb p2 = vp_vb p1 /\ po_positions (vp_comp p2) = po_positions (vp_comp p1)) as (E4 & E5 & E6).
  { revert H3. refine (rfold_ind _ (fun s s1 => g_base (fst s1) = g_base (fst s) /\ vp_vb (fst s1) = vp_vb (fst s) /\ po_positions (vp_comp (fst s1)) = po_positions (vp_comp (fst s))) _ _ _ _ _).
    - auto.
    - intros [q t] x [q1 t'] [q2 t''] Hs (A & B & C). apply x_liq_position1_frame in Hs. cbn [fst] in *.
      destruct Hs as (? & ? & ? & ? & ?). repeat split; congruence. }
  assert (g_base p3 = g_base p2 /\ vp_vb p3 = vp_vb p2 /\ po_positions (vp_comp p3) = po_positions (vp_comp p2)) as (E7 & E8 & E9).
  { unfold vp_add_upf in H6. inv_go. repeat split. }
  assert (g_base p4 = g_base p3 /\ vp_vb p4 = vp_vb p3 /\ po_positions (vp_comp p4) = po_positions (vp_comp p3)) as (E10 & E11 & E12).
  { revert H7. apply (rfold_ind _ (fun p p1 => g_base p1 = g_base p /\ vp_vb p1 = vp_vb p /\ po_positions (vp_comp p1) = po_positions (vp_comp p))).
    - auto.
    - intros s x s1 s2 Hs (A & B & C). apply x_update_pair_snaps_frame in Hs. destruct Hs as (? & ? & ? & ?). repeat split; congruence. }
  repeat split; congruence.
Qed.
Lemma x_settle_fee_oath_inv c p a o s oath a' s' : x_settle_fee_oath c p a o s oath = Ok (a', s') ->
  a' = a <| va_vb := va_vb a - b_amt oath |> /\ s' = s - b_amt oath /\ b_amt oath <= s /\ b_res oath = FEE_OATH /\
  x_assert_account_integrity c p a' o = Ok tt.
Proof.
  unfold x_settle_fee_oath, va_add_vb. intros H. bd H as (? & H0 & H). bd H as (n & Hn & H). bd H as (a1 & Ha & H).
  bd H as (? & Hg & H). bd H as ([] & Hi & H). apply Ok_inj in H. injection H as <- <-.
  inv_step H0. apply N.eqb_eq in H0. inv_step Hg. apply Z.leb_le in Hg. inv_step Hn. inv_step Ha. inv_step Hb. inv_step Hk. subst.
  split; [reflexivity|]. auto.
Qed.
Lemma x_add_base_inv p a b p' a' : x_add_base (p, a) b = Ok (p', a') ->
  p' = p <| vp_base := vp_base p + b_amt b |> <| vp_comp := vp_comp p <| po_base := po_base (vp_comp p) + b_amt b |> |>
         <| vp_vb := vp_vb p - b_amt b |> /\ a' = a <| va_vb := va_vb a + b_amt b |>.
Proof.
  unfold x_add_base. intros H. bd H as (p1 & H1 & H). apply vp_deposit_inv in H1. apply x_settle_account_inv in H. subst.
  destruct H as [-> ->]. split; reflexivity.
Qed.

(** The account address and the rules of the component. *)
Lemma sstep_addr E now c o s x s' : sstep E now c o s x s' -> va_addr (s_acc s') = va_addr (s_acc s).
Proof.
  intros H. destruct H; cbn [s_acc s_pool s_fd] in *.
  - apply x_settle_fee_oath_inv in H as [-> _]. reflexivity.
  - apply x_add_base_inv in H as [_ ->]. reflexivity.
  - apply va_deposit_frame in H as [H _]. unfold g_rq in H. congruence.
  - apply x_settle_account_inv in H1 as [_ ->]. reflexivity.
  - apply va_withdraw_frame in H as [H _]. unfold g_rq in H. congruence.
  - reflexivity.
  - apply x_settle_funding_frame in H as [H _]. unfold g_rq in H. congruence.
  - destruct q. apply x_close_position_frame in H as [H _]. unfold g_rq in H. congruence.
  - apply x_open_position_frame in H as [H _]. unfold g_rq in H. congruence.
  - apply fees_referral_frame in H as [H _]. unfold g_rq in H. congruence.
  - eapply va_try_set_addr; eauto.
  - eapply va_cancel_addr; eauto.
  - eapply va_process_addr; eauto.
  - eapply va_push_addr; eauto.
  - apply va_position_frame in H as [H _]. unfold g_rq in H. congruence.
  - apply x_liquidate_positions_frame in H as [H _]. unfold g_rq in H. congruence.
  - reflexivity.
  - apply x_settle_account_inv in H as [_ ->]. reflexivity.
  - reflexivity.
  - reflexivity.
Qed.
Lemma ssteps_addr E now c o s l s' : ssteps E now c o s l s' -> va_addr (s_acc s') = va_addr (s_acc s).
Proof. induction 1; [reflexivity|]. apply sstep_addr in H. congruence. Qed.
