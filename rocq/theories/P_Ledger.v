(** * C01: the internal ledger is zero-sum. *)
From Verif Require Import Base DFloat Lists Types Config Oracle Pool Account Fees Referral ExInternal Exchange System Sums Trace Frames Calls Shape Spec.

(** The balance of the account's referral, as the session sees it. *)
Definition ref_bal (v : vacc) : Z := match va_ref v with Some d => rf_balance d | None => 0 end.
Definition sess_ledger (s : sess) : Z :=
  vp_vb (s_pool s) + va_vb (s_acc s) + fd_protocol (s_fd s) + fd_treasury (s_fd s) + ref_bal (s_acc s).
Definition act_oath (x : sact) : Z := match x with AOath b => b_amt b | _ => 0 end.

Lemma g_ref_bal v v' : g_ref v' = g_ref v -> ref_bal v' = ref_bal v.
Proof. unfold g_ref, ref_bal. intros H. injection H as _ -> _ _. reflexivity. Qed.
Lemma g_norq_ref v v' : g_norq v' = g_norq v -> g_ref v' = g_ref v /\ va_vb v' = va_vb v.
Proof. unfold g_norq. intros H. injection H. intros. unfold g_ref. split; congruence. Qed.

Lemma reward_bal v amt v' : va_reward_referral v amt = Ok v' ->
  ref_bal v' = ref_bal v + (match va_ref v with Some _ => amt | None => 0 end).
Proof. unfold va_reward_referral, ref_bal. intros H. destruct (va_ref v) as [d|] eqn:Hd; inv_go; simpl; rewrite ?Hd; lia. Qed.

Lemma sess_ledger_step E now c o s x s' : sstep E now c o s x s' -> sess_ledger s' = sess_ledger s - act_oath x.
Proof.
  intros H. unfold sess_ledger. destruct H; cbn [s_pool s_acc s_fd act_oath] in *.
  - apply x_settle_fee_oath_inv in H as (-> & _). simpl. unfold ref_bal; simpl; lia.
  - apply x_add_base_inv in H as [-> ->]. unfold ref_bal; simpl; lia.
  - apply va_deposit_frame in H as (_ & _ & Hr & _ & ->). rewrite (g_ref_bal _ _ Hr). lia.
  - apply vp_withdraw_inv in H as [_ ->]. inv_step H0. subst. apply x_settle_account_inv in H1 as [-> ->]. unfold ref_bal; simpl; lia.
  - apply va_withdraw_frame in H as (_ & _ & Hr & _ & ->). rewrite (g_ref_bal _ _ Hr). lia.
  - apply x_update_pair_frame in H as (_ & -> & _). lia.
  - apply x_settle_funding_frame in H as (_ & _ & Hr & _ & _ & _ & _ & -> & -> & _). rewrite (g_ref_bal _ _ Hr). lia.
  - destruct q. apply x_close_position_frame in H as (_ & _ & Hr & _ & -> & -> & _). rewrite (g_ref_bal _ _ Hr). lia.
  - apply x_open_position_frame in H as (_ & _ & Hr & _ & -> & _ & -> & _). rewrite (g_ref_bal _ _ Hr). lia.
  - destruct q as [[[q0 q1] q2] q3]. apply fees_referral_inv in H. destruct H as (fp & ft & fr & _ & _ & Hfr & -> & -> & Hr & _).
    pose proof (va_reward_frame _ _ _ Hr) as (_ & _ & _ & _ & -> & _). rewrite (reward_bal _ _ _ Hr). simpl.
    unfold va_fee_share_referral in Hfr. destruct (va_ref (s_acc s)); [lia|]. rewrite Z.mul_0_r in Hfr. change (Z.quot 0 E18) with 0 in Hfr. lia.
  - apply va_try_set_frame in H as [H _]. apply g_norq_ref in H as [H ->]. rewrite (g_ref_bal _ _ H). lia.
  - apply va_cancel_frame in H as [H _]. apply g_norq_ref in H as [H ->]. rewrite (g_ref_bal _ _ H). lia.
  - apply va_process_frame in H as [H _]. apply g_norq_ref in H as [H ->]. rewrite (g_ref_bal _ _ H). lia.
  - apply va_push_frame in H as [H _]. apply g_norq_ref in H as [H ->]. rewrite (g_ref_bal _ _ H). lia.
  - apply va_position_frame in H as (_ & _ & Hr & _ & -> & _). rewrite (g_ref_bal _ _ Hr). lia.
  - apply x_liquidate_positions_frame in H as (_ & _ & Hr & _ & -> & _ & -> & _). rewrite (g_ref_bal _ _ Hr). lia.
  - apply vp_deposit_inv in H as ->. simpl; lia.
  - apply x_settle_account_inv in H as [-> ->]. unfold ref_bal; simpl; lia.
  - unfold ref_bal; simpl; lia.
  - unfold ref_bal; simpl; lia.
Qed.
Lemma sess_ledger_steps E now c o s l s' : ssteps E now c o s l s' -> sess_ledger s' = sess_ledger s - oath_total l.
Proof.
  induction 1; [simpl; lia|]. apply sess_ledger_step in H. rewrite IHssteps, H. destruct x; simpl; lia.
Qed.

(** The referral of the account inside a session. *)
Definition ref_rel (v v' : vacc) : Prop :=
  va_ref_id v' = va_ref_id v /\ ac_ref (va_comp v') = ac_ref (va_comp v) /\
  (va_rewarded v = true -> va_rewarded v' = true) /\
  (va_rewarded v' = false -> va_ref v' = va_ref v) /\
  match va_ref v with
  | None => va_ref v' = None
  | Some d => exists b t, va_ref v' = Some (d <| rf_balance := b |> <| rf_total_rewarded := t |>)
  end.
Lemma ref_rel_refl v : ref_rel v v.
Proof.
  unfold ref_rel. do 2 (split; [reflexivity|]). split; [auto|]. split; [auto|]. destruct (va_ref v) as [[]|]; [|reflexivity].
  do 2 eexists. reflexivity.
Qed.
Lemma ref_rel_trans v1 v2 v3 : ref_rel v1 v2 -> ref_rel v2 v3 -> ref_rel v1 v3.
Proof.
  intros (A1 & B1 & C1 & D1 & F1) (A2 & B2 & C2 & D2 & F2). split; [congruence|]. split; [congruence|]. split; [auto|]. split.
  - intros H. rewrite D2 by exact H. apply D1. destruct (va_rewarded v2); [rewrite C2 in H by reflexivity; discriminate|reflexivity].
  - destruct (va_ref v1) as [d|].
    + destruct F1 as (b & t & F1). rewrite F1 in F2. destruct F2 as (b' & t' & F2). exists b', t'. rewrite F2. destruct d; reflexivity.
    + rewrite F1 in F2. exact F2.
Qed.
Lemma ref_rel_frame v v' : g_ref v' = g_ref v -> ref_rel v v'.
Proof.
  unfold g_ref. intros H. injection H as H1 H2 H3 H4. unfold ref_rel. rewrite H1, H2, H3, H4. apply (ref_rel_refl v).
Qed.
Lemma sstep_ref E now c o s x s' : sstep E now c o s x s' -> ref_rel (s_acc s) (s_acc s').
Proof.
  intros H. destruct H; cbn [s_pool s_acc s_fd] in *; try (match goal with |- ref_rel (s_acc _) _ => fail 1 | _ => apply ref_rel_frame end).
  - apply x_settle_fee_oath_inv in H as (-> & _). reflexivity.
  - apply x_add_base_inv in H as [_ ->]. reflexivity.
  - apply va_deposit_frame in H as (_ & _ & Hr & _). exact Hr.
  - apply x_settle_account_inv in H1 as [_ ->]. reflexivity.
  - apply va_withdraw_frame in H as (_ & _ & Hr & _). exact Hr.
  - reflexivity.
  - apply x_settle_funding_frame in H as (_ & _ & Hr & _). exact Hr.
  - destruct q. apply x_close_position_frame in H as (_ & _ & Hr & _). exact Hr.
  - apply x_open_position_frame in H as (_ & _ & Hr & _). exact Hr.
  - destruct q as [[[q0 q1] q2] q3]. apply fees_referral_inv in H. destruct H as (fp & ft & fr & _ & _ & _ & _ & _ & Hr & _).
    unfold va_reward_referral in Hr. destruct (va_ref (s_acc s)) as [d|] eqn:Hd.
    + bd Hr as (b1 & Hb1 & Hr). bd Hr as (t1 & Ht1 & Hr). apply Ok_inj in Hr. rewrite <- Hr. unfold ref_rel. simpl. rewrite Hd.
      repeat split; try discriminate; eauto.
    + apply Ok_inj in Hr. rewrite <- Hr. apply ref_rel_refl.
  - apply va_try_set_frame in H as [H _]. apply g_norq_ref in H as [H _]. exact H.
  - apply va_cancel_frame in H as [H _]. apply g_norq_ref in H as [H _]. exact H.
  - apply va_process_frame in H as [H _]. apply g_norq_ref in H as [H _]. exact H.
  - apply va_push_frame in H as [H _]. apply g_norq_ref in H as [H _]. exact H.
  - apply va_position_frame in H as (_ & _ & Hr & _). exact Hr.
  - apply x_liquidate_positions_frame in H as (_ & _ & Hr & _). exact Hr.
  - reflexivity.
  - apply x_settle_account_inv in H as [_ ->]. reflexivity.
  - reflexivity.
  - unfold ac_set_level. simpl. repeat case_match; reflexivity.
Qed.
Lemma ssteps_ref E now c o s l s' : ssteps E now c o s l s' -> ref_rel (s_acc s) (s_acc s').
Proof.
  revert s l s'. apply (ssteps_rel E now c o (fun s s' => ref_rel (s_acc s) (s_acc s'))).
  - intros; apply ref_rel_refl.
  - intros ? ? ?. apply ref_rel_trans.
  - intros ? ? ?. apply sstep_ref.
Qed.
Lemma get_acc_inv w a v : get_acc w a = Ok v -> exists acc, w_accounts w !! a = Some acc /\ va_comp v = acc /\
  va_addr v = a /\ va_positions v = ac_positions acc /\ va_coll v = ac_coll acc /\ va_vb v = ac_vb acc /\ va_vstart v = ac_vstart acc /\
  va_rlen v = kl_len (ac_requests acc) /\ va_alen v = N.of_nat (size (ac_active acc)) /\ va_pos_upd v = ∅ /\ va_req_add v = [] /\
  va_req_upd v = ∅ /\ va_act_add v = [] /\ va_act_rem v = [] /\ va_ref_id v = ac_ref acc /\ va_rewarded v = false /\
  va_ref v = (match ac_ref acc with Some id => w_refs w !! id | None => None end) /\
  (forall id, ac_ref acc = Some id -> is_Some (w_refs w !! id)).
Proof.
  unfold get_acc, va_new. intros H. bd H as (acc & H1 & H). bd H as (rd & H2 & H). apply Ok_inj in H. subst v.
  apply expect_Ok in H1. exists acc. simpl. do 16 (split; [solve [exact H1|reflexivity]|]).
  destruct (ac_ref acc) as [id|].
  - bd H2 as (d & Hd & H2). apply Ok_inj in H2. subst rd. apply expect_Ok in Hd. split; [congruence|].
    intros ? [= <-]. eauto.
  - apply Ok_inj in H2. subst. split; [reflexivity|]. discriminate.
Qed.

(** What writing the caches back does to the referrals: nothing, or balance and
    lifetime reward of the account's referral. *)
Lemma va_realize_inv v refs acc' refs' : va_realize v refs = Ok (acc', refs') ->
  acc_update (va_comp v) (va_updates v) = Ok acc' /\
  ((va_rewarded v = false /\ refs' = refs) \/
   (exists id d d0, va_rewarded v = true /\ va_ref_id v = Some id /\ va_ref v = Some d /\ refs !! id = Some d0 /\
     refs' = <[id := d0 <| rf_balance := rf_balance d |> <| rf_total_rewarded := rf_total_rewarded d |>]> refs)).
Proof.
  unfold va_realize. intros H. bd H as (r1 & H1 & H). bd H as (a1 & H2 & H). apply Ok_inj in H. injection H as <- <-.
  split; [exact H2|]. destruct (va_rewarded v).
  - right. bd H1 as (id & Hid & H1). bd H1 as (d & Hd & H1). bd H1 as (d0 & Hd0 & H1). apply Ok_inj in H1.
    apply expect_Ok in Hid, Hd, Hd0. exists id, d, d0. auto.
  - left. apply Ok_inj in H1. auto.
Qed.

Lemma acct_call_refs E w1 a l w' : acct_call E w1 a l w' ->
  w_refs w' = w_refs w1 \/ exists acc id d0 b t, w_accounts w1 !! a = Some acc /\ ac_ref acc = Some id /\ w_refs w1 !! id = Some d0 /\
    w_refs w' = <[id := d0 <| rf_balance := b |> <| rf_total_rewarded := t |>]> (w_refs w1).
Proof.
  intros [c o idsc ids v0 s1 acc' refs' Hc Ho Hv Hs Hz Hw]. rewrite Hw. unfold final_world. simpl.
  apply va_realize_inv in Hz as [_ [[_ ->]|(id & d & d0 & Hr & Hid & Hd & Hd0 & ->)]]; [left; reflexivity|right].
  apply ssteps_ref in Hs. destruct Hs as (A & B & C & D & F). cbn [s_acc] in *. apply get_acc_inv in Hv.
  destruct Hv as (acc & Ha & _ & _ & _ & _ & _ & _ & _ & _ & _ & _ & _ & _ & _ & Hvid & _). exists acc, id, d0. do 2 eexists.
  split; [exact Ha|]. split; [congruence|]. split; [exact Hd0|reflexivity].
Qed.

Lemma acct_call_ledger E w1 a l w' : acct_call E w1 a l w' -> ledger w' - w_oath w' = ledger w1 - w_oath w1.
Proof.
  intros [c o idsc ids v0 s1 acc' refs' Hc Ho Hv Hs Hz Hw]. rewrite Hw.
  pose proof (sess_ledger_steps _ _ _ _ _ _ _ Hs) as HL. pose proof (ssteps_ref _ _ _ _ _ _ _ Hs) as (A & B & C & D & F).
  apply get_acc_inv in Hv. destruct Hv as (acc & Ha & Hcomp & _ & _ & _ & Hvb & _ & _ & _ & _ & _ & _ & _ & _ & Hvid & Hrew & Href & Hex).
  unfold ledger, total_account_vb, total_referral_balance, final_world. simpl.
  apply va_realize_inv in Hz as [Hu Hz]. unfold acc_update in Hu. bd Hu as (r1 & Hr1 & Hu). bd Hu as (r2 & Hr2 & Hu). apply Ok_inj in Hu.
  rewrite (msum_insert_some _ _ _ _ _ Ha). subst acc'. simpl.
  unfold sess_ledger in HL. cbn [s_pool s_acc s_fd] in *. simpl in HL.
  assert (msum (fun _ r => rf_balance r) refs' = msum (fun _ r => rf_balance r) (w_refs w1) + (ref_bal (s_acc s1) - ref_bal v0)) as HR.
  { destruct Hz as [[Hr ->]|(id & d & d0 & Hr & Hid & Hd & Hd0 & ->)].
    - unfold ref_bal. rewrite (D Hr). lia.
    - rewrite msum_insert, Hd0. unfold ref_bal. rewrite Hd. simpl.
      assert (va_ref v0 = Some d0) as -> by (rewrite Href; rewrite <- Hvid, <- A, Hid; exact Hd0). lia. }
  rewrite HR. lia.
Qed.

Lemma gstep_ledger E cx w o out w' : gstep E cx w o out w' -> ledger w' - w_oath w' = ledger w - w_oath w.
Proof.
  intros H. destruct H; try (unfold ledger, total_account_vb, total_referral_balance; simpl; lia).
  - destruct H0 as (l & H0 & _). eapply acct_call_ledger; eauto.
  - apply acct_call_ledger in H1. rewrite H1. unfold ledger, total_account_vb, total_referral_balance, new_account_world. simpl.
    rewrite msum_insert_new by assumption. simpl. lia.
  - assert (po_vb (vp_realize p') = po_vb (w_pool w)) as Hp.
    { assert (vp_vb p' = po_vb (w_pool w)) as <-; [|reflexivity].
      change (po_vb (w_pool w)) with (vp_vb (fst (get_pool w (list_to_set ps), [] : list bool))). change p' with (fst (p', fl)).
      revert H1. apply (rfold_ind _ (fun s s' => vp_vb (fst s') = vp_vb (fst s))); [auto|].
      intros [p1 l1] k [p2 l2] s3 Hs Hr. unfold upd_pair1 in Hs. bd Hs as ([q b] & Hq & Hs). apply Ok_inj in Hs. injection Hs as <- <-.
      apply x_update_pair_frame in Hq. simpl in *. destruct Hq as (_ & Hq & _). congruence. }
    unfold ledger, total_account_vb, total_referral_balance. simpl. rewrite <- Hp. simpl. lia.
  - unfold ledger, total_account_vb, total_referral_balance, paid_world. simpl. rewrite msum_insert, H1. simpl. lia.
  - unfold ledger, total_account_vb, total_referral_balance. simpl. rewrite msum_insert, H1. simpl. lia.
  - unfold ledger, total_account_vb, total_referral_balance. simpl. rewrite msum_insert, H1. simpl. lia.
  - unfold ledger, total_account_vb, total_referral_balance. simpl. rewrite msum_insert, H. simpl. lia.
  - unfold ledger, total_account_vb, total_referral_balance. simpl. rewrite msum_insert, H. simpl. lia.
  - unfold ledger, total_account_vb, total_referral_balance. simpl. rewrite msum_insert, H1. simpl. lia.
Qed.

Lemma genesis_inv owner auth keys now w : genesis owner auth keys now = Ok w ->
  exists c, config_new = Ok c /\ w = mkW now auth owner genesis_roles c (mkOracle keys ∅) pool_new ∅ fd_new dl_new ∅ gn_new reg_new 0 0 0 0 0%N.
Proof. unfold genesis. intros H. bd H as (c & Hc & H). apply Ok_inj in H. exists c. split; [exact Hc|symmetry; exact H]. Qed.

Lemma ledger_reachable E w : reachable E w -> ledger w = w_oath w.
Proof.
  induction 1 as [owner auth keys now w Ha Hn Hg|w cx o w' out Hr IH Hs].
  - apply genesis_inv in Hg as (c & _ & ->). unfold ledger, total_account_vb, total_referral_balance. simpl. rewrite !msum_empty. reflexivity.
  - apply step_gstep, gstep_ledger in Hs. lia.
Qed.

(** Transactions. *)
Lemma run_reachable E l w w' outs : reachable E w -> run E w l = Ok (w', outs) -> reachable E w'.
Proof.
  revert w outs. induction l as [|[cx o] l IH]; intros w outs Hr H; simpl in H.
  - apply Ok_inj in H. injection H as <- <-. exact Hr.
  - bd H as ([w1 out] & H1 & H). bd H as ([w2 outs2] & H2 & H). apply Ok_inj in H. injection H as <- <-.
    eapply IH; [|exact H2]. eapply reach_step; eauto.
Qed.
Lemma tx_reachable_reachable E w : tx_reachable E w -> reachable E w /\ w_oath w = 0.
Proof.
  induction 1 as [owner auth keys now w Ha Hn Hg|w l H [IH1 IH2]].
  - split; [exact (reach_init E owner auth keys now w Ha Hn Hg)|]. apply genesis_inv in Hg as (c & _ & ->). reflexivity.
  - unfold tx. destruct (run E w l) as [[w' outs]|e] eqn:Hr; [|auto].
    destruct (w_oath w' =? 0) eqn:Hz; [|auto]. split; [eapply run_reachable; eauto|lia].
Qed.
