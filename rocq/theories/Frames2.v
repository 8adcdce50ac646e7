(** * Session-level frames: which group of the caches each session action can change. *)
From Verif Require Import Base DFloat Lists Types Config Oracle Pool Account Fees Referral ExInternal Exchange System Sums Trace Frames Calls Shape Spec P_Ledger.

Definition touches_ref (x : sact) : bool := match x with AFees _ => true | _ => false end.
Definition touches_rq (x : sact) : bool := match x with ATrySet _ _ | ACancel _ | AProcess _ | APush _ _ _ _ | AVstart => true | _ => false end.
Definition touches_coll (x : sact) : bool := match x with ADeposit _ | AWithdraw _ => true | _ => false end.
Definition touches_pos (x : sact) : bool := match x with AFunding _ | AClose _ _ | AOpen _ _ | APosRead _ | ALiqPos => true | _ => false end.
Definition touches_rules (x : sact) : bool := match x with ALevel _ _ => true | _ => false end.
Definition touches_ppos (x : sact) : bool := match x with AUpdatePair _ | AClose _ _ | AOpen _ _ | ALiqPos => true | _ => false end.
Definition touches_base (x : sact) : bool := match x with AAddBase _ | ATakeBase _ | ADepositBase _ => true | _ => false end.

Definition frames (x : sact) (s s' : sess) : Prop :=
  (touches_ref x = false -> g_ref (s_acc s') = g_ref (s_acc s) /\ s_fd s' = s_fd s) /\
  (touches_rq x = false -> g_rq (s_acc s') = g_rq (s_acc s)) /\
  (touches_coll x = false -> g_coll (s_acc s') = g_coll (s_acc s)) /\
  (touches_pos x = false -> g_pos (s_acc s') = g_pos (s_acc s)) /\
  (touches_rules x = false -> g_rules (s_acc s') = g_rules (s_acc s)) /\
  (touches_ppos x = false -> g_ppos (s_pool s') = g_ppos (s_pool s) /\ g_snap (s_pool s') = g_snap (s_pool s)) /\
  (touches_base x = false -> g_base (s_pool s') = g_base (s_pool s)) /\
  po_positions (vp_comp (s_pool s')) = po_positions (vp_comp (s_pool s)) /\
  ac_positions (va_comp (s_acc s')) = ac_positions (va_comp (s_acc s)) /\
  ac_requests (va_comp (s_acc s')) = ac_requests (va_comp (s_acc s)) /\
  ac_active (va_comp (s_acc s')) = ac_active (va_comp (s_acc s)) /\
  ac_vstart (va_comp (s_acc s')) = ac_vstart (va_comp (s_acc s)) /\
  ac_ref (va_comp (s_acc s')) = ac_ref (va_comp (s_acc s)) /\
  va_rlen (s_acc s') = va_rlen (s_acc s).
Lemma g_rq_split v v' : g_rq v' = g_rq v -> ac_requests (va_comp v') = ac_requests (va_comp v) /\ ac_active (va_comp v') = ac_active (va_comp v) /\
  ac_vstart (va_comp v') = ac_vstart (va_comp v) /\ va_rlen v' = va_rlen v.
Proof. unfold g_rq. intros H. injection H. intros. auto. Qed.
Lemma g_pos_split v v' : g_pos v' = g_pos v -> ac_positions (va_comp v') = ac_positions (va_comp v).
Proof. unfold g_pos. intros H. injection H. auto. Qed.
Lemma g_ref_split v v' : g_ref v' = g_ref v -> ac_ref (va_comp v') = ac_ref (va_comp v).
Proof. unfold g_ref. intros H. injection H. auto. Qed.
Lemma x_settle_funding_comp p a pid p' a' f : x_settle_funding p a pid = Ok (p', a', f) -> va_comp a' = va_comp a.
Proof.
  unfold x_settle_funding. intros H. bd H as (pp & Hpp & H). bd H as ([ps fn] & Hf & H).
  bd H as (nf & Hn & H). bd H as (p1 & Hp1 & H). bd H as ([p2 a2] & Hs & H).
  apply Ok_inj in H. injection H as <- <- <-. apply x_settle_account_inv in Hs as [-> ->]. simpl.
  unfold va_set_position. simpl. destruct (va_position a pid) as [a1 pos1] eqn:Hp. apply va_position_frame in Hp. simpl in *. intuition congruence.
Qed.
Lemma x_open_position_comp c o p a pid amt p' a' fee : x_open_position c o p a pid amt = Ok (p', a', fee) -> va_comp a' = va_comp a.
Proof.
  unfold x_open_position. intros H.
  bd H as (pc & H1 & H). bd H as (fr & H2 & H). bd H as (pr & H3 & H). bd H as (va & H4 & H). bd H as (pp & H5 & H).
  bd H as (? & H6 & H). bd H as (fe & H7 & H). bd H as (co & H8 & H). bd H as (pp1 & H9 & H). bd H as (pco & H10 & H).
  bd H as (am & H11 & H). bd H as (co' & H12 & H). bd H as (p1 & H13 & H). bd H as (? & H14 & H). bd H as (? & H15 & H).
  apply Ok_inj in H. injection H as <- <- <-. reflexivity.
Qed.
Lemma x_close_position_comp c o p a pid amt p' a' q : x_close_position c o p a pid amt = Ok (p', a', q) -> va_comp a' = va_comp a.
Proof.
  unfold x_close_position. intros H.
  bd H as (pc & H1 & H). bd H as (fr & H2 & H). bd H as (pr & H3 & H). bd H as (va & H4 & H). bd H as (pp & H5 & H).
  bd H as (? & H6 & H). bd H as (? & H6' & H). bd H as (fe & H7 & H). bd H as (na & H8 & H). bd H as (ra & H9 & H).
  bd H as (co & H10 & H). bd H as (nv & H11 & H). bd H as (t & H12 & H). bd H as (pn & H13 & H). bd H as (pp1 & H14 & H).
  bd H as (pco & H15 & H). bd H as (am & H16 & H). bd H as (co' & H17 & H). bd H as ([p1 a1] & H18 & H). bd H as (p2 & H19 & H).
  apply Ok_inj in H. injection H as <- <- <-. apply x_settle_account_inv in H18 as [-> ->]. reflexivity.
Qed.
Lemma g_norq_split v v' : g_norq v' = g_norq v -> va_comp v' = va_comp v -> va_vb v' = va_vb v /\ g_pos v' = g_pos v /\ g_coll v' = g_coll v /\ g_ref v' = g_ref v /\
  g_rules v' = g_rules v /\ va_rlen v' = va_rlen v.
Proof. unfold g_norq. intros H _. injection H. intros. unfold g_pos, g_coll, g_ref, g_rules. repeat split; congruence. Qed.

Ltac split_ands := repeat match goal with H : _ /\ _ |- _ => destruct H end.
Ltac fr_done := unfold frames; cbn [s_acc s_pool s_fd touches_ref touches_rq touches_coll touches_pos touches_rules touches_ppos touches_base];
  repeat split; intros; try discriminate; try reflexivity; try congruence.

Lemma sstep_frames E now c o s x s' : sstep E now c o s x s' -> frames x s s'.
Proof.
  intros H. destruct H; cbn [s_acc s_pool s_fd] in *.
  - apply x_settle_fee_oath_inv in H as [-> _]. fr_done.
  - apply x_add_base_inv in H as [-> ->]. fr_done.
  - apply va_deposit_frame in H. split_ands. pose proof (g_rq_split _ _ ltac:(eassumption)). pose proof (g_pos_split _ _ ltac:(eassumption)).
    pose proof (g_ref_split _ _ ltac:(eassumption)). split_ands. fr_done.
  - apply x_settle_account_inv in H1 as [-> ->]. apply vp_withdraw_inv in H as [_ ->]. fr_done.
  - apply va_withdraw_frame in H. split_ands. pose proof (g_rq_split _ _ ltac:(eassumption)). pose proof (g_pos_split _ _ ltac:(eassumption)).
    pose proof (g_ref_split _ _ ltac:(eassumption)). split_ands. fr_done.
  - apply x_update_pair_frame in H. split_ands. fr_done.
  - pose proof (x_settle_funding_comp _ _ _ _ _ _ H) as Hc. apply x_settle_funding_frame in H. split_ands.
    pose proof (g_rq_split _ _ ltac:(eassumption)). split_ands.
    assert (po_positions (vp_comp p') = po_positions (vp_comp p)) by (unfold g_ppos in *; congruence). fr_done.
  - pose proof (x_close_position_comp _ _ _ _ _ _ _ _ _ H) as Hc. destruct q. apply x_close_position_frame in H. split_ands.
    pose proof (g_rq_split _ _ ltac:(eassumption)). split_ands. fr_done.
  - pose proof (x_open_position_comp _ _ _ _ _ _ _ _ _ H) as Hc. apply x_open_position_frame in H. split_ands.
    pose proof (g_rq_split _ _ ltac:(eassumption)). split_ands. fr_done.
  - destruct q as [[[q0 q1] q2] q3]. apply fees_referral_inv in H. destruct H as (fp & ft & fr & _ & _ & _ & Hp & _ & Hr & _).
    apply va_reward_frame in Hr. split_ands. pose proof (g_rq_split _ _ ltac:(eassumption)). pose proof (g_pos_split _ _ ltac:(eassumption)).
    split_ands. fr_done; rewrite ?Hp; fr_done.
  - apply va_try_set_frame in H as [H Hc]. apply g_norq_split in H; [|exact Hc]. split_ands. fr_done.
  - apply va_cancel_frame in H as [H Hc]. apply g_norq_split in H; [|exact Hc]. split_ands. fr_done.
  - apply va_process_frame in H as [H Hc]. apply g_norq_split in H; [|exact Hc]. split_ands. fr_done.
  - apply va_push_frame in H as [H Hc]. apply g_norq_split in H; [|exact Hc]. split_ands. fr_done.
  - apply va_position_frame in H. split_ands. pose proof (g_rq_split _ _ ltac:(eassumption)). split_ands. fr_done.
  - apply x_liquidate_positions_frame in H. split_ands. pose proof (g_rq_split _ _ ltac:(eassumption)). pose proof (g_ref_split _ _ ltac:(eassumption)). subst a'. fr_done.
  - apply vp_deposit_inv in H. subst p'. fr_done.
  - apply x_settle_account_inv in H as [-> ->]. fr_done.
  - fr_done.
  - unfold ac_set_level. fr_done; repeat case_match; try reflexivity.
Qed.

(** Lists of actions that leave a group alone. *)
Lemma ssteps_frame {A} E now c o (t : sact -> bool) (g : sess -> A) :
  (forall s x s', sstep E now c o s x s' -> t x = false -> g s' = g s) ->
  forall s l s', ssteps E now c o s l s' -> Forall (fun x => t x = false) l -> g s' = g s.
Proof.
  intros Hs s l s' H. induction H as [|s x s1 l s2 H1 H2 IH]; intros Hf; [reflexivity|].
  apply Forall_cons in Hf as [Hx Hf]. rewrite (IH Hf). eapply Hs; eauto.
Qed.
Lemma ssteps_frame_ref E now c o s l s' : ssteps E now c o s l s' -> Forall (fun x => touches_ref x = false) l ->
  g_ref (s_acc s') = g_ref (s_acc s) /\ s_fd s' = s_fd s.
Proof.
  intros H Hl. split.
  - revert s l s' H Hl. apply (ssteps_frame E now c o touches_ref (fun s => g_ref (s_acc s))). intros s x s' H. apply sstep_frames in H. apply H.
  - revert s l s' H Hl. apply (ssteps_frame E now c o touches_ref s_fd). intros s x s' H. apply sstep_frames in H. apply H.
Qed.
Lemma ssteps_frame_rq E now c o s l s' : ssteps E now c o s l s' -> Forall (fun x => touches_rq x = false) l -> g_rq (s_acc s') = g_rq (s_acc s).
Proof. revert s l s'. apply (ssteps_frame E now c o touches_rq (fun s => g_rq (s_acc s))). intros s x s' H. apply sstep_frames in H. apply H. Qed.
Lemma ssteps_frame_coll E now c o s l s' : ssteps E now c o s l s' -> Forall (fun x => touches_coll x = false) l -> g_coll (s_acc s') = g_coll (s_acc s).
Proof. revert s l s'. apply (ssteps_frame E now c o touches_coll (fun s => g_coll (s_acc s))). intros s x s' H. apply sstep_frames in H. apply H. Qed.
Lemma ssteps_frame_pos E now c o s l s' : ssteps E now c o s l s' -> Forall (fun x => touches_pos x = false) l -> g_pos (s_acc s') = g_pos (s_acc s).
Proof. revert s l s'. apply (ssteps_frame E now c o touches_pos (fun s => g_pos (s_acc s))). intros s x s' H. apply sstep_frames in H. apply H. Qed.
Lemma ssteps_frame_rules E now c o s l s' : ssteps E now c o s l s' -> Forall (fun x => touches_rules x = false) l -> g_rules (s_acc s') = g_rules (s_acc s).
Proof. revert s l s'. apply (ssteps_frame E now c o touches_rules (fun s => g_rules (s_acc s))). intros s x s' H. apply sstep_frames in H. apply H. Qed.
Lemma ssteps_frame_base E now c o s l s' : ssteps E now c o s l s' -> Forall (fun x => touches_base x = false) l -> g_base (s_pool s') = g_base (s_pool s).
Proof. revert s l s'. apply (ssteps_frame E now c o touches_base (fun s => g_base (s_pool s))). intros s x s' H. apply sstep_frames in H. apply H. Qed.
Lemma ssteps_frame_ppos E now c o s l s' : ssteps E now c o s l s' -> Forall (fun x => touches_ppos x = false) l ->
  g_ppos (s_pool s') = g_ppos (s_pool s) /\ g_snap (s_pool s') = g_snap (s_pool s).
Proof.
  intros H Hl. split.
  - revert s l s' H Hl. apply (ssteps_frame E now c o touches_ppos (fun s => g_ppos (s_pool s))). intros s x s' H. apply sstep_frames in H. apply H.
  - revert s l s' H Hl. apply (ssteps_frame E now c o touches_ppos (fun s => g_snap (s_pool s))). intros s x s' H. apply sstep_frames in H. apply H.
Qed.
(** What the component keeps until the caches are written back. *)
Lemma ssteps_comp E now c o s l s' : ssteps E now c o s l s' ->
  po_positions (vp_comp (s_pool s')) = po_positions (vp_comp (s_pool s)) /\
  ac_positions (va_comp (s_acc s')) = ac_positions (va_comp (s_acc s)) /\
  ac_requests (va_comp (s_acc s')) = ac_requests (va_comp (s_acc s)) /\
  ac_active (va_comp (s_acc s')) = ac_active (va_comp (s_acc s)) /\
  ac_vstart (va_comp (s_acc s')) = ac_vstart (va_comp (s_acc s)) /\
  ac_ref (va_comp (s_acc s')) = ac_ref (va_comp (s_acc s)) /\ va_rlen (s_acc s') = va_rlen (s_acc s).
Proof.
  induction 1 as [|s x s1 l s2 H1 H2 IH]; [auto 10|]. apply sstep_frames in H1. unfold frames in H1. split_ands. repeat split; congruence.
Qed.
