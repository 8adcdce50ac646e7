(** * Requests: the exact request list after each kind of call. *)
From Verif Require Import Base DFloat Lists Types Config Oracle Pool Account Fees Referral ExInternal Exchange System Sums Trace Frames Calls Shape Spec P_Ledger P_Accounts Frames2 P_Fees P_Requests P_Requests2.

(** The list after activating (1) or cancelling (3) some indexes, and after marking one. *)
Definition after_set (is_ : list N) (st : N) (f : N -> option keeper_request) (j : N) : option keeper_request :=
  match f j with
  | Some r => match try_upd st r with Some s => if decide (j ∈ is_) then Some (set_st r s) else Some r | None => Some r end
  | None => None
  end.
Definition mark (i : N) (st : N) (f : N -> option keeper_request) (j : N) : option keeper_request :=
  if decide (j = i) then (fun r => set_st r st) <$> f j else f j.

Definition touches_old (x : sact) : bool := match x with ATrySet _ _ | ACancel _ | AProcess _ => true | _ => false end.
Lemma ssteps_view_old E now c o s l s' : ssteps E now c o s l s' -> Forall (fun x => touches_old x = false) l ->
  forall j, (j < va_rlen (s_acc s))%N -> rview (s_acc s') j = rview (s_acc s) j.
Proof.
  induction 1 as [|s x s1 l s2 H1 H2 IH]; intros Hf j Hj; [reflexivity|]. apply Forall_cons in Hf as [Hx Hf].
  pose proof (sstep_frames _ _ _ _ _ _ _ H1) as Hfr. assert (va_rlen (s_acc s1) = va_rlen (s_acc s)) as Hlen by (apply Hfr).
  rewrite IH; [|exact Hf|lia]. destruct (touches_rq x) eqn:Ht; [|apply rview_frame; apply Hfr; exact Ht].
  destruct H1; try discriminate; simpl in *.
  - apply push_inv in H. destruct H as (kr & i & _ & _ & _ & _ & _ & ->). unfold rview. simpl. apply N.ltb_lt in Hj. rewrite Hj. reflexivity.
  - reflexivity.
Qed.
Lemma rview_new w a v0 acc j : get_acc w a = Ok v0 -> va_comp v0 = acc -> acc_ok acc -> rview v0 j = kl_get (ac_requests acc) j.
Proof.
  intros Hv Hc Hok. apply get_acc_inv in Hv. destruct Hv as (acc1 & _ & Hc1 & _ & _ & _ & _ & Hvs & Hrl & Hal & _ & Hra & Hru & _).
  rewrite Hc in Hc1. subst acc1. unfold rview. rewrite Hru, lookup_empty, Hrl, Hra, Hc.
  destruct (N.ltb_spec j (kl_len (ac_requests acc))) as [Hj|Hj]; [reflexivity|]. destruct (kl_get (ac_requests acc) j) eqn:Hg; [|reflexivity].
  exfalso. assert (j < kl_len (ac_requests acc))%N; [|lia]. apply Hok. unfold kl_get in Hg. rewrite Hg. eauto.
Qed.
(** Calls other than process and cancel leave the submitted requests alone. *)
Definition op_old (o : op) : bool := match o with OProcessRequest _ _ _ | OCancelRequests _ _ _ => true | _ => false end.
Lemma op_acts_old w o out l : op_acts w o out l -> op_old o = false -> Forall (fun x => touches_old x = false) l.
Proof.
  assert (forall oath, Forall (fun x => touches_old x = false) (oath_acts oath)) as Hoath by (intros []; repeat constructor).
  assert (forall l, Forall is_push l -> Forall (fun x => touches_old x = false) l) as Hpush.
  { intros k H. eapply Forall_impl; [exact H|]. intros [] Hx; simpl in *; tauto. }
  destruct o; simpl; intros H Hx; try discriminate Hx; try tauto; split_ands;
    try (match goal with H : exists _, _ |- _ => destruct H as (acc & H) end; split_ands); subst;
    try (apply Forall_app; split; [apply Hoath|repeat constructor]; fail).
  - apply Forall_app. split; [|apply Hoath]. unfold add_acts. apply Forall_app. split; [|repeat constructor].
    apply Forall_forall. intros x Hy. apply elem_of_list_fmap in Hy as (b & -> & _). reflexivity.
  - destruct H0 as (can & ->). apply Forall_app. split; [apply Hoath|repeat constructor].
  - apply Forall_app. split; [apply Hoath|auto].
  - destruct H0 as (v & tk & -> & _). repeat constructor.
  - destruct H0 as (bs & st & lo & fee & -> & Hlo & _). repeat (constructor; [reflexivity|]). apply Forall_app. split; [|repeat constructor].
    destruct Hlo as [->|[x ->]]; repeat constructor.
  - destruct H as (fee & -> & _). repeat constructor.
Qed.
Lemma old_step E cx w o w' out a acc : reachable E w -> step E cx w o = Ok (w', out) -> w_accounts w !! a = Some acc ->
  op_old o = false \/ op_account o <> Some a ->
  exists acc', w_accounts w' !! a = Some acc' /\ forall j, (j < kl_len (ac_requests acc))%N -> kl_get (ac_requests acc') j = kl_get (ac_requests acc) j.
Proof.
  intros Hr Hs Ha Hcase. destruct (step_account _ _ _ _ _ _ a Hs) as [Heq|[[Ho Hsp]|Hcr]].
  - exists acc. rewrite Heq. auto.
  - destruct Hcase as [Hold|Hne]; [|contradiction].
    destruct Hsp as (l & Hl & Hac & _). pose proof (acct_call_self _ _ _ _ _ Hl) as (_ & (acc' & Hacc') & _). exists acc'. split; [exact Hacc'|].
    pose proof (acc_ok_reachable _ _ Hr _ _ Ha) as Hok.
    destruct (rq_call _ _ _ _ _ _ _ Hl (op_acts_shape _ _ _ _ Hac) Ha Hacc' Hok) as (c & orc & idsc & ids & v0 & s1 & _ & Hv & Hcomp & Hss & _ & _ & E1 & E2 & E3 & U1 & U2 & U3 & U4 & _).
    intros j Hj. rewrite U3. pose proof (ssteps_comp _ _ _ _ _ _ _ Hss) as (_ & _ & _ & _ & _ & _ & E4). cbn [s_acc] in E4.
    rewrite (ssteps_view_old _ _ _ _ _ _ _ Hss (op_acts_old _ _ _ _ Hac Hold)); cbn [s_acc]; [|lia]. eapply rview_new; eauto.
  - destruct Hcr as (oath & rule & ts & code & ref & g & more & _ & Hnone & _). congruence.
Qed.
Lemma ssteps_app_inv E now c o l k s s2 : ssteps E now c o s (l ++ k) s2 -> exists s1, ssteps E now c o s l s1 /\ ssteps E now c o s1 k s2.
Proof.
  revert s. induction l as [|x l IH]; intros s H; simpl in H; [exists s; split; [constructor|exact H]|].
  inversion H as [|? ? s1 ? ? Hx Hl]; subst. apply IH in Hl as (s3 & H1 & H2). exists s3. split; [econstructor; eauto|exact H2].
Qed.
(** Cancellation. *)
Lemma view_after_set v is_ st v' f : view_after v is_ (try_upd st) v' -> (forall j, rview v j = f j) -> forall j, rview v' j = after_set is_ st f j.
Proof. intros (_ & H & _) Hf j. rewrite H, Hf. reflexivity. Qed.
Lemma after_set_ext is_ st f g j : f j = g j -> after_set is_ st f j = after_set is_ st g j.
Proof. unfold after_set. intros ->. reflexivity. Qed.
Lemma cancel_step E cx w oath a is_ w' out : reachable E w -> step E cx w (OCancelRequests oath a is_) = Ok (w', out) ->
  exists acc acc', w_accounts w !! a = Some acc /\ w_accounts w' !! a = Some acc' /\
    (forall j, j ∈ is_ -> exists r, kl_get (ac_requests acc) j = Some r /\ pend r = true) /\
    (forall j, kl_get (ac_requests acc') j = after_set is_ STATUS_CANCELLED (kl_get (ac_requests acc)) j) /\
    kl_len (ac_requests acc') = kl_len (ac_requests acc) /\ ac_vstart acc' = ac_vstart acc.
Proof.
  intros Hr Hs. pose proof (step_acct _ _ _ _ _ _ a Hs eq_refl) as Hsp. destruct Hsp as (l & Hl & Hac & _). pose proof (acct_call_self _ _ _ _ _ Hl) as ((acc & Ha) & (acc' & Ha') & _).
  exists acc, acc'. split; [exact Ha|]. split; [exact Ha'|]. pose proof (acc_ok_reachable _ _ Hr _ _ Ha) as Hok.
  destruct (rq_call _ _ _ _ _ _ _ Hl (op_acts_shape _ _ _ _ Hac) Ha Ha' Hok) as (c & orc & idsc & ids & v0 & s1 & _ & Hv & Hcomp & Hss & Hrq0 & _ & E1 & E2 & E3 & U1 & U2 & U3 & U4 & _).
  simpl in Hac. destruct Hac as [_ ->].
  assert (exists s0, ssteps E (w_now w) c orc (mkS (get_pool w ids) v0 (w_fd w)) (oath_acts oath) s0 /\ sstep E (w_now w) c orc s0 (ACancel is_) s1) as (s0 & H0 & H1).
  { apply ssteps_app_inv in Hss as (s0 & S1 & S2). exists s0. split; [exact S1|]. inversion S2 as [|? ? ? ? ? X1 X2]; subst. inversion X2; subst. exact X1. }
  assert (g_rq (s_acc s0) = g_rq v0) as Hg. { eapply (ssteps_frame_rq _ _ _ _ _ _ _ H0). destruct oath; repeat constructor. }
  assert (rq_ok fwd (s_acc s0)) as Hok0. { eapply rq_ok_frame; [|exact Hg]. apply (rq_ok_weaken pm); [unfold pm, fwd; tauto|exact Hrq0]. }
  inversion H1 as [| | | | | | | | | | |p2 a2 fd2 is2 a2' Hcan| | | | | | | |]; subst. cbn [s_acc] in *.
  eapply (cancel_inv fwd) in Hcan; [|apply mv_fwd|apply fwd_mv|exact Hok0]. destruct Hcan as (_ & Hv2 & Hp).
  assert (forall j, rview a2 j = kl_get (ac_requests (va_comp v0)) j) as Hbase. { intros j. rewrite (rview_frame _ _ _ Hg). eapply rview_new; eauto. }
  split; [|split; [|split]].
  - intros j Hj. destruct (Hp j Hj) as (r & Hkr & Hpr). exists r. split; [|exact Hpr]. apply kr_view in Hkr as [Hkr _]; [|eapply rq_ok_weaken; [|exact Hok0]; auto]. rewrite Hbase in Hkr. exact Hkr.
  - intros j. rewrite U3. apply (view_after_set _ _ _ _ _ Hv2). exact Hbase.
  - destruct Hv2 as (_ & _ & _ & _ & Had & _). rewrite U2, Had. unfold g_rq in Hg. injection Hg as G1 G2 G3 G4 G5 G6 G7 G8 G9 G10 G11.
    rewrite G8. apply get_acc_inv in Hv. destruct Hv as (? & _ & _ & _ & _ & _ & _ & _ & _ & _ & _ & Hra & _). rewrite Hra. simpl. lia.
  - destruct Hv2 as (_ & _ & _ & _ & _ & Hvs & _). rewrite U4, Hvs. unfold g_rq in Hg. injection Hg as G1 G2 G3 G4 G5 G6 G7 G8 G9 G10 G11.
    rewrite G5. apply get_acc_inv in Hv. destruct Hv as (? & _ & Hx & _ & _ & _ & _ & Hvs2 & _). congruence.
Qed.
(** Processing. *)
Definition order_targets (ro : req_order) : list N := ro_activate ro ++ ro_cancel ro.
Definition exec_view (r : keeper_request) (i : N) (f : N -> option keeper_request) (g : N -> option keeper_request) : Prop :=
  match kr_request r with
  | RRemove _ => forall j, g j = mark i STATUS_EXECUTED f j
  | ROrder ro => (forall j, j ∈ order_targets ro -> is_Some (f j)) /\
      forall j, g j = after_set (ro_cancel ro) STATUS_CANCELLED (after_set (ro_activate ro) STATUS_ACTIVE (mark i STATUS_EXECUTED f)) j
  end.
Lemma process_step E cx w a i upd w' out : reachable E w -> step E cx w (OProcessRequest a i upd) = Ok (w', out) ->
  exists acc acc' r, w_accounts w !! a = Some acc /\ w_accounts w' !! a = Some acc' /\ kl_get (ac_requests acc) i = Some r /\
    (ac_vstart acc <= i)%N /\ kr_submission r < w_now w /\
    kl_len (ac_requests acc') = kl_len (ac_requests acc) /\ ac_vstart acc' = ac_vstart acc /\
    ((kr_expiry r <= w_now w /\ pend r = true /\ forall j, kl_get (ac_requests acc') j = mark i STATUS_EXPIRED (kl_get (ac_requests acc)) j) \/
     (w_now w < kr_expiry r /\ kr_status r = STATUS_ACTIVE /\ exec_view r i (kl_get (ac_requests acc)) (kl_get (ac_requests acc')))).
Proof.
  intros Hr Hs. pose proof (step_acct _ _ _ _ _ _ a Hs eq_refl) as Hsp. destruct Hsp as (l & Hl & Hac & _). pose proof (acct_call_self _ _ _ _ _ Hl) as ((acc & Ha) & (acc' & Ha') & _).
  pose proof (acc_ok_reachable _ _ Hr _ _ Ha) as Hok.
  destruct (rq_call _ _ _ _ _ _ _ Hl (op_acts_shape _ _ _ _ Hac) Ha Ha' Hok) as (c & orc & idsc & ids & v0 & s1 & _ & Hv & Hcomp & Hss & Hrq0 & Hend & E1 & E2 & E3 & U1 & U2 & U3 & U4 & _).
  simpl in Hac. destruct Hac as (v0' & v1 & rq & ex & l' & Hv' & Hpr & Hex & -> & _). rewrite Hv in Hv'. apply Ok_inj in Hv'. subst v0'.
  inversion Hss as [|? ? s2 ? ? Hx Hrest]; subst. inversion Hx as [| | | | | | | | | | | |p2 a2 fd2 i2 a2' rq2 ex2 Hpr2| | | | | | |]; subst.
  rewrite Hpr in Hpr2. apply Ok_inj in Hpr2. injection Hpr2 as <- <- <-.
  pose proof (process_ok _ _ _ _ _ _ Hpr Hrq0) as Hok1.
  apply process_inv in Hpr as (r & st & Hkr & Hvs & Hrq & Hsub & Hpm & Hst & Hact & Hexp & Hset).
  assert (rq_ok (fun _ _ => True) v0) as Hrqt by (eapply rq_ok_weaken; [|exact Hrq0]; auto).
  pose proof (kr_view _ _ _ Hrqt Hkr) as [Hkv _]. pose proof (fun j => rview_new _ _ _ _ j Hv eq_refl Hok) as Hbase. rewrite Hbase in Hkv.
  pose proof (fun j => set_one_view _ _ _ _ _ j Hrqt Hkr Hset) as Hsv.
  assert (forall j, rview v1 j = mark i st (kl_get (ac_requests (va_comp v0))) j) as Hv1.
  { intros j. destruct (Hsv j) as (Hj & _). rewrite Hj. unfold mark. case_decide as Hd; [subst j; rewrite Hkv; reflexivity|apply Hbase]. }
  destruct (Hsv 0%N) as (_ & L1 & L2 & L3 & L4 & _).
  pose proof (get_acc_inv _ _ _ Hv) as (acc0 & _ & Hc0 & _ & _ & _ & _ & Hvs2 & _ & _ & _ & Hra & _). subst acc0.
  rewrite Hra in L3. rewrite Hvs2 in L4, Hvs.
  exists (va_comp v0), acc', r. split; [exact Ha|]. split; [exact Ha'|]. split; [exact Hkv|]. split; [exact Hvs|]. split; [exact Hsub|].
  assert (forall k s s', ssteps E (w_now w) c orc s k s' -> Forall (fun x => touches_rq x = false) k -> g_rq (s_acc s') = g_rq (s_acc s)) as Hfr by (intros; eapply ssteps_frame_rq; eauto).
  destruct ex; simpl in Hex, Hst; subst st.
  - destruct Hex as [-> _]. inversion Hrest; subst. cbn [s_acc] in *. split; [rewrite U2, L3; simpl; lia|]. split; [congruence|]. left.
    symmetry in Hexp. apply Z.leb_le in Hexp. split; [exact Hexp|]. split; [apply is_pending_spec; unfold pm, pendP in *; tauto|].
    intros j. rewrite U3. apply Hv1.
  - specialize (Hact eq_refl). symmetry in Hexp. apply Z.leb_gt in Hexp. rewrite <- Hrq in Hex. destruct (kr_request r) as [rm|ro] eqn:Hrqe.
    + destruct Hex as (k & bs & -> & _).
      assert (g_rq (s_acc s1) = g_rq v1) as Hg.
      { apply (Hfr _ _ _ Hrest). apply Forall_app. split; [|repeat constructor]. apply Forall_forall. intros x Hy. apply elem_of_list_fmap in Hy as (b & -> & _). reflexivity. }
      pose proof (fun j => rview_frame _ _ j Hg) as Hvw. unfold g_rq in Hg. injection Hg as G1 G2 G3 G4 G5 G6 G7 G8 G9 G10 G11.
      split; [rewrite U2, G8, L3; simpl; lia|]. split; [congruence|]. right. split; [exact Hexp|]. split; [exact Hact|].
      unfold exec_view. rewrite Hrqe. intros j. rewrite U3, Hvw. apply Hv1.
    + destruct Hex as (l0 & fee & -> & Hl0 & _).
      match type of Hrest with ssteps ?e ?n ?c ?o ?s _ ?s' =>
        assert (ssteps e n c o s ((AUpdatePair (ro_pair ro) :: AFunding (ro_pair ro) :: l0) ++ [AFees fee; ATrySet (ro_activate ro) STATUS_ACTIVE; ATrySet (ro_cancel ro) STATUS_CANCELLED]) s') as Hrest2 by exact Hrest end.
      apply ssteps_app_inv in Hrest2 as (s2' & R0 & R2'). inversion R2' as [|? ? s3 ? ? X0 R2]; subst.
      pose proof (ssteps_snoc _ _ _ _ _ _ _ _ _ R0 X0) as R1.
      assert (g_rq (s_acc s3) = g_rq v1) as Hg.
      { apply (Hfr _ _ _ R1). apply Forall_app. split; [|repeat constructor]. repeat (constructor; [reflexivity|]).
        eapply Forall_impl; [exact Hl0|]. intros [] Hy; simpl in *; tauto. }
      pose proof (fun j => rview_frame _ _ j Hg) as Hvw3.
      assert (rq_ok fwd (s_acc s3)) as Hok3 by (eapply rq_ok_frame; [exact Hok1|exact Hg]).
      inversion R2 as [|? ? s4 ? ? X1 R3]; subst. inversion R3 as [|? ? s5 ? ? X2 R4]; subst. inversion R4; subst.
      inversion X1 as [| | | | | | | | | |p4 a4 fd4 is4 st4 a4' l4 T1| | | | | | | | |]; subst.
      inversion X2 as [| | | | | | | | | |p5 a5 fd5 is5 st5 a5' l5 T2| | | | | | | | |]; subst. cbn [s_acc] in *.
      eapply (try_set_inv fwd) in T1; [|apply mv_fwd|apply fwd_mv|left; reflexivity|exact Hok3]. destruct T1 as [Hok4 V1].
      eapply (try_set_inv fwd) in T2; [|apply mv_fwd|apply fwd_mv|right; reflexivity|exact Hok4]. destruct T2 as [Hok5 V2].
      pose proof V1 as (X1a & X1b & X1c & X1d & X1e & X1f & _). pose proof V2 as (X2a & X2b & X2c & X2d & X2e & X2f & _).
      unfold g_rq in Hg. injection Hg as G1 G2 G3 G4 G5 G6 G7 G8 G9 G10 G11.
      split; [rewrite U2, X2e, X1e, G8, L3; simpl; lia|]. split; [congruence|]. right. split; [exact Hexp|]. split; [exact Hact|].
      assert (forall j, rview a4 j = mark i STATUS_EXECUTED (kl_get (ac_requests (va_comp v0))) j) as B0 by (intros j; rewrite Hvw3; apply Hv1).
      pose proof (view_after_set _ _ _ _ _ V1 B0) as B1. pose proof (view_after_set _ _ _ _ _ V2 B1) as B2.
      unfold exec_view. rewrite Hrqe. split; [|intros j; rewrite U3; apply B2].
      assert (forall j, is_Some (rview a4 j) -> is_Some (kl_get (ac_requests (va_comp v0)) j)) as M0.
      { intros j. rewrite B0. unfold mark. case_decide; [|auto]. intros [x Hx2]. destruct (kl_get (ac_requests (va_comp v0)) j); [eauto|discriminate]. }
      intros j Hj. apply elem_of_app in Hj as [Hj|Hj].
      * apply M0. destruct (X1a j Hj) as (r1 & Hr1). apply kr_view in Hr1 as [Hr1 _]; [eauto|]. eapply rq_ok_weaken; [|exact Hok3]; auto.
      * apply M0. destruct (X2a j Hj) as (r1 & Hr1). apply kr_view in Hr1 as [Hr1 _]; [|eapply rq_ok_weaken; [|exact Hok4]; auto].
        rewrite B1 in Hr1. rewrite B0. unfold after_set in Hr1. destruct (mark i STATUS_EXECUTED _ j); [eauto|discriminate].
Qed.
