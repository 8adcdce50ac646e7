(** * Requests, account level: what each call does to the request list of an account. *)
From Verif Require Import Base DFloat Lists Types Config Oracle Pool Account Fees Referral ExInternal Exchange System Sums Trace Frames Calls Shape Spec P_Ledger P_Accounts Frames2 P_Fees P_Requests.

Lemma step_acct E cx w o w' out a : step E cx w o = Ok (w', out) -> op_account o = Some a -> acct_spec E w a o out w'.
Proof.
  intros H Ho. apply step_gstep in H. destruct H; try discriminate Ho; try congruence.
  - destruct o; discriminate.
  - destruct o; discriminate.
Qed.
Definition rq_shape (l : list sact) : Prop := Forall notproc l \/ exists i l', l = AProcess i :: l' /\ Forall notproc l'.
Lemma notproc_oath oath : Forall notproc (oath_acts oath).
Proof. destruct oath; repeat constructor. Qed.
Lemma notproc_push l : Forall is_push l -> Forall notproc l.
Proof. intros H. eapply Forall_impl; [exact H|]. intros [] Hx; simpl in *; tauto. Qed.
Lemma notproc_add ts : Forall notproc (add_acts ts).
Proof.
  unfold add_acts. apply Forall_app. split; [|repeat constructor]. apply Forall_forall. intros x Hx. apply elem_of_list_fmap in Hx as (b & -> & _). exact I.
Qed.
Lemma notproc_exec ex rq pay l : exec_acts ex rq pay l -> Forall notproc l.
Proof.
  unfold exec_acts. destruct ex; [intros [-> _]; constructor|]. destruct rq as [r|r].
  - intros (k & bs & -> & _). apply Forall_app. split; [|repeat constructor]. apply Forall_forall. intros x Hx. apply elem_of_list_fmap in Hx as (b & -> & _). exact I.
  - intros (l0 & fee & -> & Hl & _). repeat (constructor; [exact I|]). apply Forall_app. split.
    + eapply Forall_impl; [exact Hl|]. intros [] Hx; simpl in *; tauto.
    + constructor; [exact I|]. constructor; [left; reflexivity|]. constructor; [right; reflexivity|constructor].
Qed.
Lemma op_acts_shape w o out l : op_acts w o out l -> rq_shape l.
Proof.
  destruct o; simpl; intros H; try tauto; split_ands;
    try (match goal with H : exists _, _ |- _ => destruct H as (acc & H) end; split_ands); subst;
    try (left; apply Forall_app; split; [apply notproc_oath|repeat constructor]; fail).
  - left. apply Forall_app. split; [apply notproc_add|apply notproc_oath].
  - destruct H0 as (can & ->). left. apply Forall_app. split; [apply notproc_oath|repeat constructor].
  - left. apply Forall_app. split; [apply notproc_oath|apply notproc_push; assumption].
  - destruct H as (v1 & rq & ex & l' & _ & _ & Hx & -> & _). right. exists i, l'. split; [reflexivity|]. eapply notproc_exec; eauto.
  - destruct H0 as (v & tk & -> & _). left. repeat constructor.
  - destruct H0 as (bs & st & lo & fee & -> & Hlo & _). left. repeat (constructor; [exact I|]). apply Forall_app. split; [|repeat constructor].
    destruct Hlo as [->|[x ->]]; repeat constructor.
  - destruct H as (fee & -> & _). left. repeat constructor.
Qed.

Lemma rq_call E w a l w' acc acc' : acct_call E w a l w' -> rq_shape l -> w_accounts w !! a = Some acc -> w_accounts w' !! a = Some acc' -> acc_ok acc ->
  exists c o idsc ids v0 s1, get_config w idsc = Ok c /\ get_acc w a = Ok v0 /\ va_comp v0 = acc /\
    ssteps E (w_now w) c o (mkS (get_pool w ids) v0 (w_fd w)) l s1 /\ rq_ok pm v0 /\ rq_ok fwd (s_acc s1) /\
    ac_requests (va_comp (s_acc s1)) = ac_requests acc /\ ac_vstart (va_comp (s_acc s1)) = ac_vstart acc /\ va_rlen (s_acc s1) = kl_len (ac_requests acc) /\
    acc_ok acc' /\ kl_len (ac_requests acc') = (kl_len (ac_requests acc) + N.of_nat (length (va_req_add (s_acc s1))))%N /\
    (forall i, kl_get (ac_requests acc') i = rview (s_acc s1) i) /\ ac_vstart acc' = va_vstart (s_acc s1) /\
    (va_vstart (s_acc s1) = ac_vstart acc -> va_act_rem (s_acc s1) = [] -> N.of_nat (size (ac_active acc')) = va_alen (s_acc s1)).
Proof.
  intros H Hsh Ha Ha' Hok. destruct (acct_call_out _ _ _ _ _ _ _ H Ha Ha') as (c & o & idsc & ids & v0 & s1 & refs' & Hc & _ & Hv & Hcomp & Hs & _ & Hu).
  assert (forall R, rq_ok R v0) as Hall. { intros R. eapply rq_ok_new; [exact Hv|]. rewrite Hcomp. exact Hok. }
  assert (rq_ok fwd (s_acc s1)) as Hend.
  { destruct Hsh as [Hf|(i & l' & -> & Hf)].
    - eapply ssteps_rq; [apply mv_fwd|apply fwd_mv|exact Hs|exact Hf|apply Hall].
    - inversion Hs as [|? ? s2 ? ? Hx Hr]; subst. eapply ssteps_rq; [apply mv_fwd|apply fwd_mv|exact Hr|exact Hf|].
      inversion Hx; subst. simpl. eapply process_ok; [eassumption|apply Hall]. }
  pose proof (ssteps_comp _ _ _ _ _ _ _ Hs) as (_ & _ & E1 & _ & E2 & _ & E3). cbn [s_acc] in E1, E2, E3. rewrite Hcomp in E1, E2.
  assert (va_rlen v0 = kl_len (ac_requests acc)) as E4. { rewrite <- Hcomp. apply (Hall fwd). }
  apply (acc_update_rq fwd) in Hu; [|unfold fwd, pendP; tauto|exact Hend]. destruct Hu as (U1 & U2 & U3 & U4 & U5).
  exists c, o, idsc, ids, v0, s1. rewrite E3, E4 in U2. rewrite E2 in U5. repeat (split; [solve [assumption|apply Hall|congruence]|]). exact U5.
Qed.

(** Summary used for histories. *)
Record rq_rel (acc acc' : account) : Prop := {
  rr_old : forall i r, kl_get (ac_requests acc) i = Some r -> exists s, kl_get (ac_requests acc') i = Some (set_st r s) /\ (s = kr_status r \/ fwd (kr_status r) s);
  rr_len : (kl_len (ac_requests acc) <= kl_len (ac_requests acc'))%N;
  rr_new : forall i r, kl_get (ac_requests acc') i = Some r -> (kl_len (ac_requests acc) <= i)%N -> pend r = true;
  rr_vs : ac_vstart acc' = ac_vstart acc \/ ac_vstart acc' = kl_len (ac_requests acc) }.
Lemma rq_call_rel E w a l w' acc acc' : acct_call E w a l w' -> rq_shape l -> w_accounts w !! a = Some acc -> w_accounts w' !! a = Some acc' -> acc_ok acc ->
  acc_ok acc' /\ rq_rel acc acc'.
Proof.
  intros H Hsh Ha Ha' Hok. destruct (rq_call _ _ _ _ _ _ _ H Hsh Ha Ha' Hok) as (c & o & idsc & ids & v0 & s1 & _ & _ & _ & _ & _ & Hend & E1 & E2 & E3 & U1 & U2 & U3 & U4 & _).
  split; [exact U1|]. destruct Hend as [A1 A2 A3 A4 A5 A6 A7 A8 A9 A10]. split.
  - intros i r Hr. rewrite U3. unfold rview. destruct (va_req_upd (s_acc s1) !! i) as [r1|] eqn:Hu.
    + apply A3 in Hu as (r0 & Hr0 & He & Hf). rewrite E1, Hr in Hr0. injection Hr0 as <-. exists (kr_status r1). split; [congruence|auto].
    + exists (kr_status r). rewrite set_st_id. split; [|auto]. assert (i < va_rlen (s_acc s1))%N as Hi.
      { rewrite E3. apply Hok. unfold kl_get in Hr. rewrite Hr. eauto. }
      apply N.ltb_lt in Hi. rewrite Hi, E1. exact Hr.
  - lia.
  - intros i r Hr Hi. rewrite U3 in Hr. unfold rview in Hr. destruct (va_req_upd (s_acc s1) !! i) as [r1|] eqn:Hu.
    + apply A3 in Hu as (r0 & Hr0 & _). rewrite E1 in Hr0. assert (i < kl_len (ac_requests acc))%N; [|lia]. apply Hok. unfold kl_get in Hr0. rewrite Hr0. eauto.
    + rewrite E3 in Hr. destruct (N.ltb_spec i (kl_len (ac_requests acc))); [lia|]. apply A4. eapply elem_of_list_lookup_2. exact Hr.
  - rewrite U4. destruct A9 as [A9|A9]; [left|right]; congruence.
Qed.
Lemma rq_rel_refl acc : acc_ok acc -> rq_rel acc acc.
Proof.
  intros Hok. split.
  - intros i r Hr. exists (kr_status r). rewrite set_st_id. auto.
  - lia.
  - intros i r Hr Hi. exfalso. assert (i < kl_len (ac_requests acc))%N; [|lia]. apply Hok. unfold kl_get in Hr. rewrite Hr. eauto.
  - auto.
Qed.
Lemma acc_new_ok r1 r2 r3 ref : acc_ok (acc_new r1 r2 r3 ref).
Proof.
  split; simpl.
  - intros i. simpl. rewrite lookup_empty. split; [intros [? Hx]; discriminate|lia].
  - unfold kl_len. simpl. lia.
  - intros i. unfold kl_get. simpl. rewrite lookup_empty. split; [intros Hi; apply not_elem_of_empty in Hi; contradiction|]. intros (_ & r & Hr & _). discriminate.
Qed.
Lemma created_acc E w o a w' acc' : created E w o a w' -> w_accounts w' !! a = Some acc' ->
  acc_ok acc' /\ ac_requests acc' = kl_new /\ w_accounts w !! a = None.
Proof.
  intros (oath & rule & ts & code & ref & g & more & _ & Hnone & _ & Hl) Ha'.
  assert (w_accounts (new_account_world E w rule a ref g) !! a = Some (acc_new rule rule rule ref)) as Ha by (simpl; apply lookup_insert).
  assert (Forall (fun x => touches_rq x = false) (add_acts (ts ++ more) ++ oath_acts oath)) as Hf.
  { apply Forall_app. split; [|destruct oath; repeat constructor]. unfold add_acts. apply Forall_app. split; [|repeat constructor].
    apply Forall_forall. intros x Hx. apply elem_of_list_fmap in Hx as (b & -> & _). reflexivity. }
  destruct (acct_call_out _ _ _ _ _ _ _ Hl Ha Ha') as (c & o' & idsc & ids & v0 & s1 & refs' & Hc & _ & Hv & Hcomp & Hs & _ & Hu).
  pose proof (ssteps_frame_rq _ _ _ _ _ _ _ Hs Hf) as Hg. cbn [s_acc] in Hg.
  assert (rq_ok fwd (s_acc s1)) as Ho. { eapply rq_ok_frame; [|exact Hg]. eapply rq_ok_new; [exact Hv|]. rewrite Hcomp. apply acc_new_ok. }
  pose proof Hu as Hu2. apply (acc_update_rq fwd) in Hu; [|unfold fwd, pendP; tauto|exact Ho]. destruct Hu as (U1 & U2 & U3 & U4 & U5).
  split; [exact U1|]. split; [|exact Hnone].
  unfold acc_update in Hu2. apply get_acc_inv in Hv. destruct Hv as (acc & _ & Hc1 & _ & _ & _ & _ & Hvs & Hrl & Hal & _ & Hra & Hru & _).
  unfold g_rq in Hg. injection Hg as G1 G2 G3 G4 G5 G6 G7 G8 G9 G10 G11.
  unfold va_updates in Hu2. simpl in Hu2. rewrite G8, G9, Hra, Hru, map_to_list_empty in Hu2. simpl in Hu2. apply Ok_inj in Hu2. subst acc'. simpl. rewrite G2, Hcomp. reflexivity.
Qed.
Theorem acc_ok_reachable E w : reachable E w -> forall a acc, w_accounts w !! a = Some acc -> acc_ok acc.
Proof.
  intros Hr. induction Hr as [owner auth keys now w Ha Hn Hg|w cx o w' out Hr IH Hs].
  - apply genesis_inv in Hg as (c & _ & ->). simpl. intros a acc H. rewrite lookup_empty in H. discriminate.
  - intros a acc' H'. destruct (step_account _ _ _ _ _ _ a Hs) as [Heq|[[Ho Hsp]|Hcr]].
    + rewrite Heq in H'. eauto.
    + destruct Hsp as (l & Hl & Hac & _). pose proof (acct_call_self _ _ _ _ _ Hl) as ((acc & Hacc) & _ & _).
      eapply rq_call_rel; [exact Hl|eapply op_acts_shape; eauto|exact Hacc|exact H'|eauto].
    + eapply created_acc; eauto.
Qed.
Lemma step_rq E cx w o w' out a acc : reachable E w -> step E cx w o = Ok (w', out) -> w_accounts w !! a = Some acc ->
  exists acc', w_accounts w' !! a = Some acc' /\ acc_ok acc' /\ rq_rel acc acc'.
Proof.
  intros Hr Hs Ha. pose proof (acc_ok_reachable _ _ Hr _ _ Ha) as Hok. destruct (step_account _ _ _ _ _ _ a Hs) as [Heq|[[Ho Hsp]|Hcr]].
  - exists acc. rewrite Heq. split; [exact Ha|]. split; [exact Hok|]. apply rq_rel_refl. exact Hok.
  - destruct Hsp as (l & Hl & Hac & _). pose proof (acct_call_self _ _ _ _ _ Hl) as (_ & (acc' & Hacc') & _).
    exists acc'. split; [exact Hacc'|]. eapply rq_call_rel; [exact Hl|eapply op_acts_shape; eauto|exact Ha|exact Hacc'|exact Hok].
  - destruct Hcr as (oath & rule & ts & code & ref & g & more & _ & Hnone & _). congruence.
Qed.

(** Histories. *)
Lemma steps_reachable E w l w' : steps E w l w' -> reachable E w -> reachable E w'.
Proof. induction 1 as [|w cx o out w1 l w2 H1 H2 IH]; intros Hr; [exact Hr|]. apply IH. eapply reach_step; eauto. Qed.
Lemma steps_app E w l w1 k w2 : steps E w l w1 -> steps E w1 k w2 -> steps E w (l ++ k) w2.
Proof. induction 1; simpl; [auto|]. intros. econstructor; eauto. Qed.
Lemma steps_rel E (I : world -> Prop) (R : world -> world -> Prop) :
  (forall w, I w -> R w w) -> (forall w1 w2 w3, R w1 w2 -> R w2 w3 -> R w1 w3) ->
  (forall w cx o w' out, reachable E w -> I w -> step E cx w o = Ok (w', out) -> I w' /\ R w w') ->
  forall w l w', steps E w l w' -> reachable E w -> I w -> I w' /\ R w w'.
Proof.
  intros Hrf Htr Hst w l w' H. induction H as [|w cx o out w1 l w2 H1 H2 IH]; intros Hr Hi; [auto|].
  destruct (Hst _ _ _ _ _ Hr Hi H1) as [Hi1 Hr1]. destruct (IH (reach_step _ _ _ _ _ _ Hr H1) Hi1) as [Hi2 Hr2]. split; [exact Hi2|]. eauto.
Qed.
Lemma steps_now E w l w' : steps E w l w' -> w_now w <= w_now w'.
Proof.
  induction 1 as [|w cx o out w1 l w2 H1 H2 IH]; [lia|]. apply step_gstep in H1.
  assert (w_now w <= w_now w1); [|lia]. destruct H1; simpl; try lia.
  - destruct H0 as (l0 & H0 & _). apply acct_call_config in H0. lia.
  - apply acct_call_config in H1. simpl in H1. lia.
Qed.
(** A request that is final stays as it is. *)
Lemma steps_final E w l w' a acc i r : steps E w l w' -> reachable E w -> w_accounts w !! a = Some acc -> kl_get (ac_requests acc) i = Some r ->
  pend r = false -> exists acc', w_accounts w' !! a = Some acc' /\ kl_get (ac_requests acc') i = Some r.
Proof.
  intros H Hr Ha Hi Hp. revert acc Ha Hi. induction H as [|w cx o out w1 l w2 H1 H2 IH]; intros acc Ha Hi; [eauto|].
  destruct (step_rq _ _ _ _ _ _ _ _ Hr H1 Ha) as (acc1 & Ha1 & _ & Hrel). apply (IH (reach_step _ _ _ _ _ _ Hr H1) acc1 Ha1).
  destruct (rr_old _ _ Hrel _ _ Hi) as (s & Hs & [->|Hf]); [rewrite set_st_id in Hs; exact Hs|].
  assert (pend r = true); [|congruence]. apply is_pending_spec. unfold fwd, pendP in *. tauto.
Qed.
Lemma steps_rq E w l w' a acc i r : steps E w l w' -> reachable E w -> w_accounts w !! a = Some acc -> kl_get (ac_requests acc) i = Some r ->
  exists acc' s, w_accounts w' !! a = Some acc' /\ kl_get (ac_requests acc') i = Some (set_st r s).
Proof.
  intros H Hr Ha Hi. revert acc r Ha Hi. induction H as [|w cx o out w1 l w2 H1 H2 IH]; intros acc r Ha Hi.
  - exists acc, (kr_status r). rewrite set_st_id. auto.
  - destruct (step_rq _ _ _ _ _ _ _ _ Hr H1 Ha) as (acc1 & Ha1 & _ & Hrel). destruct (rr_old _ _ Hrel _ _ Hi) as (s & Hs & _).
    destruct (IH (reach_step _ _ _ _ _ _ Hr H1) acc1 _ Ha1 Hs) as (acc2 & t & Ha2 & Ht). exists acc2, t. rewrite set_st_twice in Ht. auto.
Qed.
Lemma steps_vstart E w l w' a acc : steps E w l w' -> reachable E w -> w_accounts w !! a = Some acc ->
  exists acc', w_accounts w' !! a = Some acc' /\ (ac_vstart acc <= ac_vstart acc')%N /\ (kl_len (ac_requests acc) <= kl_len (ac_requests acc'))%N.
Proof.
  intros H Hr Ha. revert acc Ha. induction H as [|w cx o out w1 l w2 H1 H2 IH]; intros acc Ha; [exists acc; split; [exact Ha|lia]|].
  pose proof (ok_start _ (acc_ok_reachable _ _ Hr _ _ Ha)) as Hst.
  destruct (step_rq _ _ _ _ _ _ _ _ Hr H1 Ha) as (acc1 & Ha1 & _ & Hrel). destruct (IH (reach_step _ _ _ _ _ _ Hr H1) acc1 Ha1) as (acc2 & Ha2 & V & L).
  exists acc2. split; [exact Ha2|]. pose proof (rr_len _ _ Hrel). destruct (rr_vs _ _ Hrel) as [Hv|Hv]; lia.
Qed.
