(** * Recorded collateral is a whole number of units of the resource (for C16). *)
From Verif Require Import Base DFloat Lists Types Config Oracle Pool Account Fees Referral ExInternal Exchange System Scenario Sums Trace Frames Calls Shape Spec SpecOracle SpecTrading SpecMargin P_Ledger P_Accounts P_DFloat Witness Frames2 P_Refs P_Tokens P_Requests P_Requests2 P_Requests3 Trading P_Positions P_Positions2 P_Oracle P_Keeper P_Orders P_Final P_OrderCall P_Coll P_Remove Props_Oracle Props_Orders Props_Collateral.

Lemma unit_pos E r : 0 < unit_of E r.
Proof. unfold unit_of. apply Z.pow_pos_nonneg; [reflexivity|]. unfold divis. destruct (r <? 10)%N; lia. Qed.
Definition bs_whole (E : env) (bs : list bucket) : Prop := Forall (fun b => (unit_of E (b_res b) | b_amt b)) bs.
Definition whole (E : env) (c : gmap resource Z) : Prop := forall r, (unit_of E r | default 0 (c !! r)).
Lemma coll_add_whole E c b c' : coll_add c b = Ok c' -> (unit_of E (b_res b) | b_amt b) -> whole E c -> whole E c'.
Proof.
  intros Hc Hb H r. unfold coll_add in Hc. assert (c' = <[b_res b := default 0 (c !! b_res b) + b_amt b]> c) as ->.
  { destruct (c !! b_res b) as [y|]; cbn [default] in *; [bd Hc as (z & Hz & Hc); apply dadd_Ok in Hz as [-> _]|]; apply Ok_inj in Hc; rewrite <- Hc; [reflexivity|f_equal; lia]. }
  destruct (decide (r = b_res b)) as [->|Hne]; [rewrite lookup_insert; cbn; apply Z.divide_add_r; [apply H|exact Hb]|rewrite lookup_insert_ne by congruence; apply H].
Qed.
Lemma coll_sub_whole E c b c' : coll_sub c b = Ok c' -> (unit_of E (b_res b) | b_amt b) -> whole E c -> whole E c'.
Proof.
  intros Hc Hb H r. unfold coll_sub in Hc. bd Hc as (x & Hx & Hc). bd Hc as (y & Hy & Hc). apply Ok_inj in Hc. apply expect_Ok in Hx. apply dsub_Ok in Hy as [-> _]. pose proof (H (b_res b)) as Hr. rewrite Hx in Hr. cbn in Hr.
  destruct (x - b_amt b =? 0); subst c'; (destruct (decide (r = b_res b)) as [->|Hne]; [|rewrite ?lookup_delete_ne, ?lookup_insert_ne by congruence; apply H]).
  - rewrite lookup_delete. apply Z.divide_0_r.
  - rewrite lookup_insert. cbn. apply Z.divide_sub_r; assumption.
Qed.
Lemma fold_add_whole E bs : forall c c', rfold coll_add c bs = Ok c' -> bs_whole E bs -> whole E c -> whole E c'.
Proof. induction bs as [|b bs IH]; intros c c' Hc Hn H; cbn [rfold] in Hc; [apply Ok_inj in Hc; subst; exact H|]. bd Hc as (c1 & Hc1 & Hc). inversion Hn; subst. eapply IH; eauto using coll_add_whole. Qed.
Lemma fold_sub_whole E bs : forall c c', rfold coll_sub c bs = Ok c' -> bs_whole E bs -> whole E c -> whole E c'.
Proof. induction bs as [|b bs IH]; intros c c' Hc Hn H; cbn [rfold] in Hc; [apply Ok_inj in Hc; subst; exact H|]. bd Hc as (c1 & Hc1 & Hc). inversion Hn; subst. eapply IH; eauto using coll_sub_whole. Qed.
Lemma take_batch_whole E s cs : forall v v' bs, vts_take_adv_batch E v cs s = Ok (v', bs) -> bs_whole E bs.
Proof.
  induction cs as [|[r amt] cs IH]; intros v v' bs Hv; cbn [vts_take_adv_batch] in Hv; [apply Ok_inj in Hv; injection Hv as <- <-; constructor|].
  bd Hv as ([v1 b] & H1 & Hv). bd Hv as ([v2 bs2] & H2 & Hv). apply Ok_inj in Hv. injection Hv as <- <-. constructor; [|eapply IH; exact H2].
  unfold vts_take_adv in H1. bd H1 as (a & Ha & H1). apply Ok_inj in H1. injection H1 as _ <-. apply take_adv_inv in Ha as [Ha _]. cbn [b_res b_amt fst snd]. unfold round_amount in Ha. destruct s; apply chk_Ok in Ha as [-> _]; apply Z.divide_factor_r.
Qed.
Definition pays_whole (E : env) (x : sact) : Prop := match x with ADeposit bs => bs_whole E bs | _ => True end.
Lemma sstep_whole E now c o s x s' : sstep E now c o s x s' -> pays_whole E x -> whole E (ac_coll (va_comp (s_acc s))) -> whole E (ac_coll (va_comp (s_acc s'))).
Proof.
  intros H Hp Hc. pose proof (sstep_frames _ _ _ _ _ _ _ H) as (_ & _ & Hf & _). destruct (touches_coll x) eqn:Ht.
  - destruct x; try discriminate Ht; inversion H; subst; cbn [s_acc] in *; clear Hf.
    + match goal with H : va_deposit _ _ = Ok _ |- _ => rename H into Hd end. unfold va_deposit, acc_deposit in Hd. bd Hd as (c1 & H1 & Hd). bd Hd as (a1 & H2 & Hd). bd H2 as (c2 & H2a & H2). bd H2 as (v2 & H2b & H2).
      apply Ok_inj in Hd, H2. subst. cbn. exact (fold_add_whole _ _ _ _ H2a Hp Hc).
    + match goal with H : va_withdraw _ _ _ _ = Ok _ |- _ => rename H into Hd end. unfold va_withdraw, acc_withdraw in Hd. bd Hd as ([a1 b1] & H2 & Hd). bd Hd as (c1 & H1 & Hd). bd H2 as ([v2 b2] & H2a & H2). bd H2 as (c2 & H2b & H2).
      apply Ok_inj in Hd, H2. injection Hd as <- <-. injection H2 as <- <-. cbn. exact (fold_sub_whole _ _ _ _ H2b (take_batch_whole _ _ _ _ _ _ H2a) Hc).
  - specialize (Hf eq_refl). unfold g_coll in Hf. injection Hf as _ E2 E3. rewrite E2. exact Hc.
Qed.
Lemma ssteps_whole E now c o s l s' : ssteps E now c o s l s' -> Forall (pays_whole E) l -> whole E (ac_coll (va_comp (s_acc s))) -> whole E (ac_coll (va_comp (s_acc s'))).
Proof. induction 1 as [|s x s1 l s2 H1 H2 IH]; intros Hf Hc; [exact Hc|]. inversion Hf; subst. apply IH; [assumption|]. eapply sstep_whole; eauto. Qed.
Lemma whole_oath E oath : Forall (pays_whole E) (oath_acts oath). Proof. destruct oath; repeat constructor. Qed.
Lemma whole_add E ts : bs_whole E ts -> Forall (pays_whole E) (add_acts ts).
Proof.
  intros Hn. unfold add_acts. apply Forall_app. split; [induction (List.filter is_base ts); constructor; simpl; auto|]. constructor; [|constructor]. simpl. unfold bs_whole in *.
  rewrite Forall_forall in *. intros b Hb. apply elem_of_list_In, filter_In in Hb as [Hb _]. apply Hn, elem_of_list_In, Hb.
Qed.
(** Only depositing tokens deposits, so the list of actions is judged by its deposits. *)
Lemma op_acts_whole E w o out l : op_acts w o out l -> bs_whole E (op_buckets o) -> Forall (pays_whole E) l.
Proof.
  intros H Hb. assert ((exists oath a ts, o = OAddCollateral oath a ts) \/ Forall (fun x => match x with ADeposit _ => False | _ => True end) l) as [(oath & a & ts & ->)|Hf].
  { destruct o; simpl in H; try contradiction; try (left; eauto; fail); right; cbn in H.
    all: lazymatch goal with
    | H : exists acc, _ /\ _ /\ _ = oath_acts ?oa ++ _ |- _ => destruct H as (acc & _ & _ & ->); apply Forall_app; split; [destruct oa; repeat constructor|repeat constructor]
    | H : exists acc, _ /\ _ /\ _ /\ _ = oath_acts ?oa ++ _ |- _ => destruct H as (acc & _ & _ & _ & ->); apply Forall_app; split; [destruct oa; repeat constructor|repeat constructor]
    | H : _ /\ _ = oath_acts ?oa ++ _ |- _ => destruct H as (_ & ->); apply Forall_app; split; [destruct oa; repeat constructor|repeat constructor]
    | _ => idtac end.
    - destruct H as (_ & act & can & ->). apply Forall_app; split; [destruct oath; repeat constructor|repeat constructor].
    - destruct H as (_ & l' & -> & Hl). apply Forall_app. split; [destruct oath; repeat constructor|]. eapply Forall_impl; [exact Hl|]. intros [] Hx; simpl in *; try contradiction; exact I.
    - destruct H as (v0 & v1 & rq & ex & l' & Hv & Hp & Hx & -> & _). constructor; [exact I|]. unfold exec_acts in Hx. destruct ex; [destruct Hx as [-> _]; constructor|]. destruct rq as [r|r].
      + destruct Hx as (k & bs & -> & _). apply Forall_app. split; [|repeat constructor]. induction k; constructor; simpl; auto.
      + destruct Hx as (l0 & fee & -> & Hl & _). constructor; [exact I|]. constructor; [exact I|]. apply Forall_app. split; [|repeat constructor].
        eapply Forall_impl; [exact Hl|]. intros [] Hy; simpl in *; try contradiction; exact I.
    - destruct H as (_ & paid & value & token & -> & _). repeat constructor.
    - destruct H as (_ & paid & bs & st & lo & fee & -> & Hlo & _). simpl. destruct Hlo as [->|[x ->]]; repeat constructor.
    - destruct H as (amt & fee & -> & _). repeat constructor. }
  - simpl in H. destruct H as (_ & ->). apply Forall_app. split; [|apply whole_oath]. apply whole_add. simpl in Hb. apply Forall_app in Hb as [_ Hb]. exact Hb.
  - eapply Forall_impl; [exact Hf|]. intros [] Hx; simpl in *; try contradiction; exact I.
Qed.
Lemma buckets_whole E o : forallb (bucket_ok E) (op_buckets o) = true -> bs_whole E (op_buckets o).
Proof.
  intros H. apply Forall_forall. intros b Hb. rewrite forallb_forall in H. specialize (H b (proj1 (elem_of_list_In _ _) Hb)). unfold bucket_ok in H. apply andb_true_iff in H as [_ H]. apply Z.eqb_eq in H.
  apply Z.mod_divide; [|exact H]. pose proof (unit_pos E (b_res b)). lia.
Qed.
Lemma gn_claim_whole E g h g' id bs : gn_claim E g h = Ok (g', id, bs) -> bs_whole E bs.
Proof. intros H. apply gn_claim_codes in H as (c & _ & _ & _ & _ & _ & H). exact (take_batch_whole _ _ _ _ _ _ H). Qed.
Lemma call_whole E w a l w' acc acc' : acct_call E w a l w' -> Forall (pays_whole E) l -> w_accounts w !! a = Some acc -> w_accounts w' !! a = Some acc' -> whole E (ac_coll acc) -> whole E (ac_coll acc').
Proof.
  intros H Hl Ha Ha' Hok. destruct (acct_call_out _ _ _ _ _ _ _ H Ha Ha') as (c & o & idsc & ids & v0 & s1 & refs' & _ & _ & Hv & Hc & Hs & _ & Hu).
  pose proof (ssteps_whole _ _ _ _ _ _ _ Hs Hl) as Hk. cbn [s_acc] in Hk. rewrite Hc in Hk. specialize (Hk Hok). apply acc_update_coll in Hu as [E1 E2]. rewrite E1. exact Hk.
Qed.
Lemma whole_reachable E w : reachable E w -> forall a acc, w_accounts w !! a = Some acc -> whole E (ac_coll acc).
Proof.
  intros Hr. induction Hr as [owner auth keys now w Ha Hn Hg|w cx o w' out Hr IH Hs].
  - apply genesis_inv in Hg as (c & _ & ->). simpl. intros a acc H. rewrite lookup_empty in H. discriminate.
  - intros a acc' H'. pose proof Hs as Hi. apply step_inv in Hi as (Hb & _). apply buckets_whole in Hb. destruct (step_account _ _ _ _ _ _ a Hs) as [Heq|[[Ho Hsp]|Hcr]].
    + rewrite Heq in H'. eapply IH; eauto.
    + destruct Hsp as (l & Hl & Hop & _). pose proof (acct_call_self _ _ _ _ _ Hl) as ((acc & Hacc) & _ & _). eapply call_whole; [exact Hl|eapply op_acts_whole; eauto|exact Hacc|exact H'|eauto].
    + destruct Hcr as (oath & rule & ts & code & ref & g & more & -> & Hnone & Hcd & Hl). eapply (call_whole _ _ _ _ _ (acc_new rule rule rule ref)); [exact Hl| |simpl; apply lookup_insert|exact H'|].
      * apply Forall_app. split; [|apply whole_oath]. apply whole_add. simpl in Hb. apply Forall_app in Hb as [_ Hb]. apply Forall_app. split; [exact Hb|].
        destruct code as [s|]; [destruct Hcd as (id & _ & Hcd); eapply gn_claim_whole; exact Hcd|destruct Hcd as (_ & _ & ->); constructor].
      * intros r. unfold acc_new. cbn. apply Z.divide_0_r.
Qed.
