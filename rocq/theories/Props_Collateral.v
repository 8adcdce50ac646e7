(** * C03: recorded collateral equals the vault contents; C25: withdrawals are covered. *)
From Verif Require Import Base DFloat Lists Types Config Oracle Pool Account Fees Referral ExInternal Exchange System Scenario Sums Trace Frames Calls Shape Spec SpecOracle SpecTrading SpecMargin P_Ledger P_Accounts P_DFloat Witness Frames2 P_Refs P_Tokens P_Requests P_Requests2 P_Requests3 Trading P_Positions P_Positions2 P_Oracle P_Keeper P_Orders P_Final P_OrderCall P_Coll P_Remove Props_Oracle Props_Orders.

(** What an account's table records of a resource, and what its vault holds. *)
Definition recorded (acc : account) (r : resource) : Z := match ac_coll acc !! r with Some x => x | None => 0 end.
Definition vault_of (acc : account) (r : resource) : Z := match (ac_vaults acc : gmap resource Z) !! r with Some x => x | None => 0 end.
Definition collateral_of (w : world) (a : addr) (r : resource) : Z := match w_accounts w !! a with Some acc => recorded acc r | None => 0 end.

Lemma gn_claim_nonneg E g h g' id bs : gn_claim E g h = Ok (g', id, bs) -> bs_nonneg bs.
Proof.
  intros H. apply gn_claim_codes in H as (c & _ & _ & _ & _ & _ & H). revert H. generalize (gn_vaults g), (gn_vaults g'), bs. induction (rc_claims c) as [|[r x] l IH]; intros v v' bs0 H; cbn [vts_take_adv_batch] in H.
  - apply Ok_inj in H. injection H as <- <-. constructor.
  - bd H as ([v1 b] & H1 & H). bd H as ([v2 bs2] & H2 & H). apply Ok_inj in H. injection H as <- <-. constructor; [|eapply IH; exact H2].
    unfold vts_take_adv in H1. bd H1 as (y & Hy & H1). apply Ok_inj in H1. injection H1 as _ <-. apply take_adv_inv in Hy as [_ Hy]. simpl. lia.
Qed.
Lemma call_coll_ok E w a l w' acc acc' : acct_call E w a l w' -> Forall pays_in l -> w_accounts w !! a = Some acc -> w_accounts w' !! a = Some acc' -> coll_ok acc -> coll_ok acc'.
Proof.
  intros H Hl Ha Ha' Hok. destruct (acct_call_out _ _ _ _ _ _ _ H Ha Ha') as (c & o & idsc & ids & v0 & s1 & refs' & _ & _ & Hv & Hc & Hs & _ & Hu).
  pose proof (ssteps_coll_ok _ _ _ _ _ _ _ Hs Hl) as Hk. cbn [s_acc] in Hk. rewrite Hc in Hk. specialize (Hk Hok). apply acc_update_coll in Hu as [E1 E2].
  unfold coll_ok, held_coll, in_vault in *. rewrite E1, E2. exact Hk.
Qed.
Lemma buckets_nonneg E o : forallb (bucket_ok E) (op_buckets o) = true -> bs_nonneg (op_buckets o).
Proof. intros H. apply Forall_forall. intros b Hb. rewrite forallb_forall in H. apply bucket_ok_nonneg with E. apply H. apply elem_of_list_In. exact Hb. Qed.
Lemma coll_ok_reachable E w : reachable E w -> forall a acc, w_accounts w !! a = Some acc -> coll_ok acc.
Proof.
  intros Hr. induction Hr as [owner auth keys now w Ha Hn Hg|w cx o w' out Hr IH Hs].
  - apply genesis_inv in Hg as (c & _ & ->). simpl. intros a acc H. rewrite lookup_empty in H. discriminate.
  - intros a acc' H'. pose proof Hs as Hi. apply step_inv in Hi as (Hb & _). apply buckets_nonneg in Hb. destruct (step_account _ _ _ _ _ _ a Hs) as [Heq|[[Ho Hsp]|Hcr]].
    + rewrite Heq in H'. eapply IH; eauto.
    + destruct Hsp as (l & Hl & Hop & _). pose proof (acct_call_self _ _ _ _ _ Hl) as ((acc & Hacc) & _ & _). eapply call_coll_ok; [exact Hl|eapply op_acts_pays_in; eauto|exact Hacc|exact H'|eauto].
    + destruct Hcr as (oath & rule & ts & code & ref & g & more & -> & Hnone & Hcd & Hl). eapply (call_coll_ok _ _ _ _ _ (acc_new rule rule rule ref)); [exact Hl| |simpl; apply lookup_insert|exact H'|].
      * apply Forall_app. split; [|apply pays_oath]. apply pays_add. simpl in Hb. apply Forall_app in Hb as [_ Hb]. apply Forall_app. split; [exact Hb|].
        destruct code as [s|]; [destruct Hcd as (id & _ & Hcd); eapply gn_claim_nonneg; exact Hcd|destruct Hcd as (_ & _ & ->); constructor].
      * intros r. unfold held_coll, in_vault. exact (conj eq_refl (Z.le_refl 0)).
Qed.
(** C03. In every reachable state the recorded collateral of every account is what its vault holds, and never negative. *)
Theorem C03_recorded_collateral_is_in_the_vault E w a acc r : reachable E w -> w_accounts w !! a = Some acc -> recorded acc r = vault_of acc r /\ 0 <= recorded acc r.
Proof.
  intros Hr Ha. destruct (coll_ok_reachable _ _ Hr _ _ Ha r) as [H1 H2]. unfold held_coll, in_vault in *. unfold recorded, vault_of.
  destruct (ac_coll acc !! r) as [x|]; cbn in H1; match goal with |- context[match ?t with Some _ => _ | None => _ end] => change t with (ac_vaults acc !! r) end; destruct (ac_vaults acc !! r) as [y|]; cbn in *; lia.
Qed.
(** C03, also in the middle of the account's life: whatever a call changes, it changes on both sides by the same amount. *)
Corollary C03_changes_agree E cx w o w' out a acc acc' r : reachable E w -> step E cx w o = Ok (w', out) -> w_accounts w !! a = Some acc -> w_accounts w' !! a = Some acc' ->
  recorded acc' r - recorded acc r = vault_of acc' r - vault_of acc r.
Proof.
  intros Hr H Ha Ha'. destruct (C03_recorded_collateral_is_in_the_vault _ _ _ _ r Hr Ha) as [-> _]. destruct (C03_recorded_collateral_is_in_the_vault E w' _ _ r (reach_step _ _ _ _ _ _ Hr H) Ha') as [-> _]. reflexivity.
Qed.
Example C03_ex : reachable sc_env W5 /\ exists acc, w_accounts W5 !! A5 = Some acc /\ recorded acc 21%N = dec 1 /\ vault_of acc 21%N = dec 1.
Proof.
  split; [exact W5_reach|]. assert (match w_accounts W5 !! A5 with Some acc => (recorded acc 21%N =? dec 1) && (vault_of acc 21%N =? dec 1) | None => false end = true) as H by (vm_compute; reflexivity).
  destruct (w_accounts W5 !! A5) as [acc|]; [|exfalso; exact (Bool.diff_false_true H)]. apply andb_true_iff in H as [H1 H2]. apply Z.eqb_eq in H1, H2. exists acc. split; [reflexivity|]. split; [exact H1|exact H2].
Qed.

(** C25. The total a removal request claims of a resource, in whole units of the resource. *)
Definition whole_units (E : env) (r : resource) (x : Z) : Z := Z.quot x (10 ^ (18 - divis E r)) * 10 ^ (18 - divis E r).
Theorem C25_withdrawals_are_covered E cx w o w' out a rq : reachable E w -> step E cx w o = Ok (w', out) -> executes_removal w o a rq ->
  exists toks, o_payouts out = [(rr_target rq, toks)] /\
    (forall r, amount_in r toks = whole_units E r (amount_in r (rr_claims rq)) /\ 0 <= amount_in r toks) /\
    balance w' a = balance w a - amount_in BASE toks /\ (0 < amount_in BASE toks -> amount_in BASE toks <= balance w a) /\
    po_base (w_pool w') = po_base (w_pool w) - amount_in BASE toks /\
    (forall r, r <> BASE -> collateral_of w' a r = collateral_of w a r - amount_in r toks /\ amount_in r toks <= collateral_of w a r).
Proof.
  intros Hr H Hx. destruct (removal_call_intro _ _ _ _ _ _ _ _ Hr H Hx) as (i & upd & acc & acc' & ids & c & vo & v & v2 & p & toks & Ho & Hc).
  exists toks.
  pose proof (rc_acc _ _ _ _ _ _ _ _ _ _ _ _ _ _ _ _ Hc) as Ha. pose proof (rc_acc' _ _ _ _ _ _ _ _ _ _ _ _ _ _ _ _ Hc) as Ha'. pose proof (rc_real _ _ _ _ _ _ _ _ _ _ _ _ _ _ _ _ Hc) as Hz. pose proof (rc_start _ _ _ _ _ _ _ _ _ _ _ _ _ _ _ _ Hc) as Hst.
  destruct (rc_trace _ _ _ _ _ _ _ _ _ _ _ _ _ _ _ _ Hc) as (k & bs & Htr & ->).
  assert (forall r, r <> BASE -> amount_in r (map (fun v => (BASE, v)) k ++ bs) = amount_in r bs) as Hbs.
  { intros r Hne. rewrite amount_app. replace (amount_in r (map (fun v0 : Z => (BASE, v0)) k)) with 0; [lia|]. clear -Hne. induction k as [|x k IH]; [reflexivity|]. cbn [map]. rewrite amount_cons, <- IH. change (b_res (BASE, x)) with BASE. apply not_eq_sym, N.eqb_neq in Hne. rewrite Hne. reflexivity. }
  apply ssteps_app_inv in Htr as (s1 & T1 & T2). inversion T2 as [|? ? s2 ? ? X1 X2]; subst. inversion X2; subst. inversion X1; subst. match goal with H : va_withdraw _ _ _ _ = Ok _ |- _ => rename H into Hw end. destruct (rc_base _ _ _ _ _ _ _ _ _ _ _ _ _ _ _ _ Hc) as (b & B0 & B1 & B2 & B3 & B4 & B5).
  assert (g_coll a0 = g_coll v) as Hg. { apply (ssteps_frame_coll _ _ _ _ _ _ _ T1). clear. induction k; constructor; auto. }
  assert (coll_ok (va_comp a0)) as Hok0. { pose proof (coll_ok_reachable _ _ Hr _ _ Ha) as Hk. unfold g_coll in Hg. injection Hg as _ G2 G3. unfold coll_ok, held_coll, in_vault in *. rewrite G2, G3, (st_comp _ _ _ Hst). exact Hk. }
  pose proof Hw as Hw0. unfold va_withdraw, acc_withdraw in Hw0. bd Hw0 as ([a1 b1] & H2 & Hw0). bd Hw0 as (c1 & H1 & Hw0). bd H2 as ([vt b2] & H2a & H2). bd H2 as (c2 & H2b & H2). apply Ok_inj in Hw0, H2. injection Hw0 as <- <-. injection H2 as <- <-.
  destruct (take_batch_table _ _ _ _ _ _ _ _ H2a H2b Hok0) as [Tab Hnn].
  assert (forall r, 0 <= amount_in r b2) as Hnn'. { intros r. clear - Hnn. induction Hnn as [|x l Hx Hl IH]; [unfold amount_in; simpl; lia|]. rewrite amount_cons. destruct (b_res x =? r)%N; lia. }
  pose proof (fun r => vts_take_batch_amount _ r _ _ _ _ _ H2a) as Hva.
  split; [exact (rc_out _ _ _ _ _ _ _ _ _ _ _ _ _ _ _ _ Hc)|]. split.
  { intros r. destruct (decide (r = BASE)) as [->|Hne]; [rewrite B1; split; [exact B2|exact B0]|]. split; [exact (rc_paid _ _ _ _ _ _ _ _ _ _ _ _ _ _ _ _ Hc r Hne)|]. rewrite (Hbs r Hne). apply Hnn'. }
  rewrite B1. split; [unfold balance; rewrite Ha, Ha', (rz_vb _ _ Hz), <- (st_vb _ _ _ Hst); exact B4|]. split; [unfold balance; rewrite Ha, <- (st_vb _ _ _ Hst); exact B3|]. split; [exact B5|].
  intros r Hne. rewrite (Hbs r Hne). unfold collateral_of. rewrite Ha, Ha'.
  pose proof (Tab r) as [Tr Tn]. specialize (Hva r). pose proof (Hok0 r) as [Ko Kn]. unfold held_coll, in_vault in Ko, Kn. rewrite <- Tr, <- Ko in Hva. rewrite <- Tr in Tn.
  unfold g_coll in Hg. injection Hg as _ G2 G3. rewrite G2, (st_comp _ _ _ Hst) in Hva.
  unfold recorded. rewrite (rz_coll _ _ Hz). cbn [va_comp ac_coll]. simpl.
  change (match c2 !! r with Some x => x | None => 0 end) with (default 0 (c2 !! r)). change (match ac_coll acc !! r with Some x => x | None => 0 end) with (default 0 (ac_coll acc !! r)). split; [exact Hva|]. rewrite Hva in Tn. cbn in *. lia.
Qed.
(** A removal with duplicate and fractional claims that is executed. *)
Definition sc_wr : res world := go sc_env sc_w2 [(cx_u2, ORemoveCollateralRequest None 600%N A2 500%N [(BASE, dec 100); (20%N, dec 1 + 1); (BASE, dec 50); (20%N, 2)]); (cx_any, OAdvance 1030)].
Definition WR := get sc_wr.
Lemma WR_ok : sc_wr = Ok WR. Proof. apply okb_get. vm_compute. reflexivity. Qed.
Lemma WR_reach : reachable sc_env WR. Proof. apply go_reachable; [vm_compute; reflexivity|]. intros w H. rewrite W2_ok in H. apply Ok_inj in H. subst w. exact W2_reach. Qed.
Global Opaque WR.
Definition removal_at (w : world) (a : addr) (i : N) : option req_remove :=
  match w_accounts w !! a with Some acc => match kl_kvs (ac_requests acc) !! i with Some kr => if w_now w <? kr_expiry kr then match kr_request kr with RRemove r => Some r | _ => None end else None | None => None end | None => None end.
Lemma removal_at_executes w a i upd r : removal_at w a i = Some r -> executes_removal w (OProcessRequest a i upd) a r.
Proof.
  unfold removal_at. destruct (w_accounts w !! a) as [acc|] eqn:Ha; [|intros H; discriminate H]. destruct (kl_kvs (ac_requests acc) !! i) as [kr|] eqn:Hk; [|intros H; discriminate H].
  destruct (Z.ltb_spec (w_now w) (kr_expiry kr)) as [Hl|Hl]; [|intros H; discriminate H]. destruct (kr_request kr) as [r0|r0] eqn:Hq; [|intros H; discriminate H]. intros H. injection H as <-. exists i, upd, acc, kr. auto 10.
Qed.
Example C25_ex : exists w' out r, step sc_env cx_any WR (OProcessRequest A2 1%N (msg 30000%N 2000%N 1029%N)) = Ok (w', out) /\ reachable sc_env WR /\
  executes_removal WR (OProcessRequest A2 1%N (msg 30000%N 2000%N 1029%N)) A2 r /\ balance w' A2 = balance WR A2 - dec 150 /\ collateral_of w' A2 20%N = collateral_of WR A2 20%N - dec 1 - 3.
Proof.
  destruct (try_true WR (cx_any, OProcessRequest A2 1%N (msg 30000%N 2000%N 1029%N)) (fun w' _ =>
    match removal_at WR A2 1%N with Some r => true | None => false end && (balance w' A2 =? balance WR A2 - dec 150) && (collateral_of w' A2 20%N =? collateral_of WR A2 20%N - dec 1 - 3)))
    as (w' & out & H & Hf); [vm_compute; reflexivity|]. apply andb_true_iff in Hf as [Hf H3]. apply andb_true_iff in Hf as [H1 H2]. apply Z.eqb_eq in H2, H3.
  destruct (removal_at WR A2 1%N) as [r|] eqn:Hr; [|exfalso; exact (Bool.diff_false_true H1)]. exists w', out, r. split; [exact H|]. split; [exact WR_reach|]. split; [apply removal_at_executes; exact Hr|].
  split; [exact H2|exact H3].
Qed.
