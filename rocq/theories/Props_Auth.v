(** * C31-C34: who may do what, the permission registry, owner control, widening a rule. *)
From Verif Require Import Base DFloat Lists Types Config Oracle Pool Account Fees Referral ExInternal Exchange System Scenario Sums Trace Frames Calls Shape Spec SpecAuth P_Ledger P_Accounts Witness Frames2 P_Fees P_Requests P_Requests2 P_Requests4 P_Keeper P_Rules.

(** C31. *)
Lemma level_auth_may cx w a v lvl u : get_acc w a = Ok v -> level_auth cx lvl v = Ok u -> may cx w a lvl.
Proof. intros Hv H. unfold level_auth in H. apply guard_Ok in H. apply get_acc_comp in Hv. exists (ac_level lvl (va_comp v)). unfold rule_of. rewrite Hv. split; [reflexivity|exact H]. Qed.
Theorem C31_level_needed E cx w o w' out a lvl : step E cx w o = Ok (w', out) -> needed_level o = Some (a, lvl) -> may cx w a lvl.
Proof.
  intros H Hn. apply step_exec' in H. destruct o; try discriminate Hn; cbn [needed_level] in Hn; injection Hn as <- <-; simpl in H;
    unfold m_create_recovery_key, m_add_auth_rule, m_set_level_auth, m_add_collateral, m_remove_collateral_request, m_margin_order_request, m_margin_order_tp_sl_request, m_cancel_requests in H;
    bd H as (v & Hv & H); bd H as (u & Hu & H); exact (level_auth_may _ _ _ _ _ _ Hv Hu).
Qed.
(** What every call does to the rules of every account: nothing, or what the caller asked for. *)
Theorem C31_rules_after E cx w o w' out a lvl r : step E cx w o = Ok (w', out) -> (1 <= lvl <= 3)%N -> rule_of w a lvl = Some r -> rule_of w' a lvl = Some (rule_after w o a lvl r).
Proof.
  intros H Hl Hr. unfold rule_of in *. apply fmap_Some in Hr as (acc & Ha & ->).
  assert (exists acc', w_accounts w' !! a = Some acc') as [acc' Ha'].
  { destruct (step_account _ _ _ _ _ _ a H) as [Heq|[[Ho (l & Hc & _)]|(oath & rule & ts & code & ref & g & more & _ & Hnone & _)]]; [rewrite Heq; eauto| |congruence]. destruct (acct_call_self _ _ _ _ _ Hc) as (_ & (acc' & Ha') & _). eauto. }
  rewrite Ha'. cbn. f_equal. exact (step_rule _ _ _ _ _ _ _ _ _ _ H Ha Ha' Hl).
Qed.
(** So a rule changes only in a call made with the level 1 rule of that account. *)
Theorem C31_rules_change_only_with_level_1 E cx w o w' out a lvl r : step E cx w o = Ok (w', out) -> (1 <= lvl <= 3)%N -> rule_of w a lvl = Some r -> rule_of w' a lvl <> Some r -> may cx w a 1.
Proof.
  intros H Hl Hr Hd. pose proof (C31_rules_after _ _ _ _ _ _ _ _ _ H Hl Hr) as Ha. rewrite Ha in Hd. assert (rule_after w o a lvl r <> r) as Hne by congruence. clear Hd.
  assert (needed_level o = Some (a, 1%N)) as Hn; [|exact (C31_level_needed _ _ _ _ _ _ _ _ H Hn)].
  destruct o; cbn [rule_after needed_level] in *; try (exfalso; apply Hne; reflexivity); match type of Hne with context [(?b =? ?x)%N && _] => destruct (N.eqb_spec b x) as [Hb|Hb]; [rewrite Hb; reflexivity|exfalso; apply Hne; reflexivity] end.
Qed.
(** New accounts have the rule they were created with at every level. *)
Theorem C31_new_account E cx w oath rule ts code a w' out lvl : step E cx w (OCreateAccount oath rule ts code a) = Ok (w', out) -> (1 <= lvl <= 3)%N -> rule_of w a lvl = None /\ rule_of w' a lvl = Some rule.
Proof.
  intros H Hl. unfold rule_of. pose proof H as Hg. apply step_gstep in Hg.
  assert (exists ref g more, w_accounts w !! a = None /\ match code with Some s => exists id, ref = Some id /\ gn_claim E (w_gen w) (e_hash E s) = Ok (g, id, more) | None => ref = None /\ g = w_gen w /\ more = [] end /\
    acct_call E (new_account_world E w rule a ref g) a (add_acts (ts ++ more) ++ oath_acts oath) w') as (ref & g & more & Hnone & Hcode & Hcall).
  { clear H. remember (OCreateAccount oath rule ts code a) as o eqn:Eo. destruct Hg; try discriminate Eo; try (subst; discriminate). injection Eo as -> -> -> -> ->. exists ref, g, more. auto. }
  rewrite Hnone. split; [reflexivity|]. destruct (acct_call_self _ _ _ _ _ Hcall) as (_ & (acc' & Ha') & _). rewrite Ha'. cbn. f_equal.
  assert (created E w (OCreateAccount oath rule ts code a) a w') as Hcr. { exists oath, rule, ts, code, ref, g, more. do 2 (split; [auto|]). split; assumption. }
  destruct (created_rule _ _ _ _ _ _ _ Hcr Ha' Hl) as (? & ? & ? & ? & Heq & Hlv). injection Heq as <- <- <- <-. exact Hlv.
Qed.

(** C33. *)
Lemma perms_step E cx w o w' out : step E cx w o = Ok (w', out) ->
  (w_perms w' = w_perms w /\ (forall oath rule ts code a, o <> OCreateAccount oath rule ts code a) /\ forall a l r, rule_after w o a l r = r) \/
  (exists a lvl acc, (1 <= lvl <= 3)%N /\ w_accounts w !! a = Some acc /\ op_account o = Some a /\ w_perms w' = relevel lvl a (w_perms w) (ac_level lvl acc) (rule_after w o a lvl (ac_level lvl acc)) /\
     forall b l r, b <> a \/ l <> lvl -> rule_after w o b l r = r) \/
  (exists oath rule ts code a, o = OCreateAccount oath rule ts code a /\ w_accounts w !! a = None /\ w_perms w' = foldl (reg_insert_all a) (w_perms w) (rule :: sub_rules rule)).
Proof.
  intros H. pose proof H as Hs. apply step_gstep in H. destruct H.
  all: try (left; split; [reflexivity|split; [intros; discriminate|intros; reflexivity]]).
  - destruct H0 as (l & _ & Hop & Hside). destruct o; try discriminate H; cbn [op_account] in H; injection H as ->; cbn [op_side] in Hside.
    all: try (left; split; [apply Hside|split; [intros; discriminate|intros; reflexivity]]).
    all: right; left; destruct Hside as (acc & Ha & Hp & _).
    + exists a, 1%N, acc. split; [lia|]. split; [exact Ha|]. split; [reflexivity|]. split; [rewrite Hp; cbn [rule_after]; rewrite N.eqb_refl; cbn; rewrite extend_widen; reflexivity|].
      intros b l0 r Hor. cbn [rule_after]. destruct (N.eqb_spec a b) as [->|]; [|reflexivity]. destruct (N.eqb_spec l0 1) as [->|]; [|reflexivity]. exfalso; lia.
    + cbn [op_acts] in Hop. destruct Hop as (_ & _ & _ & Hl & _). exists a, lvl, acc. split; [exact Hl|]. split; [exact Ha|]. split; [reflexivity|]. split; [rewrite Hp; cbn [rule_after]; rewrite !N.eqb_refl; cbn; rewrite extend_widen; reflexivity|].
      intros b l0 r Hor. cbn [rule_after]. destruct (N.eqb_spec a b) as [->|]; [|reflexivity]. destruct (N.eqb_spec l0 lvl) as [->|]; [|reflexivity]. exfalso; lia.
    + exists a, 1%N, acc. split; [lia|]. split; [exact Ha|]. split; [reflexivity|]. split; [rewrite Hp; cbn [rule_after]; rewrite N.eqb_refl; reflexivity|].
      intros b l0 r Hor. cbn [rule_after]. destruct (N.eqb_spec a b) as [->|]; [|reflexivity]. destruct (N.eqb_spec l0 1) as [->|]; [|reflexivity]. exfalso; lia.
    + exists a, 2%N, acc. split; [lia|]. split; [exact Ha|]. split; [reflexivity|]. split; [rewrite Hp; cbn [rule_after]; rewrite N.eqb_refl; reflexivity|].
      intros b l0 r Hor. cbn [rule_after]. destruct (N.eqb_spec a b) as [->|]; [|reflexivity]. destruct (N.eqb_spec l0 2) as [->|]; [|reflexivity]. exfalso; lia.
    + exists a, 3%N, acc. split; [lia|]. split; [exact Ha|]. split; [reflexivity|]. split; [rewrite Hp; cbn [rule_after]; rewrite N.eqb_refl; reflexivity|].
      intros b l0 r Hor. cbn [rule_after]. destruct (N.eqb_spec a b) as [->|]; [|reflexivity]. destruct (N.eqb_spec l0 3) as [->|]; [|reflexivity]. exfalso; lia.
  - right. right. exists oath, rule, ts, code, a. auto.
  - left. destruct o; try discriminate H; (split; [reflexivity|split; [intros; discriminate|intros; reflexivity]]).
  - left. destruct o; try discriminate H; (split; [reflexivity|split; [intros; discriminate|intros; reflexivity]]).
Qed.
Lemma accounts_stay E cx w o w' out a acc : step E cx w o = Ok (w', out) -> w_accounts w !! a = Some acc -> exists acc', w_accounts w' !! a = Some acc'.
Proof.
  intros H Ha. destruct (step_account _ _ _ _ _ _ a H) as [Heq|[[Ho (l & Hc & _)]|(oath & rule & ts & code & ref & g & more & _ & Hnone & _)]]; [rewrite Heq; eauto| |congruence]. destruct (acct_call_self _ _ _ _ _ Hc) as (_ & (acc' & Ha') & _). eauto.
Qed.
Lemma accounts_new E cx w o w' out a acc' : step E cx w o = Ok (w', out) -> w_accounts w !! a = None -> w_accounts w' !! a = Some acc' -> exists oath rule ts code, o = OCreateAccount oath rule ts code a.
Proof.
  intros H Ha Ha'. destruct (step_account _ _ _ _ _ _ a H) as [Heq|[[Ho (l & Hc & _)]|(oath & rule & ts & code & ref & g & more & -> & _)]]; [congruence| |eauto]. destruct (acct_call_self _ _ _ _ _ Hc) as ((acc & Hx) & _). congruence.
Qed.
Theorem C33_registry_exact E w rule lvl a : reachable E w -> (1 <= lvl <= 3)%N -> listed w rule lvl a <-> exists r, rule_of w a lvl = Some r /\ controls rule r.
Proof.
  intros Hr Hl. change (listed w rule lvl a) with (a ∈ reg_at lvl (w_perms w) rule). revert rule lvl a Hl.
  induction Hr as [owner auth keys now w Ha Hn Hg|w cx o w' out Hr IH Hs]; intros rule lvl a Hl.
  - apply genesis_inv in Hg as (c & _ & ->). unfold rule_of. cbn. rewrite lookup_empty. split; [|intros (r & Hc & _); discriminate]. unfold reg_at, reg_get, reg_new, perms_empty, pm_get. cbn. intros Hin. exfalso. destruct (lvl =? 1)%N; [|destruct (lvl =? 2)%N]; cbn in Hin; set_solver.
  - destruct (perms_step _ _ _ _ _ _ Hs) as [(Hp & Hnc & Hra)|[(a0 & l0 & acc0 & Hl0 & Ha0 & Ho & Hp & Hra)|(oath & rule0 & ts & code & a0 & -> & Hnone & Hp)]]; rewrite Hp.
    + rewrite IH by exact Hl. destruct (w_accounts w !! a) as [acc|] eqn:Ea.
      * assert (rule_of w a lvl = Some (ac_level lvl acc)) as H0 by (unfold rule_of; rewrite Ea; reflexivity). pose proof (C31_rules_after _ _ _ _ _ _ _ _ _ Hs Hl H0) as H1. rewrite Hra in H1. rewrite H0, H1. reflexivity.
      * assert (rule_of w a lvl = None) as -> by (unfold rule_of; rewrite Ea; reflexivity). destruct (w_accounts w' !! a) as [acc'|] eqn:Ea'; [|unfold rule_of; rewrite Ea'; reflexivity]. destruct (accounts_new _ _ _ _ _ _ _ _ Hs Ea Ea') as (? & ? & ? & ? & Ec). exfalso. exact (Hnc _ _ _ _ _ Ec).
    + rewrite at_relevel, IH by assumption. destruct (w_accounts w !! a) as [acc|] eqn:Ea.
      * assert (rule_of w a lvl = Some (ac_level lvl acc)) as H0 by (unfold rule_of; rewrite Ea; reflexivity). pose proof (C31_rules_after _ _ _ _ _ _ _ _ _ Hs Hl H0) as H1. rewrite H0, H1.
        destruct (decide (a = a0 /\ lvl = l0)) as [[-> ->]|Hne].
        -- rewrite Ea in Ha0. injection Ha0 as <-. split.
           ++ intros [[(r & E1 & Hc) Hnot]|(_ & Hc & _)]; [injection E1 as <-; exfalso; apply Hnot; auto|eauto].
           ++ intros (r & E1 & Hc). injection E1 as <-. right. auto.
        -- rewrite (Hra a lvl) by (destruct (decide (a = a0)); [right; intros Hx; apply Hne; split; assumption|left; assumption]). split.
           ++ intros [[Hx _]|(Hx1 & _ & Hx2)]; [exact Hx|exfalso; apply Hne; split; assumption].
           ++ intros Hx. left. split; [exact Hx|]. intros (Hx1 & _ & Hx2). apply Hne; split; assumption.
      * assert (a <> a0) as Hne by congruence. assert (rule_of w a lvl = None) as -> by (unfold rule_of; rewrite Ea; reflexivity).
        assert (rule_of w' a lvl = None) as ->. { unfold rule_of. destruct (w_accounts w' !! a) as [acc'|] eqn:Ea'; [|reflexivity]. destruct (accounts_new _ _ _ _ _ _ _ _ Hs Ea Ea') as (? & ? & ? & ? & Ec). subst o. discriminate. }
        split; [intros [[(r & Hx & _) _]|(_ & _ & Hx)]; [discriminate|contradiction]|intros (r & Hx & _); discriminate].
    + rewrite at_insert_all, IH by assumption. destruct (decide (a = a0)) as [->|Hne].
      * destruct (C31_new_account _ _ _ _ _ _ _ _ _ _ _ Hs Hl) as [E0 E1]. rewrite E0, E1.
        assert (rule ∈ rule0 :: sub_rules rule0 <-> controls rule rule0) as Hc.
        { rewrite elem_of_cons. unfold controls, sub_rules. split.
          - intros [->|Hx]; [left; reflexivity|right]. destruct rule0 as [| |[lf|ns|ns]]; try (inversion Hx; fail). apply elem_of_list_fmap in Hx as (n & -> & Hn). eauto.
          - intros [->|(ns & n & -> & Hn & ->)]; [left; reflexivity|right]. apply elem_of_list_fmap. eauto. }
        rewrite Hc. split; [intros [(r & Hx & _)|[Hx _]]; [discriminate|eauto]|intros (r & Hx & Hy); injection Hx as <-; auto].
      * assert (rule_of w' a lvl = rule_of w a lvl) as ->.
        { destruct (w_accounts w !! a) as [acc|] eqn:Ea.
          - assert (rule_of w a lvl = Some (ac_level lvl acc)) as H0 by (unfold rule_of; rewrite Ea; reflexivity). rewrite H0. exact (C31_rules_after _ _ _ _ _ _ _ _ _ Hs Hl H0).
          - unfold rule_of. rewrite Ea. destruct (w_accounts w' !! a) as [acc'|] eqn:Ea'; [|reflexivity]. destruct (accounts_new _ _ _ _ _ _ _ _ Hs Ea Ea') as (? & ? & ? & ? & Ec). injection Ec as _ _ _ _ Ec. congruence. }
        split; [intros [Hx|[_ Hx]]; [exact Hx|contradiction]|auto].
Qed.

(** C34. *)
Theorem C34_widening cx r n : r <> AllowAll ->
  (satisfies cx r = true -> satisfies cx (widen r n) = true) /\ (node_sat (cx_sat cx) n = true -> satisfies cx (widen r n) = true) /\
  (satisfies cx (widen r n) = true -> satisfies cx r = true \/ node_sat (cx_sat cx) n = true).
Proof.
  intros Hr. unfold satisfies. destruct r as [| |[lf|ns|ns]]; [congruence| | | |]; cbn; rewrite ?existsb_app, ?orb_true_iff, ?orb_false_r; cbn; rewrite ?orb_true_iff, ?orb_false_r; intuition congruence.
Qed.
Theorem C34_recovery_key E cx cx2 w oath a w' out r : step E cx w (OCreateRecoveryKey oath a) = Ok (w', out) -> rule_of w a 1 = Some r -> r <> AllowAll ->
  exists key r', o_nfts out = [(RECOVERY_KEY, key)] /\ rule_of w' a 1 = Some r' /\ (satisfies cx2 r = true -> satisfies cx2 r' = true) /\ (cx_sat cx2 (LKey key) = true -> satisfies cx2 r' = true) /\
    (satisfies cx2 r' = true -> satisfies cx2 r = true \/ cx_sat cx2 (LKey key) = true).
Proof.
  intros H Hr Hne. pose proof (C31_rules_after _ _ _ _ _ _ _ 1%N _ H ltac:(lia) Hr) as Ha. cbn [rule_after] in Ha. rewrite N.eqb_refl in Ha. cbn [andb N.eqb Pos.eqb] in Ha. exists (w_next w). eexists. split; [|split; [exact Ha|]].
  - apply step_exec' in H. simpl in H. unfold m_create_recovery_key in H. bd H as (v & Hv & H). bd H as (u & Hu & H). bd H as ([w1 v1] & Hs & H). cbv zeta in H.
    assert (w_next w1 = w_next w) as En. { destruct oath as [b|]; simpl in Hs; [|apply Ok_inj in Hs; congruence]. bd Hs as ([[w2 v2] c2] & Hs2 & Hs). apply Ok_inj in Hs. injection Hs as <- _. unfold settle_oath in Hs2. cbv zeta in Hs2. bd Hs2 as (c3 & _ & Hs2). bd Hs2 as ([o3 o4] & _ & Hs2). bd Hs2 as ([v4 s4] & _ & Hs2). apply Ok_inj in Hs2. injection Hs2 as <- _ _. reflexivity. }
    destruct (x_set_level_auth _ _ _ _) as [g v2]. bd H as (w3 & _ & H). apply Ok_inj in H. injection H as _ <-. cbn. rewrite En. reflexivity.
  - destruct (C34_widening cx2 r (NLeaf (LKey (w_next w))) Hne) as (A & B & C). auto.
Qed.
Theorem C34_add_rule E cx cx2 w oath a lvl n w' out r : step E cx w (OAddAuthRule oath a lvl n) = Ok (w', out) -> rule_of w a lvl = Some r -> r <> AllowAll ->
  exists r', rule_of w' a lvl = Some r' /\ (satisfies cx2 r = true -> satisfies cx2 r' = true) /\ (satisfies cx2 (Protected n) = true -> satisfies cx2 r' = true) /\
    (satisfies cx2 r' = true -> satisfies cx2 r = true \/ satisfies cx2 (Protected n) = true).
Proof.
  intros H Hr Hne. assert (1 <= lvl <= 3)%N as Hl. { apply step_exec' in H. simpl in H. unfold m_add_auth_rule in H. bd H as (v & Hv & H). bd H as (u & Hu & H). bd H as ([w1 v1] & Hs & H). bd H as (u2 & Hg & H). apply guard_Ok in Hg. apply andb_true_iff in Hg as [G1 G2]. apply N.leb_le in G1, G2. lia. }
  pose proof (C31_rules_after _ _ _ _ _ _ _ lvl _ H Hl Hr) as Ha. cbn [rule_after] in Ha. rewrite !N.eqb_refl in Ha. cbn [andb] in Ha. eexists. split; [exact Ha|]. exact (C34_widening cx2 r n Hne).
Qed.
(** Adding a rule to an open level closes it to everybody else. *)
Theorem C34_refuted_when_open : exists E w cx o w' out cx2 r r', reachable E w /\ step E cx w o = Ok (w', out) /\ o = OCreateRecoveryKey None 200%N /\
  rule_of w 200%N 1%N = Some r /\ rule_of w' 200%N 1%N = Some r' /\ satisfies cx2 r = true /\ satisfies cx2 r' = false.
Proof.
  assert (try_run W2 [(cx_any, OCreateAccount None AllowAll [] None 200%N)] (fun w _ => try_ w (cx_any, OCreateRecoveryKey None 200%N) (fun w' _ =>
     match rule_of w 200%N 1%N, rule_of w' 200%N 1%N with Some r, Some r' => satisfies cx_any r && negb (satisfies cx_any r') | _, _ => false end)) = true) as H by (vm_compute; reflexivity).
  apply try_run_true in H as (w & l & Hst & H). apply try_true in H as (w' & out & H & Hf). destruct (rule_of w 200%N 1%N) as [r|] eqn:E1; [|discriminate Hf]. destruct (rule_of w' 200%N 1%N) as [r'|] eqn:E2; [|discriminate Hf]. apply andb_true_iff in Hf as [F1 F2]. apply negb_true_iff in F2.
  exists sc_env, w, cx_any, (OCreateRecoveryKey None 200%N), w', out, cx_any, r, r'. split; [exact (steps_reachable _ _ _ _ Hst W2_reach)|]. split; [exact H|]. auto.
Qed.

(** C32. *)
Lemma push_keys E o m x : oracle_push E o m = Ok x -> or_keys x = or_keys o.
Proof. unfold oracle_push. destruct m as [[d s] k]. intros H. bd H as (ps & _ & H). bd H as (ky & _ & H). bd H as (u & _ & H). apply Ok_inj in H. subst x. reflexivity. Qed.
Lemma pushed_keys E upd w w' : pushed E upd w w' -> or_keys (w_oracle w') = or_keys (w_oracle w).
Proof. unfold pushed. destruct upd; [apply push_keys|intros ->; reflexivity]. Qed.
Lemma call_static E w a l w' : acct_call E w a l w' -> w_owner w' = w_owner w /\ w_config w' = w_config w /\ w_auth w' = w_auth w /\ w_roles w' = w_roles w /\ dl_max_lock (w_dl w') = dl_max_lock (w_dl w) /\ dl_mult (w_dl w') = dl_mult (w_dl w) /\ dl_contingent (w_dl w') = dl_contingent (w_dl w).
Proof. intros [c o0 idsc ids v0 s1 acc1 refs' Hc Ho Hv Hst Hz Hw]. rewrite Hw. repeat split. Qed.
(** What a call may change of the owner's settings, when its op is not one of the owner's. *)
Definition setting_op (o : op) : bool :=
  match o with OUpdateExchangeConfig _ | OUpdatePairConfigs _ | OUpdateCollateralConfigs _ | ORemoveCollateralConfig _ | ODepositAuthority _ | OWithdrawAuthority | OOracleAddKey _ _ | OOracleRemoveKey _ => true | _ => false end.
Lemma settings_step E cx w o w' out : step E cx w o = Ok (w', out) -> w_owner w' = w_owner w /\ (setting_op o = false -> owner_only w' = owner_only w) /\
  (match o with OSetRole r _ => forall r', r' <> r -> w_roles w' r' = w_roles w r' | _ => w_roles w' = w_roles w end) /\ (match o with ODlMaxLock _ | ODlMultiplier _ | ODlContingent _ => True | _ => delegator_settings w' = delegator_settings w end).
Proof.
  intros H. pose proof H as Hx. apply step_gstep in H. destruct H.
  - destruct H0 as (l & Hc & _ & Hside). destruct (call_static _ _ _ _ _ Hc) as (E1 & E2 & E3 & E4 & E5 & E6 & E7). split; [exact E1|].
    assert (or_keys (w_oracle w') = or_keys (w_oracle w)) as Ek.
    { destruct o; try discriminate H; cbn [op_side] in Hside; repeat match type of Hside with ex _ => destruct Hside as [? Hside] end; destruct_and?; try congruence; try (eapply pushed_keys; eassumption). destruct H2 as [->|H2]; [reflexivity|eapply pushed_keys; eassumption]. }
    destruct o; try discriminate H; (split; [intros _; unfold owner_only; rewrite E2, E3, Ek; reflexivity|split; [exact E4|unfold delegator_settings; rewrite E5, E6, E7; reflexivity]]).
  - destruct (call_static _ _ _ _ _ H1) as (E1 & E2 & E3 & E4 & E5 & E6 & E7). split; [exact E1|]. split; [intros _; unfold owner_only; rewrite E2, E3, H5; reflexivity|]. split; [exact E4|unfold delegator_settings; rewrite E5, E6, E7; reflexivity].
  - split; [reflexivity|]. split; [intros _|split; reflexivity]. unfold owner_only. cbn. apply pushed_keys in H3. cbn in H3. rewrite H3. reflexivity.
  - split; [reflexivity|]. split; [reflexivity|]. split; reflexivity.
  - split; [reflexivity|]. split; [reflexivity|]. split; [|reflexivity]. intros r' Hne. cbn. rewrite bool_decide_eq_false_2 by exact Hne. reflexivity.
  - split; [reflexivity|]. split; [discriminate|]. split; reflexivity.
  - split; [reflexivity|]. split; [discriminate|]. split; reflexivity.
  - split; [reflexivity|]. split; [reflexivity|]. split; reflexivity.
  - split; [reflexivity|]. split; [reflexivity|]. split; reflexivity.
  - split; [reflexivity|]. split; [discriminate|]. split; reflexivity.
  - split; [reflexivity|]. split; [discriminate|]. split; reflexivity.
  - split; [reflexivity|]. split; [discriminate|]. split; reflexivity.
  - split; [reflexivity|]. split; [discriminate|]. split; reflexivity.
  - split; [reflexivity|]. split; [reflexivity|]. split; reflexivity.
  - split; [reflexivity|]. split; [reflexivity|]. split; reflexivity.
  - split; [reflexivity|]. split; [reflexivity|]. split; reflexivity.
  - split; [reflexivity|]. split; [reflexivity|]. split; reflexivity.
  - split; [reflexivity|]. split; [reflexivity|]. split; reflexivity.
  - split; [reflexivity|]. split; [reflexivity|]. split; reflexivity.
  - split; [reflexivity|]. split; [reflexivity|]. split; reflexivity.
  - split; [reflexivity|]. split; [reflexivity|]. split; reflexivity.
  - split; [reflexivity|]. split; [reflexivity|]. split; reflexivity.
  - split; [reflexivity|]. split; [reflexivity|]. split; reflexivity.
  - split; [reflexivity|]. split; [reflexivity|]. split; reflexivity.
  - split; [reflexivity|]. split; [reflexivity|]. split; reflexivity.
  - split; [reflexivity|]. split; [reflexivity|]. split; reflexivity.
  - split; [reflexivity|]. split; [destruct o; try discriminate H; reflexivity|]. split; [destruct o; try discriminate H; reflexivity|]. destruct o; try discriminate H; try exact I.
    + apply step_exec' in Hx. simpl in Hx. unfold dl_deposit in Hx. bd Hx as (d1 & Hd & Hx). bd Hd as (u & _ & Hd). bd Hd as (v & _ & Hd). apply Ok_inj in Hx. injection Hx as Hx _. apply Ok_inj in Hd. rewrite <- Hx, <- Hd. reflexivity.
    + apply step_exec' in Hx. simpl in Hx. unfold dl_withdraw in Hx. bd Hx as ([d1 b1] & Hd & Hx). bd Hd as (u & _ & Hd). apply Ok_inj in Hx. injection Hx as Hx _. apply Ok_inj in Hd. injection Hd as Hd _. rewrite <- Hx, <- Hd. reflexivity.
  - split; [reflexivity|]. split; [|destruct o; try discriminate H; split; reflexivity]. destruct o; try discriminate H; try discriminate; intros _; unfold owner_only; cbn.
    + rewrite H1. reflexivity.
    + rewrite (push_keys _ _ _ _ H1). reflexivity.
Qed.
(** The configuration, the oracle's keys and the authority badges change only in calls by the owner; the owner rule never changes. *)
Theorem C32_owner_only E cx w o w' out : step E cx w o = Ok (w', out) -> w_owner w' = w_owner w /\ (owner_only w' <> owner_only w -> is_owner cx w = true).
Proof.
  intros H. destruct (settings_step _ _ _ _ _ _ H) as (E1 & E2 & _). split; [exact E1|]. intros Hne. destruct (setting_op o) eqn:Eo; [|exfalso; apply Hne, E2; reflexivity]. apply step_inv in H as (_ & Hacc & _). destruct o; try discriminate Eo; exact Hacc.
Qed.
Theorem C32_roles E cx w o w' out r : step E cx w o = Ok (w', out) -> w_roles w' r <> w_roles w r -> is_owner cx w = true \/ user_role r = true /\ has_role cx w RUserAdmin = true.
Proof.
  intros H Hne. destruct (settings_step _ _ _ _ _ _ H) as (_ & _ & E3 & _). destruct o; try (exfalso; apply Hne; rewrite E3; reflexivity).
  apply step_inv in H as (_ & Hacc & _). destruct (decide (r = r0)) as [->|Hr]; [|exfalso; apply Hne, E3; exact Hr].
  cbn [op_access] in Hacc. destruct r0; cbn [access_ok] in Hacc; try (left; exact Hacc); (apply orb_true_iff in Hacc as [Hacc|Hacc]; [left; exact Hacc|right; split; [reflexivity|exact Hacc]]).
Qed.
Theorem C32_delegator E cx w o w' out : step E cx w o = Ok (w', out) -> delegator_settings w' <> delegator_settings w -> is_owner cx w = true \/ has_role cx w RDlAdmin = true.
Proof.
  intros H Hne. destruct (settings_step _ _ _ _ _ _ H) as (_ & _ & _ & E4). destruct o; try (exfalso; apply Hne; exact E4); apply step_inv in H as (_ & Hacc & _); cbn [op_access access_ok] in Hacc; apply orb_true_iff in Hacc as [Hacc|Hacc]; auto.
Qed.
(** While the exchange holds no authority badge, none of its methods runs. *)
Theorem C32_no_badge_no_call E cx w o w' out : step E cx w o = Ok (w', out) -> exchange_method o = true -> 1 <= w_auth w.
Proof.
  intros H Hm. apply step_inv in H as (_ & _ & Ha & _). destruct o; try discriminate Hm; cbn [needs_authority] in Ha; specialize (Ha eq_refl); lia.
Qed.
(** After the badges are withdrawn nothing the exchange controls changes, whatever is called by whomever, until a badge is deposited. *)
Theorem C32_withdrawn_freezes E cx w w1 out l w' : step E cx w OWithdrawAuthority = Ok (w1, out) -> steps E w1 l w' ->
  (forall c b out1, (c, ODepositAuthority b, out1) ∉ l) -> exchange_of w' = exchange_of w /\ w_auth w' = 0 /\ forall c o out1, (c, o, out1) ∈ l -> exchange_method o = false.
Proof.
  intros H Hst Hl. assert (exchange_of w1 = exchange_of w /\ w_auth w1 = 0) as [E1 E2]. { apply step_exec' in H. simpl in H. unfold m_withdraw_authority in H. apply Ok_inj in H. injection H as <- _. split; reflexivity. }
  rewrite <- E1. clear H E1 w out cx. induction Hst as [w|w cx o out w2 l w3 Hs Hst IH]; [split; [reflexivity|]; split; [exact E2|intros c o out1 Hin; inversion Hin]|].
  assert (exchange_method o = false) as Hm. { destruct (exchange_method o) eqn:Em; [|reflexivity]. pose proof (C32_no_badge_no_call _ _ _ _ _ _ Hs Em). lia. }
  assert (exchange_of w2 = exchange_of w /\ w_auth w2 = 0) as [F1 F2].
  { pose proof Hs as Hg. apply step_gstep in Hg. destruct Hg; try discriminate Hm; try (split; [reflexivity|exact E2]).
    - destruct o; discriminate.
    - exfalso. apply (Hl cx b out). left.
    - split; reflexivity. }
  destruct IH as (I1 & I2 & I3); [intros c b out1 Hin; apply (Hl c b out1); right; exact Hin|exact F2|]. split; [congruence|]. split; [exact I2|]. intros c o1 out1 Hin. apply elem_of_cons in Hin as [Heq|Hin]; [injection Heq as -> -> ->; exact Hm|exact (I3 _ _ _ Hin)].
Qed.
(** Non-vacuity. A2's owner may use all levels of A2, others none; the rule set at level 2 is listed; a key widens level 1;
    the badge withdrawn, updates fail, and work again once it is back. *)
Definition two : access_rule := Protected (NAny [NLeaf (LKey 900%N); NLeaf (LKey 901%N)]).
Definition listedb (w : world) (r : access_rule) (lvl : N) (a : addr) : bool := bool_decide (a ∈ reg_at lvl (w_perms w) r).
Example C31_ex : exists w' outs, steps sc_env W2 (hist [(cx_u2, OSetLevel2Auth None A2 two); (cx_u2, OCreateRecoveryKey None A2); (cx_u2, OAddAuthRule None A2 3%N (NLeaf (LKey 902%N)))] outs) w' /\
  bool_decide (rule_of w' A2 2%N = Some two) && listedb w' (Protected (NLeaf (LKey 901%N))) 2%N A2 && negb (listedb w' (Protected (NLeaf (LKey 901%N))) 3%N A2) && listedb w' (Protected (NLeaf (LKey 902%N))) 3%N A2 &&
  negb (tst (step sc_env cx_u2 w' (ORemoveCollateralRequest None 100000%N A2 A2 [])) (fun _ => true)) && tst (step sc_env cx_u2 W2 (ORemoveCollateralRequest None 100000%N A2 A2 [])) (fun _ => true) &&
  negb (tst (step sc_env cx_u3 W2 (OCancelRequests None A2 [])) (fun _ => true)) && tst (step sc_env cx_u2 w' (OCancelRequests None A2 [])) (fun _ => true) = true.
Proof. apply try_run_true. vm_compute. reflexivity. Qed.
Example C32_ex : exists w' outs, steps sc_env W2 (hist [(cx_owner, OWithdrawAuthority); (cx_any, OAdvance 2000)] outs) w' /\
  (w_auth w' =? 0) && negb (tst (step sc_env cx_owner w' (ORemoveCollateralConfig 20%N)) (fun _ => true)) && negb (tst (step sc_env cx_u2 w' (OCancelRequests None A2 [])) (fun _ => true)) &&
  tst (run sc_env w' [(cx_owner, ODepositAuthority (AUTHORITY, 1)); (cx_owner, ORemoveCollateralConfig 20%N)]) (fun _ => true) && negb (tst (step sc_env cx_u2 w' (ODepositAuthority (AUTHORITY, 1))) (fun _ => true)) = true.
Proof. apply try_run_true. vm_compute. reflexivity. Qed.
