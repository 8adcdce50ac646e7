(** * How calls change the rules of accounts and the permission registry. *)
From Verif Require Import Base DFloat Lists Types Config Oracle Pool Account Fees Referral ExInternal Exchange System Scenario Sums Trace Frames Calls Shape Spec SpecAuth P_Ledger P_Accounts Witness Frames2 P_Fees P_Requests P_Requests2 P_Requests4.

Definition lv_act (t : access_rule * access_rule * access_rule) (x : sact) : access_rule * access_rule * access_rule :=
  match x with ALevel l r => let '(a, b, c) := t in if (l =? 1)%N then (r, b, c) else if (l =? 2)%N then (a, r, c) else (a, b, r) | _ => t end.
Lemma sstep_rules E now c o s x s' : sstep E now c o s x s' -> g_rules (s_acc s') = lv_act (g_rules (s_acc s)) x.
Proof.
  intros H. pose proof (sstep_frames _ _ _ _ _ _ _ H) as F. destruct x; try (cbn [lv_act]; apply F; reflexivity).
  inversion H; subst. unfold g_rules, lv_act, ac_set_level. cbn. destruct (lvl =? 1)%N; [reflexivity|]. destruct (lvl =? 2)%N; reflexivity.
Qed.
Lemma ssteps_rules E now c o s l s' : ssteps E now c o s l s' -> g_rules (s_acc s') = foldl lv_act (g_rules (s_acc s)) l.
Proof. induction 1 as [|s x s1 l s2 H1 H2 IH]; [reflexivity|]. cbn [foldl]. rewrite <- (sstep_rules _ _ _ _ _ _ _ H1). exact IH. Qed.
Definition rules (acc : account) := (ac_l1 acc, ac_l2 acc, ac_l3 acc).
Lemma call_rules E w a l w' acc acc' : acct_call E w a l w' -> w_accounts w !! a = Some acc -> w_accounts w' !! a = Some acc' -> rules acc' = foldl lv_act (rules acc) l.
Proof.
  intros H Ha Ha'. destruct (acct_call_out _ _ _ _ _ _ _ H Ha Ha') as (c & o & idsc & ids & v0 & s1 & refs' & _ & _ & Hv & Hcm & Hs & Hz & Hu).
  apply ssteps_rules in Hs. cbn [s_acc] in Hs. unfold acc_update in Hu. bd Hu as (r1 & _ & Hu). bd Hu as (r2 & _ & Hu). apply Ok_inj in Hu.
  assert (rules acc' = g_rules (s_acc s1)) as -> by (rewrite <- Hu; reflexivity). rewrite Hs. unfold g_rules. rewrite Hcm. reflexivity.
Qed.
Lemma no_level l t : Forall (fun x => touches_rules x = false) l -> foldl lv_act t l = t.
Proof. intros H. revert t. induction H as [|x l Hx Hl IH]; intros t; [reflexivity|]. cbn [foldl]. destruct x; try discriminate; apply IH. Qed.
Lemma oath_no_level b : Forall (fun x => touches_rules x = false) (oath_acts b).
Proof. destruct b; repeat constructor. Qed.
Lemma add_no_level ts : Forall (fun x => touches_rules x = false) (add_acts ts).
Proof. unfold add_acts. repeat (apply Forall_app_2 || apply Forall_cons_2 || apply Forall_nil_2 || (apply Forall_map, Forall_true; reflexivity) || reflexivity). Qed.
(** The lists of the calls that set no rule. *)
Lemma acts_no_level w o out l : op_acts w o out l -> match o with OCreateRecoveryKey _ _ | OAddAuthRule _ _ _ _ | OSetLevel1Auth _ _ _ | OSetLevel2Auth _ _ _ | OSetLevel3Auth _ _ _ => True | _ => Forall (fun x => touches_rules x = false) l end.
Proof.
  destruct o; cbn [op_acts]; try (intros; exact I); try contradiction.
  - intros [_ ->]. apply Forall_app_2; [apply add_no_level|apply oath_no_level].
  - intros [_ ->]. apply Forall_app_2; [apply oath_no_level|repeat constructor].
  - intros (_ & act & can & ->). apply Forall_app_2; [apply oath_no_level|repeat constructor].
  - intros (_ & l' & -> & Hl). apply Forall_app_2; [apply oath_no_level|]. eapply Forall_impl; [exact Hl|]. intros [] Hx; cbn in *; tauto.
  - intros [_ ->]. apply Forall_app_2; [apply oath_no_level|repeat constructor].
  - intros (v0 & v1 & rq & ex & l' & _ & _ & Hx & -> & _). apply Forall_cons_2; [reflexivity|]. unfold exec_acts in Hx. destruct ex; [destruct Hx as [-> _]; constructor|]. destruct rq as [r|r].
    + destruct Hx as (k & bs & -> & _). apply Forall_app_2; [|repeat constructor]. induction k; constructor; auto.
    + destruct Hx as (l0 & fee & -> & Hl & _). apply Forall_cons_2; [reflexivity|]. apply Forall_cons_2; [reflexivity|]. apply Forall_app_2; [|repeat constructor]. eapply Forall_impl; [exact Hl|]. intros [] Hx; cbn in *; tauto.
  - intros (_ & paid & value & token & -> & _). repeat constructor.
  - intros (_ & paid & bs & st & lo & fee & -> & Hlo & _). apply Forall_app_2; [repeat constructor|]. apply Forall_app_2; [|repeat constructor]. destruct Hlo as [->|[x ->]]; repeat constructor.
  - intros (amt & fee & -> & _). repeat constructor.
Qed.
Lemma ac_level_of lvl acc : ac_level lvl acc = let '(a, b, c) := rules acc in if (lvl =? 1)%N then a else if (lvl =? 2)%N then b else c.
Proof. reflexivity. Qed.
(** The rule of a level after a call. *)
Lemma extend_widen r n : extend_rule r n = widen r n.
Proof. destruct r as [| |[l|ns|ns]]; reflexivity. Qed.
Lemma rule_after_other w o a lvl r : op_account o <> Some a -> rule_after w o a lvl r = r.
Proof. intros H. destruct o; cbn [rule_after]; try reflexivity. all: match goal with |- context [(?b =? ?x)%N] => destruct (N.eqb_spec b x) as [Hb|Hb]; [exfalso; apply H; cbn; rewrite Hb; reflexivity|reflexivity] end. Qed.
Lemma step_rule E cx w o w' out a acc acc' lvl : step E cx w o = Ok (w', out) -> w_accounts w !! a = Some acc -> w_accounts w' !! a = Some acc' -> (1 <= lvl <= 3)%N ->
  ac_level lvl acc' = rule_after w o a lvl (ac_level lvl acc).
Proof.
  intros H Ha Ha' Hl. destruct (decide (op_account o = Some a)) as [Ho|Ho].
  - destruct (step_acct _ _ _ _ _ _ _ H Ho) as (l & Hc & Hop & _). pose proof (call_rules _ _ _ _ _ _ _ Hc Ha Ha') as Hr.
    pose proof (acts_no_level _ _ _ _ Hop) as Hno. rewrite !ac_level_of, Hr. unfold rules in *.
    destruct o; try discriminate Ho; cbn [rule_after op_account] in *; try (rewrite (no_level _ _ Hno); reflexivity); injection Ho as ->; rewrite N.eqb_refl; cbn [andb]; clear Hno; cbn [op_acts] in Hop.
    + destruct Hop as (acc0 & Ha0 & _ & ->). rewrite Ha in Ha0. injection Ha0 as <-. rewrite foldl_app, (no_level _ _ (oath_no_level _)). cbn [foldl lv_act]. rewrite extend_widen. destruct (lvl =? 1)%N eqn:E1; [reflexivity|]. reflexivity.
    + destruct Hop as (acc0 & Ha0 & _ & Hl' & ->). rewrite Ha in Ha0. injection Ha0 as <-. rewrite foldl_app, (no_level _ _ (oath_no_level _)). cbn [foldl]. rewrite extend_widen. unfold lv_act, ac_level.
      match goal with |- context [(lvl =? ?x)%N] => assert (x = 1 \/ x = 2 \/ x = 3)%N as [->|[->| ->]] by lia end; assert (lvl = 1 \/ lvl = 2 \/ lvl = 3)%N as [->|[->| ->]] by lia; reflexivity.
    + destruct Hop as [_ ->]. rewrite foldl_app, (no_level _ _ (oath_no_level _)). cbn. assert (lvl = 1 \/ lvl = 2 \/ lvl = 3)%N as [->|[->| ->]] by lia; reflexivity.
    + destruct Hop as [_ ->]. rewrite foldl_app, (no_level _ _ (oath_no_level _)). cbn. assert (lvl = 1 \/ lvl = 2 \/ lvl = 3)%N as [->|[->| ->]] by lia; reflexivity.
    + destruct Hop as [_ ->]. rewrite foldl_app, (no_level _ _ (oath_no_level _)). cbn. assert (lvl = 1 \/ lvl = 2 \/ lvl = 3)%N as [->|[->| ->]] by lia; reflexivity.
  - rewrite rule_after_other by exact Ho. destruct (step_account _ _ _ _ _ _ a H) as [Heq|[[Ho' _]|Hcr]]; [rewrite Heq, Ha in Ha'; injection Ha' as <-; reflexivity|contradiction|].
    destruct Hcr as (oath & rule & ts & code & ref & g & more & _ & Hnone & _). rewrite Ha in Hnone. discriminate.
Qed.
Lemma created_rule E w o a w' acc' lvl : created E w o a w' -> w_accounts w' !! a = Some acc' -> (1 <= lvl <= 3)%N -> exists oath rule ts code, o = OCreateAccount oath rule ts code a /\ ac_level lvl acc' = rule.
Proof.
  intros (oath & rule & ts & code & ref & g & more & -> & Hnone & _ & Hl) Ha' Hlv. exists oath, rule, ts, code. split; [reflexivity|].
  assert (w_accounts (new_account_world E w rule a ref g) !! a = Some (acc_new rule rule rule ref)) as Ha by (apply lookup_insert).
  pose proof (call_rules _ _ _ _ _ _ _ Hl Ha Ha') as Hr. rewrite no_level in Hr by (apply Forall_app_2; [apply add_no_level|apply oath_no_level]). rewrite ac_level_of, Hr. unfold rules. cbn. assert (lvl = 1 \/ lvl = 2 \/ lvl = 3)%N as [->|[->| ->]] by lia; reflexivity.
Qed.
(** The registry. *)
Definition reg_at (lvl : N) (g : registry) (r : access_rule) : gset addr := pm_get lvl (reg_get g r).
Lemma pm_get_set l1 l2 p s : (1 <= l1 <= 3)%N -> (1 <= l2 <= 3)%N -> pm_get l1 (pm_set l2 p s) = if (l1 =? l2)%N then s else pm_get l1 p.
Proof. intros H1 H2. assert (l1 = 1 \/ l1 = 2 \/ l1 = 3)%N as [->|[->| ->]] by lia; assert (l2 = 1 \/ l2 = 2 \/ l2 = 3)%N as [->|[->| ->]] by lia; reflexivity. Qed.
Lemma reg_get_set g r p r' : reg_get (reg_set g r p) r' = if decide (r' = r) then p else reg_get g r'.
Proof. unfold reg_get, reg_set. case_bool_decide; [rewrite decide_True by assumption|rewrite decide_False by assumption]; reflexivity. Qed.
Lemma at_insert lvl a g r l x b : (1 <= lvl <= 3)%N -> (1 <= l <= 3)%N -> b ∈ reg_at l (reg_insert lvl a g r) x <-> b ∈ reg_at l g x \/ l = lvl /\ x = r /\ b = a.
Proof.
  intros H1 H2. unfold reg_at, reg_insert. cbv zeta. rewrite reg_get_set. destruct (decide (x = r)) as [->|Hne]; [|intuition congruence]. rewrite pm_get_set by assumption. destruct (N.eqb_spec l lvl) as [->|Hn]; [|intuition congruence].
  rewrite elem_of_union, elem_of_singleton. intuition.
Qed.
Lemma at_remove lvl a g r l x b : (1 <= lvl <= 3)%N -> (1 <= l <= 3)%N -> b ∈ reg_at l (reg_remove lvl a g r) x <-> b ∈ reg_at l g x /\ ~ (l = lvl /\ x = r /\ b = a).
Proof.
  intros H1 H2. unfold reg_at, reg_remove. cbv zeta. rewrite reg_get_set. destruct (decide (x = r)) as [->|Hne]; [|intuition congruence]. rewrite pm_get_set by assumption. destruct (N.eqb_spec l lvl) as [->|Hn]; [|intuition congruence].
  rewrite elem_of_difference, elem_of_singleton. intuition.
Qed.
Lemma at_inserts lvl a rs : forall g l x b, (1 <= lvl <= 3)%N -> (1 <= l <= 3)%N -> b ∈ reg_at l (foldl (reg_insert lvl a) g rs) x <-> b ∈ reg_at l g x \/ l = lvl /\ x ∈ rs /\ b = a.
Proof.
  induction rs as [|r rs IH]; intros g l x b H1 H2; cbn [foldl]; [rewrite elem_of_nil; intuition|]. rewrite IH, at_insert by assumption. rewrite elem_of_cons. intuition.
Qed.
Lemma at_removes lvl a rs : forall g l x b, (1 <= lvl <= 3)%N -> (1 <= l <= 3)%N -> b ∈ reg_at l (foldl (reg_remove lvl a) g rs) x <-> b ∈ reg_at l g x /\ ~ (l = lvl /\ x ∈ rs /\ b = a).
Proof.
  induction rs as [|r rs IH]; intros g l x b H1 H2; cbn [foldl]; [rewrite elem_of_nil; intuition|]. rewrite IH, at_remove by assumption. rewrite elem_of_cons. intuition.
Qed.
Lemma at_insert_all a rs : forall g l x b, (1 <= l <= 3)%N -> b ∈ reg_at l (foldl (reg_insert_all a) g rs) x <-> b ∈ reg_at l g x \/ x ∈ rs /\ b = a.
Proof.
  induction rs as [|r rs IH]; intros g l x b H2; cbn [foldl]; [rewrite elem_of_nil; intuition|]. rewrite IH by assumption. unfold reg_insert_all. rewrite !at_insert by lia. rewrite elem_of_cons.
  assert (l = 1 \/ l = 2 \/ l = 3)%N as [->|[->| ->]] by lia; intuition lia.
Qed.
Lemma at_relevel lvl a g old rule l x b : (1 <= lvl <= 3)%N -> (1 <= l <= 3)%N ->
  b ∈ reg_at l (relevel lvl a g old rule) x <-> (b ∈ reg_at l g x /\ ~ (l = lvl /\ controls x old /\ b = a)) \/ l = lvl /\ controls x rule /\ b = a.
Proof.
  intros H1 H2. unfold relevel. rewrite at_inserts, at_removes by assumption.
  assert (forall r, x ∈ r :: sub_rules r <-> controls x r) as Hc; [|rewrite !Hc; reflexivity].
  intros r. rewrite elem_of_cons. unfold controls, sub_rules. split.
  - intros [->|Hx]; [left; reflexivity|right]. destruct r as [| |[lf|ns|ns]]; try (inversion Hx; fail). apply elem_of_list_fmap in Hx as (n & -> & Hn). eauto.
  - intros [->|(ns & n & -> & Hn & ->)]; [left; reflexivity|right]. apply elem_of_list_fmap. eauto.
Qed.
