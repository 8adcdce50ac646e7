(** * C59: deposits are credited in full. *)
From Verif Require Import Base DFloat Lists Types Config Oracle Pool Account Fees Referral ExInternal Exchange System Sums Trace Frames Calls Shape Spec P_Ledger P_Accounts Frames2 Scenario Witness Props_Config P_Fees P_Coll P_Refs P_Rules P_Requests P_Requests2 P_Requests3 SpecRequests SpecTrading SpecMargin SpecAuth SpecReferral Props_Auth Props_Ledger Props_Collateral Props_Referral P_Access Props_Access.

(** What a call pays in fee oaths. *)
Definition oath_value (o : op) : Z := match oath_of o with Some b => b_amt b | None => 0 end.
(** The tokens a referral code adds to a new account: its claims, rounded down to each token's divisibility. *)
Definition code_tokens (E : env) (w : world) (code : option N) : list bucket :=
  match code with
  | Some s => match gn_codes (w_gen w) !! e_hash E s with
              | Some c => map (fun x => (fst x, Z.quot (snd x) (unit_of E (fst x)) * unit_of E (fst x))) (rc_claims c)
              | None => [] end
  | None => [] end.

Lemma coll_adds_exact bs : forall c c' r, rfold coll_add c bs = Ok c' -> default 0 (c' !! r) = default 0 (c !! r) + amount_in r bs.
Proof.
  induction bs as [|b bs IH]; intros c c' r Hc; cbn [rfold] in Hc; [apply Ok_inj in Hc; subst; unfold amount_in; cbn; lia|]. bd Hc as (c1 & H1 & Hc). rewrite (IH _ _ _ Hc). unfold amount_in. rewrite lsum_cons.
  assert (default 0 (c1 !! r) = default 0 (c !! r) + (if (b_res b =? r)%N then b_amt b else 0)) as ->; [|lia].
  unfold coll_add in H1. destruct (N.eqb_spec (b_res b) r) as [<-|Hn].
  - destruct (c !! b_res b) as [y|] eqn:Ey; [bd H1 as (z & Hz & H1); apply dadd_Ok in Hz as [-> _]|]; apply Ok_inj in H1; subst c1; rewrite lookup_insert; cbn; lia.
  - destruct (c !! b_res b) as [y|] eqn:Ey; [bd H1 as (z & Hz & H1); apply dadd_Ok in Hz as [-> _]|]; apply Ok_inj in H1; subst c1; rewrite lookup_insert_ne by congruence; lia.
Qed.
Definition act_coll (r : resource) (x : sact) : Z := match x with ADeposit bs => amount_in r bs | _ => 0 end.
Lemma ssteps_coll_exact E now c o s l s' r : ssteps E now c o s l s' -> Forall (fun x => is_withdraw x = false) l ->
  held_coll (va_comp (s_acc s')) r = held_coll (va_comp (s_acc s)) r + lsum (act_coll r) l.
Proof.
  induction 1 as [|s x s1 l s2 H1 H2 IH]; intros Hf; [cbn; lia|]. apply Forall_cons in Hf as [Hx Hf]. rewrite (IH Hf), lsum_cons. enough (held_coll (va_comp (s_acc s1)) r = held_coll (va_comp (s_acc s)) r + act_coll r x) by lia.
  clear IH H2 Hf. destruct (touches_coll x) eqn:Ht.
  - destruct x; try discriminate. cbn [act_coll]. inversion H1; subst; cbn [s_acc] in *.
    match goal with H : va_deposit _ _ = Ok _ |- _ => rename H into Hd end. unfold va_deposit, acc_deposit in Hd. bd Hd as (c1 & _ & Hd). bd Hd as (a1 & H2 & Hd). bd H2 as (c2 & H2a & H2). bd H2 as (v2 & H2b & H2).
    apply Ok_inj in Hd, H2. subst. cbn. exact (coll_adds_exact _ _ _ _ H2a).
  - apply sstep_frames in H1 as (_ & _ & Hc & _). specialize (Hc Ht). unfold g_coll in Hc. injection Hc as _ Hc _. unfold held_coll. rewrite Hc. destruct x; cbn; try lia. discriminate.
Qed.
Lemma amount_app r k l : amount_in r (k ++ l) = amount_in r k + amount_in r l. Proof. unfold amount_in. apply lsum_app. Qed.
Lemma amount_others r ts : r <> BASE -> amount_in r (List.filter (fun b => negb (is_base b)) ts) = amount_in r ts.
Proof.
  intros Hr. unfold amount_in. induction ts as [|b ts IH]; [reflexivity|]. cbn [List.filter]. unfold is_base at 1. destruct (N.eqb_spec (b_res b) BASE) as [Hb|Hb]; cbn [negb]; rewrite ?lsum_cons, IH; [|reflexivity].
  destruct (N.eqb_spec (b_res b) r); [congruence|lia].
Qed.
Lemma act_coll_adds r ts oath : r <> BASE -> lsum (act_coll r) (add_acts ts ++ oath_acts oath) = amount_in r ts.
Proof.
  intros Hr. unfold add_acts. rewrite !lsum_app, lsum_map. assert (forall k : list bucket, lsum (fun b => act_coll r (AAddBase (b_amt b))) k = 0) as -> by (intros k; induction k as [|b0 k IH]; [reflexivity|rewrite lsum_cons, IH; reflexivity]).
  assert (lsum (act_coll r) (oath_acts oath) = 0) as -> by (destruct oath; reflexivity). cbn. rewrite amount_others by exact Hr. lia.
Qed.
Lemma deposit_call E w a ts oath w' acc : acct_call E w a (add_acts ts ++ oath_acts oath) w' -> w_accounts w !! a = Some acc ->
  exists acc', w_accounts w' !! a = Some acc' /\ ac_vb acc' = ac_vb acc + amount_in BASE ts - (match oath with Some b => b_amt b | None => 0 end) /\
    (forall r, r <> BASE -> held_coll acc' r = held_coll acc r + amount_in r ts) /\ ac_positions acc' = ac_positions acc /\ ac_vstart acc' = ac_vstart acc /\ ac_ref acc' = ac_ref acc /\
    po_base (w_pool w') = po_base (w_pool w) + amount_in BASE ts /\ po_positions (w_pool w') = po_positions (w_pool w).
Proof.
  intros Hc Ha. destruct (acct_call_vb _ _ _ _ _ _ Hc Ha) as (acc' & Ha' & Hvb). { apply Forall_app. split; [apply quiet_adds|destruct oath; repeat constructor]. }
  exists acc'. split; [exact Ha'|]. split. { rewrite Hvb, lsum_app, lsum_adds. destruct oath; cbn; lia. }
  split. { intros r Hr. destruct (acct_call_out _ _ _ _ _ _ _ Hc Ha Ha') as (c & o & idsc & ids & v0 & s1 & refs' & _ & _ & Hv & Hcomp & Hs & _ & Hu). apply acc_update_coll in Hu as [Hu _].
    unfold held_coll at 1. rewrite Hu. pose proof (ssteps_coll_exact _ _ _ _ _ _ _ r Hs ltac:(noact)) as Hx. cbn [s_acc] in Hx. rewrite act_coll_adds, Hcomp in Hx by exact Hr. exact Hx. }
  split; [eapply acct_positions_same; eauto; noact|]. split; [eapply acct_vstart_same; eauto; noact|]. split; [eapply acct_call_ref; eauto|]. split; [|eapply acct_pool_same; eauto; noact].
  destruct Hc as [c o idsc ids v0 s1 acc1 refs' Hc Ho Hv Hs Hz Hw]. rewrite Hw. cbn.
  assert (forall s l s', ssteps E (w_now w) c o s l s' -> Forall (fun x => quiet x = true) l -> po_base (vp_comp (s_pool s')) = po_base (vp_comp (s_pool s)) + lsum (fun x => match x with AAddBase v => v | _ => 0 end) l) as Hbase.
  { clear. induction 1 as [|s x s1 l s2 H1 H2 IH]; intros Hf; [cbn; lia|]. apply Forall_cons in Hf as [Hx Hf]. rewrite (IH Hf), lsum_cons. clear IH H2 Hf. destruct H1; try discriminate Hx; cbn [s_pool]; try lia.
    apply x_add_base_inv in H as [-> _]. cbn. lia. }
  apply Hbase in Hs. 2: { apply Forall_app. split; [apply quiet_adds|destruct oath; repeat constructor]. } cbn [s_pool] in Hs. cbn in Hs. rewrite Hs, lsum_app. f_equal.
  rewrite <- lsum_adds. assert (lsum (fun x => match x with AAddBase v => v | _ => 0 end) (oath_acts oath) = 0) as -> by (destruct oath; reflexivity). rewrite Z.add_0_r. unfold add_acts. rewrite !lsum_app, !lsum_map. cbn. lia.
Qed.

(** Adding collateral credits every token handed over to the named account, to the atto, and changes nothing else of it. *)
Theorem C59_add_collateral E cx w oath a ts w' out : reachable E w -> step E cx w (OAddCollateral oath a ts) = Ok (w', out) ->
  (balance w' a = balance w a + amount_in BASE ts - oath_value (OAddCollateral oath a ts)) /\
  (forall r, r <> BASE -> collateral_of w' a r = collateral_of w a r + amount_in r ts) /\
  (forall k, position w' a k = position w a k) /\ valid_start w' a = valid_start w a /\ request_count w' a = request_count w a /\ (forall i, request_at w' a i = request_at w a i) /\
  (forall lvl, (1 <= lvl <= 3)%N -> rule_of w' a lvl = rule_of w a lvl) /\
  po_base (w_pool w') = po_base (w_pool w) + amount_in BASE ts /\ po_positions (w_pool w') = po_positions (w_pool w) /\ w_lp w' = w_lp w /\ o_tokens out = [] /\ o_payouts out = [].
Proof.
  intros Hr Hs. pose proof (step_acct _ _ _ _ _ _ a Hs eq_refl) as (l & Hc & Hac & _). pose proof Hac as Hac0. cbn in Hac. destruct Hac as [[Ho1 Ho2] ->].
  destruct (acct_call_self _ _ _ _ _ Hc) as ((acc & Ha) & _). destruct (deposit_call _ _ _ _ _ _ _ Hc Ha) as (acc' & Ha' & Hvb & Hcoll & Hpos & Hvst & Href & Hb & Hpp).
  pose proof (acc_ok_reachable _ _ Hr _ _ Ha) as Hok.
  pose proof (acct_count_same _ _ _ _ _ _ _ Hc (op_acts_shape _ _ _ _ Hac0) Ha Ha' Hok ltac:(noact)) as Hcount.
  split. { unfold balance, oath_value. rewrite Ha, Ha'. exact Hvb. }
  split. { intros r Hne. unfold collateral_of. rewrite Ha, Ha'. exact (Hcoll r Hne). }
  split. { intros k. unfold position, held. rewrite Ha, Ha', Hpos. reflexivity. }
  split. { unfold valid_start. rewrite Ha, Ha'. exact Hvst. }
  split. { unfold request_count. rewrite Ha, Ha'. exact Hcount. }
  split. { intros i. destruct (old_step _ _ _ _ _ _ a acc Hr Hs Ha (or_introl eq_refl)) as (acc2 & Ha2 & Hj). assert (acc2 = acc') as -> by congruence. unfold request_at. rewrite Ha, Ha'. unfold kl_get, kl_len in *.
    destruct (N.ltb_spec i (kl_ptr (ac_requests acc))) as [Hi|Hi]; [exact (Hj _ Hi)|].
    pose proof (acc_ok_reachable _ _ (reach_step _ _ _ _ _ _ Hr Hs) _ _ Ha') as Hok'.
    assert (forall x y, acc_ok x -> (kl_ptr (ac_requests x) <= y)%N -> kl_kvs (ac_requests x) !! y = None) as Hnone.
    { intros x y Hx Hy. destruct (kl_kvs (ac_requests x) !! y) eqn:Ey; [|reflexivity]. exfalso. assert (y < kl_len (ac_requests x))%N by (apply Hx; eauto). unfold kl_len in *. lia. }
    rewrite (Hnone _ _ Hok Hi), (Hnone acc' i Hok' ltac:(lia)). reflexivity. }
  split. { intros lvl Hl. assert (rule_of w a lvl = Some (ac_level lvl acc)) as Hru by (unfold rule_of; rewrite Ha; reflexivity). rewrite Hru. exact (C31_rules_after _ _ _ _ _ _ _ _ _ Hs Hl Hru). }
  split; [exact Hb|]. split; [exact Hpp|]. split; [apply acct_call_config in Hc; tauto|]. auto.
Qed.
(** A new account starts with exactly the tokens handed over and those its referral code pays; no position, no request. *)
Theorem C59_create_account E cx w oath rule ts code a w' out : reachable E w -> step E cx w (OCreateAccount oath rule ts code a) = Ok (w', out) ->
  let got := ts ++ code_tokens E w code in
  w_accounts w !! a = None /\
  balance w' a = amount_in BASE got - oath_value (OCreateAccount oath rule ts code a) /\
  (forall r, r <> BASE -> collateral_of w' a r = amount_in r got) /\
  (forall k, position w' a k = mkAP 0 0 0) /\ valid_start w' a = 0%N /\ request_count w' a = 0%N /\
  po_base (w_pool w') = po_base (w_pool w) + amount_in BASE got /\ po_positions (w_pool w') = po_positions (w_pool w) /\ o_tokens out = [] /\ o_payouts out = [].
Proof.
  intros Hr Hs got. pose proof Hs as Hg. apply step_gstep in Hg. remember (OCreateAccount oath rule ts code a) as o eqn:Eo. destruct Hg; try discriminate Eo; try (subst; discriminate). injection Eo as -> -> -> -> ->.
  rename H into Hnone, H0 into Hcode, H1 into Hc, H2 into Hno. split; [exact Hnone|].
  assert (more = code_tokens E w code) as Hmore.
  { unfold code_tokens. destruct code as [s|]; [|tauto]. destruct Hcode as (id & _ & Hcl). pose proof Hcl as Hx. unfold gn_claim in Hx. bd Hx as (c & Hx1 & Hx). bd Hx as (? & Hx2 & _). apply expect_Ok in Hx1. apply guard_Ok, N.ltb_lt in Hx2.
    destruct (C35_claim_is_served _ _ _ _ Hr Hx1 Hx2) as (g' & Hcl'). rewrite Hx1. rewrite Hcl' in Hcl. apply Ok_inj in Hcl. congruence. }
  subst more. fold got in Hc. destruct (deposit_call _ _ _ _ _ _ (acc_new rule rule rule ref) Hc) as (acc' & Ha' & Hvb & Hcoll & Hpos & Hvst & Href & Hb & Hpp); [cbn; apply lookup_insert|].
  split. { unfold balance, oath_value. rewrite Ha'. rewrite Hvb. cbn. destruct oath; lia. }
  split. { intros r Hne. unfold collateral_of. rewrite Ha'. specialize (Hcoll r Hne). unfold held_coll in Hcoll. rewrite Hcoll. cbn. rewrite lookup_empty. cbn. lia. }
  split. { intros k. unfold position, held. rewrite Ha', Hpos. cbn. rewrite lookup_empty. reflexivity. }
  split. { unfold valid_start. rewrite Ha', Hvst. reflexivity. }
  split. { unfold request_count. rewrite Ha'. assert (acc_ok (acc_new rule rule rule ref)) as Hok by apply acc_new_ok.
    change (kl_ptr (ac_requests acc')) with (kl_len (ac_requests acc')). rewrite (acct_count_same _ _ _ _ _ (acc_new rule rule rule ref) acc' Hc); [reflexivity| |cbn; apply lookup_insert|exact Ha'|exact Hok|noact]. left. apply Forall_app. split; [apply notproc_add|apply notproc_oath]. }
  split; [rewrite Hb; reflexivity|]. split; [rewrite Hpp; reflexivity|]. destruct Hno. auto.
Qed.
(** Only configured tokens are accepted as collateral, and not too many of them. *)
Theorem C59_only_configured_tokens E cx w oath a ts w' out : reachable E w -> step E cx w (OAddCollateral oath a ts) = Ok (w', out) ->
  Forall (fun b => b_res b = BASE \/ coll_cfg w (b_res b) <> None) ts.
Proof.
  intros Hr Hs. apply step_exec in Hs as (H & _). cbn in H. unfold m_add_collateral in H. bd H as (v & Hv & H). bd H as (? & _ & H). bd H as ([[w1 v1] evs] & H1 & _).
  assert (exists c ids p p' v' ev, get_config w ids = Ok c /\ x_add_collateral c p v ts = Ok (p', v', ev)) as (c & ids & p & p' & v' & ev & Hc & Hx).
  { unfold add_collateral_oath in H1. destruct oath as [b|].
    - cbv zeta in H1. bd H1 as (c & Hc & H1). bd H1 as ([o1 o2] & _ & H1). bd H1 as ([[p1 v2] ev] & Hx & _). eauto 10.
    - bd H1 as (c & Hc & H1). bd H1 as ([[p1 v2] ev] & Hx & _). eauto 10. }
  unfold x_add_collateral in Hx. bd Hx as ([p1 v2] & _ & Hx). cbv zeta in Hx. bd Hx as (l & Hm & _).
  apply Forall_forall. intros b Hb. destruct (decide (b_res b = BASE)) as [|Hne]; [left; assumption|right].
  assert (b ∈ List.filter (fun b => negb (is_base b)) ts) as Hin. { apply elem_of_list_In, filter_In. split; [apply elem_of_list_In, Hb|]. unfold is_base. apply negb_true_iff, N.eqb_neq, Hne. }
  assert (exists u, x_assert_valid_collateral c (b_res b) = Ok u) as [u Hu].
  { clear -Hm Hin. revert l Hm. induction (List.filter (fun b => negb (is_base b)) ts) as [|y k IH]; intros l Hm; [apply elem_of_nil in Hin; contradiction|]. cbn [rmap] in Hm. bd Hm as (u & Hu & Hm). bd Hm as (us & Hus & _).
    apply elem_of_cons in Hin as [->|Hin]; [eauto|]. exact (IH Hin _ Hus). }
  unfold x_assert_valid_collateral in Hu. apply guard_Ok, bool_decide_eq_true in Hu. intros Hnone.
  assert (vc_collaterals c !! b_res b = None) as Hn2; [|rewrite Hn2 in Hu; destruct Hu; discriminate].
  unfold get_config, vc_new in Hc. bd Hc as (ps & _ & Hc). apply Ok_inj in Hc. subst c. cbn. unfold coll_cfg in Hnone. exact Hnone.
Qed.

Example C59_ex : exists w' out, step sc_env cx_u2 W2 (OAddCollateral None A2 [(BASE, dec 5); (20%N, dec 3); (BASE, dec 1)]) = Ok (w', out) /\
  balance w' A2 = balance W2 A2 + dec 6 /\ collateral_of w' A2 20%N = collateral_of W2 A2 20%N + dec 3.
Proof.
  assert (try_ W2 (cx_u2, OAddCollateral None A2 [(BASE, dec 5); (20%N, dec 3); (BASE, dec 1)]) (fun w' _ => true) = true) as H by (vm_compute; reflexivity).
  apply try_true in H as (w' & out & H & _). exists w', out. split; [exact H|]. destruct (C59_add_collateral _ _ _ _ _ _ _ _ W2_reach H) as (A & B & _). split; [rewrite A; reflexivity|].
  rewrite (B 20%N) by discriminate. reflexivity.
Qed.
