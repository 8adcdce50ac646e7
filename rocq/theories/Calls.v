(** * Every account method is an [acct_call]; every call is one of a few shapes. *)
From Verif Require Import Base DFloat Lists Types Config Oracle Pool Account Fees Referral ExInternal Exchange System Trace Frames.

Definition oath_acts (oath : option bucket) : list sact :=
  match oath with Some b => [AOath b] | None => [] end.

Lemma realize_acc_inv w v w' : realize_acc w v = Ok w' ->
  exists acc refs, va_realize v (w_refs w) = Ok (acc, refs) /\
    w' = w <| w_accounts := <[va_addr v := acc]> (w_accounts w) |> <| w_refs := refs |>.
Proof. unfold realize_acc. intros H. bd H as ([acc refs] & H1 & H). apply Ok_inj in H. subst. eauto. Qed.

(** The oath block as a session step that leaves the pool alone. *)
Lemma settle_oath_tr E w v extra oath w' v' c fd :
  settle_oath E w v extra oath = Ok (w', v', c) ->
  exists o ids, get_config w ids = Ok c /\ oracle_pos o /\
    ssteps E (w_now w) c o (mkS (get_pool w ids) v fd) [AOath oath] (mkS (get_pool w ids) v' fd) /\
    w' = w <| w_oath := w_oath w - b_amt oath |> /\ ids = dom (va_positions v) ∪ extra.
Proof.
  unfold settle_oath. intros H. bd H as (c0 & Hc & H). bd H as ([o0 o] & Ho & H). bd H as ([v1 s] & Hs & H).
  apply Ok_inj in H. injection H as <- <- <-. exists o. eexists. split; [exact Hc|]. split; [eapply get_oracle_pos; eauto|].
  split; [apply ssteps_one; eapply ss_oath; exact Hs|]. apply x_settle_fee_oath_inv in Hs. destruct Hs as (_ & -> & _).
  split; reflexivity.
Qed.
Lemma settle_oath_opt_tr E w v extra oath w' v' c fd :
  settle_oath_opt E w v extra oath = Ok (w', v', c) ->
  exists o ids idsc, get_config w idsc = Ok c /\ oracle_pos o /\
    ssteps E (w_now w) c o (mkS (get_pool w ids) v fd) (oath_acts oath) (mkS (get_pool w ids) v' fd) /\
    w' = w <| w_oath := w_oath w - oath_total (oath_acts oath) |> /\ extra ⊆ idsc.
Proof.
  destruct oath as [b|]; simpl; intros H.
  - apply (settle_oath_tr _ _ _ _ _ _ _ _ fd) in H. destruct H as (o & ids & Hc & Ho & Hs & -> & ->). exists o. do 2 eexists.
    split; [exact Hc|]. split; [exact Ho|]. split; [exact Hs|]. rewrite Z.add_0_r. split; [reflexivity|set_solver].
  - bd H as (c0 & Hc & H). apply Ok_inj in H. injection H as <- <- <-.
    exists (mkVO ∅ ∅), ∅, extra. split; [exact Hc|]. split; [apply oracle_pos_empty|]. split; [constructor|].
    rewrite Z.sub_0_r. split; [destruct w; reflexivity|set_solver].
Qed.
Lemma settle_oath_opt'_tr E w v oath w' v' fd :
  settle_oath_opt' E w v oath = Ok (w', v') ->
  exists c o ids idsc, get_config w idsc = Ok c /\ oracle_pos o /\
    ssteps E (w_now w) c o (mkS (get_pool w ids) v fd) (oath_acts oath) (mkS (get_pool w ids) v' fd) /\
    w' = w <| w_oath := w_oath w - oath_total (oath_acts oath) |>.
Proof.
  destruct oath as [b|]; simpl; intros H.
  - bd H as ([[w1 v1] c] & Hs & H). apply Ok_inj in H. injection H as <- <-.
    apply (settle_oath_tr _ _ _ _ _ _ _ _ fd) in Hs. destruct Hs as (o & ids & Hc & Ho & Hs & -> & ->). exists c, o. do 2 eexists.
    split; [exact Hc|]. split; [exact Ho|]. split; [exact Hs|]. rewrite Z.add_0_r. reflexivity.
  - apply Ok_inj in H. injection H as <- <-. destruct (get_config_empty w) as [c Hc].
    exists c, (mkVO ∅ ∅), ∅, ∅. split; [exact Hc|]. split; [apply oracle_pos_empty|]. split; [constructor|].
    rewrite Z.sub_0_r. destruct w; reflexivity.
Qed.
Definition add_acts (ts : list bucket) : list sact :=
  map (fun b => AAddBase (b_amt b)) (List.filter is_base ts) ++ [ADeposit (List.filter (fun b => negb (is_base b)) ts)].
Lemma oath_total_adds ts : oath_total (add_acts ts) = 0.
Proof.
  unfold add_acts. rewrite oath_total_app. simpl. rewrite Z.add_0_r.
  induction (List.filter is_base ts) as [|b l IH]; simpl; [reflexivity|exact IH].
Qed.
Lemma add_collateral_oath_tr E w v oath ts w' v' evs :
  add_collateral_oath E w v oath ts = Ok (w', v', evs) ->
  exists c o ids idsc p', get_config w idsc = Ok c /\ oracle_pos o /\
    ssteps E (w_now w) c o (mkS (get_pool w ids) v (w_fd w)) (add_acts ts ++ oath_acts oath) (mkS p' v' (w_fd w)) /\
    w' = w <| w_pool := vp_realize p' |> <| w_oath := w_oath w - oath_total (add_acts ts ++ oath_acts oath) |>.
Proof.
  destruct oath as [b|]; simpl; intros H.
  - bd H as (c & Hc & H). bd H as ([o0 o] & Ho & H). bd H as ([[p1 v1] ev] & Ha & H). bd H as ([v2 s] & Hs & H).
    apply Ok_inj in H. injection H as <- <- <-. do 5 eexists. split; [exact Hc|]. split; [eapply get_oracle_pos; eauto|].
    split.
    + eapply ssteps_snoc; [eapply tr_add_collateral; exact Ha|]. eapply ss_oath; exact Hs.
    + apply x_settle_fee_oath_inv in Hs. destruct Hs as (_ & -> & _).
      rewrite oath_total_app, oath_total_adds. simpl. rewrite Z.add_0_r. reflexivity.
  - bd H as (c & Hc & H). bd H as ([[p1 v1] ev] & Ha & H).
    apply Ok_inj in H. injection H as <- <- <-. exists c, (mkVO ∅ ∅), ∅, ∅, p1. split; [exact Hc|].
    split; [apply oracle_pos_empty|]. rewrite app_nil_r, oath_total_adds, Z.sub_0_r.
    split; [eapply tr_add_collateral; exact Ha|]. destruct w; reflexivity.
Qed.

Ltac fin_world := unfold final_world, realize_pool; simpl; rewrite ?realize_get_pool, ?oath_total_app; simpl; rewrite ?Z.add_0_r; try reflexivity.

Lemma acct_call_build E w a c o idsc ids v0 l s1 w1 w2 :
  get_config w idsc = Ok c -> oracle_pos o -> get_acc w a = Ok v0 ->
  ssteps E (w_now w) c o (mkS (get_pool w ids) v0 (w_fd w)) l s1 ->
  w_accounts w1 = w_accounts w -> w_refs w1 = w_refs w ->
  realize_acc w1 (s_acc s1) = Ok w2 ->
  forall w', (forall acc refs, w2 = w1 <| w_accounts := <[a := acc]> (w_accounts w) |> <| w_refs := refs |> ->
     w' = final_world w a l s1 acc refs w') ->
  acct_call E w a l w'.
Proof.
  intros Hc Ho Hv Hs Ha Hr Hz w' Hw. apply realize_acc_inv in Hz. destruct Hz as (acc & refs & Hz & ->).
  rewrite Hr in Hz. econstructor; [exact Hc|exact Ho|exact Hv|exact Hs|exact Hz|].
  apply Hw. rewrite Ha. apply ssteps_addr in Hs. cbn [s_acc] in Hs. rewrite Hs, (get_acc_addr _ _ _ Hv). reflexivity.
Qed.

Definition is_push (x : sact) : Prop := match x with APush _ _ _ _ => True | _ => False end.
Lemma oath_total_push l : Forall is_push l -> oath_total l = 0.
Proof. induction 1 as [|x l Hx _ IH]; [reflexivity|]. destruct x; simpl in *; tauto. Qed.
Definition no_oath (l : list sact) : Prop := Forall (fun x => match x with AOath _ => False | _ => True end) l.
Lemma no_oath_total l : no_oath l -> oath_total l = 0.
Proof. induction 1 as [|x l Hx _ IH]; [reflexivity|]. destruct x; simpl in *; tauto. Qed.
Lemma no_oath_app l k : no_oath l -> no_oath k -> no_oath (l ++ k).
Proof. intros. apply Forall_app; auto. Qed.

(** process_request: what happens after the request is marked; [pay] is what
    leaves to outside accounts. *)
Definition exec_acts (ex : bool) (rq : request) (pay : list (addr * list bucket)) (l : list sact) : Prop :=
  if ex then l = [] /\ pay = [] else
  match rq with
  | RRemove r => exists k bs, l = map ATakeBase k ++ [AWithdraw bs] /\ pay = [(rr_target r, map (fun v => (BASE, v)) k ++ bs)]
  | ROrder r => exists l0 fee,
      l = [AUpdatePair (ro_pair r); AFunding (ro_pair r)] ++ l0 ++
          [AFees fee; ATrySet (ro_activate r) STATUS_ACTIVE; ATrySet (ro_cancel r) STATUS_CANCELLED]
      /\ Forall (fun x => match x with AClose k _ | AOpen k _ => k = ro_pair r | _ => False end) l0 /\ pay = []
  end.
Lemma exec_acts_no_oath ex rq pay l : exec_acts ex rq pay l -> no_oath l.
Proof.
  unfold exec_acts. destruct ex; [intros [-> _]; constructor|]. destruct rq as [r|r].
  - intros (k & bs & -> & _). apply no_oath_app; [|repeat constructor]. induction k; constructor; simpl; auto.
  - intros (l0 & fee & -> & Hl & _). constructor; [exact I|]. constructor; [exact I|]. apply no_oath_app; [|repeat constructor].
    eapply Forall_impl; [exact Hl|]. intros [] Hx; simpl in *; tauto.
Qed.
(** The registry after an account's rule for a level changed. *)
Definition relevel (lvl : N) (a : addr) (g : registry) (old rule : access_rule) : registry :=
  foldl (reg_insert lvl a) (foldl (reg_remove lvl a) g (old :: sub_rules old)) (rule :: sub_rules rule).
Definition keeper_reward (w : world) : Z := ec_reward_keeper (ec_decompress (cf_exchange (w_config w))).
Definition no_out (out : outp) : Prop := o_tokens out = [] /\ o_payouts out = [].
(** What a call on an account does, as a list of session actions, and what it
    hands out. *)
Definition op_acts (w : world) (o : op) (out : outp) (l : list sact) : Prop :=
  match o with
  | OCreateRecoveryKey oath a => exists acc, w_accounts w !! a = Some acc /\ no_out out /\
      l = oath_acts oath ++ [ALevel 1 (extend_rule (ac_level 1 acc) (NLeaf (LKey (w_next w))))]
  | OAddAuthRule oath a lvl n => exists acc, w_accounts w !! a = Some acc /\ no_out out /\ (1 <= lvl <= 3)%N /\
      l = oath_acts oath ++ [ALevel lvl (extend_rule (ac_level lvl acc) n)]
  | OSetLevel1Auth oath a rule => no_out out /\ l = oath_acts oath ++ [ALevel 1 rule]
  | OSetLevel2Auth oath a rule => no_out out /\ l = oath_acts oath ++ [ALevel 2 rule]
  | OSetLevel3Auth oath a rule => no_out out /\ l = oath_acts oath ++ [ALevel 3 rule]
  | OAddCollateral oath a ts => no_out out /\ l = add_acts ts ++ oath_acts oath
  | ORemoveCollateralRequest oath ex a target cs => no_out out /\
      l = oath_acts oath ++ [APush (RRemove (mkReqRemove target cs)) 0 ex STATUS_ACTIVE]
  | OMarginOrderRequest oath d ex a pid amount ro pl sl _ _ st => no_out out /\ exists act can,
      l = oath_acts oath ++ [APush (ROrder (mkReqOrder pid amount ro pl sl act can)) d ex st]
  | OMarginOrderTpSlRequest oath d ex a pid amount ro pl sl tp sl' => no_out out /\ exists l',
      l = oath_acts oath ++ l' /\ Forall is_push l'
  | OCancelRequests oath a is_ => no_out out /\ l = oath_acts oath ++ [ACancel is_]
  | OProcessRequest a i upd => exists v0 v1 rq ex l', get_acc w a = Ok v0 /\ va_process_request (w_now w) v0 i = Ok (v1, rq, ex) /\
      exec_acts ex rq (o_payouts out) l' /\ l = AProcess i :: l' /\ o_tokens out = [(KEEPER_REWARD, keeper_reward w)]
  | OSwapDebt a r payment upd => b_res payment = BASE /\ exists paid value token, l = [ADepositBase paid; ASettle value; AWithdraw [token]] /\
      0 <= paid <= b_amt payment /\ o_tokens out = [token; (BASE, b_amt payment - paid)] /\ o_payouts out = []
  | OLiquidate a payment upd => b_res payment = BASE /\ exists paid bs st lo fee,
      l = [ALiqPos; AWithdraw bs; ADepositBase paid; ASettle st] ++ lo ++ [AFees fee; AVstart] /\
      (lo = [] \/ exists x, lo = [ASettle x]) /\ 0 <= paid <= b_amt payment /\
      o_tokens out = bs ++ [(BASE, b_amt payment - paid)] ++ [(KEEPER_REWARD, keeper_reward w)] /\ o_payouts out = []
  | OAutoDeleverage a pid upd => exists amt fee, l = [AUpdatePair pid; AFunding pid; APosRead pid; AClose pid amt; AFees fee] /\
      o_tokens out = [(KEEPER_REWARD, keeper_reward w)] /\ o_payouts out = []
  | _ => False
  end.
(** The parts of the state outside the caches. *)
Definition same_perms (w w' : world) : Prop := w_perms w' = w_perms w /\ w_next w' = w_next w.
Definition pushed (E : env) (upd : option price_msg) (w w' : world) : Prop :=
  match upd with Some msg => oracle_push E (w_oracle w) msg = Ok (w_oracle w') | None => w_oracle w' = w_oracle w end.
Definition op_side (E : env) (w : world) (o : op) (w' : world) : Prop :=
  match o with
  | OCreateRecoveryKey oath a => exists acc, w_accounts w !! a = Some acc /\
      w_perms w' = relevel 1 a (w_perms w) (ac_level 1 acc) (extend_rule (ac_level 1 acc) (NLeaf (LKey (w_next w)))) /\
      w_next w' = (w_next w + 1)%N /\ w_oracle w' = w_oracle w /\ w_rewards w' = w_rewards w
  | OAddAuthRule oath a lvl n => exists acc, w_accounts w !! a = Some acc /\
      w_perms w' = relevel lvl a (w_perms w) (ac_level lvl acc) (extend_rule (ac_level lvl acc) n) /\
      w_next w' = w_next w /\ w_oracle w' = w_oracle w /\ w_rewards w' = w_rewards w
  | OSetLevel1Auth oath a rule => exists acc, w_accounts w !! a = Some acc /\
      w_perms w' = relevel 1 a (w_perms w) (ac_level 1 acc) rule /\
      w_next w' = w_next w /\ w_oracle w' = w_oracle w /\ w_rewards w' = w_rewards w
  | OSetLevel2Auth oath a rule => exists acc, w_accounts w !! a = Some acc /\
      w_perms w' = relevel 2 a (w_perms w) (ac_level 2 acc) rule /\
      w_next w' = w_next w /\ w_oracle w' = w_oracle w /\ w_rewards w' = w_rewards w
  | OSetLevel3Auth oath a rule => exists acc, w_accounts w !! a = Some acc /\
      w_perms w' = relevel 3 a (w_perms w) (ac_level 3 acc) rule /\
      w_next w' = w_next w /\ w_oracle w' = w_oracle w /\ w_rewards w' = w_rewards w
  | OProcessRequest a i upd => same_perms w w' /\ (w_oracle w' = w_oracle w \/ pushed E upd w w') /\ w_rewards w' = w_rewards w + keeper_reward w
  | OSwapDebt a r payment upd => same_perms w w' /\ pushed E upd w w' /\ w_rewards w' = w_rewards w
  | OLiquidate a payment upd => same_perms w w' /\ pushed E upd w w' /\ w_rewards w' = w_rewards w + keeper_reward w
  | OAutoDeleverage a pid upd => same_perms w w' /\ pushed E upd w w' /\ w_rewards w' = w_rewards w + keeper_reward w
  | _ => same_perms w w' /\ w_oracle w' = w_oracle w /\ w_rewards w' = w_rewards w
  end.
Definition acct_spec (E : env) (w : world) (a : addr) (o : op) (out : outp) (w' : world) : Prop :=
  exists l, acct_call E w a l w' /\ op_acts w o out l /\ op_side E w o w'.

Lemma get_acc_comp w a v : get_acc w a = Ok v -> w_accounts w !! a = Some (va_comp v).
Proof. unfold get_acc, va_new. intros H. bd H as (acc & H1 & H). bd H as (rd & H2 & H). apply Ok_inj in H. subst v. apply expect_Ok in H1. exact H1. Qed.
Lemma get_config_exchange w ids c : get_config w ids = Ok c -> vc_exchange c = ec_decompress (cf_exchange (w_config w)).
Proof. unfold get_config, vc_new. intros H. bd H as (ps & _ & H). apply Ok_inj in H. subst c. reflexivity. Qed.
Lemma get_oracle_pushed E w c feeds upd orc o w' : get_oracle E w c feeds upd = Ok (orc, o) -> w_oracle w' = orc -> pushed E upd w w'.
Proof.
  unfold get_oracle, vo_new, pushed. intros H ->. bd H as (o1 & H1 & H). bd H as (got & _ & H). bd H as (pr & _ & H).
  apply Ok_inj in H. injection H as <- _. destruct upd; [exact H1|]. apply Ok_inj in H1. congruence.
Qed.
Lemma settle_oath_opt'_comp E w v oath w' v' : settle_oath_opt' E w v oath = Ok (w', v') -> va_comp v' = va_comp v /\ va_addr v' = va_addr v.
Proof.
  destruct oath as [b|]; simpl; intros H.
  - bd H as ([[w1 v1] c] & Hs & H). apply Ok_inj in H. injection H as <- <-. unfold settle_oath in Hs.
    bd Hs as (c0 & _ & Hs). bd Hs as ([o0 o] & _ & Hs). bd Hs as ([v2 s] & Hx & Hs). apply Ok_inj in Hs. injection Hs as _ <- _.
    apply x_settle_fee_oath_inv in Hx as [-> _]. split; reflexivity.
  - apply Ok_inj in H. injection H as <- <-. auto.
Qed.
Ltac side_eq Hz := apply realize_acc_inv in Hz; destruct Hz as (?acc' & ?refs' & _ & ->); simpl.

Lemma call_create_recovery_key E cx w oath a w' out :
  m_create_recovery_key E cx w oath a = Ok (w', out) -> acct_spec E w a (OCreateRecoveryKey oath a) out w'.
Proof.
  unfold m_create_recovery_key. intros H. bd H as (v & Hv & H). bd H as (? & Hl & H). bd H as ([w1 v1] & Ho & H).
  pose proof (settle_oath_opt'_comp _ _ _ _ _ _ Ho) as [Hcomp Hadr].
  apply (settle_oath_opt'_tr _ _ _ _ _ _ (w_fd w)) in Ho. destruct Ho as (c & o & ids & idsc & Hc & Hop & Hs & ->).
  destruct (x_set_level_auth _ _ _ _) as [g v2] eqn:Hx. bd H as (w3 & Hz & H). apply Ok_inj in H. injection H as <- <-.
  unfold x_set_level_auth in Hx. injection Hx as <- <-. rewrite Hcomp, Hadr, (get_acc_addr _ _ _ Hv) in *. simpl in *.
  eexists. split; [|split].
  - eapply acct_call_build with (s1 := mkS _ _ _); [exact Hc|exact Hop|exact Hv| | | |exact Hz|].
    + eapply ssteps_snoc; [exact Hs|]. rewrite <- Hcomp. apply ss_level. lia.
    + reflexivity.
    + reflexivity.
    + intros acc refs ->. rewrite ?oath_total_app; simpl. rewrite ?Z.add_0_r. fin_world.
  - exists (va_comp v). split; [apply get_acc_comp; exact Hv|]. split; [split; reflexivity|]. rewrite ?Hcomp. reflexivity.
  - exists (va_comp v). split; [apply get_acc_comp; exact Hv|]. side_eq Hz. repeat split; reflexivity.
Qed.
Lemma call_add_auth_rule E cx w oath a lvl n w' out :
  m_add_auth_rule E cx w oath a lvl n = Ok (w', out) -> acct_spec E w a (OAddAuthRule oath a lvl n) out w'.
Proof.
  unfold m_add_auth_rule. intros H. bd H as (v & Hv & H). bd H as (? & Hl & H). bd H as ([w1 v1] & Ho & H). bd H as (? & Hlv & H).
  assert (1 <= lvl <= 3)%N as Hlv3. { apply guard_Ok, andb_true_iff in Hlv. destruct Hlv as [L1 L2]. apply N.leb_le in L1, L2. lia. }
  pose proof (settle_oath_opt'_comp _ _ _ _ _ _ Ho) as [Hcomp Hadr].
  apply (settle_oath_opt'_tr _ _ _ _ _ _ (w_fd w)) in Ho. destruct Ho as (c & o & ids & idsc & Hc & Hop & Hs & ->).
  destruct (x_set_level_auth _ _ _ _) as [g v2] eqn:Hx. bd H as (w3 & Hz & H). apply Ok_inj in H. injection H as <- <-.
  unfold x_set_level_auth in Hx. injection Hx as <- <-. rewrite Hcomp, Hadr, (get_acc_addr _ _ _ Hv) in *. simpl in *.
  eexists. split; [|split].
  - eapply acct_call_build with (s1 := mkS _ _ _); [exact Hc|exact Hop|exact Hv| | | |exact Hz|].
    + eapply ssteps_snoc; [exact Hs|]. rewrite <- Hcomp. apply ss_level. lia.
    + reflexivity.
    + reflexivity.
    + intros acc refs ->. rewrite ?oath_total_app; simpl. rewrite ?Z.add_0_r. fin_world.
  - exists (va_comp v). split; [apply get_acc_comp; exact Hv|]. split; [split; reflexivity|]. split; [exact Hlv3|]. rewrite ?Hcomp. reflexivity.
  - exists (va_comp v). split; [apply get_acc_comp; exact Hv|]. side_eq Hz. repeat split; reflexivity.
Qed.
Lemma call_set_level_auth lvl E cx w oath a rule w' out :
  (1 <= lvl <= 3)%N -> m_set_level_auth lvl E cx w oath a rule = Ok (w', out) ->
  exists l acc, acct_call E w a l w' /\ l = oath_acts oath ++ [ALevel lvl rule] /\ no_out out /\ w_accounts w !! a = Some acc /\
    w_perms w' = relevel lvl a (w_perms w) (ac_level lvl acc) rule /\
    w_next w' = w_next w /\ w_oracle w' = w_oracle w /\ w_rewards w' = w_rewards w.
Proof.
  unfold m_set_level_auth. intros Hlv H. bd H as (v & Hv & H). bd H as (? & Hl & H). bd H as ([w1 v1] & Ho & H).
  pose proof (settle_oath_opt'_comp _ _ _ _ _ _ Ho) as [Hcomp Hadr].
  apply (settle_oath_opt'_tr _ _ _ _ _ _ (w_fd w)) in Ho. destruct Ho as (c & o & ids & idsc & Hc & Hop & Hs & ->).
  destruct (x_set_level_auth _ _ _ _) as [g v2] eqn:Hx. bd H as (w3 & Hz & H). apply Ok_inj in H. injection H as <- <-.
  unfold x_set_level_auth in Hx. injection Hx as <- <-. rewrite Hcomp, Hadr, (get_acc_addr _ _ _ Hv) in *. simpl in *.
  eexists. exists (va_comp v). split; [|split; [reflexivity|split; [split; reflexivity|split; [apply get_acc_comp; exact Hv|]]]].
  - eapply acct_call_build with (s1 := mkS _ _ _); [exact Hc|exact Hop|exact Hv| | | |exact Hz|].
    + eapply ssteps_snoc; [exact Hs|]. rewrite <- Hcomp. apply ss_level. lia.
    + reflexivity.
    + reflexivity.
    + intros acc refs ->. rewrite ?oath_total_app; simpl. rewrite ?Z.add_0_r. fin_world.
  - side_eq Hz. repeat split; reflexivity.
Qed.
Lemma call_add_collateral E cx w oath a ts w' out :
  m_add_collateral E cx w oath a ts = Ok (w', out) -> acct_spec E w a (OAddCollateral oath a ts) out w'.
Proof.
  unfold m_add_collateral. intros H. bd H as (v & Hv & H). bd H as (? & Hl & H). bd H as ([[w1 v1] evs] & Ho & H).
  apply add_collateral_oath_tr in Ho. destruct Ho as (c & o & ids & idsc & p' & Hc & Hop & Hs & ->).
  bd H as (w3 & Hz & H). apply Ok_inj in H. injection H as <- <-.
  eexists. split; [|split; [split; [split; reflexivity|reflexivity]|]].
  - eapply acct_call_build with (s1 := mkS _ _ _); [exact Hc|exact Hop|exact Hv|exact Hs| | |exact Hz|].
    + reflexivity.
    + reflexivity.
    + intros acc refs ->. fin_world.
  - side_eq Hz. repeat split; reflexivity.
Qed.
Lemma call_remove_collateral_request E cx w oath expiry a target cs w' out :
  m_remove_collateral_request E cx w oath expiry a target cs = Ok (w', out) ->
  acct_spec E w a (ORemoveCollateralRequest oath expiry a target cs) out w'.
Proof.
  unfold m_remove_collateral_request. intros H. bd H as (v & Hv & H). bd H as (? & Hl & H). bd H as ([[w1 v1] c] & Ho & H).
  apply (settle_oath_opt_tr _ _ _ _ _ _ _ _ (w_fd w)) in Ho. destruct Ho as (o & ids & idsc & Hc & Hop & Hs & -> & _).
  bd H as (? & Hg & H). bd H as (v2 & Hp & H). bd H as (? & Hm & H). bd H as (w3 & Hz & H). apply Ok_inj in H. injection H as <- <-.
  eexists. split; [|split; [split; [split; reflexivity|reflexivity]|]].
  - eapply acct_call_build with (s1 := mkS _ _ _); [exact Hc|exact Hop|exact Hv| | | |exact Hz|].
    + eapply ssteps_snoc; [exact Hs|]. eapply ss_push. exact Hp.
    + reflexivity.
    + reflexivity.
    + intros acc refs ->. rewrite ?oath_total_app; simpl. rewrite ?Z.add_0_r. fin_world.
  - side_eq Hz. repeat split; reflexivity.
Qed.
Lemma call_margin_order_request E cx w oath delay expiry a pid amount ro pl sl activate cancel status w' out :
  m_margin_order_request E cx w oath delay expiry a pid amount ro pl sl activate cancel status = Ok (w', out) ->
  acct_spec E w a (OMarginOrderRequest oath delay expiry a pid amount ro pl sl activate cancel status) out w'.
Proof.
  unfold m_margin_order_request. intros H. bd H as (v & Hv & H). bd H as (? & Hl & H). bd H as ([[w1 v1] c] & Ho & H).
  apply (settle_oath_opt_tr _ _ _ _ _ _ _ _ (w_fd w)) in Ho. destruct Ho as (o & ids & idsc & Hc & Hop & Hs & -> & _).
  bd H as (pc & Hpc & H). bd H as (aa & Haa & H). bd H as (? & Hg1 & H). bd H as (? & Hg2 & H). bd H as (? & Hg3 & H).
  bd H as (act & Hact & H). bd H as (can & Hcan & H).
  bd H as (v2 & Hp & H). bd H as (? & Hm & H). bd H as (w3 & Hz & H). apply Ok_inj in H. injection H as <- <-.
  eexists. split; [|split; [split; [split; reflexivity|exists act, can; reflexivity]|]].
  - eapply acct_call_build with (s1 := mkS _ _ _); [exact Hc|exact Hop|exact Hv| | | |exact Hz|].
    + eapply ssteps_snoc; [exact Hs|]. eapply ss_push. exact Hp.
    + reflexivity.
    + reflexivity.
    + intros acc refs ->. rewrite ?oath_total_app; simpl. rewrite ?Z.add_0_r. fin_world.
  - side_eq Hz. repeat split; reflexivity.
Qed.
Lemma call_margin_order_tp_sl_request E cx w oath delay expiry a pid amount ro pl sl tp sl' w' out :
  m_margin_order_tp_sl_request E cx w oath delay expiry a pid amount ro pl sl tp sl' = Ok (w', out) ->
  acct_spec E w a (OMarginOrderTpSlRequest oath delay expiry a pid amount ro pl sl tp sl') out w'.
Proof.
  unfold m_margin_order_tp_sl_request. intros H. bd H as (v & Hv & H). bd H as (? & Hl & H). bd H as ([[w1 v1] c] & Ho & H).
  apply (settle_oath_opt_tr _ _ _ _ _ _ _ _ (w_fd w)) in Ho. destruct Ho as (o & ids & idsc & Hc & Hop & Hs & -> & _).
  bd H as (pc & Hpc & H). bd H as (aa & Haa & H). bd H as (? & Hg1 & H). bd H as ([i1 itp] & Hi1 & H). bd H as (isl & Hi2 & H).
  bd H as (v2 & Hp1 & H). bd H as (v3 & Hp2 & H). bd H as (v4 & Hp3 & H). bd H as (? & Hm & H).
  bd H as (w3 & Hz & H). apply Ok_inj in H. injection H as <- <-.
  assert (exists l2, ssteps E (w_now w) c o (mkS (get_pool w ids) v2 (w_fd w)) l2 (mkS (get_pool w ids) v3 (w_fd w)) /\ Forall is_push l2) as (l2 & Hl2 & F2).
  { destruct tp as [ptp|]; [|apply Ok_inj in Hp2; subst; exists []; split; constructor].
    bd Hp2 as (n & Hn & Hp2). eexists [_]. split; [apply ssteps_one; eapply ss_push; exact Hp2|repeat constructor]. }
  assert (exists l3, ssteps E (w_now w) c o (mkS (get_pool w ids) v3 (w_fd w)) l3 (mkS (get_pool w ids) v4 (w_fd w)) /\ Forall is_push l3) as (l3 & Hl3 & F3).
  { destruct sl' as [psl|]; [|apply Ok_inj in Hp3; subst; exists []; split; constructor].
    bd Hp3 as (n & Hn & Hp3). eexists [_]. split; [apply ssteps_one; eapply ss_push; exact Hp3|repeat constructor]. }
  exists (oath_acts oath ++ (APush (ROrder (mkReqOrder pid amount ro pl sl (option_list itp ++ option_list isl) [])) delay expiry STATUS_ACTIVE :: l2) ++ l3). split; [|split].
  - eapply acct_call_build with (s1 := mkS _ _ _); [exact Hc|exact Hop|exact Hv| | | |exact Hz|].
    + eapply ssteps_app; [exact Hs|]. eapply ssteps_app; [|exact Hl3]. econstructor; [|exact Hl2]. eapply ss_push. exact Hp1.
    + reflexivity.
    + reflexivity.
    + intros acc refs ->. unfold final_world. simpl. rewrite ?oath_total_app. simpl.
      rewrite ?oath_total_app, (oath_total_push l3), (oath_total_push l2) by assumption. fin_world.
  - split; [split; reflexivity|]. eexists. split; [reflexivity|]. apply Forall_app; split; [constructor; [exact I|exact F2]|exact F3].
  - side_eq Hz. repeat split; reflexivity.
Qed.
Lemma call_cancel_requests E cx w oath a is_ w' out :
  m_cancel_requests E cx w oath a is_ = Ok (w', out) -> acct_spec E w a (OCancelRequests oath a is_) out w'.
Proof.
  unfold m_cancel_requests. intros H. bd H as (v & Hv & H). bd H as (? & Hl & H). bd H as ([w1 v1] & Ho & H).
  apply (settle_oath_opt'_tr _ _ _ _ _ _ (w_fd w)) in Ho. destruct Ho as (c & o & ids & idsc & Hc & Hop & Hs & ->).
  bd H as (v2 & Hcn & H). bd H as (w3 & Hz & H). apply Ok_inj in H. injection H as <- <-.
  eexists. split; [|split; [split; [split; reflexivity|reflexivity]|]].
  - eapply acct_call_build with (s1 := mkS _ _ _); [exact Hc|exact Hop|exact Hv| | | |exact Hz|].
    + eapply ssteps_snoc; [exact Hs|]. eapply ss_cancel. exact Hcn.
    + reflexivity.
    + reflexivity.
    + intros acc refs ->. rewrite ?oath_total_app; simpl. rewrite ?Z.add_0_r. fin_world.
  - side_eq Hz. repeat split; reflexivity.
Qed.

Lemma mint_reward_inv E w amt w' b : mint_reward E w amt = Ok (w', b) ->
  b = (KEEPER_REWARD, amt) /\ w' = w <| w_rewards := w_rewards w + amt |> /\ 0 <= amt.
Proof.
  unfold mint_reward. intros H. bd H as (? & H0 & H). bd H as (s & H1 & H). apply Ok_inj in H. injection H as <- <-.
  inv_step H1. subst. inv_step H0. unfold mint_ok in H0. split; [reflexivity|]. split; [reflexivity|].
  rewrite !andb_true_iff in H0. lia.
Qed.

Lemma call_process_request E cx w a i upd w' out :
  m_process_request E cx w a i upd = Ok (w', out) -> acct_spec E w a (OProcessRequest a i upd) out w'.
Proof.
  unfold m_process_request. intros H. bd H as (v & Hv & H). bd H as ([[v1 rq] ex] & Hp & H). bd H as (c & Hc & H).
  bd H as ([[[w1 v2] pay] evs] & Hx & H). bd H as (w3 & Hz & H). bd H as ([w4 rew] & Hm & H). apply Ok_inj in H. injection H as <- <-.
  apply mint_reward_inv in Hm. destruct Hm as (Hrew & Hw4 & _).
  assert (exists o p2 fd2 l orc, oracle_pos o /\ exec_acts ex rq pay l /\
     ssteps E (w_now w) c o (mkS (get_pool w (dom (va_positions v1) ∪ (match rq with ROrder r => {[ro_pair r]} | RRemove _ => ∅ end))) v1 (w_fd w)) l (mkS p2 v2 fd2)
     /\ w1 = w <| w_oracle := orc |> <| w_pool := vp_realize p2 |> <| w_fd := fd2 |>
     /\ (orc = w_oracle w \/ pushed E upd w (w <| w_oracle := orc |>)))
    as (o & p2 & fd2 & l & orc & Ho & Hl & Hs & Hw1 & Hpu).
  { destruct ex; simpl in Hx.
    - apply Ok_inj in Hx. injection Hx as <- <- <- <-. exists (mkVO ∅ ∅). do 2 eexists. exists [], (w_oracle w).
      split; [apply oracle_pos_empty|]. split; [split; reflexivity|]. split; [constructor|]. rewrite realize_get_pool. split; [destruct w; reflexivity|left; reflexivity].
    - bd Hx as (feeds & Hf & Hx). bd Hx as ([orc o] & Ho & Hx).
      destruct rq as [r|r].
      + bd Hx as ([[[p2 v3] toks] ev] & Hr & Hx). apply Ok_inj in Hx. injection Hx as <- <- <- <-.
        apply (tr_remove_collateral E (w_now w) c o cx (w_fd w)) in Hr. destruct Hr as (k & bs & Hr & ->).
        exists o, p2, (w_fd w). eexists. exists orc. split; [eapply get_oracle_pos; eauto|].
        split; [do 2 eexists; split; reflexivity|]. split; [exact Hr|]. split; [destruct w; reflexivity|right; eapply get_oracle_pushed; eauto].
      + bd Hx as ([s ev] & Hr & Hx). apply Ok_inj in Hx. injection Hx as <- <- <- <-.
        apply (tr_margin_order E) in Hr. destruct Hr as (l0 & fee & Hr & Hl0). destruct s as [p2 v3 fd3].
        exists o, p2, fd3. eexists. exists orc. split; [eapply get_oracle_pos; eauto|].
        split; [do 2 eexists; split; [reflexivity|split; [exact Hl0|reflexivity]]|]. split; [exact Hr|].
        split; [destruct w; reflexivity|right; eapply get_oracle_pushed; eauto]. }
  assert (ec_reward_keeper (vc_exchange c) = keeper_reward w) as Hk by (unfold keeper_reward; rewrite (get_config_exchange _ _ _ Hc); reflexivity).
  rewrite Hk in *.
  exists (AProcess i :: l). split; [|split].
  - eapply acct_call_build with (s1 := mkS _ _ _); [exact Hc|exact Ho|exact Hv| | | |exact Hz|].
    + econstructor; [eapply ss_process; exact Hp|exact Hs].
    + subst w1; reflexivity.
    + subst w1; reflexivity.
    + intros acc refs ->. subst w1 w4. unfold final_world. simpl. rewrite (no_oath_total l) by (eapply exec_acts_no_oath; eauto). rewrite Z.sub_0_r. destruct w; reflexivity.
  - exists v, v1, rq, ex, l. split; [exact Hv|]. split; [exact Hp|]. split; [exact Hl|]. split; [reflexivity|]. simpl. rewrite Hrew. reflexivity.
  - subst w4. side_eq Hz. subst w1. simpl. split; [split; reflexivity|]. split; [|reflexivity].
    destruct Hpu as [->|Hpu]; [left; reflexivity|right; unfold pushed in *; destruct upd; exact Hpu].
Qed.
Lemma tr_swap_debt1 E c o p a r payment p' a' token rest ev fd now :
  x_swap_debt E c o p a r payment = Ok (p', a', token, rest, ev) ->
  exists paid value, ssteps E now c o (mkS p a fd) [ADepositBase paid; ASettle value; AWithdraw [token]] (mkS p' a' fd)
    /\ rest = (BASE, b_amt payment - paid) /\ 0 <= paid <= b_amt payment /\ b_res payment = BASE.
Proof.
  unfold x_swap_debt. intros H. bd H as (? & H1 & H). bd H as (? & H2 & H). bd H as (? & H3 & H). bd H as (cc & H4 & H).
  bd H as (d0 & H5 & H). bd H as (di & H6 & H). bd H as (de & H7 & H). bd H as (pr & H8 & H). bd H as (prr & H9 & H).
  bd H as (am & H10 & H). bd H as ([am1 val1] & H11 & H). bd H as (paid & H12 & H). bd H as (p1 & H13 & H). bd H as ([p2 a2] & H14 & H).
  bd H as ([a3 toks] & H15 & H). bd H as (tk & H16 & H). apply Ok_inj in H. injection H as <- <- <- <- _.
  apply guard_Ok, N.eqb_eq in H1. apply expect_Ok in H16.
  assert (toks = [tk]) as ->.
  { unfold va_withdraw, acc_withdraw in H15. cbn [vts_take_adv_batch] in H15. bd H15 as ([b1 b2] & H17 & H15). bd H17 as ([v1 bs] & H18 & H17).
    bd H18 as ([v2 bk] & H19 & H18). bd H18 as ([v3 bs3] & H20 & H18). apply Ok_inj in H20. injection H20 as <- <-. apply Ok_inj in H18. injection H18 as <- <-.
    bd H17 as (c1 & H21 & H17). apply Ok_inj in H17. injection H17 as <- <-. bd H15 as (c2 & H22 & H15). apply Ok_inj in H15. injection H15 as _ <-.
    simpl in H16. injection H16 as ->. reflexivity. }
  exists paid, val1. split; [|split; [reflexivity|split; [|exact H1]]].
  - econstructor; [eapply ss_deposit_base; exact H13|]. econstructor; [eapply ss_settle; exact H14|]. apply ssteps_one. eapply ss_withdraw; exact H15.
  - unfold take_adv in H12. bd H12 as (q & Hq & H12). bd H12 as (? & Hg & H12). apply Ok_inj in H12. subst. apply guard_Ok, andb_true_iff in Hg. lia.
Qed.
Lemma call_swap_debt E w a r payment upd w' out :
  m_swap_debt E w a r payment upd = Ok (w', out) -> acct_spec E w a (OSwapDebt a r payment upd) out w'.
Proof.
  unfold m_swap_debt. intros H. bd H as (v & Hv & H). bd H as (c & Hc & H). bd H as ([orc o] & Ho & H).
  bd H as ([[[[p1 v1] token] rest] ev] & Hs & H). bd H as (w1 & Hz & H). apply Ok_inj in H. injection H as <- <-.
  apply (tr_swap_debt1 _ _ _ _ _ _ _ _ _ _ _ _ (w_fd w) (w_now w)) in Hs. destruct Hs as (paid & value & Hs & -> & Hpd & Hb).
  eexists. split; [|split].
  - eapply acct_call_build with (s1 := mkS _ _ _); [exact Hc|eapply get_oracle_pos; eauto|exact Hv|exact Hs| | |exact Hz|].
    + reflexivity.
    + reflexivity.
    + intros acc refs ->. unfold final_world, realize_pool. simpl. rewrite Z.sub_0_r. destruct w; reflexivity.
  - split; [exact Hb|]. exists paid, value, token. split; [reflexivity|]. split; [exact Hpd|]. split; reflexivity.
  - side_eq Hz. split; [split; reflexivity|]. split; [|reflexivity]. eapply get_oracle_pushed; [exact Ho|reflexivity].
Qed.
Lemma tr_liquidate1 E now c o s payment s' toks evs :
  x_liquidate E now c o s payment = Ok (s', toks, evs) ->
  exists paid bs st lo fee, ssteps E now c o s
    ([ALiqPos; AWithdraw bs; ADepositBase paid; ASettle st] ++ lo ++ [AFees fee; AVstart]) s'
    /\ toks = bs ++ [(BASE, b_amt payment - paid)] /\ (lo = [] \/ exists x, lo = [ASettle x])
    /\ b_res payment = BASE /\ 0 <= paid <= b_amt payment.
Proof.
  destruct s as [p a fd]. unfold x_liquidate. cbn [s_pool s_acc s_fd]. intros H.
  bd H as (? & Hp & H). bd H as ([[p1 a1] rp] & Hl & H). bd H as (rc & Hrc & H). bd H as (t & Ht & H).
  bd H as (av & Hav & H). bd H as (mg & Hmg & H). bd H as (? & Hg & H). bd H as (value & Hv & H).
  bd H as (? & Hg2 & H). bd H as ([a2 bs] & Hw & H). bd H as (paid & Hpd & H). bd H as (p2 & Hd & H).
  bd H as (st & Hst & H). bd H as ([p3 a3] & Hs & H). bd H as ([[p4 a4] pl] & Hlo & H).
  bd H as ([s5 [[[q0 q1] q2] q3]] & Hfe & H). apply Ok_inj in H. injection H as <- <- _.
  assert (exists lo, ssteps E now c o (mkS p3 a3 fd) lo (mkS p4 a4 fd) /\ (lo = [] \/ exists x, lo = [ASettle x])) as (lo & Hlo' & Hsh).
  { destruct (va_vb a3 <? 0).
    - bd Hlo as (n & Hn & Hlo). bd Hlo as ([px ax] & Hx & Hlo).
      apply Ok_inj in Hlo. injection Hlo as <- <- _. exists [ASettle n]. split; [|eauto].
      apply ssteps_one. eapply ss_settle; exact Hx.
    - apply Ok_inj in Hlo. injection Hlo as <- <- _. exists []. split; [constructor|auto]. }
  exists paid, bs, st, lo, (lp_fee rp). split; [|split; [reflexivity|split; [exact Hsh|split]]].
  - eapply ssteps_app.
    { econstructor; [eapply ss_liq_pos; exact Hl|]. econstructor; [eapply ss_withdraw; exact Hw|].
      econstructor; [eapply ss_deposit_base; exact Hd|]. apply ssteps_one. eapply ss_settle; exact Hs. }
    eapply ssteps_app; [exact Hlo'|].
    econstructor; [eapply ss_fees; [exact Hfe|eapply x_liq_fee_nonneg; exact Hl]|]. destruct s5 as [p5 a5 fd5]. simpl. apply ssteps_one. apply ss_vstart.
  - apply guard_Ok, N.eqb_eq in Hp. exact Hp.
  - unfold take_exact in Hpd. bd Hpd as (? & Hq & Hpd). apply Ok_inj in Hpd. subst. apply guard_Ok in Hq. rewrite !andb_true_iff in Hq. lia.
Qed.
Lemma call_liquidate E w a payment upd w' out :
  m_liquidate E w a payment upd = Ok (w', out) -> acct_spec E w a (OLiquidate a payment upd) out w'.
Proof.
  unfold m_liquidate. intros H. bd H as (v & Hv & H). bd H as (c & Hc & H). bd H as (feeds & Hf & H). bd H as ([orc o] & Ho & H).
  bd H as ([[s toks] evs] & Hs & H). bd H as (w1 & Hz & H). bd H as ([w2 rew] & Hm & H). apply Ok_inj in H. injection H as <- <-.
  apply mint_reward_inv in Hm. destruct Hm as (-> & -> & _).
  assert (ec_reward_keeper (vc_exchange c) = keeper_reward w) as Hk by (unfold keeper_reward; rewrite (get_config_exchange _ _ _ Hc); reflexivity).
  rewrite Hk in *.
  apply tr_liquidate1 in Hs. destruct Hs as (paid & bs & st & lo & fee & Hs & -> & Hlo & Hb & Hpd).
  eexists. split; [|split].
  - eapply acct_call_build; [exact Hc|eapply get_oracle_pos; eauto|exact Hv|exact Hs| | |exact Hz|].
    + reflexivity.
    + reflexivity.
    + intros acc refs ->. unfold final_world, realize_pool. simpl. rewrite ?oath_total_app.
      assert (oath_total lo = 0) as -> by (destruct Hlo as [->|[? ->]]; reflexivity).
      simpl. rewrite Z.sub_0_r. destruct w; reflexivity.
  - split; [exact Hb|]. exists paid, bs, st, lo, fee. split; [reflexivity|]. split; [exact Hlo|]. split; [exact Hpd|]. simpl. rewrite <- app_assoc. split; reflexivity.
  - side_eq Hz. split; [split; reflexivity|]. split; [|reflexivity]. eapply get_oracle_pushed; [exact Ho|reflexivity].
Qed.
Lemma call_auto_deleverage E w a pid upd w' out :
  m_auto_deleverage E w a pid upd = Ok (w', out) -> acct_spec E w a (OAutoDeleverage a pid upd) out w'.
Proof.
  unfold m_auto_deleverage. intros H. bd H as (v & Hv & H). bd H as (c & Hc & H). bd H as (feeds & Hf & H). bd H as ([orc o] & Ho & H).
  bd H as ([s evs] & Hs & H). bd H as (w1 & Hz & H). bd H as ([w2 rew] & Hm & H). apply Ok_inj in H. injection H as <- <-.
  apply mint_reward_inv in Hm. destruct Hm as (-> & -> & _).
  assert (ec_reward_keeper (vc_exchange c) = keeper_reward w) as Hk by (unfold keeper_reward; rewrite (get_config_exchange _ _ _ Hc); reflexivity).
  rewrite Hk in *.
  apply (tr_auto_deleverage E) in Hs. destruct Hs as (amt & fee & Hs).
  eexists. split; [|split].
  - eapply acct_call_build; [exact Hc|eapply get_oracle_pos; eauto|exact Hv|exact Hs| | |exact Hz|].
    + reflexivity.
    + reflexivity.
    + intros acc refs ->. unfold final_world, realize_pool. simpl. rewrite Z.sub_0_r. destruct w; reflexivity.
  - exists amt, fee. repeat split; reflexivity.
  - side_eq Hz. split; [split; reflexivity|]. split; [|reflexivity]. eapply get_oracle_pushed; [exact Ho|reflexivity].
Qed.
(** create_account: the new account is inserted, then a collateral call follows. *)
Definition new_account_world (E : env) (w : world) (rule : access_rule) (a : addr) (ref : option N) (g : generator) : world :=
  w <| w_gen := g |> <| w_accounts := <[a := acc_new rule rule rule ref]> (w_accounts w) |>
    <| w_perms := foldl (reg_insert_all a) (w_perms w) (rule :: sub_rules rule) |>.
Lemma call_create_account E w oath rule ts code a w' out :
  m_create_account E w oath rule ts code a = Ok (w', out) ->
  exists ref g more, w_accounts w !! a = None /\
    match code with
    | Some s => exists id, ref = Some id /\ gn_claim E (w_gen w) (e_hash E s) = Ok (g, id, more)
    | None => ref = None /\ g = w_gen w /\ more = []
    end /\
    acct_call E (new_account_world E w rule a ref g) a (add_acts (ts ++ more) ++ oath_acts oath) w' /\
    no_out out /\ w_perms w' = foldl (reg_insert_all a) (w_perms w) (rule :: sub_rules rule) /\
    w_next w' = w_next w /\ w_oracle w' = w_oracle w /\ w_rewards w' = w_rewards w.
Proof.
  unfold m_create_account. intros H. bd H as (? & Hg & H). inv_step Hg. apply bool_decide_eq_true in Hg.
  bd H as ([[w1 ref] ts1] & Hcode & H). bd H as (v & Hv & H). bd H as ([[w2 v2] evs] & Ho & H).
  bd H as (w3 & Hz & H). apply Ok_inj in H. injection H as <- <-.
  assert (exists g more, w1 = w <| w_gen := g |> /\ ts1 = ts ++ more /\
    match code with
    | Some s => exists id, ref = Some id /\ gn_claim E (w_gen w) (e_hash E s) = Ok (g, id, more)
    | None => ref = None /\ g = w_gen w /\ more = []
    end) as (g & more & -> & -> & Hc').
  { destruct code as [s|].
    - bd Hcode as ([[g id] more] & Hcl & Hcode). apply Ok_inj in Hcode. injection Hcode as <- <- <-.
      exists g, more. split; [reflexivity|]. split; [reflexivity|]. eauto.
    - apply Ok_inj in Hcode. injection Hcode as <- <- <-. exists (w_gen w), []. split; [destruct w; reflexivity|].
      split; [rewrite app_nil_r; reflexivity|auto]. }
  exists ref, g, more. split; [exact Hg|]. split; [exact Hc'|].
  change (_ <| w_perms := _ |>) with (new_account_world E w rule a ref g) in Hv, Ho.
  apply add_collateral_oath_tr in Ho. destruct Ho as (c & o & ids & idsc & p' & Hc & Hop & Hs & ->).
  split; [|split; [split; reflexivity|]].
  - eapply acct_call_build with (s1 := mkS _ _ _); [exact Hc|exact Hop|exact Hv|exact Hs| | |exact Hz|].
    + reflexivity.
    + reflexivity.
    + intros acc refs ->. reflexivity.
  - side_eq Hz. repeat split; reflexivity.
Qed.
