(** * C11, C12, C13, C53: prices. *)
From Verif Require Import Base DFloat Lists Types Config Oracle Pool Account Fees Referral ExInternal Exchange System Sums Trace Frames Calls Shape Spec SpecOracle P_Ledger P_Accounts P_Oracle P_Keeper P_Requests2 Trading Scenario Witness.

Inductive oracle_change (E : env) (w : world) (o : op) (w' : world) : Prop :=
| oc_same : w_oracle w' = w_oracle w -> oracle_change E w o w'
| oc_push msg : message_of o = Some msg -> oracle_push E (w_oracle w) msg = Ok (w_oracle w') -> oracle_change E w o w'
| oc_keys : op_access o = AOwner -> or_prices (w_oracle w') = or_prices (w_oracle w) -> oracle_change E w o w'
| oc_remove k : o = OOracleRemovePrice k -> w_oracle w' = oracle_remove_price (w_oracle w) k -> oracle_change E w o w'.
Lemma pushed_change E upd w o w' : message_of o = upd -> pushed E upd w w' -> oracle_change E w o w'.
Proof. unfold pushed. intros Hm H. destruct upd; [eapply oc_push; eauto|apply oc_same; exact H]. Qed.
Lemma step_oracle E cx w o w' out : step E cx w o = Ok (w', out) -> oracle_change E w o w'.
Proof.
  intros H. apply step_gstep in H. destruct H; try (apply oc_same; reflexivity).
  - destruct H0 as (l & _ & _ & Hs). destruct o; simpl in H; try discriminate H; simpl in Hs;
      try (apply oc_same; repeat match goal with H : exists _, _ |- _ => destruct H as (? & H) | H : _ /\ _ |- _ => destruct H end; assumption).
    + destruct Hs as (_ & [Hs|Hs] & _); [apply oc_same; exact Hs|eapply pushed_change; [|exact Hs]; reflexivity].
    + destruct Hs as (_ & Hs & _). eapply pushed_change; [|exact Hs]; reflexivity.
    + destruct Hs as (_ & Hs & _). eapply pushed_change; [|exact Hs]; reflexivity.
    + destruct Hs as (_ & Hs & _). eapply pushed_change; [|exact Hs]; reflexivity.
  - apply oc_same. assumption.
  - eapply pushed_change; [reflexivity|]. match goal with H : pushed _ _ _ _ |- _ => unfold pushed in *; simpl in *; destruct upd; exact H end.
  - destruct o; simpl in H; try discriminate H.
    + destruct H1 as [_ ->]. apply oc_keys; reflexivity.
    + subst x. apply oc_keys; reflexivity.
    + subst x. eapply oc_remove; reflexivity.
    + eapply oc_push; [reflexivity|exact H1].
Qed.
(** One signed message. *)
Lemma push1_mono m p k x : m !! k = Some x -> exists y, oracle_push1 m p !! k = Some y /\ (y = x \/ snd x < snd y).
Proof.
  intros H. unfold oracle_push1. destruct (m !! pr_pair p) as [[q t]|] eqn:Hp.
  - destruct (Z.ltb_spec t (pr_time p)) as [Hl|Hl]; [|eauto]. destruct (decide (pr_pair p = k)) as [<-|Hn].
    + rewrite lookup_insert. rewrite Hp in H. injection H as <-. eexists. split; [reflexivity|]. right. exact Hl.
    + rewrite lookup_insert_ne by exact Hn. eauto.
  - destruct (decide (pr_pair p = k)) as [<-|Hn]; [congruence|]. rewrite lookup_insert_ne by exact Hn. eauto.
Qed.
Lemma push1_in m p k y : oracle_push1 m p !! k = Some y -> m !! k = Some y \/ p = mkPrice k (fst y) (snd y).
Proof.
  unfold oracle_push1. destruct (m !! pr_pair p) as [[q t]|] eqn:Hp; [destruct (t <? pr_time p); [|auto]|];
    (destruct (decide (pr_pair p = k)) as [<-|Hn]; [rewrite lookup_insert; intros [= <-]; right; destruct p; reflexivity|rewrite lookup_insert_ne by exact Hn; auto]).
Qed.
Lemma pushes_mono l m k x : m !! k = Some x -> exists y, foldl oracle_push1 m l !! k = Some y /\ (y = x \/ snd x < snd y).
Proof.
  revert m x. induction l as [|p l IH]; intros m x H; simpl; [eauto|]. destruct (push1_mono m p k x H) as (y & Hy & H1). destruct (IH _ _ Hy) as (z & Hz & H2). exists z. split; [exact Hz|].
  destruct H1 as [->|H1], H2 as [->|H2]; auto. right. lia.
Qed.
Lemma pushes_in l m k y : foldl oracle_push1 m l !! k = Some y -> m !! k = Some y \/ mkPrice k (fst y) (snd y) ∈ l.
Proof.
  revert m. induction l as [|p l IH]; intros m H; simpl in H; [auto|]. destruct (IH _ H) as [H1|H1]; [|right; right; exact H1].
  apply push1_in in H1 as [H1|H1]; [auto|]. right. rewrite H1. left.
Qed.
Lemma oracle_push_inv E w msg o' : oracle_push E (w_oracle w) msg = Ok o' ->
  (forall k x, or_prices (w_oracle w) !! k = Some x -> exists y, or_prices o' !! k = Some y /\ (y = x \/ snd x < snd y)) /\
  (forall k y, or_prices o' !! k = Some y -> or_prices (w_oracle w) !! k = Some y \/ signed_price E w msg k (fst y) (snd y)) /\ or_keys o' = or_keys (w_oracle w).
Proof.
  destruct msg as [[data sig] id]. unfold oracle_push. intros H. bd H as (ps & H1 & H). bd H as (key & H2 & H). bd H as (? & H3 & H). apply Ok_inj in H. subst o'. simpl.
  apply expect_Ok in H1, H2. apply guard_Ok in H3. split; [intros k0 x0; apply pushes_mono|]. split; [|reflexivity]. intros k y Hy. apply pushes_in in Hy as [Hy|Hy]; [auto|].
  right. exists key, ps. auto.
Qed.

(** ** C11: prices never go back in time *)
Lemma C11_step E cx w o w' out k x : step E cx w o = Ok (w', out) -> o <> OOracleRemovePrice k -> stored_price w k = Some x ->
  exists y, stored_price w' k = Some y /\ (y = x \/ snd x < snd y).
Proof.
  unfold stored_price. intros Hs Hne Hx. destruct (step_oracle _ _ _ _ _ _ Hs) as [H|msg Hm H|_ H|k' -> H].
  - rewrite H. eauto.
  - apply oracle_push_inv in H as (H & _). eauto.
  - rewrite H. eauto.
  - rewrite H. simpl. rewrite lookup_delete_ne by congruence. eauto.
Qed.
(** Over any history that never removes the pair's price, the timestamp never decreases
    and the price changes only together with a strictly larger timestamp. *)
Theorem C11_prices_move_forward E w l w' k p t : steps E w l w' ->
  (forall cx o out, (cx, o, out) ∈ l -> o <> OOracleRemovePrice k) -> stored_price w k = Some (p, t) ->
  exists p' t', stored_price w' k = Some (p', t') /\ t <= t' /\ (p' <> p -> t < t').
Proof.
  intros Hs Hne Hx. assert (exists y, stored_price w' k = Some y /\ (y = (p, t) \/ t < snd y)) as ([p' t'] & Hy & Hd).
  { revert p t Hne Hx. induction Hs as [w|w cx o out w1 l w2 H1 H2 IH]; intros p t Hne Hx; [eauto|].
    destruct (C11_step _ _ _ _ _ _ _ _ H1 (Hne _ _ _ (elem_of_list_here _ _)) Hx) as ([p1 t1] & Hy & Hd).
    destruct (IH p1 t1) as (z & Hz & Hd2); [intros; eapply Hne; right; eauto|exact Hy|]. exists z. split; [exact Hz|]. simpl in *.
    destruct Hd as [Hd|Hd], Hd2 as [Hd2|Hd2]; subst; simpl; try injection Hd as -> ->; auto; right; simpl in *; lia. }
  exists p', t'. split; [exact Hy|]. destruct Hd as [[= -> ->]|Hd]; simpl in *; split; lia || congruence.
Qed.
(** Only the owner can remove a price. *)
Theorem C11_only_the_owner_removes E cx w o w' out k : step E cx w o = Ok (w', out) -> stored_price w k <> None -> stored_price w' k = None ->
  o = OOracleRemovePrice k /\ rule_sat (cx_sat cx) (w_owner w) = true.
Proof.
  intros Hs Hx Hn. destruct (stored_price w k) as [x|] eqn:E1; [|contradiction].
  assert (o = OOracleRemovePrice k) as ->.
  { assert (o = OOracleRemovePrice k \/ o <> OOracleRemovePrice k) as [?|Hne]; [destruct o; try (right; discriminate)|assumption|exfalso].
    2:{ destruct (C11_step _ _ _ _ _ _ _ _ Hs Hne E1) as (y & Hy & _). congruence. }
    match goal with |- OOracleRemovePrice ?p = _ \/ _ => destruct (decide (p = k)) as [->|Hk]; [left; reflexivity|right; congruence] end. }
  split; [reflexivity|]. apply step_inv in Hs as (_ & Ha & _). exact Ha.
Qed.

(** ** C12: only signed prices enter *)
Theorem C12_signed E cx w o w' out k p t : step E cx w o = Ok (w', out) -> stored_price w' k = Some (p, t) -> stored_price w k <> Some (p, t) ->
  exists msg, message_of o = Some msg /\ signed_price E w msg k p t.
Proof.
  unfold stored_price. intros Hs Hy Hn. destruct (step_oracle _ _ _ _ _ _ Hs) as [H|msg Hm H|_ H|k' -> H].
  - rewrite H in Hy. contradiction.
  - apply oracle_push_inv in H as (_ & H & _). destruct (H _ _ Hy) as [H1|H1]; [contradiction|]. exists msg. auto.
  - rewrite H in Hy. contradiction.
  - rewrite H in Hy. simpl in Hy. apply lookup_delete_Some in Hy as [_ Hy]. contradiction.
Qed.
(** Every price stored after any history since deployment came in a message whose
    signature verified under a key registered at that moment. *)
Theorem C12_provenance E owner auth keys now w0 l w k p t : genesis owner auth keys now = Ok w0 -> steps E w0 l w -> stored_price w k = Some (p, t) ->
  exists l1 cx o out l2 w1 msg, l = l1 ++ (cx, o, out) :: l2 /\ steps E w0 l1 w1 /\ message_of o = Some msg /\ signed_price E w1 msg k p t.
Proof.
  intros Hg Hs. assert (stored_price w0 k = None) as H0.
  { unfold genesis in Hg. bd Hg as (c & _ & Hg). apply Ok_inj in Hg. subst w0. apply lookup_empty. }
  clear Hg. intros Hx. assert (stored_price w0 k <> Some (p, t)) as Hn by congruence. clear H0. revert Hn Hx.
  induction Hs as [w|w cx o out w1 l w2 H1 H2 IH]; intros Hn Hx; [contradiction|].
  destruct (decide (stored_price w1 k = Some (p, t))) as [He|He].
  - destruct (C12_signed _ _ _ _ _ _ _ _ _ H1 He Hn) as (msg & Hm & Hsg). exists [], cx, o, out, l, w, msg. split; [reflexivity|]. split; [constructor|]. auto.
  - destruct (IH He Hx) as (l1 & cx' & o' & out' & l2 & w3 & msg & -> & Hs3 & Hm & Hsg). exists ((cx, o, out) :: l1), cx', o', out', l2, w3, msg. split; [reflexivity|]. split; [econstructor; eauto|]. auto.
Qed.
(** The keys change only by calls of the owner. *)
Theorem C12_keys E cx w o w' out : step E cx w o = Ok (w', out) -> or_keys (w_oracle w') <> or_keys (w_oracle w) -> rule_sat (cx_sat cx) (w_owner w) = true.
Proof.
  intros Hs Hn. destruct (step_oracle _ _ _ _ _ _ Hs) as [H|msg Hm H|Ha H|k' -> H].
  - congruence.
  - apply oracle_push_inv in H as (_ & _ & H). contradiction.
  - apply step_inv in Hs as (_ & Hacc & _). rewrite Ha in Hacc. exact Hacc.
  - rewrite H in Hn. contradiction.
Qed.

(** ** C13, C53: the prices used *)
Lemma executes_ex w a i upd v0 v1 rq ex : get_acc w a = Ok v0 -> va_process_request (w_now w) v0 i = Ok (v1, rq, ex) -> executes w (OProcessRequest a i upd) ->
  ex = false /\ exists acc kr, w_accounts w !! a = Some acc /\ kl_kvs (ac_requests acc) !! i = Some kr /\ kr_request kr = rq /\ va_positions v1 = ac_positions acc.
Proof.
  intros Hv Hp (acc & kr & Ha & Hk & Hl). apply get_acc_inv in Hv. destruct Hv as (acc1 & Ha1 & Hcomp & _ & Hpos & _ & _ & _ & _ & _ & _ & _ & Hru & _). rewrite Ha in Ha1. injection Ha1 as <-.
  apply process_request_inv in Hp as (r & n & _ & Hr & -> & _ & _ & -> & He). unfold va_keeper_request in Hr. rewrite Hru, lookup_empty, Hcomp in Hr. apply expect_Ok in Hr. unfold kl_get in Hr.
  rewrite Hk in Hr. injection Hr as <-. split; [destruct He as [[_ He]|[-> _]]; [lia|reflexivity]|]. exists acc, kr. simpl. auto.
Qed.
Lemma realize_acc_oracle w v w' : realize_acc w v = Ok w' -> w_oracle w' = w_oracle w.
Proof. intros H. apply realize_acc_inv in H as (? & ? & _ & ->). reflexivity. Qed.
(** A keeper call: its prices. *)
Lemma keeper_prices E cx w o w' out : step E cx w o = Ok (w', out) -> executes w o ->
  exists ids c orc vo, prices_ok E w (message_of o) ids c orc vo /\ w_oracle w' = orc /\ forall k, trades_pair w o k -> k ∈ ids.
Proof.
  assert (forall a v0 k, get_acc w a = Ok v0 -> account_pairs w a k -> k ∈ dom (va_positions v0)) as AP.
  { intros a v0 k Hv (acc & pos & Ha & Hk). apply get_acc_inv in Hv. destruct Hv as (acc1 & Ha1 & _ & _ & Hpos & _). rewrite Ha in Ha1. injection Ha1 as <-. apply elem_of_dom. rewrite Hpos. eauto. }
  intros H He. destruct o; try (destruct He; fail).
  - apply process_inv in H as (v0 & v1 & rq & ex & ids & c & w1 & v2 & pay & evs & w2 & Hv & Hp & Hids & Hc & Hx & Hz & -> & _).
    destruct (executes_ex _ _ _ upd _ _ _ _ Hv Hp He) as (-> & acc & kr & Ha & Hk & Hrq & Hpos). destruct Hx as (orc & o & Hpk & Hx). exists ids, c, orc, o. split; [exact Hpk|].
    split. { simpl. rewrite (realize_acc_oracle _ _ _ Hz). destruct rq; [destruct Hx as (p & toks & ev & _ & -> & _)|destruct Hx as (s & ev & _ & -> & _)]; reflexivity. }
    intros k [Hk'|(acc' & kr' & r & Ha' & Hk' & Hr & <-)].
    + subst ids. rewrite Hpos. destruct Hk' as (acc' & pos & Ha' & Hk'). rewrite Ha in Ha'. injection Ha' as <-. apply elem_of_union_l, elem_of_dom. eauto.
    + rewrite Ha in Ha'. injection Ha' as <-. rewrite Hk in Hk'. injection Hk' as <-. subst ids rq. rewrite Hr. apply elem_of_union_r, elem_of_singleton. reflexivity.
  - apply swap_inv in H as (v0 & c & orc & o & p & v & tk & rs & ev & w1 & Hv & Hc & Hpk & _ & Hz & -> & _). exists ∅, c, orc, o. split; [exact Hpk|]. split; [exact (realize_acc_oracle _ _ _ Hz)|intros k []].
  - apply liquidate_call_inv in H as (v0 & c & orc & o & s & toks & evs & w1 & Hv & Hc & Hpk & _ & Hz & -> & _). exists (dom (va_positions v0)), c, orc, o. split; [exact Hpk|]. split; [exact (realize_acc_oracle _ _ _ Hz)|]. intros k Hk. eapply AP; eauto.
  - apply adl_call_inv in H as (v0 & ids & c & orc & o & s & ev & w1 & Hv & -> & Hc & Hpk & _ & Hz & -> & _). eexists _, c, orc, o. split; [exact Hpk|]. split; [exact (realize_acc_oracle _ _ _ Hz)|].
    intros k [Hk| ->]; [apply elem_of_union_l; eapply AP; eauto|apply elem_of_union_r, elem_of_singleton; reflexivity].
  - apply update_pairs_inv in H as (c & orc & o & p & fl & Hc & Hpk & _ & -> & _). eexists _, c, orc, o. split; [exact Hpk|]. split; [reflexivity|]. intros k Hk. apply elem_of_list_to_set. exact Hk.
Qed.
(** Every price a successful keeper call needs is, after the call's own price message,
    stored, positive and strictly younger than the configured maximum age. *)
Theorem C13_fresh E cx w o w' out k age : step E cx w o = Ok (w', out) -> needs_price w o k age ->
  exists price ts, stored_price w' k = Some (price, ts) /\ 0 < price /\ w_now w - age < ts.
Proof.
  intros H [He Hn]. destruct (keeper_prices _ _ _ _ _ _ H He) as (ids & c & orc & vo & Hpk & Ho & Ht). unfold stored_price. rewrite Ho.
  destruct Hn as [(r & cc & Hr & <- & <-)|[Htr Hage]].
  - destruct (pk_feed _ _ _ _ _ _ _ Hpk r cc Hr) as ([p t] & X1 & [X2 X3] & _). exists p, t. split; [exact X1|]. simpl in *. lia.
  - destruct (pk_pair _ _ _ _ _ _ _ Hpk k (Ht k Htr)) as ([p t] & pc & P1 & X1 & [X2 X3] & _). unfold pair_max_age in Hage. rewrite P1 in Hage. injection Hage as <-. exists p, t. split; [exact X1|]. simpl in *. lia.
Qed.
(** A traded pair must be configured. *)
Theorem C13_traded_pairs_are_configured E cx w o w' out k : step E cx w o = Ok (w', out) -> executes w o -> trades_pair w o k ->
  exists age, pair_max_age w k = Some age.
Proof.
  intros H He Htr. destruct (keeper_prices _ _ _ _ _ _ H He) as (ids & c & orc & vo & Hpk & Ho & Ht).
  destruct (pk_pair _ _ _ _ _ _ _ Hpk k (Ht k Htr)) as (x & pc & P1 & _). exists (pc_price_age_max pc). unfold pair_max_age. rewrite P1. reflexivity.
Qed.
Lemma stored_of E w upd ids c orc o w' k p : prices_ok E w upd ids c orc o -> w_oracle w' = orc -> vo_prices o !! k = Some p -> exists t, stored_price w' k = Some (p, t).
Proof. intros Hpk Ho H. apply (pk_stored _ _ _ _ _ _ _ Hpk) in H. unfold stored_price. rewrite Ho. destruct (or_prices orc !! k) as [[q t]|]; [|discriminate]. injection H as <-. eauto. Qed.
Lemma margin_order_event now c o s rq s' ev : x_margin_order now c o s rq = Ok (s', ev) -> exists e, ev = EvMarginOrder e /\ eo_pair e = ro_pair rq /\ vo_prices o !! ro_pair rq = Some (eo_price e).
Proof.
  unfold x_margin_order, vo_price. intros H. cbv zeta in H. bd H as (price & Hp & H). apply expect_Ok in Hp. bd H as (? & _ & H). bd H as ([p b] & _ & H). bd H as ([[p1 a1] f] & _ & H). bd H as ([ac ao] & _ & H).
  bd H as ([[[p2 a2] pnl] fee0] & _ & H). bd H as ([[p3 a3] fee] & _ & H). bd H as (t1 & _ & H). bd H as (t2 & _ & H). bd H as (t3 & _ & H). bd H as (ok & _ & H). bd H as (? & _ & H).
  bd H as ([s1 [[[q0 q1] q2] q3]] & _ & H). bd H as ([a4 l4] & _ & H). bd H as ([a5 l5] & _ & H). bd H as (dsk & _ & H). bd H as (? & _ & H). bd H as (tp & _ & H). apply Ok_inj in H. injection H as _ <-.
  eexists. split; [reflexivity|]. split; [reflexivity|exact Hp].
Qed.
Lemma adl_event now c o s pid s' ev : x_auto_deleverage now c o s pid = Ok (s', ev) -> exists e, ev = EvAutoDeleverage e /\ ea_pair e = pid /\ vo_prices o !! pid = Some (ea_price e).
Proof.
  unfold x_auto_deleverage, vo_price. intros H. cbv zeta in H. bd H as ([p b] & _ & H). bd H as ([[p1 a1] f] & _ & H). bd H as (sr & _ & H). bd H as (? & _ & H). destruct (va_position a1 pid) as [a2 pos].
  bd H as (price & Hp & H). apply expect_Ok in Hp. bd H as (? & _ & H). bd H as (t1 & _ & H). bd H as (t2 & _ & H). bd H as (t3 & _ & H). bd H as (t4 & _ & H). bd H as (? & _ & H). bd H as (ac & _ & H).
  bd H as ([[p3 a3] [pnl fee]] & _ & H). bd H as ([s1 [[[q0 q1] q2] q3]] & _ & H). bd H as (sr1 & _ & H). bd H as (? & _ & H). bd H as (tp & _ & H). apply Ok_inj in H. injection H as _ <-.
  eexists. split; [reflexivity|]. split; [reflexivity|exact Hp].
Qed.
Lemma liq_prices c o l rc0 rc : rfold (x_liq_collateral1 c o) rc0 l = Ok rc ->
  (forall r p, (r, p) ∈ lc_prices rc0 -> vo_price_resource o r = Ok p) -> forall r p, (r, p) ∈ lc_prices rc -> vo_price_resource o r = Ok p.
Proof.
  revert rc0. induction l as [|x l IH]; intros rc0 H H0; simpl in H; [apply Ok_inj in H; subst; exact H0|]. bd H as (rc1 & H1 & H). apply (IH _ H). unfold x_liq_collateral1 in H1.
  destruct (vc_collaterals c !! fst x); [|apply Ok_inj in H1; subst; exact H0]. bd H1 as (pr & Hpr & H1). bd H1 as (t1 & _ & H1). bd H1 as (t2 & _ & H1). bd H1 as (t3 & _ & H1). bd H1 as (t4 & _ & H1). bd H1 as (t5 & _ & H1). bd H1 as (t6 & _ & H1).
  apply Ok_inj in H1. subst rc1. simpl. intros r p Hin. apply elem_of_app in Hin as [Hin|Hin]; [auto|]. apply elem_of_list_singleton in Hin. injection Hin as -> ->. exact Hpr.
Qed.
Lemma liq_event E now c o s b s' toks evs : x_liquidate E now c o s b = Ok (s', toks, evs) -> exists e n, evs = [EvValidStart (va_addr (s_acc s')) n; EvLiquidate e] /\
  (forall k p, (k, p) ∈ el_position_prices e -> vo_prices o !! k = Some p) /\ (forall r p, (r, p) ∈ el_collateral_prices e -> vo_price_resource o r = Ok p).
Proof.
  unfold x_liquidate. intros H. bd H as (? & _ & H). bd H as ([[p a] rp] & Hp & H). bd H as (rc & Hrc & H). cbv zeta in H. bd H as (t1 & _ & H). bd H as (t2 & _ & H). bd H as (t3 & _ & H). bd H as (? & _ & H).
  bd H as (t4 & _ & H). bd H as (? & _ & H). bd H as ([a2 tk] & _ & H). bd H as (paid & _ & H). bd H as (p2 & _ & H). bd H as (st & _ & H). bd H as ([p3 a3] & _ & H). bd H as ([[p4 a4] loss] & _ & H).
  bd H as ([s1 [[[q0 q1] q2] q3]] & _ & H). apply Ok_inj in H. injection H as <- _ <-. do 2 eexists. split; [reflexivity|]. simpl. split.
  - intros k pr Hin. unfold x_liquidate_positions in Hp. bd Hp as (fr & _ & Hp). cbv zeta in Hp. bd Hp as (p5 & _ & Hp). bd Hp as ([p6 [[[? ?] ?] ?]] & _ & Hp). bd Hp as (prs & Hprs & Hp). bd Hp as (nf & _ & Hp). bd Hp as (p7 & _ & Hp). bd Hp as (p8 & _ & Hp).
    apply Ok_inj in Hp. injection Hp as _ _ <-. simpl in Hin. apply rmap_Forall2 in Hprs. apply elem_of_list_lookup in Hin as (i & Hi). destruct (Forall2_lookup_r _ _ _ _ _ Hprs Hi) as (xx & _ & Hx). bd Hx as (q & Hq & Hx). apply Ok_inj in Hx. injection Hx as <- <-.
    unfold vo_price in Hq. apply expect_Ok in Hq. exact Hq.
  - eapply liq_prices; [exact Hrc|]. intros r pr Hin. inversion Hin.
Qed.
(** The prices reported by the events of a call are the stored ones. *)
Lemma acc_events_price v w k p ev : ev ∈ acc_events v -> ~ reports_price w ev k p.
Proof. unfold acc_events. destruct (va_event_requests v); intros H; [inversion H|]. apply elem_of_list_singleton in H. subst ev. intros []. Qed.
Lemma pool_events_price v w k p ev : ev ∈ pool_events v -> ~ reports_price w ev k p.
Proof. unfold pool_events. cbv zeta. destruct (map_to_list _); intros H; [inversion H|]. apply elem_of_list_singleton in H. subst ev. intros []. Qed.
Theorem C13_reported_prices E cx w o w' out ev k p : step E cx w o = Ok (w', out) -> executes w o -> ev ∈ o_events out -> reports_price w ev k p ->
  exists ts, stored_price w' k = Some (p, ts).
Proof.
  intros H Hex Hev Hp. destruct o; try (destruct Hex; fail).
  - apply process_inv in H as (v0 & v1 & rq & ex & ids & c & w1 & v2 & pay & evs & w2 & Hv & Hpr & Hids & Hc & Hx & Hz & -> & _ & He & _).
    destruct (executes_ex _ _ _ upd _ _ _ _ Hv Hpr Hex) as (-> & _). destruct Hx as (orc & o & Hpk & Hx). rewrite He in Hev. apply elem_of_app in Hev as [Hev|Hev]; [|destruct (acc_events_price _ _ _ _ _ Hev Hp)].
    destruct rq as [r|r].
    + destruct Hx as (p1 & toks & ev1 & Hr & -> & _ & ->). apply elem_of_cons in Hev as [->|Hev]; [|destruct (pool_events_price _ _ _ _ _ Hev Hp)].
      exfalso. unfold x_remove_collateral in Hr. bd Hr as (m & _ & Hr). bd Hr as ([[[p2 a2] tk] rs] & _ & Hr). bd Hr as ([a3 more] & _ & Hr). cbv zeta in Hr. bd Hr as (u1 & _ & Hr). bd Hr as (u2 & _ & Hr). apply Ok_inj in Hr. injection Hr as _ _ _ <-. destruct Hp.
    + destruct Hx as (s & ev1 & Hr & -> & _ & _ & ->). apply elem_of_cons in Hev as [->|Hev]; [|destruct (pool_events_price _ _ _ _ _ Hev Hp)].
      apply margin_order_event in Hr as (e & -> & He1 & He2). destruct Hp as [Hp1 Hp2]. eapply stored_of; [exact Hpk| |].
      * simpl. rewrite (realize_acc_oracle _ _ _ Hz). reflexivity.
      * rewrite <- Hp1, <- Hp2, He1. exact He2.
  - apply swap_inv in H as (v0 & c & orc & o & p1 & v & tk & rs & ev1 & w1 & Hv & Hc & Hpk & Hx & Hz & -> & _ & He). rewrite He in Hev.
    apply elem_of_cons in Hev as [->|Hev]; [|apply elem_of_app in Hev as [Hev|Hev]; [destruct (acc_events_price _ _ _ _ _ Hev Hp)|destruct (pool_events_price _ _ _ _ _ Hev Hp)]].
    exfalso. unfold x_swap_debt in Hx. inv_go; destruct Hp.
  - apply liquidate_call_inv in H as (v0 & c & orc & o & s & toks & evs & w1 & Hv & Hc & Hpk & Hx & Hz & -> & _ & He). rewrite He in Hev.
    apply elem_of_app in Hev as [Hev|Hev]; [|apply elem_of_app in Hev as [Hev|Hev]; [destruct (acc_events_price _ _ _ _ _ Hev Hp)|destruct (pool_events_price _ _ _ _ _ Hev Hp)]].
    apply liq_event in Hx as (e & n & -> & L1 & L2). assert (w_oracle (realize_pool w1 (s_pool s) <| w_rewards := w_rewards w1 + keeper_reward w |>) = orc) as Ho by exact (realize_acc_oracle _ _ _ Hz).
    apply elem_of_cons in Hev as [->|Hev]; [destruct Hp|]. apply elem_of_list_singleton in Hev. subst ev. destruct Hp as [Hp|(r & cc & Hp & Hr & <-)].
    + eapply stored_of; [exact Hpk|exact Ho|]. apply L1. exact Hp.
    + eapply stored_of; [exact Hpk|exact Ho|]. apply L2 in Hp. unfold vo_price_resource, vo_price in Hp. bd Hp as (k & Hk & Hp). apply expect_Ok in Hk, Hp.
      pose proof (pk_res _ _ _ _ _ _ _ Hpk r) as Hres. assert (Some k = Some (cc_pair_id cc)) as [= ->]; [|exact Hp]. transitivity (vo_resources o !! r); [symmetry; exact Hk|]. etransitivity; [exact Hres|].
      match goal with |- _ <$> ?t = _ => assert (t = Some cc) as -> by exact Hr end. reflexivity.
  - apply adl_call_inv in H as (v0 & ids & c & orc & o & s & ev1 & w1 & Hv & -> & Hc & Hpk & Hx & Hz & -> & _ & He). rewrite He in Hev.
    apply elem_of_cons in Hev as [->|Hev]; [|apply elem_of_app in Hev as [Hev|Hev]; [destruct (acc_events_price _ _ _ _ _ Hev Hp)|destruct (pool_events_price _ _ _ _ _ Hev Hp)]].
    apply adl_event in Hx as (e & -> & He1 & He2). destruct Hp as [Hp1 Hp2]. eapply stored_of; [exact Hpk|exact (realize_acc_oracle _ _ _ Hz)|]. rewrite <- Hp1, <- Hp2, He1. exact He2.
  - apply update_pairs_inv in H as (c & orc & o & p1 & fl & Hc & Hpk & _ & -> & _ & _ & He). rewrite He in Hev. destruct (pool_events_price _ _ _ _ _ Hev Hp).
Qed.

(** ** C53: one stale collateral feed stops every keeper *)
Theorem C53_stale_feed_blocks E cx w o r cc :
  executes w o -> cf_collaterals (w_config w) !! r = Some cc ->
  (forall x, stored_price w (cc_pair_id cc) = Some x -> ~ fresh (w_now w) (cc_price_age_max cc) x) ->
  (forall msg p t, message_of o = Some msg -> signed_price E w msg (cc_pair_id cc) p t -> ~ fresh (w_now w) (cc_price_age_max cc) (p, t)) ->
  exists e, step E cx w o = Err e.
Proof.
  intros He Hr H1 H2. destruct (step E cx w o) as [[w' out]|e] eqn:Hs; [|eauto]. exfalso.
  destruct (C13_fresh _ _ _ _ _ _ (cc_pair_id cc) (cc_price_age_max cc) Hs) as (p & t & Hp & Hpos & Hage); [split; [exact He|left; exists r, cc; auto]|].
  assert (fresh (w_now w) (cc_price_age_max cc) (p, t)) as Hf by (split; simpl; lia).
  destruct (decide (stored_price w (cc_pair_id cc) = Some (p, t))) as [E1|E1]; [exact (H1 _ E1 Hf)|].
  destruct (C12_signed _ _ _ _ _ _ _ _ _ Hs Hp E1) as (msg & Hm & Hsg). exact (H2 _ _ _ Hm Hsg Hf).
Qed.

(** ** The hypotheses can be met *)
(** In W2 a keeper updates pair 1 with a newer signed message: the stored price moves. *)
Example C11_ex : exists w' out, step sc_env cx_any W2 (OUpdatePairs [1%N] (msg 30300%N 2000%N 1010%N)) = Ok (w', out) /\
  reachable sc_env W2 /\ stored_price W2 1%N = Some (dec 30000, 1009) /\ stored_price w' 1%N = Some (dec 30300, 1010).
Proof.
  destruct (try_true W2 (cx_any, OUpdatePairs [1%N] (msg 30300%N 2000%N 1010%N))
    (fun w' _ => bool_decide (stored_price W2 1%N = Some (dec 30000, 1009)) && bool_decide (stored_price w' 1%N = Some (dec 30300, 1010)))) as (w' & out & H & Hf); [vm_compute; reflexivity|].
  apply andb_true_iff in Hf as [H1 H2]. apply bool_decide_eq_true in H1, H2. exists w', out. split; [exact H|]. split; [exact W2_reach|]. split; [exact H1|exact H2].
Qed.
(** In W3 the liquidation of A2 needs a fresh price of pair 1 (the position), and gets it. *)
Example C13_ex : exists w' out, step sc_env cx_any W3 (OAdvance 87450) = Ok (w', out) /\ reachable sc_env w' /\
  exists w'' out', step sc_env cx_any w' (OLiquidate A2 (BASE, dec 5000) (msg 17000%N 2000%N 87440%N)) = Ok (w'', out') /\
  (exists age, pair_max_age w' 1%N = Some age /\ needs_price w' (OLiquidate A2 (BASE, dec 5000) (msg 17000%N 2000%N 87440%N)) 1%N age) /\
  exists ev, ev ∈ o_events out' /\ reports_price w' ev 1%N (dec 17000).
Proof.
  destruct (try_true W3 (cx_any, OAdvance 87450) (fun w' _ =>
    bool_decide (is_Some (pair_max_age w' 1%N)) && bool_decide (is_Some (w_accounts w' !! A2 ≫= fun a => ac_positions a !! 1%N)) &&
    try_ w' (cx_any, OLiquidate A2 (BASE, dec 5000) (msg 17000%N 2000%N 87440%N)) (fun _ out =>
      existsb (fun ev => match ev with EvLiquidate e => bool_decide ((1%N, dec 17000) ∈ el_position_prices e) | _ => false end) (o_events out)))) as (w' & out & H & Hf); [vm_compute; reflexivity|].
  apply andb_true_iff in Hf as [Hf H3]. apply andb_true_iff in Hf as [H1 H2]. apply bool_decide_eq_true in H1, H2. apply try_true in H3 as (w'' & out' & H3 & Hf).
  exists w', out. split; [exact H|]. split; [exact (reach_step _ _ _ _ _ _ W3_reach H)|]. exists w'', out'. split; [exact H3|]. split.
  - destruct H1 as (age & H1). exists age. split; [exact H1|]. split; [exact I|]. right. split; [|exact H1]. destruct H2 as (pos & H2). unfold trades_pair, account_pairs.
    destruct (w_accounts w' !! A2) as [acc|] eqn:Ha; [|exfalso; discriminate H2]. exists acc, pos. split; [reflexivity|exact H2].
  - apply existsb_exists in Hf as (ev & Hin & Hf). exists ev. split; [apply elem_of_list_In; exact Hin|]. destruct ev; try (exfalso; exact (Bool.diff_false_true Hf)). left. apply bool_decide_eq_true in Hf. exact Hf.
Qed.
(** Ten days after W3 nobody has refreshed the feeds: an update of pairs without a message fails, by C53. *)
Example C53_ex : exists w' out, step sc_env cx_any W3 (OAdvance 964000) = Ok (w', out) /\ reachable sc_env w' /\
  executes w' (OUpdatePairs [] None) /\ exists r cc, cf_collaterals (w_config w') !! r = Some cc /\
  (exists x, stored_price w' (cc_pair_id cc) = Some x /\ ~ fresh (w_now w') (cc_price_age_max cc) x) /\ exists e, step sc_env cx_any w' (OUpdatePairs [] None) = Err e.
Proof.
  destruct (try_true W3 (cx_any, OAdvance 964000) (fun w' _ => match cf_collaterals (w_config w') !! 20%N with Some cc =>
     match stored_price w' (cc_pair_id cc) with Some x => negb (w_now w' <? snd x + cc_price_age_max cc) | None => false end | None => false end)) as (w' & out & H & Hf); [vm_compute; reflexivity|].
  exists w', out. split; [exact H|]. split; [exact (reach_step _ _ _ _ _ _ W3_reach H)|]. split; [exact I|].
  destruct (cf_collaterals (w_config w') !! 20%N) as [cc|] eqn:Hc; [|exfalso; exact (Bool.diff_false_true Hf)]. destruct (stored_price w' (cc_pair_id cc)) as [x|] eqn:Hx; [|exfalso; exact (Bool.diff_false_true Hf)].
  apply negb_true_iff, Z.ltb_ge in Hf. assert (~ fresh (w_now w') (cc_price_age_max cc) x) as Hnf by (intros [_ Hfr]; lia).
  exists 20%N, cc. split; [exact Hc|]. split; [exists x; split; [exact Hx|exact Hnf]|].
  apply (C53_stale_feed_blocks sc_env cx_any w' (OUpdatePairs [] None) 20%N cc I Hc); [|intros m p t Hm; discriminate Hm].
  intros y Hy. rewrite Hx in Hy. injection Hy as <-. exact Hnf.
Qed.
