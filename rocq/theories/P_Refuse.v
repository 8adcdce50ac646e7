(** * Why a call fails: an error logic over the method bodies (for C65). *)
From Verif Require Import Base DFloat Lists Types Config Oracle Pool Account Fees Referral ExInternal Exchange System Sums Trace Frames Calls Spec SpecOracle SpecTrading SpecMargin SpecLiq P_Ledger P_Accounts P_Fees P_Refs Frames2 P_Tokens P_Requests P_Requests2 Trading P_Positions P_Positions2 P_Oracle P_Keeper P_Orders P_Final P_Coll P_Whole P_Margin P_Liq P_Updates Props_Collateral Props_Rates P_OrderCall Props_Orders SpecFunding.

(** [m] fails only with an error in [P]. *)
Definition fails {A} (P : error -> Prop) (m : res A) : Prop := forall e, m = Err e -> P e.
Lemma f_Ok {A} P (x : A) : fails P (Ok x). Proof. intros e H. discriminate H. Qed.
Lemma f_Err {A} (P : error -> Prop) e : P e -> fails P (@Err A e). Proof. intros H e' [= <-]. exact H. Qed.
Lemma f_bind {A B} P (m : res A) (k : A -> res B) : fails P m -> (forall x, m = Ok x -> fails P (k x)) -> fails P (m ≫= k).
Proof. intros H1 H2 e H. destruct m as [x|e']; cbn [mbind res_bind] in H; [exact (H2 x eq_refl e H)|injection H as <-; apply H1; reflexivity]. Qed.
Lemma f_mono {A} (P Q : error -> Prop) (m : res A) : fails P m -> (forall e, P e -> Q e) -> fails Q m. Proof. intros H HPQ e He. exact (HPQ _ (H _ He)). Qed.
Lemma f_guard (P : error -> Prop) b e : (b = false -> P e) -> fails P (guard_ b e).
Proof. intros H e' He. destruct b; [discriminate He|injection He as <-; apply H; reflexivity]. Qed.
Lemma f_some {A} P (o : option A) e : is_Some o -> fails P (expect o e). Proof. intros [x ->]. apply f_Ok. Qed.
Lemma f_rfold {A S} P (I : S -> Prop) (f : S -> A -> res S) l : (forall s x, x ∈ l -> I s -> fails P (f s x)) -> (forall s x s', x ∈ l -> I s -> f s x = Ok s' -> I s') -> forall s, I s -> fails P (rfold f s l).
Proof.
  induction l as [|x l IH]; intros H1 H2 s Hs; [apply f_Ok|]. cbn [rfold]. apply f_bind; [apply H1; [left|exact Hs]|]. intros s' H'. apply IH.
  - intros t y Hy. apply H1. right. exact Hy.
  - intros t y t' Hy. apply H2. right. exact Hy.
  - eapply H2; [left|exact Hs|exact H'].
Qed.
Lemma f_rmap {A B} P (f : A -> res B) l : (forall x, x ∈ l -> fails P (f x)) -> fails P (rmap f l).
Proof. induction l as [|x l IH]; intros H; [apply f_Ok|]. cbn [rmap]. apply f_bind; [apply H; left|]. intros y _. apply f_bind; [apply IH; intros z Hz; apply H; right; exact Hz|]. intros ys _. apply f_Ok. Qed.

(** Arithmetic. *)
Definition ar (e : error) : Prop := e = EArithmetic.
Lemma f_chk x : fails ar (chk x). Proof. unfold chk. destruct (in_dec x); [apply f_Ok|apply f_Err; reflexivity]. Qed.
Lemma f_dadd a b : fails ar (dadd a b). Proof. apply f_chk. Qed.
Lemma f_dsub a b : fails ar (dsub a b). Proof. apply f_chk. Qed.
Lemma f_dneg a : fails ar (dneg a). Proof. apply f_chk. Qed.
Lemma f_dabs a : fails ar (dabs a). Proof. apply f_chk. Qed.
Lemma f_dmul a b : fails ar (dmul a b). Proof. apply f_chk. Qed.
Lemma f_ddiv a b : fails ar (ddiv a b). Proof. unfold ddiv. destruct (b =? 0); [apply f_Err; reflexivity|apply f_chk]. Qed.
Lemma f_dclamp a b c : fails ar (dclamp a b c). Proof. unfold dclamp. destruct (_ <=? _); [apply f_Ok|apply f_Err; reflexivity]. Qed.
Lemma f_dint a : fails ar (dec_of_int a). Proof. apply f_chk. Qed.
Lemma f_uadd a b : fails ar (uadd a b). Proof. unfold uadd. destruct (_ <=? _)%N; [apply f_Ok|apply f_Err; reflexivity]. Qed.
Lemma f_usub a b : fails ar (usub a b). Proof. unfold usub. destruct (_ <=? _)%N; [apply f_Ok|apply f_Err; reflexivity]. Qed.
Lemma f_iadd a b : fails ar (iadd a b). Proof. unfold iadd. destruct (in_i64 _); [apply f_Ok|apply f_Err; reflexivity]. Qed.
Lemma f_isub a b : fails ar (isub a b). Proof. unfold isub. destruct (in_i64 _); [apply f_Ok|apply f_Err; reflexivity]. Qed.
Lemma f_round E r s x : fails ar (round_amount E r s x). Proof. unfold round_amount. destruct s; apply f_chk. Qed.
Ltac ar1 := first [apply f_Ok|apply f_dadd|apply f_dsub|apply f_dneg|apply f_dabs|apply f_dmul|apply f_ddiv|apply f_dclamp|apply f_dint|apply f_uadd|apply f_usub|apply f_iadd|apply f_isub|apply f_round].
(** Chains of arithmetic. *)
Ltac ar_ := repeat (lazymatch goal with
  | |- fails ar (_ ≫= _) => apply f_bind; [|intros ? ?; cbv beta zeta]
  | |- fails ar (if ?b then _ else _) => destruct b
  | |- fails ar (match ?x with (_, _) => _ end) => destruct x
  | |- fails ar (dadd _ _) => apply f_dadd | |- fails ar (dsub _ _) => apply f_dsub | |- fails ar (dneg _) => apply f_dneg | |- fails ar (dabs _) => apply f_dabs
  | |- fails ar (dmul _ _) => apply f_dmul | |- fails ar (ddiv _ _) => apply f_ddiv | |- fails ar (dclamp _ _ _) => apply f_dclamp | |- fails ar (dec_of_int _) => apply f_dint
  | |- fails ar (uadd _ _) => apply f_uadd | |- fails ar (usub _ _) => apply f_usub | |- fails ar (iadd _ _) => apply f_iadd | |- fails ar (isub _ _) => apply f_isub
  | |- fails ar (round_amount _ _ _ _) => apply f_round | |- fails ar (Ok _) => apply f_Ok | |- fails ar (chk _) => apply f_chk
  | |- fails ar (expect _ _) => apply f_some; eassumption
  end).
Lemma f_fee ec pc pp fr pr v : fails ar (x_calculate_fee ec pc pp fr pr v). Proof. unfold x_calculate_fee. ar_. Qed.
Lemma f_due pp pos : fails ar (x_funding_due pp pos). Proof. unfold x_funding_due. ar_. Qed.
Lemma f_f2 pc r mx mn d p : fails ar (x_funding_2 pc r mx mn d p). Proof. unfold x_funding_2, x_funding_2_decay. ar_. Qed.
Lemma f_fidx pc a b c d e f g h i : fails ar (x_funding_indexes pc a b c d e f g h i). Proof. unfold x_funding_indexes. ar_. Qed.
Lemma f_fstep pc pp a b c d : fails ar (x_funding_step pc pp a b c d).
Proof. unfold x_funding_step. cbv zeta. ar_; [apply f_f2|apply f_fidx]. Qed.
Lemma f_vb p x : fails ar (vp_add_vb p x). Proof. unfold vp_add_vb. ar_. Qed.
Lemma f_upf p x : fails ar (vp_add_upf p x). Proof. unfold vp_add_upf. ar_. Qed.
Lemma f_skew p x : fails ar (vp_add_skew p x). Proof. unfold vp_add_skew. ar_. Qed.
Lemma f_pnl p x : fails ar (vp_add_pnl p x). Proof. unfold vp_add_pnl. ar_. Qed.
Lemma f_avb a x : fails ar (va_add_vb a x). Proof. unfold va_add_vb. ar_. Qed.
Lemma f_settle p a x : fails ar (x_settle_account p a x). Proof. unfold x_settle_account. ar_; [apply f_vb|apply f_avb]. Qed.
Lemma f_deposit p x : fails ar (vp_deposit p x). Proof. unfold vp_deposit, pool_deposit. ar_. Qed.
Lemma f_fdist d x y : fails ar (fd_distribute d x y). Proof. unfold fd_distribute. ar_. Qed.
Lemma f_rewref v x : fails ar (va_reward_referral v x). Proof. unfold va_reward_referral. destruct (va_ref v); ar_. Qed.
Lemma f_fees c s x : fails ar (x_settle_fees_referral c s x). Proof. unfold x_settle_fees_referral. cbv zeta. ar_; first [apply f_vb|apply f_fdist|apply f_rewref]. Qed.
Lemma f_rebate a : fails ar (va_fee_rebate a). Proof. unfold va_fee_rebate. destruct (va_ref a); ar_. Qed.

(** Everything the loops look up is there. *)
Definition have (c : vconfig) (o : voracle) (p : vpool) (k : pair_id) : Prop := is_Some (vc_pairs c !! k) /\ is_Some (vo_prices o !! k) /\ is_Some (vp_positions p !! k).
Lemma f_update now c o p k : have c o p k -> fails ar (x_update_pair now c o p k).
Proof.
  intros (H1 & H2 & H3). unfold x_update_pair, vc_pair, vo_price, vp_position. cbv zeta. ar_. all: first [apply f_fstep|apply f_skew|apply f_pnl|apply f_upf].
Qed.
Lemma f_snaps o c p k : have c o p k -> fails ar (x_update_pair_snaps o p k).
Proof. intros (H1 & H2 & H3). unfold x_update_pair_snaps, vc_pair, vo_price, vp_position. cbv zeta. ar_. all: first [apply f_skew|apply f_pnl]. Qed.
Lemma have_update now c o p k p' b : x_update_pair now c o p k = Ok (p', b) -> forall j, have c o p j -> have c o p' j.
Proof.
  intros H j (H1 & H2 & H3). apply update_moved in H as (pc & price & pp & pp1 & fpd & _ & _ & _ & _ & _ & _ & ->). split; [exact H1|]. split; [exact H2|]. cbn. destruct (decide (j = k)) as [->|Hn]; [rewrite lookup_insert; eauto|rewrite lookup_insert_ne by congruence; exact H3].
Qed.
Lemma f_liq1 c fr o p t x : have c o p (fst x) -> fails ar (x_liq_position1 c fr o (p, t) x).
Proof.
  intros (H1 & H2 & H3). destruct t as [[[t1 t2] t3] t4], x as [k pos]. cbn [fst] in *. unfold x_liq_position1, vc_pair, vo_price, vp_position. cbv zeta. ar_. all: first [apply f_fee|apply f_due].
Qed.
Lemma have_liq1 c fr o p t x p' t' : x_liq_position1 c fr o (p, t) x = Ok (p', t') -> forall j, have c o p j -> have c o p' j.
Proof.
  intros H j (H1 & H2 & H3). destruct t as [[[t1 t2] t3] t4], x as [k pos], t' as [[[s1 s2] s3] s4]. apply liq1_inv in H as (pc & price & pp & fee & fu & _ & _ & _ & _ & _ & -> & _). split; [exact H1|]. split; [exact H2|]. unfold vp_set_position. cbn. destruct (decide (j = k)) as [->|Hn]; [rewrite lookup_insert; eauto|rewrite lookup_insert_ne by congruence; exact H3].
Qed.
Lemma have_snaps c o p k p' : x_update_pair_snaps o p k = Ok p' -> forall j, have c o p j -> have c o p' j.
Proof.
  intros H j (H1 & H2 & H3). apply update_snaps_inv in H as (price & pp & _ & _ & ->). split; [exact H1|]. split; [exact H2|]. destruct (put_snap_fields p k pp (resnap price pp)) as (-> & _). destruct (decide (j = k)) as [->|Hn]; [rewrite lookup_insert; eauto|rewrite lookup_insert_ne by congruence; exact H3].
Qed.
Lemma f_liqpos now c o p a : (forall k pos, va_positions a !! k = Some pos -> have c o p k) -> fails ar (x_liquidate_positions now c o p a).
Proof.
  intros Hh. unfold x_liquidate_positions. cbv zeta. set (l := map_to_list (va_positions a)).
  assert (forall k, k ∈ map fst l -> have c o p k) as Hh'.
  { intros k Hk. apply elem_of_list_In, in_map_iff in Hk as ([k' x] & <- & Hk). apply elem_of_list_In, elem_of_map_to_list in Hk. eauto. }
  apply f_bind; [apply f_rebate|]. intros fr _. apply f_bind.
  { apply (f_rfold ar (fun q => forall k, k ∈ map fst l -> have c o q k)); [| |exact Hh'].
    - intros q k Hk Hq. apply f_bind; [apply f_update, Hq, Hk|]. intros [? ?] _. apply f_Ok.
    - intros q k q' Hk Hq H. bd H as ([q1 b] & H & H'). apply Ok_inj in H'. subst q1. intros j Hj. eapply have_update; [exact H|]. apply Hq. exact Hj. }
  intros p1 Hp1. assert (forall k, k ∈ map fst l -> have c o p1 k) as H1.
  { clear - Hp1 Hh'. revert Hp1. assert (forall ks q q', rfold (fun p k => '(p, _) ← x_update_pair now c o p k; Ok p) q ks = Ok q' -> forall j, have c o q j -> have c o q' j) as Hg.
    { induction ks as [|k ks IH]; intros q q' H j Hj; cbn [rfold] in H; [apply Ok_inj in H; subst; exact Hj|]. bd H as (q1 & H1 & H). bd H1 as ([q2 b] & H1 & H2). apply Ok_inj in H2. subst q2. eapply IH; [exact H|]. eapply have_update; [exact H1|exact Hj]. }
    intros H k Hk. exact (Hg _ _ _ H k (Hh' k Hk)). }
  apply f_bind.
  { apply (f_rfold ar (fun q => forall k, k ∈ map fst l -> have c o (fst q) k)); [| |exact H1].
    - intros [q t] x Hx Hq. apply f_liq1. apply Hq. apply elem_of_list_In, in_map, elem_of_list_In. exact Hx.
    - intros [q t] x [q' t'] Hx Hq H j Hj. eapply have_liq1; [exact H|]. apply Hq. exact Hj. }
  intros [p2 [[[tp tm] tf] tfe]] Hp2. assert (forall k, k ∈ map fst l -> have c o p2 k) as H2.
  { assert (forall m q t q' t', rfold (x_liq_position1 c fr o) (q, t) m = Ok (q', t') -> forall j, have c o q j -> have c o q' j) as Hg.
    { induction m as [|x m IH]; intros q t q' t' H j Hj; cbn [rfold] in H; [apply Ok_inj in H; injection H as <- <-; exact Hj|]. bd H as ([q1 t1] & Hx & H). eapply IH; [exact H|]. eapply have_liq1; [exact Hx|exact Hj]. }
    intros k Hk. exact (Hg _ _ _ _ _ Hp2 k (H1 k Hk)). }
  cbv beta zeta. apply f_bind.
  { apply f_rmap. intros x Hx. apply f_bind; [|intros; apply f_Ok]. unfold vo_price. apply f_some. destruct (H2 (fst x)) as (_ & H & _); [|exact H]. apply elem_of_list_In, in_map, elem_of_list_In. exact Hx. }
  intros prices _. apply f_bind; [apply f_dneg|]. intros nf _. apply f_bind; [apply f_upf|]. intros p3 Hp3. unfold vp_add_upf in Hp3. bd Hp3 as (y & _ & Hp3). apply Ok_inj in Hp3. subst p3.
  apply f_bind; [|intros; apply f_Ok].
  apply (f_rfold ar (fun q => forall k, k ∈ map fst l -> have c o q k)); [| |exact H2].
  - intros q k Hk Hq. apply (f_snaps o c). apply Hq. exact Hk.
  - intros q k q' Hk Hq H j Hj. eapply have_snaps; [exact H|]. apply Hq. exact Hj.
Qed.

(** Writing the account back. *)
Definition rew_ok (v : vacc) : Prop := va_rewarded v = true -> is_Some (va_ref v).
Lemma sstep_rew E now c o s x s' : sstep E now c o s x s' -> rew_ok (s_acc s) -> rew_ok (s_acc s').
Proof.
  intros H Hr. destruct (touches_ref x) eqn:Hx.
  - destruct x; try discriminate Hx. inversion H; subst; clear H. destruct q as [[[q0 q1] q2] q3]. match goal with H : x_settle_fees_referral _ _ _ = Ok _ |- _ => apply fees_referral_inv in H; destruct H as (fp & ft & fr & _ & _ & _ & _ & _ & Hrw & _) end.
    unfold va_reward_referral in Hrw. destruct (va_ref (s_acc s)) as [d|] eqn:Hd.
    + bd Hrw as (b1 & _ & Hrw). bd Hrw as (t1 & _ & Hrw). apply Ok_inj in Hrw. rewrite <- Hrw. intros _. cbn. eauto.
    + apply Ok_inj in Hrw. rewrite <- Hrw. exact Hr.
  - apply sstep_frames in H as (H & _). specialize (H Hx) as [H _]. unfold g_ref in H. injection H as _ H2 H3 _. unfold rew_ok. rewrite H2, H3. exact Hr.
Qed.
Lemma ssteps_rew E now c o s l s' : ssteps E now c o s l s' -> rew_ok (s_acc s) -> rew_ok (s_acc s').
Proof. induction 1 as [|s x s1 l s2 Hx Hl IH]; intros Hr; [exact Hr|]. apply IH. eapply sstep_rew; eassumption. Qed.
Lemma f_accupd R v : rq_ok R v -> fails ar (acc_update (va_comp v) (va_updates v)).
Proof.
  intros [Ha Hl Hu _ _ _ _ _ _ _]. unfold acc_update. cbv zeta. apply f_bind.
  { apply (f_rfold ar (fun _ => True)); [|auto|exact I]. intros s x _ _. unfold kl_push. ar_. }
  intros r1 H1. destruct (kl_push_all _ _ _ (ok_list _ Ha) H1) as (W1 & W2 & _). apply f_bind; [|intros; apply f_Ok].
  apply (f_rfold ar (fun l => (kl_ptr (ac_requests (va_comp v)) <= kl_ptr l)%N)); [| |rewrite W2; lia].
  - intros l [i r] Hi Hle. unfold kl_update. apply f_bind; [|intros; apply f_Ok]. apply f_guard. intros Hf. exfalso. apply elem_of_map_to_list in Hi. apply Hu in Hi as (r0 & Hk & _). assert (i < kl_ptr (ac_requests (va_comp v)))%N by (apply (ok_list _ Ha); unfold kl_get in Hk; eauto). cbn [fst] in Hf. apply N.ltb_ge in Hf. lia.
  - intros l [i r] l' _ Hle H. unfold kl_update in H. bd H as (? & _ & H). apply Ok_inj in H. subst l'. exact Hle.
Qed.
Lemma f_realize E w a now c o s l s' v0 R wz : reachable E w -> get_acc w a = Ok v0 -> s_acc s = v0 -> ssteps E now c o s l s' -> rq_ok R (s_acc s') -> w_refs wz = w_refs w -> fails ar (realize_acc wz (s_acc s')).
Proof.
  intros Hr Hv Hs Hst Hrq Hrf. unfold realize_acc, va_realize. apply f_bind; [|intros [? ?] _; apply f_Ok].
  apply f_bind; [|intros ? _; apply f_bind; [eapply f_accupd; exact Hrq|intros; apply f_Ok]].
  pose proof (ssteps_rew _ _ _ _ _ _ _ Hst) as Hrw. pose proof (ssteps_ref _ _ _ _ _ _ _ Hst) as (R1 & _ & _ & _ & R5). rewrite Hs in *.
  apply get_acc_inv in Hv as (acc & Ha & Hc & _ & _ & _ & _ & _ & _ & _ & _ & _ & _ & _ & _ & Hid & Hrew & Hrr & Hall).
  destruct (va_rewarded (s_acc s')) eqn:Ew; [|apply f_Ok]. assert (rew_ok v0) as H0 by (unfold rew_ok; rewrite Hrew; discriminate). specialize (Hrw H0 Ew).
  destruct (va_ref v0) as [d|] eqn:Ed; [|rewrite R5 in Hrw; destruct Hrw as [? ?]; discriminate].
  destruct (ac_ref acc) as [id|] eqn:Eid; [|congruence]. rewrite Hrf, R1, Hid.
  apply f_bind; [apply f_some; eauto|]. intros i [= <-]. apply f_bind; [apply f_some; exact Hrw|]. intros d1 _. apply f_bind; [apply f_some; exact (Hall _ eq_refl)|]. intros; apply f_Ok.
Qed.

(** Selling the collateral. *)
Lemma f_liqcoll c o a : (forall r, is_Some (vc_collaterals c !! r) -> exists k, vo_resources o !! r = Some k /\ is_Some (vo_prices o !! k)) -> fails ar (x_liquidate_collateral c o a).
Proof.
  intros H. unfold x_liquidate_collateral. apply (f_rfold ar (fun _ => True)); [|auto|exact I]. intros s x _ _. unfold x_liq_collateral1. destruct (vc_collaterals c !! fst x) as [cc|] eqn:Hc; [|apply f_Ok].
  destruct (H (fst x)) as (k & K1 & K2); [eauto|]. unfold vo_price_resource, vo_price. apply f_bind; [apply f_bind; [apply f_some; eauto|]; intros k' Hk'; apply f_some; rewrite K1 in Hk'; injection Hk' as <-; exact K2|]. intros price _. ar_.
Qed.
(** Taking out whole amounts that are there. *)
Definition takes (E : env) (v : vaults) (cs : list (resource * Z)) : Prop := NoDup (map fst cs) /\ forall r x, (r, x) ∈ cs -> vts_amount v r = x /\ 0 <= x /\ (unit_of E r | x).
Lemma f_take E : forall cs v, takes E v cs -> fails ar (vts_take_adv_batch E v cs ToZero) /\ forall v' bs, vts_take_adv_batch E v cs ToZero = Ok (v', bs) -> bs = cs.
Proof.
  induction cs as [|[r x] cs IH]; intros v [Hn Hx]; cbn [vts_take_adv_batch]; [split; [apply f_Ok|intros v' bs [= <- <-]; reflexivity]|].
  destruct (Hx r x ltac:(left)) as (E1 & E2 & [q E3]). cbn [map fst] in Hn. apply NoDup_cons in Hn as [Hni Hn].
  assert (forall v1 b, vts_take_adv E v r x ToZero = Ok (v1, b) -> b = (r, x) /\ takes E v1 cs) as Hone.
  { intros v1 b H. unfold vts_take_adv, take_adv in H. bd H as (z & Hz & H). apply Ok_inj in H. injection H as <- <-. bd Hz as (y & Hy & Hz). bd Hz as (? & _ & Hz). apply Ok_inj in Hz. subst z. unfold round_amount in Hy. apply chk_Ok in Hy as [-> _]. pose proof (unit_pos E r). rewrite E3, Z.quot_mul by lia. split; [reflexivity|]. split; [exact Hn|].
    intros r' x' Hin. destruct (Hx r' x' ltac:(right; exact Hin)) as (F1 & F2 & F3). split; [|split; assumption]. unfold vts_amount, vaults in *. rewrite (lookup_insert_ne (M := gmap resource)); [exact F1|]. intros ->. apply Hni. apply elem_of_list_In. change r' with (fst (r', x')). apply in_map. apply elem_of_list_In. exact Hin. }
  split.
  - apply f_bind.
    { unfold vts_take_adv, take_adv. apply f_bind; [|intros; apply f_Ok]. apply f_bind; [apply f_round|]. intros z Hz. apply f_bind; [|intros; apply f_Ok]. apply f_guard. intros Hf. exfalso. unfold round_amount in Hz. apply chk_Ok in Hz as [-> _]. pose proof (unit_pos E r). rewrite E1, E3, Z.quot_mul, <- E3, Z.leb_refl, andb_true_r in Hf by lia. apply Z.leb_gt in Hf. lia. }
    intros [v1 b] H1. destruct (Hone _ _ H1) as [-> Ht]. apply f_bind; [apply (IH v1 Ht)|]. intros [? ?] _. apply f_Ok.
  - intros v' bs H. bd H as ([v1 b] & H1 & H). destruct (Hone _ _ H1) as [-> Ht]. bd H as ([v2 bs'] & H2 & H). apply Ok_inj in H. injection H as <- <-. f_equal. exact (proj2 (IH v1 Ht) _ _ H2).
Qed.
Lemma f_collsub : forall (cs : list (resource * Z)) (m : gmap resource Z), NoDup (map fst cs) -> (forall r x, (r, x) ∈ cs -> is_Some (m !! r)) -> fails ar (rfold coll_sub m cs).
Proof.
  induction cs as [|[r x] cs IH]; intros m Hn Hm; cbn [rfold]; [apply f_Ok|]. cbn [map fst] in Hn. apply NoDup_cons in Hn as [Hni Hn]. apply f_bind.
  - unfold coll_sub. cbn. apply f_bind; [apply f_some; eapply Hm; left|]. intros y _. ar_.
  - intros m' H. apply IH; [exact Hn|]. intros r' x' Hin. destruct (Hm r' x' ltac:(right; exact Hin)) as [y Hy]. assert (r' <> r) as Hne. { intros ->. apply Hni. apply elem_of_list_In. change r with (fst (r, x')). apply in_map. apply elem_of_list_In. exact Hin. }
    unfold coll_sub in H. bd H as (z & _ & H). bd H as (t & _ & H). apply Ok_inj in H. subst m'. cbn. destruct (t =? 0); [rewrite lookup_delete_ne by congruence|rewrite lookup_insert_ne by congruence]; eauto.
Qed.

(** Liquidation: the value and the margin it compares. *)
Definition lq_value (c : vconfig) (p1 : vpool) (fr : Z) (o : voracle) (a : vacc) : Z := lsum (t_profit c p1 fr o) (map_to_list (va_positions a)) + lsum (t_coll cc_discount c o) (map_to_list (va_coll a)) + va_vb a.
Definition lq_need (c : vconfig) (o : voracle) (a : vacc) : Z := lsum (t_margin pc_margin_maintenance c o) (map_to_list (va_positions a)) + lsum (t_coll cc_margin c o) (map_to_list (va_coll a)).
Definition lq_why (now : Z) (c : vconfig) (o : voracle) (p : vpool) (a : vacc) (payment : bucket) (e : error) : Prop :=
  ar e \/ e = EInvalidPaymentToken /\ b_res payment <> BASE \/
  e = ELiquidationSufficientMargin /\ (exists fr p1, va_fee_rebate a = Ok fr /\ rfold (fun p k => '(p, _) ← x_update_pair now c o p k; Ok p) p (map fst (map_to_list (va_positions a))) = Ok p1 /\
     Forall (fun x => priced c p1 o (fst x)) (map_to_list (va_positions a)) /\ lq_need c o a <= lq_value c p1 fr o a) \/
  e = EInsufficientPayment /\ b_amt payment < lsum (t_coll cc_discount c o) (map_to_list (va_coll a)).
Lemma f_ar {A} (P : error -> Prop) (m : res A) : (forall e, ar e -> P e) -> fails ar m -> fails P m. Proof. intros H1 H2. eapply f_mono; eassumption. Qed.
Lemma filter_in {A} (f : A -> bool) l x : x ∈ List.filter f l -> x ∈ l.
Proof. intros H. apply elem_of_list_In in H. apply filter_In in H as [H _]. apply elem_of_list_In. exact H. Qed.
Lemma filter_nodup {A B} (g : A -> B) (f : A -> bool) l : NoDup (map g l) -> NoDup (map g (List.filter f l)).
Proof.
  induction l as [|x l IH]; intros H; [constructor|]. cbn [map] in H. apply NoDup_cons in H as [H1 H2]. cbn [List.filter]. destruct (f x); [|auto]. cbn [map]. apply NoDup_cons. split; [|auto].
  intros Hi. apply H1. apply elem_of_list_In, in_map_iff in Hi as (y & <- & Hy). apply elem_of_list_In, in_map. apply filter_In in Hy. tauto.
Qed.
Lemma f_liquidate E now c o p a fd payment : (forall k pos, va_positions a !! k = Some pos -> have c o p k) ->
  (forall r, is_Some (vc_collaterals c !! r) -> exists k, vo_resources o !! r = Some k /\ is_Some (vo_prices o !! k)) ->
  va_coll a = ac_coll (va_comp a) -> coll_ok (va_comp a) -> whole E (ac_coll (va_comp a)) -> 0 <= lsum (t_coll cc_discount c o) (map_to_list (va_coll a)) ->
  fails (lq_why now c o p a payment) (x_liquidate E now c o (mkS p a fd) payment).
Proof.
  intros Hh Hcp Hsy Hco Hwh Hnn. assert (forall e, ar e -> lq_why now c o p a payment e) as Hin by (intros e He; left; exact He).
  unfold x_liquidate. cbn [s_pool s_acc s_fd].
  apply f_bind; [apply f_guard; intros Hb; right; left; split; [reflexivity|apply N.eqb_neq; exact Hb]|]. intros _ _.
  apply f_bind; [apply f_ar; [exact Hin|apply f_liqpos; exact Hh]|]. intros [[p3 a3] rp] Hlp.
  apply liquidate_positions_inv in Hlp as (fr & p1 & p2 & tp & tm & tf & tfe & L1 & L2 & L3 & L4 & -> & L6 & L7 & L8 & L9 & L10).
  apply f_bind; [apply f_ar; [exact Hin|apply f_liqcoll; exact Hcp]|]. intros rc Hrc. unfold x_liquidate_collateral in Hrc. assert (va_coll (liq_rebalance a) = va_coll a) as E1 by reflexivity. rewrite E1 in Hrc.
  destruct (liq_coll_fold _ _ _ _ _ Hrc) as (C1 & C2 & C3). cbn [lc_disc lc_margin lc_amounts] in C1, C2, C3. rewrite Z.add_0_l in C1, C2. cbn [app] in C3.
  assert (NoDup (map fst (map_to_list (va_positions a)))) as Hnd by apply NoDup_fst_map_to_list.
  destruct (liq_fold _ _ _ _ _ _ _ _ _ _ L3 Hnd) as (p2' & Er & Hpriced & _). injection Er as <- -> -> -> ->. rewrite L6, L7, L9. rewrite !Z.add_0_l. cbv zeta. change (va_vb (liq_rebalance a)) with (va_vb a).
  apply f_bind; [apply f_ar; [exact Hin|apply f_dadd]|]. intros t Ht. apply dadd_Ok in Ht as [-> _].
  apply f_bind; [apply f_ar; [exact Hin|apply f_dadd]|]. intros av Hav. apply dadd_Ok in Hav as [-> _].
  apply f_bind; [apply f_ar; [exact Hin|apply f_dadd]|]. intros mg Hmg. apply dadd_Ok in Hmg as [-> _].
  apply f_bind; [apply f_guard; intros Hg; right; right; left; split; [reflexivity|]; exists fr, p1; split; [exact L1|]; split; [exact L2|]; split; [exact Hpriced|]; apply Z.ltb_ge in Hg; unfold lq_need, lq_value; rewrite C1, C2 in Hg; exact Hg|]. intros _ _.
  apply f_bind; [apply f_ar; [exact Hin|apply f_round]|]. intros value Hval. unfold round_amount in Hval. rewrite unit_base in Hval. apply chk_Ok in Hval as [Hval _]. rewrite Z.div_1_r in Hval. assert (value = lc_disc rc) as -> by lia. clear Hval.
  apply f_bind; [apply f_guard; intros Hg; right; right; right; split; [reflexivity|]; apply Z.leb_gt in Hg; rewrite C1 in Hg; exact Hg|]. intros [] Hpay. apply guard_Ok, Z.leb_le in Hpay.
  assert (takes E (ac_vaults (va_comp a)) (lc_amounts rc)) as Htk.
  { rewrite C3. split; [apply filter_nodup, NoDup_fst_map_to_list|]. intros r x Hx. apply filter_in, elem_of_map_to_list in Hx. rewrite Hsy in Hx. destruct (Hco r) as [Q1 Q2]. unfold held_coll, in_vault in *. rewrite Hx in Q1. cbn in Q1. split; [unfold vts_amount; symmetry; exact Q1|]. split; [rewrite Q1; exact Q2|]. specialize (Hwh r). rewrite Hx in Hwh. exact Hwh. }
  destruct (f_take E _ _ Htk) as [T1 T2].
  assert (forall r x, (r, x) ∈ lc_amounts rc -> is_Some (ac_coll (va_comp a) !! r)) as Hsub. { intros r x Hx. rewrite C3 in Hx. apply filter_in, elem_of_map_to_list in Hx. rewrite Hsy in Hx. eauto. }
  apply f_bind.
  { apply f_ar; [exact Hin|]. unfold va_withdraw, acc_withdraw. change (va_comp (liq_rebalance a)) with (va_comp a). rewrite E1, Hsy. apply f_bind.
    - apply f_bind; [exact T1|]. intros [v1 bs] Hbs. rewrite (T2 _ _ Hbs). apply f_bind; [apply f_collsub; [exact (proj1 Htk)|exact Hsub]|]. intros; apply f_Ok.
    - intros [ac bs] Hbs. bd Hbs as ([v1 bs1] & Hb1 & Hbs). bd Hbs as (c1 & _ & Hbs). apply Ok_inj in Hbs. injection Hbs as _ <-. rewrite (T2 _ _ Hb1). apply f_bind; [apply f_collsub; [exact (proj1 Htk)|exact Hsub]|]. intros; apply f_Ok. }
  intros [aw bs] _.
  apply f_bind. { unfold take_exact. apply f_bind; [|intros; apply f_Ok]. apply f_guard. intros Hg. exfalso. rewrite unit_base, Z.mod_1_r, Z.eqb_refl, andb_true_r in Hg. apply andb_false_iff in Hg as [Hg|Hg]; apply Z.leb_gt in Hg; lia. }
  intros paid _. apply f_bind; [apply f_ar; [exact Hin|apply f_deposit]|]. intros p4 _. apply f_bind; [apply f_ar; [exact Hin|apply f_dadd]|]. intros st _. apply f_bind; [apply f_ar; [exact Hin|apply f_settle]|]. intros [p5 a5] _.
  apply f_bind. { destruct (va_vb a5 <? 0); [|apply f_Ok]. apply f_ar; [exact Hin|]. apply f_bind; [apply f_dneg|]. intros n _. apply f_bind; [apply f_settle|]. intros [? ?] _. apply f_Ok. }
  intros [[p6 a6] pl] _. apply f_bind; [apply f_ar; [exact Hin|apply f_fees]|]. intros [s1 [[[q0 q1] q2] q3]] _. apply f_Ok.
Qed.

(** ** The liquidation as a call. *)
Lemma upd_folds now c o ks : forall p l0 p1, rfold (fun p k => '(p, _) ← x_update_pair now c o p k; Ok p) p ks = Ok p1 -> exists l1, rfold (upd_pair1 now c o) (p, l0) ks = Ok (p1, l1).
Proof.
  induction ks as [|k ks IH]; intros p l0 p1 H; cbn [rfold] in *; [apply Ok_inj in H; subst; eauto|]. bd H as (p2 & H2 & H). bd H2 as ([p3 b] & H3 & H2). apply Ok_inj in H2. subst p3. assert (upd_pair1 now c o (p, l0) k = Ok (p2, l0 ++ [b])) as -> by (unfold upd_pair1; rewrite H3; reflexivity). cbn [mbind res_bind]. eapply IH. exact H.
Qed.
Lemma upd1_det now pc price pp x y fx fy : upd1 now pc price pp x fx -> upd1 now pc price pp y fy -> x = y.
Proof. unfold upd1. intros [(A1 & -> & _)|(A1 & A2)] [(B1 & -> & _)|(B1 & B2)]; try congruence; try reflexivity. Qed.
Lemma dom_list (ps : list pair_id) (m : gmap pair_id account_position) : (forall k, k ∈ ps <-> is_Some (m !! k)) -> (list_to_set ps : gset pair_id) = dom m.
Proof. intros H. apply leibniz_equiv. intros k. rewrite elem_of_list_to_set, elem_of_dom. apply H. Qed.
(** What bringing the pairs of an account up to date shows. *)
Record fronts (E : env) (w w1 : world) (upd : option price_msg) (ids : gset pair_id) (c : vconfig) (feeds : gmap pair_id Z) (orc : oracle) (o : voracle) : Prop := {
  fr_c : get_config w ids = Ok c; fr_f : x_pair_feeds c ids = Ok feeds; fr_o : get_oracle E w c feeds upd = Ok (orc, o);
  fr_pk : prices_ok E w upd ids c orc o; fr_orc : w_oracle w1 = orc; fr_cfg : w_config w1 = w_config w; fr_refs : w_refs w1 = w_refs w; fr_auth : 1 <= w_auth w; fr_pos : oracle_pos o;
  fr_pp : forall k, k ∈ ids -> exists pc price pp F, vc_pairs c !! k = Some pc /\ vo_prices o !! k = Some price /\ vp_positions (get_pool w ids) !! k = Some pp /\ upd1 (w_now w) pc price pp (pool_pair w1 k) F }.
Lemma fronts_intro E cx w ps upd w1 out : step E cx w (OUpdatePairs ps upd) = Ok (w1, out) -> exists c feeds orc o, fronts E w w1 upd (list_to_set ps) c feeds orc o.
Proof.
  intros H. destruct (updates_intro _ _ _ _ _ _ _ H) as (F & U). pose proof H as Ha. unfold step in Ha. bd Ha as ([] & _ & Ha). bd Ha as ([] & _ & Ha). bd Ha as ([] & Hau & _). apply guard_Ok in Hau. cbn in Hau. apply Z.leb_le in Hau.
  apply step_exec' in H. simpl in H. unfold m_update_pairs in H. cbv zeta in H. bd H as (c & Hc & H). bd H as (feeds & Hf & H). bd H as ([orc o] & Ho & H). assert (oracle_pos o) as Hop by (eapply get_oracle_pos; eauto).
  pose proof (prices_ok_feeds _ _ _ _ _ _ _ _ Hc Hf Ho) as Hpk. bd H as ([p fls] & Hx & H). bd H as (n & Hn & H). bd H as ([w2 rew] & Hm & H). apply Ok_inj in H. injection H as Ew2 _. apply mint_reward_inv in Hm as (_ & Em & _).
  assert (w_oracle w1 = orc) as Eo by (rewrite <- Ew2, Em; reflexivity). assert (w_config w1 = w_config w) as Ec by (rewrite <- Ew2, Em; reflexivity). assert (w_refs w1 = w_refs w) as Er by (rewrite <- Ew2, Em; reflexivity).
  exists c, feeds, orc, o. constructor; try assumption.
  intros k Hk. apply elem_of_list_to_set in Hk as Hkp. destruct (ud_in _ _ _ _ _ U k Hkp) as (pc & Hpc & _ & _ & Hu).
  destruct (pk_pair _ _ _ _ _ _ _ Hpk k Hk) as (x & pcc & Q1 & Q2 & Q3 & Q4). exists pc, (fst x), (pool_pair w k), (F k).
  split; [destruct (vc_new_spec _ _ _ Hc) as (_ & _ & V3 & _); destruct (V3 k Hk) as (pc' & V4 & V5); rewrite V5; unfold pair_cfg in Hpc; match type of Hpc with _ <$> ?t = _ => assert (t = Some pc') as Hq by exact V4; rewrite Hq in Hpc end; exact Hpc|].
  split; [exact Q4|]. split; [apply get_pool_cached; exact Hk|]. assert (price_of w1 k = fst x) as <-; [|exact Hu]. unfold price_of, stored_price. rewrite Eo. match goal with |- match ?t with _ => _ end = _ => assert (t = Some x) as -> by exact Q2 end. destruct x. reflexivity.
Qed.
Lemma fronts_have E w w1 upd ids c feeds orc o : fronts E w w1 upd ids c feeds orc o -> forall k, k ∈ ids -> have c o (get_pool w ids) k.
Proof. intros F k Hk. destruct (fr_pp _ _ _ _ _ _ _ _ _ F k Hk) as (pc & price & pp & G & H1 & H2 & H3 & _). unfold have. rewrite H1, H2, H3. eauto. Qed.
Lemma fronts_coll E w w1 upd ids c feeds orc o : fronts E w w1 upd ids c feeds orc o -> forall r, is_Some (vc_collaterals c !! r) -> exists k, vo_resources o !! r = Some k /\ is_Some (vo_prices o !! k).
Proof.
  intros F r [cc Hr]. assert (sees w1 (fun k => default (pool_pair w k) (vp_positions (get_pool w ids) !! k)) c o (get_pool w ids)) as S.
  { eapply sees_intro; [exact (fr_c _ _ _ _ _ _ _ _ _ F)|rewrite (fr_orc _ _ _ _ _ _ _ _ _ F); exact (fr_pk _ _ _ _ _ _ _ _ _ F)|exact (fr_cfg _ _ _ _ _ _ _ _ _ F)|]. intros k q ->. reflexivity. }
  rewrite (sv_cc _ _ _ _ _ S) in Hr. destruct (sv_res _ _ _ _ _ S _ _ Hr) as (R & x & X). eauto.
Qed.
(** The pool after bringing every pair of the account up to date holds what the what-if call stores. *)
Lemma fronts_pool E w w1 upd (m : gmap pair_id account_position) c feeds orc o p1 : fronts E w w1 upd (dom m) c feeds orc o ->
  rfold (fun p k => '(p, _) ← x_update_pair (w_now w) c o p k; Ok p) (get_pool w (dom m)) (map fst (map_to_list m)) = Ok p1 -> forall k q, is_Some (m !! k) -> vp_positions p1 !! k = Some q -> pool_pair w1 k = q.
Proof.
  intros F H k q Hk Hq. apply elem_of_dom in Hk. destruct (fr_pp _ _ _ _ _ _ _ _ _ F k Hk) as (pc & price & pp & G & H1 & H2 & H3 & H4).
  apply (upd_folds _ _ _ _ _ []) in H as (l1 & H). destruct (upd_list _ _ _ _ _ _ _ _ H (NoDup_fst_map_to_list _)) as (_ & _ & _ & _ & _ & FF & _ & A7).
  destruct (A7 k) as (pc' & pr' & pp' & pp2 & J1 & J2 & J3 & J4 & J5). { apply elem_of_dom in Hk as [x Hk]. change k with (fst (k, x)). apply elem_of_list_In, in_map, elem_of_list_In, elem_of_map_to_list. exact Hk. }
  assert (pc' = pc) as -> by congruence. assert (pr' = price) as -> by congruence. assert (pp' = pp) as -> by congruence. assert (pp2 = q) as -> by congruence. eapply upd1_det; eassumption.
Qed.
Lemma fronts_totals E w w1 upd acc v c feeds orc o p1 fr : fronts E w w1 upd (dom (va_positions v)) c feeds orc o -> starts w acc v -> va_fee_rebate v = Ok fr ->
  rfold (fun p k => '(p, _) ← x_update_pair (w_now w) c o p k; Ok p) (get_pool w (dom (va_positions v))) (map fst (map_to_list (va_positions v))) = Ok p1 ->
  Forall (fun x => priced c p1 o (fst x)) (map_to_list (va_positions v)) -> lq_value c p1 fr o v = account_value w1 acc /\ lq_need c o v = maintenance_margin w1 acc.
Proof.
  intros F S Hfr Hup Hpriced. assert (sees w1 (fun k => default (pool_pair w1 k) (vp_positions p1 !! k)) c o p1) as Sv.
  { eapply sees_intro; [exact (fr_c _ _ _ _ _ _ _ _ _ F)|rewrite (fr_orc _ _ _ _ _ _ _ _ _ F); exact (fr_pk _ _ _ _ _ _ _ _ _ F)|exact (fr_cfg _ _ _ _ _ _ _ _ _ F)|]. intros k q ->. reflexivity. }
  pose proof (rebate_share _ _ _ _ S Hfr) as ->. assert (fee_share w1 acc = fee_share w acc) as Hsh by (unfold fee_share; rewrite (fr_refs _ _ _ _ _ _ _ _ _ F); reflexivity).
  unfold lq_value, lq_need. rewrite (sees_profit _ _ _ _ _ _ _ Sv Hpriced), (sees_margin _ _ _ _ _ _ _ Sv Hpriced), !(sees_coll _ _ _ _ _ _ _ Sv), (st_coll _ _ _ S), (st_vb _ _ _ S). split; [|rewrite (st_positions _ _ _ S); reflexivity].
  unfold account_value, account_value_at, positions_profit, collateral_total. f_equal. f_equal. rewrite Hsh, <- (st_positions _ _ _ S). apply msum_ext. intros k pos Hk. destruct (pair_cfg w1 k) as [pc|]; [|reflexivity].
  match goal with |- context[default _ ?t] => destruct t as [q|] eqn:Hq end; [|reflexivity]. cbn [default]. rewrite (fronts_pool _ _ _ _ _ _ _ _ _ _ F Hup k q (ex_intro _ _ Hk) Hq). reflexivity.
Qed.
Lemma lsum_nonneg {A} (f : A -> Z) l : (forall x, x ∈ l -> 0 <= f x) -> 0 <= lsum f l.
Proof. induction l as [|x l IH]; intros H; [unfold lsum; cbn; lia|]. rewrite lsum_cons. specialize (IH ltac:(intros y Hy; apply H; right; exact Hy)). specialize (H x ltac:(left)). lia. Qed.
Lemma disc_nonneg E w w1 upd ids c feeds orc o acc : reachable E w -> fronts E w w1 upd ids c feeds orc o -> coll_ok acc -> 0 <= lsum (t_coll cc_discount c o) (map_to_list (ac_coll acc)).
Proof.
  intros Hr F Hco. apply lsum_nonneg. intros [r x] Hx. apply elem_of_map_to_list in Hx. unfold t_coll. cbn [fst snd]. destruct (vc_collaterals c !! r) as [cc|] eqn:Hc; [|lia]. destruct (vo_resources o !! r) as [k|]; [|lia]. destruct (vo_prices o !! k) as [pr|] eqn:Hp; [|lia].
  pose proof (fr_pos _ _ _ _ _ _ _ _ _ F _ _ Hp) as Hpos. pose proof (vc_new_spec _ _ _ (fr_c _ _ _ _ _ _ _ _ _ F)) as (_ & C2 & _). rewrite C2, lookup_fmap in Hc. destruct (cf_collaterals (w_config w) !! r) as [cd|] eqn:Hcd; [|discriminate Hc]. injection Hc as <-.
  pose proof (proj2 (rates_reachable _ _ Hr) _ _ Hcd) as Hrt. pose proof (cr_discount _ Hrt). destruct (Hco r) as [Q1 Q2]. unfold held_coll, in_vault in *. rewrite Hx in Q1. cbn in Q1. unfold mul. apply quot_nonneg; [|lia]. apply quot_nonneg; lia.
Qed.
