(** * C19 for every call: which pairs a call updates, and what it does to their funding. *)
From Verif Require Import Base DFloat Lists Types Config Oracle Pool Account Fees Referral ExInternal Exchange System Scenario Sums Trace Frames Calls Shape Spec SpecRequests SpecOracle SpecTrading SpecMargin SpecFunding P_Ledger P_Accounts P_DFloat Witness Props_Config Frames2 Props_Rates P_Fees P_Tokens P_Requests2 P_Oracle P_Keeper Trading P_Positions P_Positions2 P_Snaps P_Orders P_Final P_OrderCall Props_Positions Props_LP Props_Oracle P_Remove P_Margin P_Liq P_Updates P_Access.
From Verif Require Import Props_Liq Props_Funding Props_Funding2.

(** The pairs a call brings up to date: those listed, the one deleveraged, the positions of the account liquidated, the
    pair of the order executed. *)
Definition updated_pairs (w : world) (o : op) : gset pair_id :=
  match o with
  | OUpdatePairs ps _ => list_to_set ps
  | OAutoDeleverage _ k _ => {[k]}
  | OLiquidate a _ _ => match w_accounts w !! a with Some acc => dom (ac_positions acc) | None => ∅ end
  | OProcessRequest a i _ =>
      match request_at w a i with
      | Some kr => if kr_expiry kr <=? w_now w then ∅ else match kr_request kr with ROrder r => {[ro_pair r]} | RRemove _ => ∅ end
      | None => ∅
      end
  | _ => ∅
  end.
(** The account that settles its funding of those pairs with the pool. *)
Definition settles (o : op) : option addr := match o with OAutoDeleverage a _ _ | OLiquidate a _ _ | OProcessRequest a _ _ => Some a | _ => None end.
Definition settled (w w' : world) (o : op) (k : pair_id) : Z := match settles o with Some a => funding_owed (pool_pair w' k) (position w a k) | None => 0 end.

(** ** The session *)
Record upd_sess (now : Z) (c : vconfig) (o : voracle) (p : vpool) (a : vacc) (U : gset pair_id) (p' : vpool) (F G : pair_id -> Z) : Prop := {
  us_upf : vp_upf p' = vp_upf p + lsum (fun k => F k - G k) (elements U);
  us_in : forall k, k ∈ U -> exists pc price pp pp2 q, vc_pairs c !! k = Some pc /\ vo_prices o !! k = Some price /\ vp_positions p !! k = Some pp /\
     upd1 now pc price pp pp2 (F k) /\ real p' !! k = Some q /\ fundf q = fundf pp2 /\ G k = funding_owed q (pos_of a k);
  us_out : forall k, k ∉ U -> real p' !! k = real p !! k }.
Definition quiet (k : pair_id) (x : sact) : Prop := match x with AClose j _ | AOpen j _ => j = k | AUpdatePair _ | ALiqPos | AFunding _ => False | _ => True end.
Definition touches_upf (x : sact) : bool := match x with AUpdatePair _ | ALiqPos | AFunding _ => true | _ => false end.
Lemma sstep_upf E now c o s x s' : sstep E now c o s x s' -> touches_upf x = false -> vp_upf (s_pool s') = vp_upf (s_pool s).
Proof.
  intros H Hx. destruct H; cbn [s_acc s_pool s_fd] in *; try discriminate Hx; try reflexivity.
  - apply x_add_base_inv in H as [-> ->]. reflexivity.
  - apply x_settle_account_inv in H1 as [-> ->]. apply vp_withdraw_inv in H as [_ ->]. reflexivity.
  - destruct q as [pnl fee]. apply close_inv in H as (pc & fr & price & pp & pos & cost & pp2 & _ & _ & _ & _ & _ & _ & _ & _ & _ & _ & _ & _ & -> & _). reflexivity.
  - apply open_inv in H as (pc & fr & price & pp & cost & pp2 & _ & _ & _ & _ & _ & _ & _ & _ & _ & _ & -> & _). reflexivity.
  - destruct q as [[[q0 q1] q2] q3]. apply fees_referral_inv in H as (fp & ft & fr & _ & _ & _ & -> & _). reflexivity.
  - apply vp_deposit_inv in H. subst p'. reflexivity.
  - apply x_settle_account_inv in H as [-> ->]. reflexivity.
Qed.
Lemma quiet_step E now c o k s x s' q : sstep E now c o s x s' -> quiet k x -> vp_positions (s_pool s) !! k = Some q -> real (s_pool s) !! k = Some q ->
  exists q', vp_positions (s_pool s') !! k = Some q' /\ real (s_pool s') !! k = Some q' /\ fundf q' = fundf q /\ (forall j, j <> k -> real (s_pool s') !! j = real (s_pool s) !! j).
Proof.
  intros H Hx H1 H2. destruct (touches_ppos x) eqn:Ht.
  - destruct H; try discriminate Ht; try solve [destruct Hx]; cbn [s_pool quiet] in *; subst pid.
    + destruct q0 as [pnl fee]. apply close_inv in H as (pc & fr & price & pp & pos & cost & pp2 & _ & _ & _ & Hpp & _ & _ & _ & _ & _ & _ & _ & -> & -> & _). rewrite H1 in Hpp. injection Hpp as <-.
      eexists. split; [cbn; apply lookup_insert|]. rewrite (real_g (put_snap p k q (resnap price (traded q (amt <? 0) amt (- cost))))) by reflexivity. split; [rewrite P_Positions.put_snap_real; apply lookup_insert|]. split; [unfold traded; destruct (amt <? 0); reflexivity|]. intros j Hj. rewrite P_Positions.put_snap_real. apply lookup_insert_ne. congruence.
    + apply open_inv in H as (pc & fr & price & pp & cost & pp2 & _ & _ & _ & Hpp & _ & _ & _ & -> & _ & _ & -> & _). rewrite H1 in Hpp. injection Hpp as <-.
      eexists. split; [cbn; apply lookup_insert|]. split; [rewrite P_Positions.put_snap_real; apply lookup_insert|]. split; [unfold traded; destruct (0 <? amt); reflexivity|]. intros j Hj. rewrite P_Positions.put_snap_real. apply lookup_insert_ne. congruence.
  - apply sstep_frames in H as (_ & _ & _ & _ & _ & H & _). destruct (H Ht) as [Hg _]. exists q. pose proof Hg as Hg'. unfold g_ppos in Hg'. injection Hg' as G1 _ _. rewrite G1, (real_g _ _ Hg). auto.
Qed.
Lemma quiet_steps E now c o k s l s' : ssteps E now c o s l s' -> Forall (quiet k) l -> forall q, vp_positions (s_pool s) !! k = Some q -> real (s_pool s) !! k = Some q ->
  exists q', real (s_pool s') !! k = Some q' /\ fundf q' = fundf q /\ (forall j, j <> k -> real (s_pool s') !! j = real (s_pool s) !! j) /\ vp_upf (s_pool s') = vp_upf (s_pool s).
Proof.
  induction 1 as [|s x s1 l s2 H1 H2 IH]; intros Hl q Hq Hr; [exists q; auto|]. inversion Hl as [|? ? Hx Hl']; subst.
  destruct (quiet_step _ _ _ _ _ _ _ _ _ H1 Hx Hq Hr) as (q1 & A1 & A2 & A3 & A4). destruct (IH Hl' q1 A1 A2) as (q2 & B1 & B2 & B3 & B4).
  exists q2. split; [exact B1|]. split; [congruence|]. split; [intros j Hj; rewrite B3, A4 by exact Hj; reflexivity|]. rewrite B4. apply (sstep_upf _ _ _ _ _ _ _ H1). destruct x; try reflexivity; destruct Hx.
Qed.
Lemma owed_fundf q pp pos : fundf q = fundf pp -> funding_owed q pos = funding_owed pp pos.
Proof. unfold fundf. intros H. injection H as _ H1 H2 _ _. unfold funding_owed, side_index. rewrite H1, H2. reflexivity. Qed.
(** An update of one pair, its funding settled, then trades of that pair only. *)
Lemma one_pair E now c o p a fd k l s : ssteps E now c o (mkS p a fd) ([AUpdatePair k; AFunding k] ++ l) s -> Forall (quiet k) l ->
  exists F G, upd_sess now c o p a {[k]} (s_pool s) F G.
Proof.
  intros H Hl. inversion H as [|? ? s1 ? ? H1 H']; subst. inversion H' as [|? ? s2 ? ? H2 H3]; subst. inversion H1; subst. inversion H2; subst. clear H H' H1 H2.
  match goal with Hu : x_update_pair _ _ _ _ _ = _ |- _ => apply update_pair_inv in Hu as (pc & price & pp & pp1 & pp2 & fpd & Hpc & Hpr & Hpp & Epp1 & Hupd & Ep' & _) end. subst pp1.
  match goal with Hf : x_settle_funding _ _ _ = _ |- _ => apply funding_moved in Hf as (pp' & Hpp' & _ & Ep2 & _) end.
  assert (vp_positions p' !! k = Some pp2 /\ real p' !! k = Some pp2 /\ (forall j, j <> k -> real p' !! j = real p !! j)) as (R1 & R2 & R3).
  { rewrite Ep'. split; [cbn; apply lookup_insert|]. rewrite (real_g (put_snap p k pp pp2)) by reflexivity. rewrite P_Positions.put_snap_real. split; [apply lookup_insert|]. intros j Hj. apply lookup_insert_ne. congruence. }
  rewrite R1 in Hpp'. injection Hpp' as <-.
  assert (g_ppos p'0 = g_ppos p') as Hg by (rewrite Ep2; reflexivity). destruct (quiet_steps _ _ _ _ k _ _ _ H3 Hl pp2) as (q & Q1 & Q2 & Q3 & Q4).
  { cbn [s_pool]. rewrite Ep2. exact R1. } { cbn [s_pool]. rewrite (real_g _ _ Hg). exact R2. }
  cbn [s_pool] in *. exists (fun _ => fpd), (fun _ => funding_owed q (pos_of a k)). constructor.
  - rewrite elements_singleton. unfold lsum. cbn [map foldr]. rewrite Q4, Ep2, Ep'. cbn [vp_upf]. rewrite (owed_fundf _ _ _ Q2). cbn. lia.
  - intros j Hj. apply elem_of_singleton in Hj. subst j. exists pc, price, pp, pp2, q. split; [exact Hpc|]. split; [exact Hpr|]. split; [exact Hpp|]. split; [exact Hupd|]. auto.
  - intros j Hj. rewrite not_elem_of_singleton in Hj. rewrite Q3, (real_g _ _ Hg), R3 by congruence. reflexivity.
Qed.
(** Liquidation: all the account's pairs are updated first, then closed. *)
Lemma upd_fold2 now c o ks : forall p p1, rfold (fun p k => '(p, _) ← x_update_pair now c o p k; Ok p) p ks = Ok p1 -> NoDup ks ->
  (forall k, k ∉ ks -> vp_positions p1 !! k = vp_positions p !! k /\ real p1 !! k = real p !! k) /\
  exists F, vp_upf p1 = vp_upf p + lsum F ks /\
    forall k, k ∈ ks -> exists pc price pp pp2, vc_pairs c !! k = Some pc /\ vo_prices o !! k = Some price /\ vp_positions p !! k = Some pp /\ vp_positions p1 !! k = Some pp2 /\ real p1 !! k = Some pp2 /\ upd1 now pc price pp pp2 (F k).
Proof.
  induction ks as [|k ks IH]; intros p p1 H Hn; cbn [rfold] in H.
  - apply Ok_inj in H. subst. split; [intros; split; reflexivity|]. exists (fun _ => 0). split; [unfold lsum; simpl; lia|]. intros k Hk. inversion Hk.
  - bd H as (p2 & H1 & H). bd H1 as ([p3 b] & H1 & H2). apply Ok_inj in H2. subst p3. inversion Hn as [|? ? Hni Hn']; subst. destruct (IH _ _ H Hn') as (I1 & F & I2 & I3).
    apply update_pair_inv in H1 as (pc & price & pp & pp1 & pp2 & fpd & Hpc & Hpr & Hpp & -> & Hu & Hp2 & _).
    assert (vp_positions p2 = <[k := pp2]> (vp_positions p)) as E1 by (rewrite Hp2; reflexivity). assert (real p2 = <[k := pp2]> (real p)) as E2 by (rewrite Hp2, (real_g (put_snap p k pp pp2)) by reflexivity; apply P_Positions.put_snap_real).
    split.
    + intros j Hj. destruct (I1 j) as [J1 J2]; [intros Hj'; apply Hj; right; exact Hj'|]. rewrite J1, J2, E1, E2, !lookup_insert_ne by (intros ->; apply Hj; left). auto.
    + exists (fun j => if decide (j = k) then fpd else F j). split.
      * rewrite lsum_cons, decide_True by reflexivity. rewrite (lsum_ext _ F); [rewrite I2, Hp2; cbn; lia|]. intros j Hj. rewrite decide_False; [reflexivity|]. intros ->. contradiction.
      * intros j Hj. destruct (decide (j = k)) as [->|Hne].
        -- exists pc, price, pp, pp2. destruct (I1 k Hni) as [J1 J2]. rewrite J1, J2, E1, E2, !lookup_insert. split; [exact Hpc|]. split; [exact Hpr|]. split; [exact Hpp|]. split; [reflexivity|]. split; [reflexivity|exact Hu].
        -- apply elem_of_cons in Hj as [->|Hj]; [congruence|]. destruct (I3 j Hj) as (pc' & price' & q & q2 & X1 & X2 & X3 & X4). rewrite E1, lookup_insert_ne in X3 by congruence. exists pc', price', q, q2. auto.
Qed.
Definition keeps (ks : list pair_id) (p p' : vpool) : Prop :=
  (forall k q, vp_positions p !! k = Some q -> real p !! k = Some q -> exists q', vp_positions p' !! k = Some q' /\ real p' !! k = Some q' /\ fundf q' = fundf q) /\
  (forall k, k ∉ ks -> real p' !! k = real p !! k).
Lemma keeps_set p p' k pp x ks : vp_positions p !! k = Some pp -> fundf x = fundf pp -> vp_positions p' = <[k := x]> (vp_positions p) -> real p' = <[k := x]> (real p) -> k ∈ ks -> keeps ks p p'.
Proof.
  intros Hk Hf E1 E2 Hin. split.
  - intros j q H1 H2. rewrite E1, E2. destruct (decide (j = k)) as [->|Hne]; [rewrite !lookup_insert; exists x; rewrite Hk in H1; injection H1 as <-; auto|rewrite !lookup_insert_ne by congruence; eauto].
  - intros j Hj. rewrite E2. apply lookup_insert_ne. intros ->. contradiction.
Qed.
Lemma keeps_trans ks p q r : keeps ks p q -> keeps ks q r -> keeps ks p r.
Proof.
  intros [A1 A2] [B1 B2]. split; [|intros k Hk; rewrite B2, A2 by exact Hk; reflexivity]. intros k x Hx1 Hx2. destruct (A1 _ _ Hx1 Hx2) as (y & Y1 & Y2 & Y3). destruct (B1 _ _ Y1 Y2) as (z & Z1 & Z2 & Z3). exists z. split; [exact Z1|]. split; [exact Z2|congruence].
Qed.
Lemma keeps_g ks p p' : g_ppos p' = g_ppos p -> keeps ks p p'.
Proof. intros H. pose proof (real_g _ _ H) as Hr. unfold g_ppos in H. injection H as H1 _ _. split; [|intros; rewrite Hr; reflexivity]. intros k q A B. exists q. rewrite H1, Hr. auto. Qed.
Lemma keeps_liq c fr o ks l : forall p t p' t', rfold (x_liq_position1 c fr o) (p, t) l = Ok (p', t') -> (forall x, In x l -> fst x ∈ ks) -> keeps ks p p'.
Proof.
  induction l as [|[k pos] l IH]; intros p t p' t' H Hl; cbn [rfold] in H; [apply Ok_inj in H; injection H as <- <-; apply keeps_g; reflexivity|].
  bd H as ([p1 t1] & H1 & H). eapply keeps_trans; [|eapply IH; [exact H|intros x Hx; apply Hl; right; exact Hx]]. destruct t as [[[tp tm] tf] tfe]. apply liq1_inv in H1 as (pc & price & pp & fee & fu & _ & _ & Hpp & _ & _ & -> & _).
  eapply (keeps_set p _ k pp); [exact Hpp| |reflexivity|apply real_set|exact (Hl (k, pos) (or_introl eq_refl))]. unfold traded. destruct (0 <? ap_amount pos); reflexivity.
Qed.
Lemma keeps_snaps o ks l : forall p p', rfold (x_update_pair_snaps o) p l = Ok p' -> (forall k, In k l -> k ∈ ks) -> keeps ks p p'.
Proof.
  induction l as [|k l IH]; intros p p' H Hl; cbn [rfold] in H; [apply Ok_inj in H; subst p'; apply keeps_g; reflexivity|].
  bd H as (p1 & H1 & H). eapply keeps_trans; [|eapply IH; [exact H|intros x Hx; apply Hl; right; exact Hx]]. apply update_snaps_inv in H1 as (price & pp & _ & Hpp & ->).
  eapply (keeps_set p _ k pp (resnap price pp)); [exact Hpp|reflexivity|reflexivity|apply P_Positions.put_snap_real|exact (Hl k (or_introl eq_refl))].
Qed.
Lemma dom_perm {A} (m : gmap pair_id A) : Permutation (elements (dom m)) (map fst (map_to_list m)).
Proof.
  apply NoDup_Permutation; [apply NoDup_elements|apply NoDup_fst_map_to_list|]. intros k. rewrite elem_of_elements, elem_of_dom. split.
  - intros [x Hk]. change k with (fst (k, x)). apply elem_of_list_In, in_map, elem_of_list_In, elem_of_map_to_list, Hk.
  - intros Hk. apply elem_of_list_In, in_map_iff in Hk as ([k' x] & E0 & Hk). cbn in E0. subst k'. apply elem_of_list_In, elem_of_map_to_list in Hk. eauto.
Qed.
Lemma lsum_sub {A} (f g : A -> Z) l : lsum (fun x => f x - g x) l = lsum f l - lsum g l.
Proof. induction l as [|x l IH]; [reflexivity|]. rewrite !lsum_cons, IH. lia. Qed.
Lemma liq_pairs now c o p a p' a' rp : x_liquidate_positions now c o p a = Ok (p', a', rp) -> exists F G, upd_sess now c o p a (dom (va_positions a)) p' F G.
Proof.
  intros H. apply liquidate_positions_inv in H as (fr & p1 & p2 & tp & tm & tf & tfe & _ & Hup & Hlq & Hsn & _). set (l := map_to_list (va_positions a)) in *. assert (NoDup (map fst l)) as Hnd by apply NoDup_fst_map_to_list.
  destruct (upd_fold2 _ _ _ _ _ _ Hup Hnd) as (U1 & F & U2 & U3). destruct (P_Margin.liq_fold _ _ _ _ _ _ _ _ _ _ Hlq Hnd) as (p2' & Er & _ & _ & _ & _ & B4 & _). injection Er as <- _ _ Htf _.
  assert (keeps (map fst l) p1 p') as K.
  { eapply keeps_trans; [eapply keeps_liq; [exact Hlq|]|eapply keeps_trans; [apply keeps_g|eapply keeps_snaps; [exact Hsn|]]]; [|reflexivity|].
    - intros x Hx. apply elem_of_list_In, in_map, Hx.
    - intros k Hk. apply elem_of_list_In, Hk. }
  destruct (snaps_fold _ _ _ _ Hsn Hnd) as (_ & _ & S3 & _). change (vp_upf (p2 <| vp_upf := vp_upf p2 - tf |>)) with (vp_upf p2 - tf) in S3.
  set (G := fun k => match vp_positions p1 !! k with Some pp => funding_owed pp (pos_of a k) | None => 0 end).
  assert (tf = lsum G (map fst l)) as Etf.
  { rewrite Htf, lsum_map, Z.add_0_l. apply lsum_ext. intros [k x] Hk. unfold G. cbn [fst snd]. apply elem_of_map_to_list in Hk. assert (pos_of a k = x) as -> by (unfold pos_of; rewrite Hk; reflexivity). reflexivity. }
  exists F, G. constructor.
  - rewrite lsum_sub. rewrite !(lsum_perm _ _ _ (dom_perm (va_positions a))). fold l. rewrite S3, B4, U2, Etf. lia.
  - intros k Hk. assert (k ∈ map fst l) as Hk' by (unfold l; rewrite <- (dom_perm (va_positions a)); apply elem_of_elements; exact Hk).
    destruct (U3 k Hk') as (pc & price & pp & pp2 & X1 & X2 & X3 & X4 & X5 & X6). destruct (proj1 K _ _ X4 X5) as (q & Y1 & Y2 & Y3). exists pc, price, pp, pp2, q. split; [exact X1|]. split; [exact X2|]. split; [exact X3|]. split; [exact X6|]. split; [exact Y2|]. split; [exact Y3|].
    unfold G. rewrite X4. symmetry. apply owed_fundf. exact Y3.
  - intros k Hk. assert (k ∉ map fst l) as Hk' by (unfold l; rewrite <- (dom_perm (va_positions a)), elem_of_elements; exact Hk). rewrite (proj2 K k Hk'). exact (proj2 (U1 k Hk')).
Qed.
(** ** The world *)
Definition brought_up (w w' : world) (o : op) : Prop :=
  po_upf (w_pool w') = po_upf (w_pool w) + lsum (fun k => pool_income w w' k - settled w w' o k) (elements (updated_pairs w o)) /\
  (forall k, k ∈ updated_pairs w o -> exists pc, pair_cfg w k = Some pc /\ accrual w w' k pc) /\
  (forall k, k ∉ updated_pairs w o -> po_positions (w_pool w') !! k = po_positions (w_pool w) !! k).
Lemma real_pair w p k q : w_pool w = vp_realize p -> real p !! k = Some q -> pool_pair w k = q.
Proof. intros Hw Hq. unfold pool_pair. rewrite Hw. change (po_positions (vp_realize p)) with (real p). rewrite Hq. reflexivity. Qed.
Lemma sess_world E w w' op a upd ids c orc o v s U F G : reachable E w -> get_config w ids = Ok c -> prices_ok E w upd ids c orc o -> U ⊆ ids -> updated_pairs w op = U -> settles op = Some a ->
  (forall k, pos_of v k = position w a k) -> upd_sess (w_now w) c o (get_pool w ids) v U (s_pool s) F G -> w_pool w' = vp_realize (s_pool s) -> w_oracle w' = orc -> brought_up w w' op.
Proof.
  intros Hr Hc Hpk Hsub EU Es Hpos [S1 S2 S3] Hw Ho. unfold brought_up, settled. rewrite EU, Es.
  assert (forall k, k ∈ U -> exists pc, pair_cfg w k = Some pc /\ accrual w w' k pc /\ F k = pool_income w w' k /\ G k = funding_owed (pool_pair w' k) (position w a k)) as Hin.
  { intros k Hk. destruct (S2 k Hk) as (pc & price & pp & pp2 & q & Hpc & Hpr & Hpp & Hu & Hq & Hff & HG). assert (k ∈ ids) as Hk' by set_solver.
    rewrite get_pool_cached in Hpp by exact Hk'. injection Hpp as <-. pose proof (real_pair _ _ _ _ Hw Hq) as Eq. rewrite <- Eq in Hff, HG. rewrite Hpos in HG.
    destruct (pk_pair _ _ _ _ _ _ _ Hpk k Hk') as (x & pcc & K1 & K2 & [K3 _] & K4). rewrite Hpr in K4. injection K4 as ->.
    assert (price_of w' k = fst x) as Epr by (unfold price_of, stored_price; rewrite Ho, K2; destruct x; reflexivity). rewrite <- Epr in *.
    destruct (vc_new_spec _ _ _ Hc) as (_ & _ & V3 & _). destruct (V3 k Hk') as (pcd & V4 & V5). rewrite Hpc in V5. injection V5 as ->. assert (pair_cfg w k = Some (pc_decompress pcd)) as Hcf by (unfold pair_cfg; rewrite V4; reflexivity).
    destruct (upd1_accrual_g _ _ _ _ _ _ _ Hr K3 Hff Hu) as [A1 A2]. eexists. split; [exact Hcf|]. split; [exact A1|]. split; [|exact HG]. unfold pool_income. rewrite Hcf. exact A2. }
  split; [|split].
  - destruct (vp_realize_pool (s_pool s)) as (_ & R2 & _). rewrite Hw, R2, S1. change (vp_upf (get_pool w ids)) with (po_upf (w_pool w)). f_equal. apply lsum_ext. intros k Hk. rewrite elem_of_elements in Hk. destruct (Hin k Hk) as (_ & _ & _ & -> & ->). reflexivity.
  - intros k Hk. destruct (Hin k Hk) as (pc & P1 & P2 & _). eauto.
  - intros k Hk. rewrite Hw. change (po_positions (vp_realize (s_pool s))) with (real (s_pool s)). rewrite S3 by exact Hk. rewrite real_get_pool. reflexivity.
Qed.

(** Calls that update nothing. *)
Lemma none_updated w w' o : updated_pairs w o = ∅ -> po_positions (w_pool w') = po_positions (w_pool w) -> po_upf (w_pool w') = po_upf (w_pool w) -> brought_up w w' o.
Proof. intros E H1 H2. unfold brought_up. rewrite E, H1, H2, elements_empty. unfold lsum. cbn. split; [lia|]. split; [intros k Hk; set_solver|reflexivity]. Qed.
Lemma acct_upf_same E w a l w' : acct_call E w a l w' -> Forall (fun x => touches_upf x = false) l -> po_upf (w_pool w') = po_upf (w_pool w).
Proof.
  intros [c o idsc ids v0 s1 acc' refs' Hc Ho Hv Hs Hz Hw] Hl. rewrite Hw. unfold final_world. cbn.
  exact (ssteps_frame _ _ _ _ touches_upf (fun s => vp_upf (s_pool s)) (fun s x s' => sstep_upf _ _ _ _ s x s') _ _ _ Hs Hl).
Qed.
Definition calm (x : sact) : bool := touches_ppos x || touches_upf x.
Lemma acct_calm E w a l w' o : acct_call E w a l w' -> Forall (fun x => calm x = false) l -> updated_pairs w o = ∅ -> brought_up w w' o.
Proof.
  intros Hc Hl Hu. apply none_updated; [exact Hu| |].
  - eapply acct_pool_same; [exact Hc|]. eapply Forall_impl; [exact Hl|]. intros x Hx. unfold calm in Hx. apply orb_false_iff in Hx. tauto.
  - eapply acct_upf_same; [exact Hc|]. eapply Forall_impl; [exact Hl|]. intros x Hx. unfold calm in Hx. apply orb_false_iff in Hx. tauto.
Qed.
Lemma starts_position w a acc v : w_accounts w !! a = Some acc -> starts w acc v -> forall k, pos_of v k = position w a k.
Proof. intros Ha S k. rewrite (st_pos _ _ _ S). unfold position. rewrite Ha. reflexivity. Qed.
Lemma oath_calm oath : Forall (fun x => calm x = false) (oath_acts oath).
Proof. unfold oath_acts. destruct oath; repeat constructor. Qed.
Lemma add_calm ts : Forall (fun x => calm x = false) (add_acts ts).
Proof. unfold add_acts. apply Forall_app. split; [|repeat constructor]. induction (List.filter is_base ts); constructor; [reflexivity|assumption]. Qed.
Lemma process_request_at w a i v0 v1 rq ex : get_acc w a = Ok v0 -> va_process_request (w_now w) v0 i = Ok (v1, rq, ex) ->
  exists acc kr, w_accounts w !! a = Some acc /\ request_at w a i = Some kr /\ kr_request kr = rq /\ ex = (kr_expiry kr <=? w_now w) /\ va_positions v1 = ac_positions acc.
Proof.
  intros Hv Hp. apply get_acc_inv in Hv. destruct Hv as (acc & Ha & Hcomp & _ & Hpos & _ & _ & _ & _ & _ & _ & _ & Hru & _).
  pose proof Hp as Hp'. apply process_request_inv in Hp' as (r & n & _ & Hr & Hq & _ & _ & Ev1 & He). unfold va_keeper_request in Hr. rewrite Hru, lookup_empty, Hcomp in Hr. apply expect_Ok in Hr. unfold kl_get in Hr.
  exists acc, r. split; [exact Ha|]. unfold request_at. rewrite Ha. split; [exact Hr|]. split; [congruence|]. split; [destruct He as [[-> He]|[-> He]]; symmetry; [apply Z.leb_le; lia|apply Z.leb_gt; lia]|]. rewrite Ev1. cbn. congruence.
Qed.
Lemma order_quiet k l0 fee x y : Forall (fun x => match x with AClose j _ | AOpen j _ => j = k | _ => False end) l0 -> Forall (quiet k) (l0 ++ [AFees fee; ATrySet x STATUS_ACTIVE; ATrySet y STATUS_CANCELLED]).
Proof. intros H. apply Forall_app. split; [|repeat constructor]. eapply Forall_impl; [exact H|]. intros [] Hx; try destruct Hx; reflexivity. Qed.
Lemma process_up E cx w a i upd w' out : reachable E w -> step E cx w (OProcessRequest a i upd) = Ok (w', out) -> brought_up w w' (OProcessRequest a i upd).
Proof.
  intros Hr H. pose proof (wi_nz _ (WI_reachable _ _ Hr)) as Hnz. pose proof (step_acct _ _ _ _ _ _ a H eq_refl) as (lx & Hlx & Hacts & _).
  pose proof H as H'. apply P_Keeper.process_inv in H' as (v0 & v1 & rq & ex & ids & c & w1 & v2 & pay & evs & w2 & Hv & Hp & Hids & Hc & Hx & Hz & Ew' & _).
  destruct (process_request_at _ _ _ _ _ _ _ Hv Hp) as (acc & kr & Ha & Hk & Hq & Eex & Hpos).
  destruct Hacts as (v0' & v1' & rq' & ex' & l' & Hv' & Hp' & Hex & -> & _). rewrite Hv in Hv'. injection Hv' as <-. rewrite Hp in Hp'. injection Hp' as <- <- <-.
  destruct ex; [|destruct rq as [r|r]].
  - unfold exec_acts in Hex. destruct Hex as [-> _]. eapply acct_calm; [exact Hlx|repeat constructor|]. cbn [updated_pairs]. rewrite Hk, <- Eex. reflexivity.
  - destruct Hex as (ks & bs & -> & _). eapply acct_calm; [exact Hlx| |cbn [updated_pairs]; rewrite Hk, <- Eex, Hq; reflexivity]. constructor; [reflexivity|]. apply Forall_app. split; [|repeat constructor]. clear. induction ks; constructor; [reflexivity|assumption].
  - destruct Hx as (orc & o & Hpk & s & ev & Hm & -> & -> & _). pose proof (starts_intro _ _ _ _ Hv Ha (Hnz _ _ Ha)) as Hst. apply va_process_frame in Hp as [Hg Hcm]. pose proof (starts_norq _ _ _ _ Hg Hcm Hst) as Hst1.
    destruct (tr_margin_order E (w_now w) c o _ _ _ _ Hm) as (l0 & fee & Htr & Hl0). destruct (one_pair _ _ _ _ _ _ _ _ _ _ Htr (order_quiet _ _ _ _ _ Hl0)) as (F & G & Hus).
    apply realize_acc_inv in Hz as (acc2 & refs & _ & ->).
    eapply (sess_world E w w' _ a upd ids c orc o v1 s {[ro_pair r]} F G Hr Hc Hpk); [set_solver|cbn [updated_pairs]; rewrite Hk, <- Eex, Hq; reflexivity|reflexivity|exact (starts_position _ _ _ _ Ha Hst1)|exact Hus|rewrite Ew'; reflexivity|rewrite Ew'; reflexivity].
Qed.
Lemma adl_up E cx w a k upd w' out : reachable E w -> step E cx w (OAutoDeleverage a k upd) = Ok (w', out) -> brought_up w w' (OAutoDeleverage a k upd).
Proof.
  intros Hr H. pose proof (wi_nz _ (WI_reachable _ _ Hr)) as Hnz. pose proof (step_acct _ _ _ _ _ _ a H eq_refl) as (lx & Hlx & _). pose proof (acct_call_self _ _ _ _ _ Hlx) as ((acc & Ha) & _).
  apply adl_call_inv in H as (v0 & ids & c & orc & o & s & ev & w1 & Hv & Hids & Hc & Hpk & Hx & Hz & Ew' & _). pose proof (starts_intro _ _ _ _ Hv Ha (Hnz _ _ Ha)) as Hst.
  destruct (tr_auto_deleverage E (w_now w) c o _ _ _ _ Hx) as (amt & fee & Htr). destruct (one_pair _ _ _ _ _ _ _ _ _ _ Htr) as (F & G & Hus); [repeat constructor|].
  apply realize_acc_inv in Hz as (acc2 & refs & _ & ->).
  eapply (sess_world E w w' _ a upd ids c orc o v0 s {[k]} F G Hr Hc Hpk); [set_solver|reflexivity|reflexivity|exact (starts_position _ _ _ _ Ha Hst)|exact Hus|rewrite Ew'; reflexivity|rewrite Ew'; reflexivity].
Qed.
Lemma liq_up E cx w a b upd w' out : reachable E w -> step E cx w (OLiquidate a b upd) = Ok (w', out) -> brought_up w w' (OLiquidate a b upd).
Proof.
  intros Hr H. pose proof (wi_nz _ (WI_reachable _ _ Hr)) as Hnz. pose proof (step_acct _ _ _ _ _ _ a H eq_refl) as (lx & Hlx & _). pose proof (acct_call_self _ _ _ _ _ Hlx) as ((acc & Ha) & _).
  apply liquidate_call_inv in H as (v0 & c & orc & o & s & toks & evs & w1 & Hv & Hc & Hpk & Hx & Hz & Ew' & _). pose proof (starts_intro _ _ _ _ Hv Ha (Hnz _ _ Ha)) as Hst.
  destruct (tr_liquidate E (w_now w) c o _ _ _ _ _ Hx) as (paid0 & bs0 & st0 & lo0 & fee0 & Htr & _ & Hlo).
  inversion Htr as [|? ? s1 ? ? H1 H2]; subst. inversion H1; subst. match goal with Hl : x_liquidate_positions _ _ _ _ _ = _ |- _ => destruct (liq_pairs _ _ _ _ _ _ _ _ Hl) as (F & G & Hus) end.
  match type of H2 with ssteps _ _ _ _ ?s0 ?l _ => assert (Forall (fun x => touches_ppos x = false) l /\ Forall (fun x => touches_upf x = false) l) as [Hl1 Hl2] end.
  { destruct Hlo as [->|[x ->]]; split; repeat constructor. }
  destruct (ssteps_frame_ppos _ _ _ _ _ _ _ H2 Hl1) as [Hg _]. pose proof (ssteps_frame _ _ _ _ touches_upf (fun s => vp_upf (s_pool s)) (fun s x s' => sstep_upf _ _ _ _ s x s') _ _ _ H2 Hl2) as Hupf. cbn [s_pool] in Hg, Hupf.
  apply realize_acc_inv in Hz as (acc2 & refs & _ & ->).
  assert (upd_sess (w_now w) c o (get_pool w (dom (va_positions v0))) v0 (dom (va_positions v0)) (s_pool s) F G) as Hus'.
  { destruct Hus as [S1 S2 S3]. constructor; rewrite ?Hupf, ?(real_g _ _ Hg); auto. }
  eapply (sess_world E w _ _ a upd (dom (va_positions v0)) c orc o v0 s _ F G Hr Hc Hpk); [|cbn [updated_pairs]; rewrite Ha, <- (st_positions _ _ _ Hst); reflexivity|reflexivity|exact (starts_position _ _ _ _ Ha Hst)|exact Hus'|reflexivity|reflexivity]. reflexivity.
Qed.
Lemma pairs_up E cx w ps upd w' out : reachable E w -> step E cx w (OUpdatePairs ps upd) = Ok (w', out) -> brought_up w w' (OUpdatePairs ps upd).
Proof.
  intros Hr H. destruct (C19_exact _ _ _ _ _ _ _ Hr H) as [A B]. destruct (updates_intro _ _ _ _ _ _ _ H) as (F & U). unfold brought_up. cbn [updated_pairs]. split; [|split].
  - rewrite A. unfold distinct. f_equal. apply lsum_ext. intros k _. unfold settled. cbn. lia.
  - intros k Hk. apply elem_of_list_to_set in Hk. exact (B k Hk).
  - intros k Hk. rewrite elem_of_list_to_set in Hk. exact (ud_out _ _ _ _ _ U k Hk).
Qed.
Lemma every_call E cx w o w' out : reachable E w -> step E cx w o = Ok (w', out) -> brought_up w w' o.
Proof.
  intros Hr H. assert ((exists a i upd, o = OProcessRequest a i upd) \/ (exists a b upd, o = OLiquidate a b upd) \/ (exists a k upd, o = OAutoDeleverage a k upd) \/ (exists ps upd, o = OUpdatePairs ps upd) \/ updated_pairs w o = ∅) as Hcase.
  { destruct o; try (right; right; right; right; reflexivity); eauto 10. }
  destruct Hcase as [(a & i & upd & ->)|[(a & b & upd & ->)|[(a & k & upd & ->)|[(ps & upd & ->)|Hnone]]]]; [exact (process_up _ _ _ _ _ _ _ _ Hr H)|exact (liq_up _ _ _ _ _ _ _ _ Hr H)|exact (adl_up _ _ _ _ _ _ _ _ Hr H)|exact (pairs_up _ _ _ _ _ _ _ Hr H)|].
  pose proof H as Hs. apply step_gstep in H. destruct H; try (apply none_updated; [exact Hnone|reflexivity|reflexivity]).
  - destruct H0 as (l & Hc & Hac & _). destruct o; try discriminate H; cbn [op_acts] in Hac; try (eapply process_up; eassumption); try (eapply liq_up; eassumption); try (eapply adl_up; eassumption);
      (eapply acct_calm; [exact Hc| |exact Hnone]); clear - Hac.
    + destruct Hac as (acc & _ & _ & ->). apply Forall_app. split; [apply oath_calm|repeat constructor].
    + destruct Hac as (acc & _ & _ & _ & ->). apply Forall_app. split; [apply oath_calm|repeat constructor].
    + destruct Hac as (_ & ->). apply Forall_app. split; [apply oath_calm|repeat constructor].
    + destruct Hac as (_ & ->). apply Forall_app. split; [apply oath_calm|repeat constructor].
    + destruct Hac as (_ & ->). apply Forall_app. split; [apply oath_calm|repeat constructor].
    + destruct Hac as (_ & ->). apply Forall_app. split; [apply add_calm|apply oath_calm].
    + destruct Hac as (_ & ->). apply Forall_app. split; [apply oath_calm|repeat constructor].
    + destruct Hac as (_ & act & can & ->). apply Forall_app. split; [apply oath_calm|repeat constructor].
    + destruct Hac as (_ & l' & -> & Hl). apply Forall_app. split; [apply oath_calm|]. eapply Forall_impl; [exact Hl|]. intros [] Hx; try destruct Hx; reflexivity.
    + destruct Hac as (_ & ->). apply Forall_app. split; [apply oath_calm|repeat constructor].
    + destruct Hac as (_ & paid & value & token & -> & _). repeat constructor.
  - match goal with Hx : acct_call _ _ _ ?l _ |- _ => assert (Forall (fun x => calm x = false) l) as Hl by (first [apply Forall_app; split; [apply add_calm|apply oath_calm]|apply Forall_app; split; [apply oath_calm|apply add_calm]]); apply none_updated;
      [reflexivity|rewrite (acct_pool_same _ _ _ _ _ Hx); [reflexivity|]|rewrite (acct_upf_same _ _ _ _ _ Hx); [reflexivity|]] end;
      (eapply Forall_impl; [exact Hl|]; intros x Hx; unfold calm in Hx; apply orb_false_iff in Hx; tauto).
  - eapply pairs_up; eassumption.
Qed.
(** C19, for every call: the pairs a call brings up to date get exactly the funding the formulas give, with the call's price
    and the open interest they had; no other pair's record changes at all; and the pool's unrealised funding changes by the
    pool's income from the updated pairs, less what the account settles of its own funding. *)
Theorem C19_every_call E cx w o w' out : reachable E w -> step E cx w o = Ok (w', out) ->
  po_upf (w_pool w') = po_upf (w_pool w) + lsum (fun k => pool_income w w' k - settled w w' o k) (elements (updated_pairs w o)) /\
  (forall k, k ∈ updated_pairs w o -> exists pc, pair_cfg w k = Some pc /\ accrual w w' k pc) /\
  (forall k, k ∉ updated_pairs w o -> po_positions (w_pool w') !! k = po_positions (w_pool w) !! k).
Proof. exact (every_call E cx w o w' out). Qed.
(** A liquidation in which the pair accrues and the account settles its funding. *)
Definition liq_op : op := OLiquidate A2 (BASE, dec 5000) (msg 17000%N 2000%N 87440%N).
Example C19_every_call_ex : exists w' out, reachable sc_env WL /\ step sc_env cx_any WL liq_op = Ok (w', out) /\ 1%N ∈ updated_pairs WL liq_op /\ accrues WL 1%N = true /\ pool_income WL w' 1%N <> 0 /\ settled WL w' liq_op 1%N <> 0.
Proof.
  destruct (try_true WL (cx_any, liq_op) (fun w' _ => bool_decide (1%N ∈ updated_pairs WL liq_op) && accrues WL 1%N && negb (pool_income WL w' 1%N =? 0) && negb (settled WL w' liq_op 1%N =? 0))) as (w' & out & H & Hf); [vm_compute; reflexivity|]. exists w', out. split; [exact WL_reach|]. split; [exact H|].
  rewrite !andb_true_iff, !negb_true_iff, !Z.eqb_neq in Hf. destruct Hf as [[[H1 H2] H3] H4]. apply bool_decide_eq_true in H1. auto.
Qed.
