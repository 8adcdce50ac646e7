(** * C63: the events are enough to rebuild the state. *)
From Verif Require Import Base DFloat Lists Types Config Oracle Pool Account Fees Referral ExInternal Exchange System Scenario Sums Trace Frames Calls Shape Spec SpecRequests SpecOracle SpecTrading SpecMargin SpecLiq SpecEvents
  Frames2 Witness P_Ledger P_Accounts P_Requests P_Requests2 P_Requests3 P_Requests4 P_Oracle P_Keeper P_Access P_Liq P_Events P_Events2 Props_Config Props_LP Props_Collateral Props_Deposits Props_Orders Props_Liq P_Adl Props_Adl Props_Swap Props_Referral Props_Ledger P_Updates.

(** ** Calls on one account *)
Definition about (a : addr) (e : event) : bool :=
  match e with
  | EvAddCollateral b _ | EvRemoveCollateral b _ _ | EvSwapDebt b _ _ _ | EvValidStart b _ => (b =? a)%N
  | EvMarginOrder m => (eo_account m =? a)%N | EvAutoDeleverage m => (ea_account m =? a)%N | EvLiquidate m => (el_account m =? a)%N
  | _ => false
  end.
Lemma about_not a m : forallb (about a) m = true ->
  forallb not_pairs m = true /\ forallb not_requests m = true /\ forallb not_created m = true /\ lsum lp_change m = 0 /\
  (forall b k, b <> a -> lsum (fun e => size_change e b k) m = 0) /\ (forall b r, b <> a -> lsum (fun e => coll_change e b r) m = 0) /\ (forall b v, b <> a -> v_valid (replay_all v m) b = v_valid v b).
Proof.
  induction m as [|e m IH]; intros H; [repeat split|]. cbn [forallb] in H. apply andb_true_iff in H as [He H]. destruct (IH H) as (I1 & I2 & I3 & I4 & I5 & I6 & I7).
  split; [cbn [forallb]; rewrite I1; destruct e; try discriminate He; reflexivity|]. split; [cbn [forallb]; rewrite I2; destruct e; try discriminate He; reflexivity|]. split; [cbn [forallb]; rewrite I3; destruct e; try discriminate He; reflexivity|].
  split; [rewrite lsum_cons, I4; destruct e; try discriminate He; reflexivity|].
  split; [|split].
  - intros b k Hb. rewrite lsum_cons, I5 by exact Hb. destruct e; try discriminate He; cbn in He |- *; try reflexivity; apply N.eqb_eq in He; rewrite He; assert (a =? b = false)%N as -> by (apply N.eqb_neq; congruence); reflexivity.
  - intros b r Hb. rewrite lsum_cons, I6 by exact Hb. unfold coll_change. destruct (r =? BASE)%N; [reflexivity|]. destruct e; try discriminate He; cbn in He |- *; try reflexivity; apply N.eqb_eq in He; rewrite He; assert (a =? b = false)%N as -> by (apply N.eqb_neq; congruence); reflexivity.
  - intros b v Hb. cbn [replay_all fold_left]. fold (replay_all (replay v e) m). rewrite I7 by exact Hb. destruct e; try discriminate He; cbn in He |- *; try reflexivity. apply N.eqb_eq in He. rewrite He. assert (a =? b = false)%N as -> by (apply N.eqb_neq; congruence). reflexivity.
Qed.
Lemma told_ref E w a m1 m2 out w' acc : told E w a m1 m2 out w' -> w_accounts w !! a = Some acc -> exists acc', w_accounts w' !! a = Some acc' /\ ac_ref acc' = ac_ref acc.
Proof.
  intros [now c o v0 ids fd l s acc' x y Hv Hs Hz Ha Hp He Hxy] Hacc. exists acc'. rewrite Ha, lookup_insert. split; [reflexivity|].
  apply get_acc_comp in Hv. rewrite Hacc in Hv. injection Hv as ->. pose proof (ssteps_comp _ _ _ _ _ _ _ Hs) as (_ & _ & _ & _ & _ & K & _). cbn [s_acc] in K.
  unfold acc_update in Hz. bd Hz as (r1 & _ & Hz). bd Hz as (r2 & _ & Hz). apply Ok_inj in Hz. subst acc'. cbn. exact K.
Qed.
Lemma told_others E w a m1 m2 out w' b : told E w a m1 m2 out w' -> b <> a -> w_accounts w' !! b = w_accounts w !! b.
Proof. intros [now c o v0 ids fd l s acc' x y Hv Hs Hz Ha Hp He Hxy] Hb. rewrite Ha. apply lookup_insert_ne. congruence. Qed.
Lemma told_self E w a m out w' : reachable E w -> told E w a m [] out w' -> forallb (about a) m = true ->
  valid_start w' a = v_valid (replay_all (view_of w) m) a -> (forall k, size_of w' a k = size_of w a k + lsum (fun e => size_change e a k) m) ->
  (forall r, r <> BASE -> collateral_of w' a r = collateral_of w a r + lsum (fun e => coll_change e a r) m) -> w_lp w' = w_lp w ->
  same_view (view_of w') (replay_all (view_of w) (o_events out)).
Proof.
  intros Hr Ht Hab Hvs Hsz Hcl Hlp. assert (exists acc, w_accounts w !! a = Some acc) as [acc Hacc]. { destruct Ht as [now c o v0 ids fd l s acc' x y Hv]. apply get_acc_comp in Hv. eauto. }
  destruct (told_ref _ _ _ _ _ _ _ _ Ht Hacc) as (acc' & Ha' & Href). pose proof (fun b => told_others _ _ _ _ _ _ _ b Ht) as Hoth.
  destruct (told_view _ _ _ _ _ _ _ _ Ht Hacc (acc_ok_reachable _ _ Hr _ _ Hacc)) as (T1 & T2 & T3 & T4 & T5 & T6 & _ & T8). rewrite app_nil_r in *.
  destruct (about_not _ _ Hab) as (A1 & A2 & A3 & A4 & A5 & A6 & A7).
  split; [|split; [|split; [|split; [|split; [|split]]]]].
  - intros k. symmetry. apply (T1 A1 eq_refl). reflexivity.
  - intros b i. symmetry. apply (T2 A2 eq_refl). reflexivity.
  - intros b. rewrite T3. destruct (decide (b = a)) as [->|Hb]; [exact Hvs|]. rewrite A7 by exact Hb. cbn. unfold valid_start. rewrite Hoth by exact Hb. reflexivity.
  - intros b. rewrite T4, replay_created0 by exact A3. cbn. destruct (decide (b = a)) as [->|Hb]; [rewrite Ha', Hacc, Href; reflexivity|]. rewrite Hoth by exact Hb. reflexivity.
  - intros b k. rewrite replay_size, T5. cbn [view_of v_size]. destruct (decide (b = a)) as [->|Hb]; [apply Hsz|]. rewrite A5 by exact Hb. unfold size_of, position. rewrite Hoth by exact Hb. lia.
  - intros b r. rewrite replay_coll, T6. cbn [view_of v_coll]. destruct (N.eqb_spec r BASE) as [->|Hr0].
    + assert (lsum (fun e => coll_change e b BASE) m = 0) as ->; [|lia]. clear. induction m as [|e m IH]; [reflexivity|]. rewrite lsum_cons, IH. reflexivity.
    + destruct (decide (b = a)) as [->|Hb]; [apply (Hcl r Hr0)|]. rewrite A6 by exact Hb. rewrite Hoth by exact Hb. lia.
  - rewrite replay_lp, T8, A4. cbn. lia.
Qed.
(** The parts of an account a call leaves alone. *)
Lemma step_size E cx w o w' out a : step E cx w o = Ok (w', out) -> op_account o = Some a -> can_positions o = false -> forall k, position w' a k = position w a k.
Proof.
  intros H Ho Hc k. pose proof (step_acct _ _ _ _ _ _ a H Ho) as (l & Hcall & Hac & _). destruct (acct_call_self _ _ _ _ _ Hcall) as ((acc & Ha) & (acc' & Ha') & _).
  unfold position. rewrite Ha, Ha'. unfold held. rewrite (acct_positions_same _ _ _ _ _ _ _ Hcall Ha Ha' (op_free_pos _ _ _ _ Hac Hc)). reflexivity.
Qed.
Lemma step_vstart E cx w o w' out a : step E cx w o = Ok (w', out) -> op_account o = Some a -> can_vstart o = false -> valid_start w' a = valid_start w a.
Proof.
  intros H Ho Hc. pose proof (step_acct _ _ _ _ _ _ a H Ho) as (l & Hcall & Hac & _). destruct (acct_call_self _ _ _ _ _ Hcall) as ((acc & Ha) & (acc' & Ha') & _).
  unfold valid_start. rewrite Ha, Ha'. exact (acct_vstart_same _ _ _ _ _ _ _ Hcall Ha Ha' (op_free_vstart _ _ _ _ Hac Hc)).
Qed.
Definition can_coll (o : op) : bool := match o with OAddCollateral _ _ _ | OProcessRequest _ _ _ | OLiquidate _ _ _ | OSwapDebt _ _ _ _ => true | _ => false end.
Lemma op_free_coll w o out l : op_acts w o out l -> can_coll o = false -> Forall (fun x => touches_coll x = false) l. Proof. op_free. Qed.
Lemma step_coll E cx w o w' out a : step E cx w o = Ok (w', out) -> op_account o = Some a -> can_coll o = false -> forall r, collateral_of w' a r = collateral_of w a r.
Proof.
  intros H Ho Hc r. pose proof (step_acct _ _ _ _ _ _ a H Ho) as (l & Hcall & Hac & _). destruct (acct_call_self _ _ _ _ _ Hcall) as ((acc & Ha) & (acc' & Ha') & _).
  unfold collateral_of, recorded. rewrite Ha, Ha'. rewrite (acct_coll_same _ _ _ _ _ _ _ Hcall Ha Ha' (op_free_coll _ _ _ _ Hac Hc)). reflexivity.
Qed.
Lemma step_count E cx w o w' out a : reachable E w -> step E cx w o = Ok (w', out) -> op_account o = Some a -> can_push o = false -> request_count w' a = request_count w a.
Proof.
  intros Hr H Ho Hc. pose proof (step_acct _ _ _ _ _ _ a H Ho) as (l & Hcall & Hac & _). destruct (acct_call_self _ _ _ _ _ Hcall) as ((acc & Ha) & (acc' & Ha') & _).
  unfold request_count. rewrite Ha, Ha'. exact (acct_count_same _ _ _ _ _ _ _ Hcall (op_acts_shape _ _ _ _ Hac) Ha Ha' (acc_ok_reachable _ _ Hr _ _ Ha) (op_free_push _ _ _ _ Hac Hc)).
Qed.
Lemma told_head E w a m out w' : told E w a m [] out w' -> exists rest, o_events out = m ++ rest.
Proof. intros [now c o v0 ids fd l s acc' x y Hv Hs Hz Ha Hp He Hxy]. exists (x ++ y ++ []). exact He. Qed.
Lemma plain_account o a : plain_op o = Some a -> op_account o = Some a /\ can_positions o = false /\ can_vstart o = false /\ can_coll o = false.
Proof. destruct o; cbn; intros H; try discriminate H; auto. Qed.
Lemma same_plain E cx w o w' out a : reachable E w -> step E cx w o = Ok (w', out) -> plain_op o = Some a -> same_view (view_of w') (replay_all (view_of w) (o_events out)).
Proof.
  intros Hr H Ho. destruct (plain_account _ _ Ho) as (O1 & O2 & O3 & O4).
  apply (told_self E w a [] out w' Hr); [exact (told_plain _ _ _ _ _ _ _ Ho (step_exec' _ _ _ _ _ _ H))|reflexivity| | | |].
  - exact (step_vstart _ _ _ _ _ _ _ H O1 O3).
  - intros k. unfold size_of. rewrite (step_size _ _ _ _ _ _ _ H O1 O2). cbn. lia.
  - intros r _. rewrite (step_coll _ _ _ _ _ _ _ H O1 O4). cbn. lia.
  - pose proof (lp_step _ _ _ _ _ _ H) as L. destruct o; try discriminate Ho; exact L.
Qed.
Lemma same_add E cx w oath a ts w' out : reachable E w -> step E cx w (OAddCollateral oath a ts) = Ok (w', out) -> same_view (view_of w') (replay_all (view_of w) (o_events out)).
Proof.
  intros Hr H. destruct (C59_add_collateral _ _ _ _ _ _ _ _ Hr H) as (_ & Hc & Hp & Hv & _ & _ & _ & _ & _ & Hlp & _).
  apply (told_self E w a [EvAddCollateral a ts] out w' Hr); [exact (told_add _ _ _ _ _ _ _ _ (step_exec' _ _ _ _ _ _ H))|cbn; rewrite N.eqb_refl; reflexivity|exact Hv| | |exact Hlp].
  - intros k. unfold size_of. rewrite Hp. cbn. lia.
  - intros r Hne. assert (collateral_of w' a r = collateral_of w a r + amount_in r ts) as -> by exact (Hc r Hne). rewrite lsum_cons. unfold coll_change. assert (r =? BASE = false)%N as -> by (apply N.eqb_neq; exact Hne). rewrite N.eqb_refl. cbn. lia.
Qed.
Lemma same_swap E cx w a r b upd w' out : reachable E w -> step E cx w (OSwapDebt a r b upd) = Ok (w', out) -> same_view (view_of w') (replay_all (view_of w) (o_events out)).
Proof.
  intros Hr H. destruct (told_swap _ _ _ _ _ _ _ _ _ H) as (x & price & rest & Ht & Htok).
  destruct (C30_debt_swap _ _ _ _ _ _ _ _ _ Hr H) as (_ & _ & cc & price' & value & x' & _ & _ & _ & Htok' & _ & _ & _ & _ & Hc & Hoth & _). rewrite Htok in Htok'. injection Htok' as <- _.
  apply (told_self E w a _ out w' Hr Ht); [cbn; rewrite N.eqb_refl; reflexivity| | | |].
  - exact (step_vstart _ _ _ _ _ _ a H eq_refl eq_refl).
  - intros k. unfold size_of. rewrite (step_size _ _ _ _ _ _ a H eq_refl eq_refl). cbn. lia.
  - intros q Hne. rewrite lsum_cons. unfold coll_change. assert (q =? BASE = false)%N as -> by (apply N.eqb_neq; exact Hne). rewrite N.eqb_refl. cbn [andb]. destruct (N.eqb_spec r q) as [->|Hq]; [rewrite Hc|rewrite Hoth by congruence]; cbn; lia.
  - exact (lp_step _ _ _ _ _ _ H).
Qed.
Lemma same_adl E cx w a k upd w' out : reachable E w -> step E cx w (OAutoDeleverage a k upd) = Ok (w', out) -> same_view (view_of w') (replay_all (view_of w) (o_events out)).
Proof.
  intros Hr H. destruct (told_adl _ _ _ _ _ _ _ _ H) as (e & Ht & He1 & He2). destruct (told_head _ _ _ _ _ _ Ht) as [rest Hh].
  destruct (adl_call_intro _ _ _ _ _ _ _ _ Hr H) as (acc & acc' & fee & e' & D). destruct (ad_ev _ _ _ _ _ _ _ _ _ _ D) as ((rest' & Hev) & _ & _ & _ & V4 & _). rewrite Hev in Hh. cbn in Hh. injection Hh as -> _.
  apply (told_self E w a _ out w' Hr Ht); [cbn; rewrite He1, N.eqb_refl; reflexivity| | | |].
  - exact (step_vstart _ _ _ _ _ _ a H eq_refl eq_refl).
  - intros j. rewrite lsum_cons. unfold size_change. rewrite He1, He2, N.eqb_refl. cbn [andb]. destruct (N.eqb_spec k j) as [<-|Hj].
    + rewrite (ad_size _ _ _ _ _ _ _ _ _ _ D), V4. cbn. lia.
    + unfold size_of. rewrite (ad_oth _ _ _ _ _ _ _ _ _ _ D) by congruence. cbn. lia.
  - intros r Hne. rewrite (step_coll _ _ _ _ _ _ a H eq_refl eq_refl), lsum_cons. unfold coll_change. destruct (r =? BASE)%N; cbn; lia.
  - exact (lp_step _ _ _ _ _ _ H).
Qed.
Lemma listed_map {T} (f : T -> Z) k (m : gmap N T) : listed k (map (fun x => (fst x, f (snd x))) (map_to_list m)) = match m !! k with Some x => f x | None => 0 end.
Proof.
  unfold listed. rewrite lsum_map. cbn [fst snd]. induction m as [|j x m Hj IH] using map_ind.
  - rewrite map_to_list_empty, lookup_empty. reflexivity.
  - rewrite (lsum_perm _ _ _ (map_to_list_insert m j x Hj)), lsum_cons, IH. cbn [fst snd]. destruct (N.eqb_spec j k) as [->|Hn]; [rewrite lookup_insert, Hj; lia|rewrite lookup_insert_ne by exact Hn; lia].
Qed.
Lemma listed_filter (f : N * Z -> bool) (g : N -> bool) k (m : gmap N Z) : (forall x, f x = g (fst x)) -> listed k (List.filter f (map_to_list m)) = if g k then default 0 (m !! k) else 0.
Proof.
  intros Hfg. assert (forall l, listed k (List.filter f l) = if g k then listed k l else 0) as Hl.
  { intros l. unfold listed. induction l as [|x l IH]; [destruct (g k); reflexivity|]. cbn [List.filter]. rewrite Hfg. destruct (g (fst x)) eqn:Hg; rewrite !lsum_cons, ?IH.
    - destruct (N.eqb_spec (fst x) k) as [<-|Hn]; [rewrite Hg; lia|destruct (g k); lia].
    - destruct (N.eqb_spec (fst x) k) as [<-|Hn]; [rewrite Hg; lia|destruct (g k); lia]. }
  rewrite Hl. destruct (g k); [|reflexivity]. pose proof (listed_map (fun z => z) k m) as H. assert (map (fun x : N * Z => (fst x, snd x)) (map_to_list m) = map_to_list m) as Hid. { rewrite <- (map_id (map_to_list m)) at 2. apply map_ext. intros [? ?]; reflexivity. }
  cbv beta in H. rewrite Hid in H. rewrite H. destruct (m !! k); reflexivity.
Qed.
Lemma same_liq E cx w a b upd w' out : reachable E w -> step E cx w (OLiquidate a b upd) = Ok (w', out) -> same_view (view_of w') (replay_all (view_of w) (o_events out)).
Proof.
  intros Hr H. destruct (told_liq _ _ _ _ _ _ _ _ H) as (acc & e & c & Hacc & Hc & Ht & He & Hpa & Hca).
  destruct (C16_clean_account _ _ _ _ _ _ _ _ _ Hr H Hacc) as (acc' & paid & Ha' & Hpos & _ & _ & Hcl & Hnc & _ & Hvs & _).
  apply (told_self E w a _ out w' Hr Ht); [cbn; rewrite He, N.eqb_refl; reflexivity| | | |].
  - cbn [replay_all fold_left replay v_valid]. rewrite N.eqb_refl. rewrite Hvs. exact (step_count _ _ _ _ _ _ a Hr H eq_refl eq_refl).
  - intros k. rewrite !lsum_cons. unfold size_change. rewrite He, N.eqb_refl.
    assert (forall o : option account_position, match o with Some x => ap_amount x | None => 0 end = ap_amount (match o with Some p => p | None => mkAP 0 0 0 end)) as Hmo by (intros []; reflexivity).
    assert (listed k (el_position_amounts e) = ap_amount (held acc k)) as -> by (rewrite Hpa; etransitivity; [apply (listed_map ap_amount)|exact (Hmo _)]).
    unfold size_of, position. rewrite Hacc, Ha'. unfold held at 1. rewrite Hpos, lookup_empty. cbn. lia.
  - intros r Hne. rewrite !lsum_cons. unfold coll_change. assert (r =? BASE = false)%N as -> by (apply N.eqb_neq; exact Hne). rewrite He, N.eqb_refl.
    assert (forall o : option Z, default 0 o = match o with Some x => x | None => 0 end) as Hmo by (intros []; reflexivity).
    assert (listed r (el_collateral_amounts e) = match coll_cfg w r with Some _ => recorded acc r | None => 0 end) as ->.
    { rewrite Hca. etransitivity; [apply (listed_filter _ (fun r => match coll_cfg w r with Some _ => true | None => false end))|].
      - intros x. unfold get_config in Hc. apply vc_new_spec in Hc as (_ & C2 & _). rewrite C2. reflexivity.
      - destruct (coll_cfg w r); [exact (Hmo _)|reflexivity]. }
    unfold collateral_of. rewrite Hacc, Ha'. destruct (coll_cfg w r) as [cc|] eqn:Hcc; [rewrite (Hcl r) by congruence|rewrite (Hnc r Hcc)]; cbn; lia.
  - exact (lp_step _ _ _ _ _ _ H).
Qed.

Lemma same_process E cx w a i upd w' out : reachable E w -> step E cx w (OProcessRequest a i upd) = Ok (w', out) -> same_view (view_of w') (replay_all (view_of w) (o_events out)).
Proof.
  intros Hr H. destruct (told_process _ _ _ _ _ _ _ _ H) as (acc & kr & m & Hacc & Hkr & Ht & Hm). destruct (told_head _ _ _ _ _ _ Ht) as [rest Hh].
  pose proof (step_acct _ _ _ _ _ _ a H eq_refl) as (l & Hcall & Hac & _). destruct (acct_call_self _ _ _ _ _ Hcall) as (_ & (acc' & Ha') & _).
  pose proof Hac as Hac0. cbn [op_acts] in Hac. destruct Hac as (v0 & v1 & rq & ex & l' & Hv & Hp & Hex & -> & _).
  apply process_request_inv in Hp as (r & n & _ & Hkr' & Erq & _ & _ & _ & Hexp).
  apply get_acc_inv in Hv as (acc0 & Hacc0 & Hcomp & _ & _ & _ & _ & _ & _ & _ & _ & _ & Hup & _). rewrite Hacc in Hacc0. injection Hacc0 as <-.
  unfold va_keeper_request in Hkr'. rewrite Hup, lookup_empty, Hcomp in Hkr'. apply expect_Ok in Hkr'. rewrite Hkr in Hkr'. injection Hkr' as <-. subst rq.
  assert (ex = (kr_expiry kr <=? w_now w)) as -> by (destruct Hexp as [[-> He]|[-> [He _]]]; lia). clear Hexp.
  assert (forall r, Forall (fun x => touches_pos x = false) (AProcess i :: l') -> position w' a r = position w a r) as Hpos.
  { intros k Hl. unfold position. rewrite Hacc, Ha'. unfold held. rewrite (acct_positions_same _ _ _ _ _ _ _ Hcall Hacc Ha' Hl). reflexivity. }
  assert (forall r, Forall (fun x => touches_coll x = false) (AProcess i :: l') -> collateral_of w' a r = collateral_of w a r) as Hcol.
  { intros q Hl. unfold collateral_of. rewrite Hacc, Ha'. unfold recorded. rewrite (acct_coll_same _ _ _ _ _ _ _ Hcall Hacc Ha' Hl). reflexivity. }
  pose proof (step_vstart _ _ _ _ _ _ a H eq_refl eq_refl) as Hvs. pose proof (lp_step _ _ _ _ _ _ H) as Hlp. cbn in Hlp.
  unfold exec_acts in Hex. destruct (kr_expiry kr <=? w_now w) eqn:Hle.
  - destruct Hex as [-> _]. subst m. apply (told_self E w a _ out w' Hr Ht); [reflexivity|exact Hvs| | |exact Hlp].
    + intros k. unfold size_of. rewrite Hpos by noact. cbn. lia.
    + intros q _. rewrite Hcol by noact. cbn. lia.
  - destruct (kr_request kr) as [rr|ro] eqn:Hrq.
    + destruct Hm as (toks & -> & Hpay). destruct Hex as (ks & bs & -> & _).
      assert (executes_removal w (OProcessRequest a i upd) a rr) as Hxr by (exists i, upd, acc, kr; do 4 (split; [first [reflexivity|assumption]|]); lia).
      destruct (C25_withdrawals_are_covered _ _ _ _ _ _ _ _ Hr H Hxr) as (toks' & Hpay' & _ & _ & _ & _ & Hc). rewrite Hpay in Hpay'. injection Hpay' as <-.
      apply (told_self E w a _ out w' Hr Ht); [cbn; rewrite N.eqb_refl; reflexivity|exact Hvs| | |exact Hlp].
      * intros k. unfold size_of. rewrite Hpos by noact. cbn. lia.
      * intros q Hne. rewrite (proj1 (Hc q Hne)), lsum_cons. unfold coll_change. assert (q =? BASE = false)%N as -> by (apply N.eqb_neq; exact Hne). rewrite N.eqb_refl. cbn. lia.
    + destruct Hm as (e & -> & He1 & He2). destruct Hex as (l0 & fee & -> & Hl0 & _).
      assert (executes_order w (OProcessRequest a i upd) a ro) as Hxo by (exists i, upd, acc, kr; do 4 (split; [first [reflexivity|assumption]|]); lia).
      destruct (C20_order_fee_bounds _ _ _ _ _ _ _ _ Hr H Hxo) as (e' & rest' & Hh' & Hsz & _). rewrite Hh in Hh'. cbn in Hh'. injection Hh' as <- _.
      destruct (C26_order_changes_position_as_asked _ _ _ _ _ _ _ _ Hr H Hxo) as [_ Hoth].
      apply (told_self E w a _ out w' Hr Ht); [cbn; rewrite He1, N.eqb_refl; reflexivity|exact Hvs| | |exact Hlp].
      * intros k. rewrite lsum_cons. unfold size_change. rewrite He1, He2, N.eqb_refl. cbn [andb]. destruct (N.eqb_spec (ro_pair ro) k) as [<-|Hk]; [cbn; lia|].
        unfold size_of. rewrite Hoth by (right; congruence). cbn. lia.
      * intros q Hne. rewrite Hcol by noact. rewrite lsum_cons. unfold coll_change. destruct (q =? BASE)%N; cbn; lia.
Qed.
Lemma same_create E cx w oath rule ts code a w' out : reachable E w -> step E cx w (OCreateAccount oath rule ts code a) = Ok (w', out) -> same_view (view_of w') (replay_all (view_of w) (o_events out)).
Proof.
  intros Hr H. destruct (told_create _ _ _ _ _ _ _ _ _ _ (step_exec' _ _ _ _ _ _ H)) as (ref & g & more & w0 & Hn & Hcode & Ha0 & Hp0 & Ht).
  destruct (C59_create_account _ _ _ _ _ _ _ _ _ _ Hr H) as (_ & _ & Hc & Hpos & Hvs & _).
  assert (code_tokens E w code = more) as Hmore. { unfold code_tokens. destruct code as [s|]; [|destruct Hcode as [_ ->]; reflexivity]. destruct Hcode as (id & _ & Hcl). pose proof Hcl as Hx. unfold gn_claim in Hx. bd Hx as (c & Hx1 & Hx). bd Hx as (? & Hx2 & _). apply expect_Ok in Hx1. apply guard_Ok, N.ltb_lt in Hx2.
    destruct (C35_claim_is_served _ _ _ _ Hr Hx1 Hx2) as (g' & Hcl'). rewrite Hx1. rewrite Hcl' in Hcl. apply Ok_inj in Hcl. congruence. }
  assert (w_accounts w0 !! a = Some (acc_new rule rule rule ref)) as Hacc by (rewrite Ha0; apply lookup_insert).
  destruct (told_ref _ _ _ _ _ _ _ _ Ht Hacc) as (acc' & Ha' & Href).
  assert (forall b, b <> a -> w_accounts w' !! b = w_accounts w !! b) as Hoth. { intros b Hb. rewrite (told_others _ _ _ _ _ _ _ b Ht Hb), Ha0. apply lookup_insert_ne. congruence. }
  destruct (told_view _ _ _ _ _ _ _ _ Ht Hacc (acc_new_ok _ _ _ _)) as (T1 & T2 & T3 & T4 & T5 & T6 & _ & T8).
  split; [|split; [|split; [|split; [|split; [|split]]]]].
  - intros k. symmetry. apply (T1 eq_refl eq_refl). intros j. rewrite Hp0. reflexivity.
  - intros b i. symmetry. apply (T2 eq_refl eq_refl). intros c j. cbn. unfold request_at. rewrite Ha0. destruct (decide (c = a)) as [->|Hb]; [rewrite lookup_insert, Hn; cbn; rewrite lookup_empty; reflexivity|rewrite lookup_insert_ne by congruence; reflexivity].
  - intros b. rewrite T3. cbn. destruct (decide (b = a)) as [->|Hb]; [rewrite Hvs; unfold valid_start; rewrite Hn; reflexivity|unfold valid_start; rewrite Hoth by exact Hb; reflexivity].
  - intros b. rewrite T4. cbn. destruct (N.eqb_spec a b) as [<-|Hb]; [rewrite Ha', Href; reflexivity|rewrite Hoth by congruence; reflexivity].
  - intros b k. rewrite replay_size, T5. cbn. destruct (decide (b = a)) as [->|Hb]; [unfold size_of; rewrite Hpos; unfold position; rewrite Hn; reflexivity|unfold size_of, position; rewrite Hoth by exact Hb; lia].
  - intros b r. rewrite replay_coll, T6. cbn. unfold coll_change. destruct (N.eqb_spec r BASE) as [->|Hne]; [reflexivity|]. destruct (N.eqb_spec a b) as [<-|Hb].
    + specialize (Hc r Hne). unfold Props_Access.collateral_of in Hc. rewrite Hc, Hn, Hmore. lia.
    + rewrite Hoth by congruence. lia.
  - rewrite replay_lp, T8. cbn. rewrite (lp_step _ _ _ _ _ _ H). lia.
Qed.

(** ** Calls on no account *)
Definition silent (e : event) : bool := match e with EvSignalUpgrade _ | EvExchangeConfig _ | EvPairConfigs _ | EvCollateralConfigs _ | EvCollateralRemoval _ => true | _ => false end.
Lemma replay_silent l : forallb silent l = true -> forall v, same_view (replay_all v l) v.
Proof.
  induction l as [|e l IH]; intros H v; [repeat split|]. cbn [forallb] in H. apply andb_true_iff in H as [He H]. cbn [replay_all fold_left]. fold (replay_all (replay v e) l).
  destruct (IH H (replay v e)) as (I1 & I2 & I3 & I4 & I5 & I6 & I7).
  split; [|split; [|split; [|split; [|split; [|split]]]]]; intros; rewrite ?I1, ?I2, ?I3, ?I4, ?I5, ?I6, ?I7; destruct e; try discriminate He; cbn; try reflexivity; try lia. all: unfold coll_change; destruct (_ =? _)%N; lia.
Qed.
Lemma view_frame w w' : w_accounts w' = w_accounts w -> po_positions (w_pool w') = po_positions (w_pool w) -> w_lp w' = w_lp w -> same_view (view_of w') (view_of w).
Proof.
  intros H1 H2 H3. split; [|split; [|split; [|split; [|split; [|split]]]]]; intros; cbn; unfold request_at, valid_start, size_of, position; rewrite ?H1, ?H2, ?H3; reflexivity.
Qed.
Lemma same_trans x y z : same_view x y -> same_view y z -> same_view x z.
Proof. intros (A1 & A2 & A3 & A4 & A5 & A6 & A7) (B1 & B2 & B3 & B4 & B5 & B6 & B7). repeat split; intros; etransitivity; eauto. Qed.
Lemma same_sym x y : same_view x y -> same_view y x.
Proof. intros (A1 & A2 & A3 & A4 & A5 & A6 & A7). repeat split; intros; symmetry; eauto. Qed.
(** The pool's records written back from the cache, with no account touched. *)
Lemma pool_only w w' p lp ev evs : po_positions (vp_comp p) = po_positions (w_pool w) -> w_accounts w' = w_accounts w -> po_positions (w_pool w') = po_positions (vp_realize p) -> evs = ev ++ pool_events p ->
  (forall v, same_view (replay_all v ev) (mkView (v_pair v) (v_request v) (v_valid v) (v_account v) (v_size v) (v_coll v) (v_lp v + lp))) -> w_lp w' = w_lp w + lp ->
  same_view (view_of w') (replay_all (view_of w) evs).
Proof.
  intros Hp Ha Hpo -> Hev Hlp. rewrite replay_app. destruct (Hev (view_of w)) as (I1 & I2 & I3 & I4 & I5 & I6 & I7).
  assert (forall m, lsum lp_change (pool_events m) = 0 /\ (forall b k, lsum (fun e => size_change e b k) (pool_events m) = 0) /\ (forall b k, lsum (fun e => coll_change e b k) (pool_events m) = 0)) as Hz.
  { intros m. destruct (pool_events_shape m) as [->|[x ->]]; [repeat split|]. split; [reflexivity|]. split; [reflexivity|]. intros b k. rewrite lsum_cons. unfold coll_change. destruct (_ =? _)%N; reflexivity. }
  destruct (Hz p) as (Z1 & Z2 & Z3).
  split; [|split; [|split; [|split; [|split; [|split]]]]]; intros.
  - rewrite pool_events_pair. cbn [view_of v_pair]. rewrite Hpo, realize_positions, Hp. unfold overwrite. rewrite I1. reflexivity.
  - rewrite replay_requests0 by (destruct (pool_events_shape p) as [->|[x ->]]; reflexivity). rewrite I2. cbn. unfold request_at. rewrite Ha. reflexivity.
  - rewrite replay_valid0 by (destruct (pool_events_shape p) as [->|[x ->]]; reflexivity). rewrite I3. cbn. unfold valid_start. rewrite Ha. reflexivity.
  - rewrite replay_created0 by (destruct (pool_events_shape p) as [->|[x ->]]; reflexivity). rewrite I4. cbn. rewrite Ha. reflexivity.
  - rewrite replay_size, I5, Z2. cbn. unfold size_of, position. rewrite Ha. lia.
  - rewrite replay_coll, I6, Z3. cbn. rewrite Ha. lia.
  - rewrite replay_lp, I7, Z1. cbn. lia.
Qed.

Lemma liq_add_events E w b w' out : m_add_liquidity E w b = Ok (w', out) -> exists p price amount f1 f2 f3, po_positions (vp_comp p) = po_positions (w_pool w) /\ po_positions (w_pool w') = po_positions (vp_realize p) /\ w_accounts w' = w_accounts w /\
  o_events out = [EvLiquidity price (w_lp w' - w_lp w) amount f1 f2 f3] ++ pool_events p.
Proof.
  unfold m_add_liquidity. intros H. bd H as (c & Hc & H). bd H as ([[[[p1 fd1] s1] lpb] ev] & Hx & H). apply Ok_inj in H. injection H as <- <-. unfold x_add_liquidity in Hx.
  bd Hx as (? & Hg & Hx). bd Hx as (fee & Hfee & Hx). bd Hx as (pv & Hpv & Hx). bd Hx as ([lpa lpp] & Hlp & Hx). bd Hx as (p2 & Hd & Hx). bd Hx as (? & Hmi & Hx). bd Hx as (s2 & Hs & Hx). bd Hx as ([[p3 fd3] [[q0 q1] q2]] & Hf & Hx).
  apply Ok_inj in Hx. injection Hx as <- <- <- <- <-. apply vp_deposit_inv in Hd. apply x_settle_fees_basic_inv in Hf. destruct Hf as (fp & ft & Hfp & Hft & -> & -> & _). inv_step Hs. subst s2 p2.
  match goal with |- context [pool_events ?p] => lazymatch p with context [get_pool] => exists p end end. exists lpp, (b_amt b), q0, q1, q2. split; [reflexivity|]. split; [reflexivity|]. split; [reflexivity|]. cbn [o_events w_lp]. cbn. do 2 f_equal. lia.
Qed.
Lemma liq_remove_events E w b w' out : m_remove_liquidity E w b = Ok (w', out) -> exists p price amount f1 f2 f3, po_positions (vp_comp p) = po_positions (w_pool w) /\ po_positions (w_pool w') = po_positions (vp_realize p) /\ w_accounts w' = w_accounts w /\
  o_events out = [EvLiquidity price (w_lp w' - w_lp w) amount f1 f2 f3] ++ pool_events p.
Proof.
  unfold m_remove_liquidity. intros H. bd H as (c & Hc & H). bd H as ([[[[p1 fd1] s1] lpb] ev] & Hx & H). apply Ok_inj in H. injection H as <- <-. unfold x_remove_liquidity in Hx.
  bd Hx as (? & Hg & Hx). bd Hx as (pv & Hpv & Hx). bd Hx as (lpp & Hlp & Hx). bd Hx as (value & Hva & Hx). bd Hx as (fee & Hfee & Hx). bd Hx as (wa & Hwa & Hx). bd Hx as (? & _ & Hx). bd Hx as (? & _ & Hx). bd Hx as ([p2 amt] & Hd & Hx). bd Hx as ([[p3 fd3] [[q0 q1] q2]] & Hf & Hx).
  bd Hx as (? & _ & Hx). bd Hx as (nl & Hnl & Hx). bd Hx as (na & Hna & Hx). apply Ok_inj in Hx. injection Hx as <- <- <- <- <-. apply vp_withdraw_inv in Hd. apply x_settle_fees_basic_inv in Hf. destruct Hf as (fp & ft & Hfp & Hft & -> & -> & _).
  apply dneg_Ok in Hnl as [-> _]. split_ands. subst p2.
  match goal with |- context [pool_events ?p] => lazymatch p with context [get_pool] => exists p end end. exists lpp, na, q0, q1, q2. split; [reflexivity|]. split; [reflexivity|]. split; [reflexivity|]. cbn. do 2 f_equal. lia.
Qed.
Lemma same_liquidity w w' p lp price amount f1 f2 f3 evs : po_positions (vp_comp p) = po_positions (w_pool w) -> po_positions (w_pool w') = po_positions (vp_realize p) -> w_accounts w' = w_accounts w ->
  evs = [EvLiquidity price lp amount f1 f2 f3] ++ pool_events p -> w_lp w' = w_lp w + lp -> same_view (view_of w') (replay_all (view_of w) evs).
Proof.
  intros H1 H2 H3 H4 H5. eapply pool_only; [exact H1|exact H3|exact H2|exact H4| |exact H5]. intros v. cbn. repeat split; cbn; intros; try lia. unfold coll_change. destruct (_ =? _)%N; lia.
Qed.
Lemma same_pairs E cx w ps upd w' out : step E cx w (OUpdatePairs ps upd) = Ok (w', out) -> same_view (view_of w') (replay_all (view_of w) (o_events out)).
Proof.
  intros H. apply update_pairs_inv in H as (c & orc & o & p & fl & _ & _ & Hf & -> & _ & _ & Hev). destruct (upd_list _ _ _ _ _ _ _ _ Hf (NoDup_elements _)) as (Hcomp & _).
  eapply (pool_only w _ p 0 []); [rewrite Hcomp; reflexivity|reflexivity|reflexivity|exact Hev| |cbn; lia]. intros v. cbn. repeat split; cbn; intros; lia.
Qed.
(** Every other call. *)
Definition quiet (o : op) : bool :=
  match plain_op o, o with
  | Some _, _ => false
  | _, (OCreateAccount _ _ _ _ _ | OAddCollateral _ _ _ | OProcessRequest _ _ _ | OSwapDebt _ _ _ _ | OLiquidate _ _ _ | OAutoDeleverage _ _ _ | OUpdatePairs _ _ | OAddLiquidity _ | ORemoveLiquidity _) => false
  | _, _ => true
  end.
Lemma quiet_events E cx w o w' out : exec E cx w o = Ok (w', out) -> quiet o = true -> forallb silent (o_events out) = true.
Proof.
  intros H Hq. destruct o; try discriminate Hq; cbn [exec] in H;
    unfold m_deposit_authority, m_withdraw_authority, m_signal_upgrade, m_update_exchange_config, m_update_pair_configs, m_update_collateral_configs, m_remove_collateral_config, m_collect_treasury, m_collect_fee_delegator,
      m_mint_referral, m_mint_referral_with_allocation, m_update_referral, m_add_referral_allocation, m_swap_protocol_fee, m_create_referral_codes, m_create_referral_codes_from_allocation, m_collect_referral_rewards in H; cbv zeta in H.
  all: repeat lazymatch type of H with
    | mbind _ ?m = Ok _ => let x := fresh in let Hx := fresh in destruct m as [x|] eqn:Hx; [|discriminate H]; cbn [mbind res_bind] in H
    | (match ?x with (_, _) => _ end) = Ok _ => destruct x
    end; try (apply Ok_inj in H; injection H as <- <-; reflexivity).
Qed.

Lemma same_quiet E cx w o w' out : step E cx w o = Ok (w', out) -> quiet o = true -> same_view (view_of w') (replay_all (view_of w) (o_events out)).
Proof.
  intros H Hq. eapply same_trans; [|apply same_sym, replay_silent; exact (quiet_events _ _ _ _ _ _ (step_exec' _ _ _ _ _ _ H) Hq)].
  apply view_frame.
  - apply (C50_unnamed_changes_none _ _ _ _ _ _ H). destruct o; try discriminate Hq; reflexivity.
  - apply step_gstep in H. destruct H; try reflexivity; try discriminate Hq. destruct o; discriminate.
  - pose proof (lp_step _ _ _ _ _ _ H) as L. destruct o; try discriminate Hq; exact L.
Qed.

(** ** C63. Reading the events of a call on top of what was known before it gives what is true after it: the pool's record of
    every pair, every request of every account, the first valid request, the accounts and their referrals, every position's
    size, every recorded collateral and the supply of LP tokens. *)
Theorem C63_events_tell_the_change E cx w o w' out : reachable E w -> step E cx w o = Ok (w', out) -> same_view (view_of w') (replay_all (view_of w) (o_events out)).
Proof.
  intros Hr H. destruct (quiet o) eqn:Hq; [exact (same_quiet _ _ _ _ _ _ H Hq)|]. destruct (plain_op o) as [a|] eqn:Hp; [exact (same_plain _ _ _ _ _ _ _ Hr H Hp)|].
  destruct o; try discriminate Hq; try discriminate Hp.
  - destruct (liq_add_events _ _ _ _ _ (step_exec' _ _ _ _ _ _ H)) as (p & price & amount & f1 & f2 & f3 & H1 & H2 & H3 & H4). eapply same_liquidity; [exact H1|exact H2|exact H3|exact H4|lia].
  - destruct (liq_remove_events _ _ _ _ _ (step_exec' _ _ _ _ _ _ H)) as (p & price & amount & f1 & f2 & f3 & H1 & H2 & H3 & H4). eapply same_liquidity; [exact H1|exact H2|exact H3|exact H4|lia].
  - exact (same_create _ _ _ _ _ _ _ _ _ _ Hr H).
  - exact (same_add _ _ _ _ _ _ _ _ Hr H).
  - exact (same_process _ _ _ _ _ _ _ _ Hr H).
  - exact (same_swap _ _ _ _ _ _ _ _ _ Hr H).
  - exact (same_liq _ _ _ _ _ _ _ _ Hr H).
  - exact (same_adl _ _ _ _ _ _ _ _ Hr H).
  - exact (same_pairs _ _ _ _ _ _ _ H).
Qed.
Lemma replay_cong l : forall x y, same_view x y -> same_view (replay_all x l) (replay_all y l).
Proof.
  induction l as [|e l IH]; intros x y H; [exact H|]. cbn [replay_all fold_left]. apply IH. destruct H as (A1 & A2 & A3 & A4 & A5 & A6 & A7).
  split; [|split; [|split; [|split; [|split; [|split]]]]]; intros; cbn.
  - destruct e; try apply A1. unfold overwrite. rewrite A1. reflexivity.
  - destruct e; try apply A2. unfold overwrite. rewrite A2. reflexivity.
  - destruct e; try apply A3. rewrite A3. reflexivity.
  - destruct e; try apply A4. rewrite A4. reflexivity.
  - rewrite A5. reflexivity.
  - rewrite A6. reflexivity.
  - destruct e; rewrite A7; reflexivity.
Qed.
(** Over any history; in particular, from the events alone, with no prior knowledge, when one reads them from the start. *)
Theorem C63_events_tell_the_history E w l w' : reachable E w -> steps E w l w' -> same_view (view_of w') (replay_all (view_of w) (events_of l)).
Proof.
  intros Hr H. induction H as [|w cx o w1 out l w2 H1 H2 IH]; [repeat split|].
  unfold events_of. cbn [map concat snd]. rewrite replay_app. eapply same_trans; [exact (IH (reach_step _ _ _ _ _ _ Hr H1))|]. apply replay_cong. exact (C63_events_tell_the_change _ _ _ _ _ _ Hr H1).
Qed.
