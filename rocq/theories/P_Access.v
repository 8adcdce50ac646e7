(** * Frames by call: which parts of the state each kind of call can change (for C58). *)
From Verif Require Import Base DFloat Lists Types Config Oracle Pool Account Fees Referral ExInternal Exchange System Sums Trace Frames Calls Shape Spec P_Ledger P_Accounts Frames2 P_Fees P_Coll P_Requests P_Requests2 P_Requests3 SpecRequests.

Definition is_vstart (x : sact) : bool := match x with AVstart => true | _ => false end.
Definition is_pushed (x : sact) : bool := match x with APush _ _ _ _ => true | _ => false end.
Definition is_withdraw (x : sact) : bool := match x with AWithdraw _ => true | _ => false end.
Definition is_deposit (x : sact) : bool := match x with ADeposit _ => true | _ => false end.
Definition touches_avb (x : sact) : bool :=
  match x with AOath _ | AAddBase _ | ATakeBase _ | AFunding _ | AClose _ _ | AOpen _ _ | ALiqPos | ASettle _ | AFees _ => true | _ => false end.

Lemma oath_none (t : sact -> bool) oath : (forall b, t (AOath b) = false) -> Forall (fun x => t x = false) (oath_acts oath).
Proof. intros H. destruct oath; repeat constructor; auto. Qed.
Lemma add_none (t : sact -> bool) ts : (forall b, t (AAddBase b) = false) -> (forall b, t (ADeposit b) = false) -> Forall (fun x => t x = false) (add_acts ts).
Proof.
  intros H1 H2. unfold add_acts. apply Forall_app. split; [|repeat constructor; auto].
  apply Forall_forall. intros x Hy. apply elem_of_list_fmap in Hy as (b & -> & _). auto.
Qed.
Lemma take_none (t : sact -> bool) k : (forall b, t (ATakeBase b) = false) -> Forall (fun x => t x = false) (map ATakeBase k).
Proof. intros H. induction k; constructor; auto. Qed.
Lemma trade_none (t : sact -> bool) p l0 : (forall k a, t (AClose k a) = false) -> (forall k a, t (AOpen k a) = false) ->
  Forall (fun x => match x with AClose k _ | AOpen k _ => k = p | _ => False end) l0 -> Forall (fun x => t x = false) l0.
Proof. intros H1 H2 H. eapply Forall_impl; [exact H|]. intros [] Hx; simpl in *; try contradiction; auto. Qed.
Lemma push_none (t : sact -> bool) l0 : (forall r d e s, t (APush r d e s) = false) -> Forall is_push l0 -> Forall (fun x => t x = false) l0.
Proof. intros H1 H. eapply Forall_impl; [exact H|]. intros [] Hx; simpl in *; try contradiction; auto. Qed.
Ltac noact :=
  repeat match goal with
  | |- Forall _ (_ ++ _) => apply Forall_app; split
  | |- Forall _ (oath_acts _) => apply oath_none; reflexivity
  | |- Forall _ (add_acts _) => apply add_none; reflexivity
  | |- Forall _ (map ATakeBase _) => apply take_none; reflexivity
  | H : Forall is_push ?l |- Forall _ ?l => refine (push_none _ _ _ H); intros; reflexivity
  | H : Forall _ ?l |- Forall _ ?l => refine (trade_none _ _ _ _ _ H); intros; reflexivity
  | |- Forall _ (_ :: _) => constructor; [reflexivity|]
  | |- Forall _ [] => constructor
  end.
Ltac op_free :=
  let o := fresh "o" in
  intros H Hm; match type of H with op_acts _ ?x _ _ => destruct x; simpl in H; try contradiction; try discriminate Hm end;
  repeat match goal with
  | H : _ /\ _ |- _ => destruct H
  | H : exists _, _ |- _ => destruct H
  end; subst;
  try match goal with H : exec_acts ?ex ?rq _ _ |- _ => unfold exec_acts in H; destruct ex; [|destruct rq] end;
  repeat match goal with
  | H : _ /\ _ |- _ => destruct H
  | H : exists _, _ |- _ => destruct H
  end; subst;
  try match goal with H : _ = [] \/ _ |- _ => destruct H as [H|H]; [|destruct H as [? H]]; subst end; noact.

(** The calls that can touch each part. *)
Definition can_positions (o : op) : bool := match o with OProcessRequest _ _ _ | OLiquidate _ _ _ | OAutoDeleverage _ _ _ => true | _ => false end.
Definition can_withdraw (o : op) : bool := match o with OProcessRequest _ _ _ | OLiquidate _ _ _ | OSwapDebt _ _ _ _ => true | _ => false end.
Definition can_deposit (o : op) : bool := match o with OAddCollateral _ _ _ => true | _ => false end.
Definition can_push (o : op) : bool := match o with ORemoveCollateralRequest _ _ _ _ _ | OMarginOrderRequest _ _ _ _ _ _ _ _ _ _ _ _ | OMarginOrderTpSlRequest _ _ _ _ _ _ _ _ _ _ _ => true | _ => false end.
Definition can_vstart (o : op) : bool := match o with OLiquidate _ _ _ => true | _ => false end.
Lemma op_free_pos w o out l : op_acts w o out l -> can_positions o = false -> Forall (fun x => touches_pos x = false) l. Proof. op_free. Qed.
Lemma op_free_ppos w o out l : op_acts w o out l -> can_positions o = false -> Forall (fun x => touches_ppos x = false) l. Proof. op_free. Qed.
Lemma op_free_ref w o out l : op_acts w o out l -> can_positions o = false -> Forall (fun x => touches_ref x = false) l. Proof. op_free. Qed.
Lemma op_free_withdraw w o out l : op_acts w o out l -> can_withdraw o = false -> Forall (fun x => is_withdraw x = false) l. Proof. op_free. Qed.
Lemma op_free_deposit w o out l : op_acts w o out l -> can_deposit o = false -> Forall (fun x => is_deposit x = false) l. Proof. op_free. Qed.
Lemma op_free_push w o out l : op_acts w o out l -> can_push o = false -> Forall (fun x => is_pushed x = false) l. Proof. op_free. Qed.
Lemma op_free_vstart w o out l : op_acts w o out l -> can_vstart o = false -> Forall (fun x => is_vstart x = false) l. Proof. op_free. Qed.

(** Accounts after a call. *)
Lemma acct_positions_same E w a l w' acc acc' : acct_call E w a l w' -> w_accounts w !! a = Some acc -> w_accounts w' !! a = Some acc' ->
  Forall (fun x => touches_pos x = false) l -> ac_positions acc' = ac_positions acc.
Proof.
  intros Hc Ha Ha' Hl. destruct (acct_call_out _ _ _ _ _ _ _ Hc Ha Ha') as (c & o & idsc & ids & v0 & s1 & refs' & _ & _ & Hv & Hcomp & Hs & _ & Hu).
  pose proof (ssteps_frame_pos _ _ _ _ _ _ _ Hs Hl) as Hp. cbn [s_acc] in Hp. unfold g_pos in Hp. injection Hp as P1 P2 P3.
  apply get_acc_inv in Hv. destruct Hv as (acc1 & Ha1 & _ & _ & V1 & _ & _ & _ & _ & _ & V2 & _). assert (acc1 = acc) as -> by congruence.
  unfold acc_update in Hu. bd Hu as (r1 & _ & Hu). bd Hu as (r2 & _ & Hu). apply Ok_inj in Hu. subst acc'. cbn. rewrite P1, P2, P3, V2, Hcomp.
  unfold acc_merge_positions. match goal with |- context [@filter ?A ?B ?F ?P ?D ?m] => assert (@filter A B F P D m = ∅) as -> end.
  { apply map_filter_empty_iff. intros k x _. simpl. set_solver. }
  apply map_eq. intros k. rewrite lookup_merge, lookup_empty. destruct (ac_positions acc !! k); reflexivity.
Qed.
Lemma acct_vstart_same E w a l w' acc acc' : acct_call E w a l w' -> w_accounts w !! a = Some acc -> w_accounts w' !! a = Some acc' ->
  Forall (fun x => is_vstart x = false) l -> ac_vstart acc' = ac_vstart acc.
Proof.
  intros Hc Ha Ha' Hl. destruct (acct_call_out _ _ _ _ _ _ _ Hc Ha Ha') as (c & o & idsc & ids & v0 & s1 & refs' & _ & _ & Hv & Hcomp & Hs & _ & Hu).
  pose proof (ssteps_comp _ _ _ _ _ _ _ Hs) as (_ & _ & _ & _ & Cv & _). cbn [s_acc] in Cv.
  assert (va_vstart (s_acc s1) = va_vstart v0) as Hvs.
  { change v0 with (s_acc (mkS (get_pool w ids) v0 (w_fd w))). revert Hs Hl. generalize (mkS (get_pool w ids) v0 (w_fd w)). intros s Hs Hl.
    apply (ssteps_frame E (w_now w) c o is_vstart (fun s => va_vstart (s_acc s))) with (l := l); [|exact Hs|exact Hl]. clear. intros s x s' H Hx.
    destruct (touches_rq x) eqn:Ht; [|apply sstep_frames in H; destruct H as (_ & H & _); specialize (H Ht); unfold g_rq in H; congruence].
    destruct H; try discriminate; cbn [s_acc].
    - apply va_try_set_frame in H as [H _]. unfold g_norq in H. congruence.
    - apply va_cancel_frame in H as [H _]. unfold g_norq in H. congruence.
    - apply va_process_frame in H as [H _]. unfold g_norq in H. congruence.
    - apply va_push_frame in H as [H _]. unfold g_norq in H. congruence. }
  apply get_acc_inv in Hv. destruct Hv as (acc1 & Ha1 & _ & _ & _ & _ & _ & V1 & _). assert (acc1 = acc) as -> by congruence.
  unfold acc_update in Hu. bd Hu as (r1 & _ & Hu). bd Hu as (r2 & _ & Hu). apply Ok_inj in Hu. subst acc'. cbn. rewrite Hvs, V1, Cv, Hcomp. rewrite N.ltb_irrefl. reflexivity.
Qed.
Lemma acct_coll_same E w a l w' acc acc' : acct_call E w a l w' -> w_accounts w !! a = Some acc -> w_accounts w' !! a = Some acc' ->
  Forall (fun x => touches_coll x = false) l -> ac_coll acc' = ac_coll acc.
Proof.
  intros Hc Ha Ha' Hl. destruct (acct_call_out _ _ _ _ _ _ _ Hc Ha Ha') as (c & o & idsc & ids & v0 & s1 & refs' & _ & _ & Hv & Hcomp & Hs & _ & Hu).
  pose proof (ssteps_frame_coll _ _ _ _ _ _ _ Hs Hl) as Hp. cbn [s_acc] in Hp. unfold g_coll in Hp. apply acc_update_coll in Hu as [-> _]. congruence.
Qed.
(** Recorded collateral grows only by deposits and falls only by withdrawals. *)
Lemma coll_add_up c b c' : coll_add c b = Ok c' -> 0 <= b_amt b -> forall r, default 0 (c !! r) <= default 0 (c' !! r).
Proof.
  intros Hc Hb r. unfold coll_add in Hc. destruct (c !! b_res b) as [y|] eqn:Ey; [bd Hc as (z & Hz & Hc); apply dadd_Ok in Hz as [-> _]|]; apply Ok_inj in Hc; subst c';
  (destruct (decide (r = b_res b)) as [->|Hn]; [rewrite lookup_insert, Ey; cbn; lia|rewrite lookup_insert_ne by congruence; lia]).
Qed.
Lemma coll_adds_up bs : forall c c', rfold coll_add c bs = Ok c' -> bs_nonneg bs -> forall r, default 0 (c !! r) <= default 0 (c' !! r).
Proof.
  induction bs as [|b bs IH]; intros c c' Hc Hn r; cbn [rfold] in Hc; [apply Ok_inj in Hc; subst; lia|]. bd Hc as (c1 & H1 & Hc). inversion Hn; subst.
  pose proof (coll_add_up _ _ _ H1 ltac:(assumption) r). pose proof (IH _ _ Hc ltac:(assumption) r). lia.
Qed.
Lemma coll_sub_down c b c' : coll_sub c b = Ok c' -> 0 <= b_amt b -> forall r, default 0 (c' !! r) <= default 0 (c !! r).
Proof.
  intros Hc Hb r. unfold coll_sub in Hc. bd Hc as (x & Hx & Hc). bd Hc as (y & Hy & Hc). apply Ok_inj in Hc. apply expect_Ok in Hx. apply dsub_Ok in Hy as [-> _].
  destruct (Z.eqb_spec (x - b_amt b) 0) as [E0|E0]; subst c'; (destruct (decide (r = b_res b)) as [->|Hn]; [|rewrite ?lookup_delete_ne, ?lookup_insert_ne by congruence; lia]).
  - rewrite lookup_delete, Hx. cbn. lia.
  - rewrite lookup_insert, Hx. cbn. lia.
Qed.
Lemma coll_subs_down bs : forall c c', rfold coll_sub c bs = Ok c' -> bs_nonneg bs -> forall r, default 0 (c' !! r) <= default 0 (c !! r).
Proof.
  induction bs as [|b bs IH]; intros c c' Hc Hn r; cbn [rfold] in Hc; [apply Ok_inj in Hc; subst; lia|]. bd Hc as (c1 & H1 & Hc). inversion Hn; subst.
  pose proof (coll_sub_down _ _ _ H1 ltac:(assumption) r). pose proof (IH _ _ Hc ltac:(assumption) r). lia.
Qed.
Lemma take_batch_nonneg E s cs : forall v v' bs, vts_take_adv_batch E v cs s = Ok (v', bs) -> bs_nonneg bs.
Proof.
  induction cs as [|[r amt] cs IH]; intros v v' bs Hv; cbn [vts_take_adv_batch] in Hv; [apply Ok_inj in Hv; injection Hv as <- <-; constructor|].
  bd Hv as ([v1 b] & H1 & Hv). bd Hv as ([v2 bs2] & H2 & Hv). apply Ok_inj in Hv. injection Hv as <- <-. constructor; [|exact (IH _ _ _ H2)].
  unfold vts_take_adv in H1. bd H1 as (a & Ha & H1). apply Ok_inj in H1. injection H1 as <- <-. apply take_adv_inv in Ha as [_ Ha]. cbn. lia.
Qed.
Lemma sstep_coll_up E now c o s x s' : sstep E now c o s x s' -> is_withdraw x = false -> pays_in x -> forall r, held_coll (va_comp (s_acc s)) r <= held_coll (va_comp (s_acc s')) r.
Proof.
  intros H Hw Hp r. pose proof (sstep_frames _ _ _ _ _ _ _ H) as (_ & _ & Hf & _). destruct (touches_coll x) eqn:Ht.
  - destruct x; try discriminate Ht; try discriminate Hw. inversion H; subst; cbn [s_acc] in *; clear Hf. rename H4 into Hd || idtac.
    match goal with H : va_deposit _ _ = Ok _ |- _ => rename H into Hd' end. unfold va_deposit, acc_deposit in Hd'. bd Hd' as (c1 & H1 & Hd'). bd Hd' as (a1 & H2 & Hd'). bd H2 as (c2 & H2a & H2). bd H2 as (v2 & H2b & H2).
    apply Ok_inj in Hd', H2. subst. cbn. exact (coll_adds_up _ _ _ H2a Hp r).
  - specialize (Hf eq_refl). unfold g_coll in Hf. injection Hf as _ E2 E3. unfold held_coll. rewrite E2. lia.
Qed.
Lemma sstep_coll_down E now c o s x s' : sstep E now c o s x s' -> is_deposit x = false -> forall r, held_coll (va_comp (s_acc s')) r <= held_coll (va_comp (s_acc s)) r.
Proof.
  intros H Hw r. pose proof (sstep_frames _ _ _ _ _ _ _ H) as (_ & _ & Hf & _). destruct (touches_coll x) eqn:Ht.
  - destruct x; try discriminate Ht; try discriminate Hw. inversion H; subst; cbn [s_acc] in *; clear Hf.
    match goal with H : va_withdraw _ _ _ _ = Ok _ |- _ => rename H into Hd' end. unfold va_withdraw, acc_withdraw in Hd'. bd Hd' as ([a1 b1] & H2 & Hd'). bd Hd' as (c1 & H1 & Hd'). bd H2 as ([v2 b2] & H2a & H2). bd H2 as (c2 & H2b & H2).
    apply Ok_inj in Hd', H2. injection Hd' as <- <-. injection H2 as <- <-. cbn. exact (coll_subs_down _ _ _ H2b (take_batch_nonneg _ _ _ _ _ _ H2a) r).
  - specialize (Hf eq_refl). unfold g_coll in Hf. injection Hf as _ E2 E3. unfold held_coll. rewrite E2. lia.
Qed.
Lemma ssteps_coll_up E now c o s l s' : ssteps E now c o s l s' -> Forall (fun x => is_withdraw x = false) l -> Forall pays_in l -> forall r, held_coll (va_comp (s_acc s)) r <= held_coll (va_comp (s_acc s')) r.
Proof. induction 1 as [|s x s1 l s2 H1 H2 IH]; intros Hf Hp r; [lia|]. inversion Hf; inversion Hp; subst. pose proof (sstep_coll_up _ _ _ _ _ _ _ H1 ltac:(assumption) ltac:(assumption) r). specialize (IH ltac:(assumption) ltac:(assumption) r). lia. Qed.
Lemma ssteps_coll_down E now c o s l s' : ssteps E now c o s l s' -> Forall (fun x => is_deposit x = false) l -> forall r, held_coll (va_comp (s_acc s')) r <= held_coll (va_comp (s_acc s)) r.
Proof. induction 1 as [|s x s1 l s2 H1 H2 IH]; intros Hf r; [lia|]. inversion Hf; subst. pose proof (sstep_coll_down _ _ _ _ _ _ _ H1 ltac:(assumption) r). specialize (IH ltac:(assumption) r). lia. Qed.
Lemma acct_coll_moves E w a l w' acc acc' : acct_call E w a l w' -> w_accounts w !! a = Some acc -> w_accounts w' !! a = Some acc' -> forall r,
  (Forall (fun x => is_withdraw x = false) l -> Forall pays_in l -> held_coll acc r <= held_coll acc' r) /\ (Forall (fun x => is_deposit x = false) l -> held_coll acc' r <= held_coll acc r).
Proof.
  intros Hc Ha Ha' r. destruct (acct_call_out _ _ _ _ _ _ _ Hc Ha Ha') as (c & o & idsc & ids & v0 & s1 & refs' & _ & _ & Hv & Hcomp & Hs & _ & Hu).
  apply acc_update_coll in Hu as [Hu _]. unfold held_coll at 2 3. rewrite Hu, <- Hcomp. split; intros.
  - exact (ssteps_coll_up _ _ _ _ _ _ _ Hs ltac:(assumption) ltac:(assumption) r).
  - exact (ssteps_coll_down _ _ _ _ _ _ _ Hs ltac:(assumption) r).
Qed.
(** The pool's side. *)
Lemma acct_pool_same E w a l w' : acct_call E w a l w' -> Forall (fun x => touches_ppos x = false) l -> po_positions (w_pool w') = po_positions (w_pool w).
Proof.
  intros [c o idsc ids v0 s1 acc' refs' Hc Ho Hv Hs Hz Hw] Hl. rewrite Hw. unfold final_world. cbn.
  pose proof (ssteps_frame_ppos _ _ _ _ _ _ _ Hs Hl) as [Hp _]. cbn [s_pool] in Hp. unfold g_ppos in Hp. injection Hp as P1 P2 P3. rewrite P1, P2, P3.
  pose proof (realize_get_pool w ids) as Hg. apply (f_equal po_positions) in Hg. exact Hg.
Qed.
(** Collected fees only grow in account calls. *)
Lemma sstep_fd_up E now c o s x s' : ec_validate (vc_exchange c) = true -> sstep E now c o s x s' -> fd_protocol (s_fd s) <= fd_protocol (s_fd s') /\ fd_treasury (s_fd s) <= fd_treasury (s_fd s').
Proof.
  intros Hv H. destruct (touches_ref x) eqn:Ht.
  - destruct H; try discriminate Ht. destruct q as [[[q0 q1] q2] q3]. apply fees_referral_inv in H.
    destruct H as (fp & ft & fr & -> & -> & -> & _ & Hfd & _). apply ec_valid_shares in Hv.
    destruct Hv as (_ & _ & V1 & V2 & V3 & _). rewrite Hfd. simpl.
    pose proof (quot_nonneg _ _ H0 (proj1 V1)). pose proof (quot_nonneg _ _ H0 (proj1 V2)). lia.
  - apply sstep_frames in H. destruct H as (H & _). destruct (H Ht) as [_ ->]. lia.
Qed.
Lemma acct_fd_up E w a l w' : acct_call E w a l w' -> ec_validate (ec_decompress (cf_exchange (w_config w))) = true -> fd_protocol (w_fd w) <= fd_protocol (w_fd w') /\ fd_treasury (w_fd w) <= fd_treasury (w_fd w').
Proof.
  intros [c o idsc ids v0 s1 acc' refs' Hc Ho Hv Hs Hz Hw] Hval. rewrite Hw. unfold final_world. cbn.
  pose proof (get_config_exchange _ _ _ Hc) as He. rewrite <- He in Hval.
  apply (ssteps_rel E (w_now w) c o (fun s s' => fd_protocol (s_fd s) <= fd_protocol (s_fd s') /\ fd_treasury (s_fd s) <= fd_treasury (s_fd s'))) in Hs; [exact Hs|intros; lia|intros; lia|].
  intros s x s2 Hx. exact (sstep_fd_up _ _ _ _ _ _ _ Hval Hx).
Qed.
(** Only submissions lengthen the list of requests. *)
Lemma try_set1_add ph st v l x v' l' : va_try_set1 ph st (v, l) x = Ok (v', l') -> va_req_add v' = va_req_add v.
Proof.
  unfold va_try_set1. destruct x as [i r]. intros H. destruct (in_list _ _); [|inv_go; reflexivity].
  bd H as (v1 & H1 & H). apply Ok_inj in H. injection H as <- <-. cbn.
  destruct (is_pending st), (is_pending (kr_status r)); unfold va_add_active, va_remove_active in H1; inv_go; reflexivity.
Qed.
Lemma try_set_add v is_ st v' l : va_try_set_status v is_ st = Ok (v', l) -> va_req_add v' = va_req_add v.
Proof.
  unfold va_try_set_status. intros H. bd H as (ph & H1 & H). bd H as (rs & H2 & H).
  revert H. apply (rfold_ind (va_try_set1 ph st) (fun s s' => va_req_add (fst s') = va_req_add (fst s))); [auto|].
  intros [v0 l0] x [v1 l1] [v2 l2] Hs Hr. apply try_set1_add in Hs. cbn [fst] in *. congruence.
Qed.
Lemma cancel1_add v x v' : va_cancel1 v x = Ok v' -> va_req_add v' = va_req_add v.
Proof.
  unfold va_cancel1. destruct x as [i r]. intros H. bd H as (ph & H0 & H). bd H as (? & H1 & H). bd H as (v1 & H2 & H). apply Ok_inj in H. subst v'. cbn.
  destruct (is_pending _); unfold va_remove_active in H2; inv_go; reflexivity.
Qed.
Lemma cancel_add v is_ v' : va_cancel_requests v is_ = Ok v' -> va_req_add v' = va_req_add v.
Proof.
  unfold va_cancel_requests. intros H. bd H as (rs & H2 & H).
  revert H. apply (rfold_ind va_cancel1 (fun s s' => va_req_add s' = va_req_add s)); [auto|].
  intros v0 x v1 v2 Hs Hr. apply cancel1_add in Hs. congruence.
Qed.
Lemma process_add now v i v' rq ex : va_process_request now v i = Ok (v', rq, ex) -> va_req_add v' = va_req_add v.
Proof.
  unfold va_process_request. intros H. bd H as (? & _ & H). bd H as (r & _ & H). cbv zeta in H. bd H as (st & _ & H). bd H as (? & _ & H). bd H as (v1 & H1 & H). apply Ok_inj in H. injection H as <- _ _. cbn.
  unfold va_remove_active in H1. inv_go. reflexivity.
Qed.
Lemma acct_count_same E w a l w' acc acc' : acct_call E w a l w' -> rq_shape l -> w_accounts w !! a = Some acc -> w_accounts w' !! a = Some acc' -> acc_ok acc ->
  Forall (fun x => is_pushed x = false) l -> kl_len (ac_requests acc') = kl_len (ac_requests acc).
Proof.
  intros H Hsh Ha Ha' Hok Hl. destruct (rq_call _ _ _ _ _ _ _ H Hsh Ha Ha' Hok) as (c & o & idsc & ids & v0 & s1 & _ & Hv & _ & Hs & _ & _ & _ & _ & _ & _ & Hlen & _).
  assert (va_req_add (s_acc s1) = []) as Hadd.
  { apply get_acc_inv in Hv. destruct Hv as (acc1 & _ & _ & _ & _ & _ & _ & _ & _ & _ & _ & Hra & _). rewrite <- Hra. change v0 with (s_acc (mkS (get_pool w ids) v0 (w_fd w))) at 1. revert Hs Hl. generalize (mkS (get_pool w ids) v0 (w_fd w)) at 1 2. intros s Hs Hl.
    apply (ssteps_frame E (w_now w) c o is_pushed (fun s => va_req_add (s_acc s))) with (l := l); [|exact Hs|exact Hl]. clear. intros s x s' H Hx.
    destruct (touches_rq x) eqn:Ht; [|apply sstep_frames in H; destruct H as (_ & H & _); specialize (H Ht); unfold g_rq in H; congruence].
    destruct H; try discriminate; cbn [s_acc]; eauto using try_set_add, cancel_add, process_add. }
  rewrite Hlen, Hadd. simpl. lia.
Qed.
