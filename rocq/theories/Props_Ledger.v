(** * Ledger, fee oaths, fee collection, independence of accounts: C01, C46, C47, C50. *)
From Verif Require Import Base DFloat Lists Types Config Oracle Pool Account Fees Referral ExInternal Exchange System Sums Trace Frames Calls Shape Spec P_Ledger P_Accounts Frames2 Props_Config P_Fees Scenario Witness.

(** ** C01 *)
(** In every reachable state the claims on the pool add up to the outstanding oaths. *)
Theorem C01_ledger_equals_oaths E w : reachable E w -> ledger w = w_oath w.
Proof. apply ledger_reachable. Qed.
(** After any sequence of transactions they add up to zero. *)
Theorem C01_zero_after_transactions E w : tx_reachable E w -> ledger w = 0.
Proof. intros H. apply tx_reachable_reachable in H as [H1 H2]. rewrite (ledger_reachable _ _ H1). exact H2. Qed.
(** No call creates or destroys claims, whatever the state it is made in. *)
Theorem C01_no_call_creates_claims E cx w o w' out : step E cx w o = Ok (w', out) -> ledger w' - w_oath w' = ledger w - w_oath w.
Proof. intros H. apply step_gstep in H. eapply gstep_ledger; eauto. Qed.
(** A state with two traders, a referral that earned rewards, and an outstanding oath. *)
Example C01_ex : reachable sc_env W5 /\ ledger W5 = 1800000000000000000 /\ total_referral_balance W5 <> 0 /\ po_vb (w_pool W5) < 0.
Proof. split; [exact W5_reach|]. vm_compute. repeat split; discriminate. Qed.

(** ** C50 *)
Lemma named_created E w o a w' : created E w o a w' -> named_account o = Some a.
Proof. intros (oath & rule & ts & code & ref & g & more & -> & _). reflexivity. Qed.
Lemma named_op o a : op_account o = Some a -> named_account o = Some a.
Proof. destruct o; simpl; congruence. Qed.
(** A call leaves every account it does not name exactly as it was. *)
Theorem C50_other_accounts_untouched E cx w o w' out a :
  step E cx w o = Ok (w', out) -> named_account o <> Some a -> w_accounts w' !! a = w_accounts w !! a.
Proof.
  intros H Hn. destruct (step_account _ _ _ _ _ _ a H) as [Heq|[[Ho _]|Hc]]; [exact Heq| |].
  - apply named_op in Ho. contradiction.
  - apply named_created in Hc. contradiction.
Qed.
(** A call that names no account changes none. *)
Theorem C50_unnamed_changes_none E cx w o w' out : step E cx w o = Ok (w', out) -> named_account o = None -> w_accounts w' = w_accounts w.
Proof. intros H Hn. apply map_eq. intros a. eapply C50_other_accounts_untouched; [exact H|]. rewrite Hn. discriminate. Qed.
(** An account once created is never removed or replaced by a fresh one. *)
Theorem C50_accounts_persist E cx w o w' out a : step E cx w o = Ok (w', out) -> is_Some (w_accounts w !! a) -> is_Some (w_accounts w' !! a).
Proof.
  intros H Ha. destruct (step_account _ _ _ _ _ _ a H) as [Heq|[[Ho (l & Hl & _)]|Hc]].
  - rewrite Heq. exact Ha.
  - apply acct_call_self in Hl. destruct Hl as (_ & Hl & _). exact Hl.
  - destruct Hc as (oath & rule & ts & code & ref & g & more & _ & Hnone & _). rewrite Hnone in Ha. destruct Ha; discriminate.
Qed.
(** Two accounts exist; a trade of one succeeds. *)
Example C50_ex : exists w' out, step sc_env cx_u2 W2 (snd (order cx_u2 A2 1%N (- dec 1) true)) = Ok (w', out) /\
  is_Some (w_accounts W2 !! A3) /\ w_accounts w' !! A2 <> w_accounts W2 !! A2.
Proof.
  destruct (try_true W2 (order cx_u2 A2 1%N (- dec 1) true) (fun w' _ => negb (bool_decide (ac_active <$> w_accounts w' !! A2 = ac_active <$> w_accounts W2 !! A2)))) as (w' & out & H & Hf).
  { vm_compute. reflexivity. }
  exists w', out. split; [exact H|]. split; [vm_compute; eauto|]. intros Heq. rewrite Heq, bool_decide_eq_true_2 in Hf by reflexivity. exact (Bool.diff_false_true Hf).
Qed.

(** ** C47 *)
Theorem C47_collect_treasury E cx w w' out : step E cx w OCollectTreasury = Ok (w', out) ->
  let t := fd_treasury (w_fd w) in
  o_tokens out = [(BASE, t)] /\ 0 <= t <= po_base (w_pool w) /\
  w' = w <| w_fd := mkFD (fd_protocol (w_fd w)) 0 |>
         <| w_pool := w_pool w <| po_base := po_base (w_pool w) - t |> <| po_vb := po_vb (w_pool w) + t |> |>.
Proof. intros H. apply step_gstep in H. inversion H; subst; try discriminate. split; [assumption|]. split; [assumption|]. destruct (w_fd w), w; reflexivity. Qed.
Theorem C47_collect_fee_delegator E cx w w' out : step E cx w OCollectFeeDelegator = Ok (w', out) ->
  let t := dl_vb (w_dl w) in
  o_tokens out = [(BASE, t)] /\ 0 <= t <= po_base (w_pool w) /\
  w' = w <| w_dl := w_dl w <| dl_vb := 0 |> |>
         <| w_pool := w_pool w <| po_base := po_base (w_pool w) - t |> <| po_vb := po_vb (w_pool w) + t |> |>.
Proof. intros H. apply step_gstep in H. inversion H; subst; try discriminate. split; [assumption|]. split; [assumption|]. destruct w; reflexivity. Qed.
Theorem C47_collect_referral_rewards E cx w pr w' out : step E cx w (OCollectReferralRewards pr) = Ok (w', out) ->
  exists d, w_refs w !! snd pr = Some d /\ fst pr = REFERRAL /\ cx_proves cx REFERRAL (snd pr) = true /\
  o_tokens out = [(BASE, rf_balance d)] /\ 0 <= rf_balance d <= po_base (w_pool w) /\
  w' = w <| w_refs := <[snd pr := d <| rf_balance := 0 |>]> (w_refs w) |>
         <| w_pool := w_pool w <| po_base := po_base (w_pool w) - rf_balance d |> <| po_vb := po_vb (w_pool w) + rf_balance d |> |>.
Proof.
  intros H. apply step_gstep in H. inversion H; subst; try discriminate. exists d. split; [assumption|]. split; [assumption|].
  split; [congruence|]. split; [assumption|]. split; [assumption|]. destruct w; reflexivity.
Qed.
Theorem C47_swap_protocol_fee E cx w b w' out : step E cx w (OSwapProtocolFee b) = Ok (w', out) ->
  let t := fd_protocol (w_fd w) in let burn := ec_protocol_burn_amount (g_exchange_config w) in
  b_res b = PROTOCOL /\ 0 <= burn <= b_amt b /\
  o_tokens out = [(BASE, t); (PROTOCOL, b_amt b - burn)] /\ 0 <= t <= po_base (w_pool w) /\
  w' = w <| w_fd := mkFD 0 (fd_treasury (w_fd w)) |> <| w_burnt := w_burnt w + burn |>
         <| w_pool := w_pool w <| po_base := po_base (w_pool w) - t |> <| po_vb := po_vb (w_pool w) + t |> |>.
Proof.
  intros H. apply step_gstep in H. inversion H; subst; try discriminate.
  match goal with H : get_config w ∅ = Ok c |- _ => rewrite (get_config_exchange _ _ _ H) in * end. fold (g_exchange_config w) in *.
  split; [assumption|]. split; [assumption|]. split; [assumption|]. split; [assumption|]. destruct (w_fd w), w; reflexivity.
Qed.
(** Base tokens plus virtual balance of the pool, all that it owns net, never move in these calls. *)
Theorem C47_pool_net_value_unchanged E cx w o w' out :
  step E cx w o = Ok (w', out) ->
  match o with OCollectTreasury | OCollectFeeDelegator | OCollectReferralRewards _ | OSwapProtocolFee _ => True | _ => False end ->
  po_base (w_pool w') + po_vb (w_pool w') = po_base (w_pool w) + po_vb (w_pool w).
Proof.
  intros H Ho. destruct o; try contradiction.
  - apply C47_collect_treasury in H as (_ & _ & ->). simpl. lia.
  - apply C47_collect_fee_delegator in H as (_ & _ & ->). simpl. lia.
  - apply C47_swap_protocol_fee in H as (_ & _ & _ & _ & ->). simpl. lia.
  - apply C47_collect_referral_rewards in H as (d & _ & _ & _ & _ & _ & ->). simpl. lia.
Qed.
(** The calls do succeed: whenever the pool has the tokens, the caller the role and the badge is in place. *)
Theorem C47_collect_succeeds E cx w : reachable E w -> access_ok cx w (op_access OCollectTreasury) = true -> 1 <= w_auth w ->
  fd_treasury (w_fd w) <= po_base (w_pool w) <= DMAX -> DMIN <= po_vb (w_pool w) + fd_treasury (w_fd w) <= DMAX ->
  exists w' out, step E cx w OCollectTreasury = Ok (w', out).
Proof.
  intros Hr Ha Hb Hp Hv. apply fees_reachable in Hr as ((_ & Ht & _) & _).
  unfold step. simpl op_buckets. simpl forallb. rewrite Ha.
  replace (1 <=? w_auth w) with true by (symmetry; apply Z.leb_le; lia). simpl.
  unfold m_collect_treasury, fd_update_treasury. simpl. unfold pool_pay_out. simpl.
  replace (fd_treasury (w_fd w) <=? po_base (w_pool w)) with true by (symmetry; apply Z.leb_le; lia). simpl.
  unfold vp_add_vb. simpl. unfold dadd, chk. replace (in_dec (po_vb (w_pool w) + fd_treasury (w_fd w))) with true by (symmetry; apply in_dec_spec; lia). simpl.
  unfold vp_withdraw, pool_withdraw. simpl. unfold take_adv, round_amount. rewrite unit18 by reflexivity. rewrite Z.quot_1_r, Z.mul_1_r.
  unfold chk. replace (in_dec (fd_treasury (w_fd w))) with true by (symmetry; apply in_dec_spec; unfold DMIN, DMAX in *; lia). simpl.
  replace (0 <=? fd_treasury (w_fd w)) with true by (symmetry; apply Z.leb_le; lia).
  replace (fd_treasury (w_fd w) <=? po_base (w_pool w)) with true by (symmetry; apply Z.leb_le; lia). simpl.
  unfold dsub, chk. replace (in_dec (po_base (w_pool w) - fd_treasury (w_fd w))) with true by (symmetry; apply in_dec_spec; unfold DMIN, DMAX in *; lia). simpl.
  eauto.
Qed.
Example C47_ex : exists w1 o1 w2 o2, step sc_env cx_owner W5 OCollectTreasury = Ok (w1, o1) /\ fd_treasury (w_fd W5) <> 0 /\
  step sc_env cx_any W5 (OCollectReferralRewards (REFERRAL, 0%N)) = Ok (w2, o2) /\ o_tokens o2 = [(BASE, 4050000012150000000)].
Proof.
  destruct (try_true W5 (cx_owner, OCollectTreasury) (fun _ _ => true)) as (w1 & o1 & H1 & _); [vm_compute; reflexivity|].
  destruct (try_true W5 (cx_any, OCollectReferralRewards (REFERRAL, 0%N)) (fun _ o => bool_decide (o_tokens o = [(BASE, 4050000012150000000)]))) as (w2 & o2 & H2 & Hf); [vm_compute; reflexivity|].
  exists w1, o1, w2, o2. split; [exact H1|]. split; [vm_compute; discriminate|]. split; [exact H2|]. apply bool_decide_eq_true in Hf. exact Hf.
Qed.

(** ** C46 *)
(** lock_fee hands out an oath of the value added to the delegator's balance, within the limit. *)
Theorem C46_lock_fee_bounded E cx w amt w' out : step E cx w (OLockFee amt) = Ok (w', out) ->
  exists value, o_tokens out = [(FEE_OATH, value)] /\ 0 <= value /\
    w_oath w' = w_oath w + value /\ dl_vb (w_dl w') = dl_vb (w_dl w) + value /\
    w_oath w' <= dl_max_lock (w_dl w') /\ 0 <= amt <= dl_vault (w_dl w).
Proof. intros H. apply step_gstep in H. inversion H; subst; try discriminate. exists value. simpl. auto 10. Qed.
(** Outside lock_fee the supply of oaths changes only by the oath a call takes in, and
    such a call needs an oath that exists. *)
Theorem C46_oaths_only_settled E cx w o w' out : step E cx w o = Ok (w', out) -> (forall amt, o <> OLockFee amt) ->
  match oath_of o with
  | Some b => b_res b = FEE_OATH /\ 0 <= b_amt b <= w_oath w /\ w_oath w' = w_oath w - b_amt b
  | None => w_oath w' = w_oath w
  end.
Proof.
  intros H Hn. pose proof (step_exec _ _ _ _ _ H) as (He & Hb & _). apply step_oath_supply in H. destruct (oath_of o) as [b|] eqn:Ho.
  - pose proof (exec_oath_bound _ _ _ _ _ _ He Ho) as [Hr Hle]. split; [exact Hr|].
    assert (0 <= b_amt b) as Hpos.
    { assert (b ∈ op_buckets o) as Hin. { destruct o; simpl in Ho; try discriminate; subst; simpl; rewrite ?elem_of_cons; auto. }
      rewrite forallb_forall in Hb. specialize (Hb b). rewrite <- elem_of_list_In in Hb. apply Hb in Hin. unfold bucket_ok in Hin. rewrite !andb_true_iff in Hin. lia. }
    split; [lia|]. destruct H as [(amt & v & -> & _)|[[H _]|[H _]]]; [exfalso; eapply Hn; reflexivity|exact H|discriminate].
  - destruct H as [(amt & v & -> & _)|[[H _]|[_ H]]]; [exfalso; eapply Hn; reflexivity|simpl in H; lia|exact H].
Qed.
(** What settling an oath does to the account: its balance falls by exactly the oath's
    value (and rises by the base tokens deposited in the same call). *)
Definition quiet (x : sact) : bool := match x with AOath _ | AAddBase _ | ADeposit _ | ACancel _ | APush _ _ _ _ | ALevel _ _ => true | _ => false end.
Definition act_vb (x : sact) : Z := match x with AOath b => - b_amt b | AAddBase v => v | _ => 0 end.
Lemma quiet_vb E now c o s l s' : ssteps E now c o s l s' -> Forall (fun x => quiet x = true) l -> va_vb (s_acc s') = va_vb (s_acc s) + lsum act_vb l.
Proof.
  induction 1 as [|s x s1 l s2 H1 H2 IH]; intros Hf; [simpl; lia|]. apply Forall_cons in Hf as [Hx Hf]. rewrite (IH Hf). rewrite lsum_cons.
  destruct H1; try discriminate Hx; cbn [s_acc act_vb].
  - apply x_settle_fee_oath_inv in H as (-> & _). simpl. lia.
  - apply x_add_base_inv in H as [_ ->]. simpl. lia.
  - apply va_deposit_frame in H as (_ & _ & _ & _ & ->). lia.
  - apply va_cancel_frame in H as [H _]. apply g_norq_ref in H as [_ ->]. lia.
  - apply va_push_frame in H as [H _]. apply g_norq_ref in H as [_ ->]. lia.
  - simpl. lia.
Qed.
Lemma lsum_adds ts : lsum act_vb (add_acts ts) = amount_in BASE ts.
Proof.
  unfold add_acts, amount_in. rewrite lsum_app, lsum_map. simpl. rewrite Z.add_0_r. induction ts as [|b ts IH]; [reflexivity|]. simpl.
  unfold is_base at 1. destruct (b_res b =? BASE)%N; simpl; rewrite IH; lia.
Qed.
Lemma quiet_adds ts : Forall (fun x => quiet x = true) (add_acts ts).
Proof. unfold add_acts. apply Forall_app. split; [|repeat constructor]. induction (List.filter is_base ts); constructor; auto. Qed.
Lemma quiet_push l : Forall is_push l -> Forall (fun x => quiet x = true) l /\ lsum act_vb l = 0.
Proof. induction 1 as [|x l Hx _ [IH1 IH2]]; [split; [constructor|reflexivity]|]. destruct x; simpl in Hx; try contradiction. split; [constructor; auto|simpl; exact IH2]. Qed.
Definition tokens_of (o : op) : list bucket := match o with OCreateAccount _ _ ts _ _ | OAddCollateral _ _ ts => ts | _ => [] end.
Lemma acct_call_vb E w a l w' acc : acct_call E w a l w' -> w_accounts w !! a = Some acc -> Forall (fun x => quiet x = true) l ->
  exists acc', w_accounts w' !! a = Some acc' /\ ac_vb acc' = ac_vb acc + lsum act_vb l.
Proof.
  intros Hl Ha Hq. pose proof (acct_call_self _ _ _ _ _ Hl) as (_ & (acc' & Ha') & _). exists acc'. split; [exact Ha'|].
  destruct (acct_call_out _ _ _ _ _ _ _ Hl Ha Ha') as (c & o & idsc & ids & v0 & s1 & refs' & _ & _ & Hv & Hcomp & Hs & _ & Hu).
  apply quiet_vb in Hs; [|exact Hq]. cbn [s_acc] in Hs. apply get_acc_inv in Hv. destruct Hv as (acc0 & Ha0 & _ & _ & _ & _ & Hvb & _).
  rewrite Ha in Ha0. injection Ha0 as <-. unfold acc_update in Hu. bd Hu as (r1 & _ & Hu). bd Hu as (r2 & _ & Hu). apply Ok_inj in Hu. subst acc'. simpl.
  rewrite Hs, Hvb. reflexivity.
Qed.
Theorem C46_settled_against_the_account E cx w o w' out a b acc :
  step E cx w o = Ok (w', out) -> oath_of o = Some b -> named_account o = Some a -> w_accounts w !! a = Some acc ->
  exists acc', w_accounts w' !! a = Some acc' /\ ac_vb acc' = ac_vb acc + amount_in BASE (tokens_of o) - b_amt b.
Proof.
  intros H Ho Hn Ha. apply step_gstep in H. destruct H; try discriminate.
  - assert (a0 = a) as ->. { destruct o; simpl in *; congruence. }
    destruct H0 as (l & Hl & Hop & _).
    assert (Forall (fun x => quiet x = true) l /\ lsum act_vb l = amount_in BASE (tokens_of o) - b_amt b) as [Hq Hsum].
    { destruct o; try discriminate Ho; try discriminate H; simpl in Ho, Hop; subst oath; unfold tokens_of; change (amount_in BASE []) with 0.
      - destruct Hop as (acc0 & _ & _ & ->). simpl. split; [repeat constructor|lia].
      - destruct Hop as (acc0 & _ & _ & _ & ->). simpl. split; [repeat constructor|lia].
      - destruct Hop as (_ & ->). simpl. split; [repeat constructor|lia].
      - destruct Hop as (_ & ->). simpl. split; [repeat constructor|lia].
      - destruct Hop as (_ & ->). simpl. split; [repeat constructor|lia].
      - destruct Hop as (_ & ->). split; [apply Forall_app; split; [apply quiet_adds|repeat constructor]|]. rewrite lsum_app, lsum_adds. simpl. lia.
      - destruct Hop as (_ & ->). simpl. split; [repeat constructor|lia].
      - destruct Hop as (_ & act & can & ->). simpl. split; [repeat constructor|lia].
      - destruct Hop as (_ & l' & -> & Hp). apply quiet_push in Hp as [Hq Hs]. simpl. rewrite Hs. split; [constructor; [reflexivity|exact Hq]|lia].
      - destruct Hop as (_ & ->). simpl. split; [repeat constructor|lia]. }
    destruct (acct_call_vb _ _ _ _ _ _ Hl Ha Hq) as (acc' & Ha' & Hvb). exists acc'. split; [exact Ha'|]. lia.
  - simpl in Hn. injection Hn as ->. congruence.
  - destruct o; simpl in *; discriminate.
  - destruct o; simpl in *; discriminate.
Qed.
(** A new account starts with the deposited base tokens (and those of its referral code)
    minus the oath. *)
Theorem C46_settled_against_the_new_account E cx w b rule ts code a w' out :
  step E cx w (OCreateAccount (Some b) rule ts code a) = Ok (w', out) ->
  exists acc' more, w_accounts w' !! a = Some acc' /\ ac_vb acc' = amount_in BASE (ts ++ more) - b_amt b /\ (code = None -> more = []).
Proof.
  intros H. apply step_gstep in H. inversion H; subst; try discriminate. simpl in *.
  match goal with H : acct_call _ _ _ _ _ |- _ => rename H into Hl end.
  destruct (acct_call_vb _ _ _ _ _ (acc_new rule rule rule ref) Hl) as (acc' & Ha' & Hvb).
  - simpl. apply lookup_insert.
  - apply Forall_app. split; [apply quiet_adds|repeat constructor].
  - exists acc', more. split; [exact Ha'|]. split; [rewrite Hvb, lsum_app, lsum_adds; simpl; lia|].
    intros ->. match goal with H : ref = None /\ _ |- _ => destruct H as (_ & _ & ->) end. reflexivity.
Qed.
(** No committed transaction leaves an oath outstanding. *)
Theorem C46_no_oath_after_transactions E w : tx_reachable E w -> w_oath w = 0.
Proof. intros H. apply tx_reachable_reachable in H as [_ H]. exact H. Qed.
(** The fee balances are never negative, in any history of any configuration the exchange accepts. *)
Theorem C46_fee_balances_nonneg E w : reachable E w -> fees_nonneg w /\ 0 <= w_oath w.
Proof. intros H. split; [apply (fees_reachable E w H)|apply (oath_reachable E w H)]. Qed.
Example C46_ex : exists w' out acc acc', step sc_env cx_u5 W5 (OSetLevel2Auth (Some (FEE_OATH, dec 1)) A5 u3_rule) = Ok (w', out) /\
  w_accounts W5 !! A5 = Some acc /\ w_accounts w' !! A5 = Some acc' /\ ac_vb acc' = ac_vb acc - dec 1 /\ w_oath w' = 800000000000000000.
Proof.
  destruct (try_true W5 (cx_u5, OSetLevel2Auth (Some (FEE_OATH, dec 1)) A5 u3_rule) (fun w' _ => w_oath w' =? 800000000000000000)) as (w' & out & H & Hf); [vm_compute; reflexivity|].
  cbn [fst snd] in H. destruct (w_accounts W5 !! A5) as [acc|] eqn:Ha; [|vm_compute in Ha; discriminate].
  destruct (C46_settled_against_the_account _ _ _ _ _ _ A5 _ acc H eq_refl eq_refl Ha) as (acc' & Ha' & Hvb).
  exists w', out, acc, acc'. split; [exact H|]. split; [reflexivity|]. split; [exact Ha'|]. split; [rewrite Hvb; simpl; unfold amount_in; simpl; lia|lia].
Qed.
