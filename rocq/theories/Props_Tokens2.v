(** * Conservation of tokens over whole histories: C02. *)
From Verif Require Import Base DFloat Lists Types Config Oracle Pool Account Fees Referral ExInternal Exchange System Sums Trace Frames Calls Shape Spec SpecReferral P_Ledger P_Accounts Frames2 P_Fees P_Tokens P_Coll P_Gen P_Gen2 Scenario Witness P_Requests2 P_Refs P_Whole Props_Tokens Props_Collateral Props_Referral.
#[local] Arguments N.eqb : simpl never.

(** The base tokens an account call puts into the pool are never negative amounts. *)
Definition puts_in (x : sact) : Prop := match x with AAddBase v | ADepositBase v => 0 <= v | _ => True end.
Lemma puts_oath oath : Forall puts_in (oath_acts oath). Proof. destruct oath; repeat constructor. Qed.
Lemma puts_add ts : bs_nonneg ts -> Forall puts_in (add_acts ts).
Proof.
  intros Hn. unfold add_acts. apply Forall_app. split; [|constructor; [exact I|constructor]]. unfold bs_nonneg in Hn. rewrite Forall_forall in Hn. apply Forall_forall. intros x Hx. apply elem_of_list_In, in_map_iff in Hx as (b & <- & Hb).
  apply filter_In in Hb as [Hb _]. cbn. apply Hn. apply elem_of_list_In. exact Hb.
Qed.
Ltac pon := apply Forall_app; split; [apply puts_oath|repeat constructor].
Lemma op_acts_puts_in w o out l : op_acts w o out l -> bs_nonneg (op_buckets o) -> Forall puts_in l.
Proof.
  intros H Hb. destruct o; simpl in H; try contradiction.
  - destruct H as (acc & _ & _ & ->). pon.
  - destruct H as (acc & _ & _ & _ & ->). pon.
  - destruct H as (_ & ->). pon.
  - destruct H as (_ & ->). pon.
  - destruct H as (_ & ->). pon.
  - destruct H as (_ & ->). apply Forall_app. split; [|apply puts_oath]. apply puts_add. simpl in Hb. apply Forall_app in Hb as [_ Hb]. exact Hb.
  - destruct H as (_ & ->). pon.
  - destruct H as (_ & act & can & ->). pon.
  - destruct H as (_ & l' & -> & Hl). apply Forall_app. split; [apply puts_oath|]. eapply Forall_impl; [exact Hl|]. intros [] Hx; simpl in *; try contradiction; exact I.
  - destruct H as (_ & ->). pon.
  - destruct H as (v0 & v1 & rq & ex & l' & Hv & Hp & Hx & -> & _). constructor; [exact I|]. unfold exec_acts in Hx. destruct ex; [destruct Hx as [-> _]; constructor|]. destruct rq as [r|r].
    + destruct Hx as (k & bs & -> & _). apply Forall_app. split; [|repeat constructor]. induction k; constructor; simpl; auto.
    + destruct Hx as (l0 & fee & -> & Hl & _). constructor; [exact I|]. constructor; [exact I|]. apply Forall_app. split; [|repeat constructor].
      eapply Forall_impl; [exact Hl|]. intros [] Hy; simpl in *; try contradiction; exact I.
  - destruct H as (_ & paid & value & token & -> & Hp & _). repeat constructor; cbn; lia.
  - destruct H as (_ & paid & bs & st & lo & fee & -> & Hlo & Hp & _). simpl. destruct Hlo as [->|[x ->]]; repeat constructor; cbn; lia.
  - destruct H as (amt & fee & -> & _). repeat constructor.
Qed.
Lemma sstep_base E now c o s x s' : sstep E now c o s x s' -> puts_in x -> 0 <= po_base (vp_comp (s_pool s)) -> 0 <= po_base (vp_comp (s_pool s')).
Proof.
  intros H Hp Hc. pose proof (sstep_frames _ _ _ _ _ _ _ H) as (_ & _ & _ & _ & _ & _ & Fb & _). destruct (touches_base x) eqn:Tb.
  - clear Fb. destruct H; try discriminate Tb; cbn [s_pool s_acc puts_in] in *.
    + apply x_add_base_inv in H as [-> _]. simpl. lia.
    + apply vp_withdraw_inv in H as [Ht ->]. apply x_settle_account_inv in H1 as [-> _]. apply take_adv_inv in Ht as [_ Ht]. simpl. lia.
    + apply vp_deposit_inv in H as ->. simpl. lia.
  - specialize (Fb eq_refl). unfold g_base in Fb. injection Fb as _ Fb. rewrite Fb. exact Hc.
Qed.
Lemma ssteps_base E now c o s l s' : ssteps E now c o s l s' -> Forall puts_in l -> 0 <= po_base (vp_comp (s_pool s)) -> 0 <= po_base (vp_comp (s_pool s')).
Proof. induction 1 as [|s x s1 l s2 H1 H2 IH]; intros Hf Hc; [exact Hc|]. inversion Hf; subst. apply IH; [assumption|]. eapply sstep_base; eauto. Qed.
Lemma acct_call_base E w a l w' : acct_call E w a l w' -> Forall puts_in l -> 0 <= po_base (w_pool w) -> 0 <= po_base (w_pool w').
Proof.
  intros [c o idsc ids v0 s1 acc' refs' Hc Ho Hv Hs Hz Hw] Hl Hb. rewrite Hw. change (0 <= po_base (vp_comp (s_pool s1))).
  eapply ssteps_base; [exact Hs|exact Hl|]. cbn [s_pool]. unfold get_pool. rewrite vp_new_comp. exact Hb.
Qed.

(** Every vault of the system: never overdrawn. *)
Lemma pool_base_reachable E w : reachable E w -> 0 <= po_base (w_pool w) /\ 0 <= dl_vault (w_dl w) /\ 0 <= w_auth w.
Proof.
  intros Hr. induction Hr as [owner auth keys now w Ha Hn Hg|w cx o w' out Hr IH Hs].
  - apply genesis_inv in Hg as (c & _ & ->). cbn. lia.
  - destruct IH as (I1 & I2 & I3). pose proof Hs as Hi. apply step_inv in Hi as (Hb & _ & _ & Hx). apply buckets_nonneg in Hb. apply step_gstep in Hs. destruct Hs.
    + destruct H0 as (l & Hl & Hop & _). split; [eapply acct_call_base; [exact Hl|eapply op_acts_puts_in; eauto|exact I1]|].
      destruct Hl as [c o0 idsc ids v0 s1 acc' refs' _ _ _ _ _ Hw]. rewrite Hw. cbn. lia.
    + split; [eapply acct_call_base; [exact H1| |exact I1]|].
      * apply Forall_app. split; [|apply puts_oath]. apply puts_add. simpl in Hb. apply Forall_app in Hb as [_ Hb]. apply Forall_app. split; [exact Hb|].
        destruct code as [s|]; [destruct H0 as (id & _ & Hcd); eapply gn_claim_nonneg; exact Hcd|destruct H0 as (_ & _ & ->); constructor].
      * destruct H1 as [c o0 idsc ids v0 s1 acc' refs' _ _ _ _ _ Hw]. rewrite Hw. cbn. lia.
    + cbn. split; [|lia]. assert (forall l p fl p' fl', rfold (upd_pair1 (w_now w) c o) (p, fl) l = Ok (p', fl') -> g_base p' = g_base p) as Hf.
      { induction l as [|x l IHl]; intros p fl0 p1 fl1 Hf; cbn [rfold] in Hf; [apply Ok_inj in Hf; injection Hf as <- _; reflexivity|].
        bd Hf as ([p2 fl2] & Hf1 & Hf). rewrite (IHl _ _ _ _ Hf). unfold upd_pair1 in Hf1. bd Hf1 as ([p3 b] & Hf2 & Hf1). apply Ok_inj in Hf1. injection Hf1 as <- _.
        apply x_update_pair_frame in Hf2. tauto. }
      apply Hf in H1. unfold g_base in H1. injection H1 as _ H1. rewrite H1. exact I1.
    + cbn. lia.
    + cbn. lia.
    + simpl in Hb. inversion Hb; subst. cbn. lia.
    + cbn. lia.
    + lia.
    + lia.
    + cbn; lia.
    + cbn; lia.
    + cbn; lia.
    + cbn; lia.
    + cbn; lia.
    + cbn; lia.
    + cbn; lia.
    + cbn; lia.
    + cbn; lia.
    + cbn; lia.
    + cbn; lia.
    + cbn; lia.
    + cbn; lia.
    + cbn; lia.
    + cbn; lia.
    + cbn; lia.
    + cbn; lia.
    + destruct o; try discriminate H; cbn in H1 |- *.
      * simpl in Hb. inversion Hb; subst. lia.
      * cbn [exec] in Hx. bd Hx as ([d0 b0] & Hd & Hx). apply Ok_inj in Hx. injection Hx as Hx _. unfold dl_withdraw in Hd. bd Hd as (a & Ha & Hd). apply Ok_inj in Hd. injection Hd as <- _.
        apply take_adv_inv in Ha as [_ Ha]. rewrite <- Hx. cbn. lia.
      * lia.
      * lia.
      * lia.
    + cbn. lia.
Qed.

(** C02. No vault is ever overdrawn: the pool's, the accounts', the referral generator's, the fee delegator's, the badge vault. *)
Theorem C02_no_vault_is_overdrawn E w : reachable E w ->
  0 <= po_base (w_pool w) /\ 0 <= dl_vault (w_dl w) /\ 0 <= w_auth w /\
  (forall r, 0 <= default 0 (gn_vaults (w_gen w) !! r)) /\
  (forall a acc r, w_accounts w !! a = Some acc -> 0 <= default 0 (ac_vaults acc !! r)).
Proof.
  intros Hr. destruct (pool_base_reachable _ _ Hr) as (I1 & I2 & I3). split; [exact I1|]. split; [exact I2|]. split; [exact I3|]. split.
  - intros r. pose proof (ri_gen _ (refinv_reachable _ _ Hr)) as [K1 K2 K3 K4]. specialize (K4 r). change (0 <= held_by (w_gen w) r). etransitivity; [|exact K4]. apply Z.add_nonneg_nonneg.
    + unfold codes_owe. apply msum_nonneg. intros h c Hc. destruct (K1 _ _ Hc) as (A & _ & P & _). pose proof (amount_pos r _ P). unfold uses_left. nia.
    + unfold allocs_owe. apply msum_nonneg. intros id l Hl. apply lsum_nonneg. intros x Hx. destruct (K2 _ _ _ Hl Hx) as (A & P). pose proof (amount_pos r _ P). unfold slots_left. nia.
  - intros a acc r Ha. destruct (coll_ok_reachable _ _ Hr _ _ Ha r) as [_ H]. exact H.
Qed.

(** What a history handed in, handed out, and locked as network fees, of a resource. *)
Definition handed_in_by (r : resource) (l : list (ctx * op * outp)) : Z := lsum (fun x => amount_in r (op_buckets (snd (fst x)))) l.
Definition handed_out_by (r : resource) (l : list (ctx * op * outp)) : Z := lsum (fun x => amount_in r (handed_out (snd x))) l.
Definition fees_locked_by (r : resource) (l : list (ctx * op * outp)) : Z :=
  lsum (fun x => match snd (fst x) with OLockFee amt => if (r =? XRD)%N then amt else 0 | _ => 0 end) l.

Lemma steps_conserve E w l w' r : steps E w l w' ->
  holdings w' r + handed_out_by r l + fees_locked_by r l = holdings w r + handed_in_by r l + (created_so_far w' r - created_so_far w r).
Proof.
  induction 1 as [w|w cx o out w1 l w2 Hs Hl IH]; [unfold handed_out_by, handed_in_by, fees_locked_by; cbn; lia|].
  unfold handed_out_by, handed_in_by, fees_locked_by in *. rewrite !lsum_cons. cbn [fst snd].
  destruct o; try (pose proof (C02_tokens_conserved _ _ _ _ _ _ r Hs ltac:(discriminate)) as Hc; lia).
  pose proof (C02_lock_fee _ _ _ _ _ _ r Hs) as Hc. change (amount_in r (op_buckets (OLockFee amt))) with 0. lia.
Qed.
(** C02. From instantiation on: what the system holds of a resource is the badges it was instantiated with, plus everything
    it was ever handed, plus what it created, minus everything it ever handed out and the network fees it locked. *)
Theorem C02_over_history E owner auth keys now w0 l w (r : resource) : genesis owner auth keys now = Ok w0 -> steps E w0 l w ->
  holdings w r + handed_out_by r l + fees_locked_by r l = (if (r =? AUTHORITY)%N then auth else 0) + handed_in_by r l + created_so_far w r.
Proof.
  intros Hg Hl. rewrite (steps_conserve _ _ _ _ r Hl). assert (holdings w0 r - created_so_far w0 r = (if (r =? AUTHORITY)%N then auth else 0)) as Hz; [|lia].
  apply genesis_inv in Hg as (c & _ & ->). unfold holdings, created_so_far. cbn [w_pool w_accounts w_gen w_dl w_auth w_lp w_rewards w_oath w_burnt]. rewrite msum_empty.
  change (po_base pool_new) with 0. change (dl_vault dl_new) with 0. change (default 0 (gn_vaults gn_new !! r)) with 0.
  destruct (r =? BASE)%N; destruct (r =? XRD)%N; destruct (r =? LP)%N; destruct (r =? KEEPER_REWARD)%N; destruct (r =? FEE_OATH)%N; destruct (r =? PROTOCOL)%N; lia.
Qed.
(** C02. So of a token the exchange does not mint, nobody ever gets more out of it than was put in by all users together. *)
Theorem C02_nothing_from_nothing E owner auth keys now w0 l w (r : resource) :
  0 <= auth <= DMAX -> I64MIN <= now <= I64MAX -> genesis owner auth keys now = Ok w0 -> steps E w0 l w ->
  r <> LP -> r <> KEEPER_REWARD -> r <> FEE_OATH -> r <> PROTOCOL -> r <> AUTHORITY ->
  handed_out_by r l + fees_locked_by r l <= handed_in_by r l.
Proof.
  intros Ha Hn Hg Hl H1 H2 H3 H4 H5. pose proof (C02_over_history _ _ _ _ _ _ _ _ r Hg Hl) as Hh.
  assert (reachable E w) as Hr. { pose proof (reach_init E _ _ _ _ _ Ha Hn Hg) as Hr0. clear - Hr0 Hl. induction Hl; [exact Hr0|]. apply IHHl. eapply reach_step; eauto. }
  destruct (C02_no_vault_is_overdrawn _ _ Hr) as (V1 & V2 & V3 & V4 & V5). unfold created_so_far in Hh. rewrite <- N.eqb_neq in H1, H2, H3, H4, H5. rewrite H1, H2, H3, H4, H5 in Hh.
  assert (0 <= holdings w r) as Hp; [|lia]. unfold holdings. rewrite H5. specialize (V4 r).
  assert (0 <= msum (fun _ a => default 0 (ac_vaults a !! r)) (w_accounts w)) as Hm by (apply msum_nonneg; intros k x Hx; exact (V5 _ _ r Hx)).
  destruct (r =? BASE)%N; destruct (r =? XRD)%N; lia.
Qed.

(** The whole scenario up to a liquidation, from instantiation: 1,035,000 base tokens came in, 5,000 of them the liquidator's;
    3,600 were used to buy the collateral and 1,400 went back, with the 2 tokens of collateral. *)
Example C02_history_ex : exists w0 outs w, genesis own_rule (dec 1) {[1%N := 77%N]} 1000 = Ok w0 /\
  let l := hist (sc_setup ++ sc_trades ++ sc_later ++ sc_crash) outs in
  steps sc_env w0 l w /\ handed_in_by BASE l = dec 1035000 /\ handed_out_by BASE l = dec 1400 /\ holdings w BASE = dec 1033600 /\
  handed_in_by 20%N l = dec 2 /\ handed_out_by 20%N l = dec 2 /\ holdings w 20%N = 0.
Proof.
  assert (okb sc_genesis = true) as H0 by (vm_compute; reflexivity). apply okb_get in H0.
  destruct (try_run_true (get sc_genesis) (sc_setup ++ sc_trades ++ sc_later ++ sc_crash)
    (fun w outs => let l := hist (sc_setup ++ sc_trades ++ sc_later ++ sc_crash) outs in
       (handed_in_by BASE l =? dec 1035000) && (handed_out_by BASE l =? dec 1400) && (holdings w BASE =? dec 1033600)
       && (handed_in_by 20%N l =? dec 2) && (handed_out_by 20%N l =? dec 2) && (holdings w 20%N =? 0))) as (w & outs & Hs & Hf); [vm_compute; reflexivity|].
  exists (get sc_genesis), outs, w. split; [exact H0|]. cbv zeta in *. rewrite !andb_true_iff, !Z.eqb_eq in Hf. tauto.
Qed.
