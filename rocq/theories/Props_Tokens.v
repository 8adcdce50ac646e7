(** * Conservation of tokens: C02. *)
From Verif Require Import Base DFloat Lists Types Config Oracle Pool Account Fees Referral ExInternal Exchange System Sums Trace Frames Calls Shape Spec P_Ledger P_Accounts Frames2 P_Fees P_Tokens Scenario Witness.
#[local] Arguments N.eqb : simpl never.

Ltac strip H :=
  repeat first
  [ apply bind_Ok in H; let y := fresh "y" in destruct H as (y & _ & H); cbv beta in H
  | match type of H with (match ?x with _ => _ end) = Ok _ => destruct x end ].
Lemma exec_payouts E cx w o w' out : exec E cx w o = Ok (w', out) -> (forall a i u, o <> OProcessRequest a i u) -> o_payouts out = [].
Proof.
  intros H Hn. destruct o; simpl in H;
    try (match type of H with ?f _ _ = _ => unfold f in H | ?f _ _ _ = _ => unfold f in H | ?f _ _ _ _ = _ => unfold f in H
         | ?f _ _ _ _ _ = _ => unfold f in H | ?f _ _ _ _ _ _ = _ => unfold f in H | ?f _ _ _ _ _ _ _ = _ => unfold f in H | ?f _ _ _ _ _ _ _ _ = _ => unfold f in H
         | ?f _ _ _ _ _ _ _ _ _ = _ => unfold f in H | ?f _ _ _ _ _ _ _ _ _ _ = _ => unfold f in H
         | ?f _ _ _ _ _ _ _ _ _ _ _ = _ => unfold f in H | ?f _ _ _ _ _ _ _ _ _ _ _ _ = _ => unfold f in H
         | ?f _ _ _ _ _ _ _ _ _ _ _ _ _ = _ => unfold f in H | ?f _ _ _ _ _ _ _ _ _ _ _ _ _ _ = _ => unfold f in H
         | ?f _ _ _ _ _ _ _ _ _ _ _ _ _ _ _ = _ => unfold f in H end);
    try (exfalso; eapply Hn; reflexivity);
    strip H; apply Ok_inj in H; injection H as <- <-; reflexivity.
Qed.
Lemma handed_no_pay out : o_payouts out = [] -> handed_out out = o_tokens out.
Proof. intros H. unfold handed_out. rewrite H. apply app_nil_r. Qed.

Ltac res_cases := repeat match goal with |- context [(?a =? ?b)%N] => destruct (N.eqb_spec a b); subst; try discriminate; try congruence end.

(** Every resource, every call but lock_fee (below): what the system holds after the call
    plus what it hands out is what it held before plus what it was handed, plus what was
    minted and minus what was burnt in the call. *)
Theorem C02_tokens_conserved E cx w o w' out (r : resource) :
  step E cx w o = Ok (w', out) -> (forall amt, o <> OLockFee amt) ->
  holdings w' r + amount_in r (handed_out out) =
  holdings w r + amount_in r (op_buckets o) + (created_so_far w' r - created_so_far w r).
Proof.
  intros H Hnl. pose proof (step_exec _ _ _ _ _ H) as (Hex & _). pose proof (step_oath_supply _ _ _ _ _ _ H) as Hoath.
  assert ((forall a i u, o <> OProcessRequest a i u) -> o_payouts out = []) as Hpay by (intros; eapply exec_payouts; eauto).
  assert (match oath_of o with Some b => b_res b = FEE_OATH | None => True end) as Hfo.
  { destruct (oath_of o) eqn:Ho; [|exact I]. eapply exec_oath_bound; eauto. }
  assert (w_oath w' = w_oath w - oath_amt (oath_of o)) as Hos.
  { destruct Hoath as [(amt & v & -> & _)|[[? _]|[-> ?]]]; [exfalso; eapply Hnl; reflexivity|assumption|simpl; lia]. }
  clear Hex Hoath. apply step_gstep in H.
  assert (forall b : bucket, b_res b = FEE_OATH -> amount_in r [b] = (if (r =? FEE_OATH)%N then b_amt b else 0)) as Hob.
  { intros b Hb. unfold amount_in. simpl. rewrite Hb, (N.eqb_sym FEE_OATH r). destruct (r =? FEE_OATH)%N; lia. }
  destruct H; try (rewrite handed_no_pay by (apply Hpay; discriminate)).
  - (* account calls *)
    destruct H0 as (l & Hl & Ha & Hsd). pose proof (acct_call_config _ _ _ _ _ Hl) as (_ & _ & _ & _ & Hlp & _ & Hbu & _).
    apply (acct_call_holds _ _ _ _ _ r) in Hl. rewrite Hl. unfold created_so_far. rewrite Hlp, Hbu, Hos.
    assert (forall oath, oath_of o = oath -> match oath with Some b => b_res b = FEE_OATH | None => True end ->
      amount_in r (option_list oath) = (if (r =? FEE_OATH)%N then oath_amt (oath_of o) else 0)) as Ho2.
    { intros [b|] -> Hb; simpl; [apply Hob; exact Hb|]. unfold amount_in; simpl. destruct (r =? FEE_OATH)%N; reflexivity. }
    destruct o; try discriminate H; try (rewrite handed_no_pay by (apply Hpay; discriminate)); simpl in Ha, Hsd; cbn [op_buckets oath_of] in *.
    + destruct Ha as (acc & _ & [-> _] & ->). destruct Hsd as (? & _ & _ & _ & _ & ->). rewrite lsum_app, lsum_act_oath, (Ho2 _ eq_refl Hfo). simpl.
      change (amount_in r []) with 0. destruct (r =? FEE_OATH)%N; lia.
    + destruct Ha as (acc & _ & [-> _] & _ & ->). destruct Hsd as (? & _ & _ & _ & _ & ->). rewrite lsum_app, lsum_act_oath, (Ho2 _ eq_refl Hfo). simpl.
      change (amount_in r []) with 0. destruct (r =? FEE_OATH)%N; lia.
    + destruct Ha as ([-> _] & ->). destruct Hsd as (? & _ & _ & _ & _ & ->). rewrite lsum_app, lsum_act_oath, (Ho2 _ eq_refl Hfo). simpl.
      change (amount_in r []) with 0. destruct (r =? FEE_OATH)%N; lia.
    + destruct Ha as ([-> _] & ->). destruct Hsd as (? & _ & _ & _ & _ & ->). rewrite lsum_app, lsum_act_oath, (Ho2 _ eq_refl Hfo). simpl.
      change (amount_in r []) with 0. destruct (r =? FEE_OATH)%N; lia.
    + destruct Ha as ([-> _] & ->). destruct Hsd as (? & _ & _ & _ & _ & ->). rewrite lsum_app, lsum_act_oath, (Ho2 _ eq_refl Hfo). simpl.
      change (amount_in r []) with 0. destruct (r =? FEE_OATH)%N; lia.
    + destruct Ha as ([-> _] & ->). destruct Hsd as (_ & _ & ->). rewrite lsum_app, lsum_act_oath, lsum_act_adds, amount_app, (Ho2 _ eq_refl Hfo).
      change (amount_in r []) with 0. destruct (r =? FEE_OATH)%N; lia.
    + destruct Ha as ([-> _] & ->). destruct Hsd as (_ & _ & ->). rewrite lsum_app, lsum_act_oath, (Ho2 _ eq_refl Hfo). simpl.
      change (amount_in r []) with 0. destruct (r =? FEE_OATH)%N; lia.
    + destruct Ha as ([-> _] & act & can & ->). destruct Hsd as (_ & _ & ->). rewrite lsum_app, lsum_act_oath, (Ho2 _ eq_refl Hfo). simpl.
      change (amount_in r []) with 0. destruct (r =? FEE_OATH)%N; lia.
    + destruct Ha as ([-> _] & l' & -> & Hp). destruct Hsd as (_ & _ & ->). rewrite lsum_app, lsum_act_oath, (lsum_act_push r l' Hp), (Ho2 _ eq_refl Hfo). simpl.
      change (amount_in r []) with 0. destruct (r =? FEE_OATH)%N; lia.
    + destruct Ha as ([-> _] & ->). destruct Hsd as (_ & _ & ->). rewrite lsum_app, lsum_act_oath, (Ho2 _ eq_refl Hfo). simpl.
      change (amount_in r []) with 0. destruct (r =? FEE_OATH)%N; lia.
    + destruct Ha as (v0 & v1 & rq & ex & l' & _ & _ & He & -> & Ht). destruct Hsd as (_ & _ & ->). rewrite lsum_cons. cbn [act_in].
      unfold handed_out. rewrite Ht, amount_app, amount_cons. change (amount_in r []) with 0. cbn [b_res b_amt fst snd oath_amt].
      assert (amount_in r (concat (map snd (o_payouts out))) = - lsum (act_in r) l') as ->.
      { unfold exec_acts in He. destruct ex; [destruct He as [-> ->]; reflexivity|]. destruct rq as [rq|rq].
        - destruct He as (k & bs & -> & ->). simpl. rewrite app_nil_r, amount_app, amount_base_list, lsum_app. simpl. lia.
        - destruct He as (l0 & fee & -> & Hl0 & ->). simpl. rewrite lsum_app. simpl. change (amount_in r []) with 0.
          assert (lsum (act_in r) l0 = 0) as ->; [|lia]. apply lsum_zero. intros x Hx. rewrite Forall_forall in Hl0. apply Hl0 in Hx. destruct x; simpl in *; tauto. }
      rewrite (N.eqb_sym KEEPER_REWARD r). destruct (r =? KEEPER_REWARD)%N; destruct (r =? FEE_OATH)%N; lia.
    + destruct Ha as (Hb & paid & value & token & -> & _ & -> & _). destruct Hsd as (_ & _ & ->). unfold amount_in. simpl.
      rewrite Hb, (N.eqb_sym BASE r). destruct (b_res token =? r)%N; destruct (r =? BASE)%N; destruct (r =? FEE_OATH)%N; lia.
    + destruct Ha as (Hb & paid & bs & st & lo & fee & -> & Hlo & _ & -> & _). destruct Hsd as (_ & _ & ->).
      rewrite !amount_app. destruct Hlo as [->|[x ->]]; unfold amount_in; simpl; fold (amount_in r bs); rewrite Hb, (N.eqb_sym BASE r), (N.eqb_sym KEEPER_REWARD r);
        destruct (r =? BASE)%N; destruct (r =? KEEPER_REWARD)%N; destruct (r =? FEE_OATH)%N; lia.
    + destruct Ha as (amt & fee & -> & -> & _). destruct Hsd as (_ & _ & ->). unfold amount_in. simpl. rewrite (N.eqb_sym KEEPER_REWARD r). destruct (r =? KEEPER_REWARD)%N; destruct (r =? FEE_OATH)%N; lia.
  - (* create_account *)
    destruct H2 as [-> _]. pose proof (acct_call_config _ _ _ _ _ H1) as (_ & _ & _ & _ & Hlp & _ & Hbu & _).
    apply (acct_call_holds _ _ _ _ _ r) in H1. rewrite H1. unfold created_so_far. rewrite Hlp, Hbu, Hos, H6. simpl in *.
    rewrite lsum_app, lsum_act_oath, lsum_act_adds, !amount_app.
    assert (holdings (new_account_world E w rule a ref g) r + amount_in r more = holdings w r) as Hh.
    { unfold holdings, new_account_world. simpl. rewrite msum_insert_new by assumption. simpl. change (default 0 ((∅ : vaults) !! r)) with 0.
      destruct code as [cd|]; [destruct H0 as (id & _ & H0); apply (gn_claim_amount _ _ _ _ _ _ r) in H0; lia|].
      destruct H0 as (_ & -> & ->). change (amount_in r []) with 0. lia. }
    change (amount_in r []) with 0. destruct oath as [b|]; simpl; [rewrite (Hob b Hfo)|change (amount_in r []) with 0]; destruct (r =? FEE_OATH)%N; lia.
  - rewrite H4. unfold amount_in, holdings, created_so_far. simpl. rewrite (N.eqb_sym KEEPER_REWARD r).
    assert (po_base (vp_realize p') = po_base (w_pool w)) as Hb.
    { assert (g_base p' = g_base (get_pool w (list_to_set ps))) as Hg.
      { change p' with (fst (p', fl)). change (get_pool w (list_to_set ps)) with (fst (get_pool w (list_to_set ps), [] : list bool)). revert H1.
        apply (rfold_ind _ (fun s s' => g_base (fst s') = g_base (fst s))); [reflexivity|]. intros [q1 l1] x [q2 l2] s2 Hx Hs. unfold upd_pair1 in Hx.
        bd Hx as ([q3 b3] & Hq & Hx). apply Ok_inj in Hx. injection Hx as <- <-. apply x_update_pair_frame in Hq as (Hq & _). cbn [fst] in *. congruence. }
      unfold g_base in Hg. injection Hg as _ Hg. simpl in Hg. exact Hg. }
    simpl in Hb. rewrite Hb. destruct (r =? KEEPER_REWARD)%N; lia.
  - rewrite H0. unfold holdings, created_so_far, amount_in. simpl. lia.
  - rewrite H. unfold holdings, created_so_far, amount_in. simpl. lia.
  - rewrite H0. unfold holdings, created_so_far, amount_in. simpl. rewrite H, (N.eqb_sym AUTHORITY r). destruct (r =? AUTHORITY)%N; lia.
  - rewrite H. unfold holdings, created_so_far, amount_in. simpl. rewrite (N.eqb_sym AUTHORITY r). destruct (r =? AUTHORITY)%N; lia.
  - rewrite H. unfold amount_in. simpl. lia.
  - rewrite H. unfold amount_in. simpl. lia.
  - rewrite H0. unfold holdings, created_so_far, amount_in. simpl. lia.
  - rewrite H0. unfold holdings, created_so_far, amount_in. simpl. lia.
  - rewrite H0. unfold holdings, created_so_far, amount_in. simpl. lia.
  - rewrite H. unfold holdings, created_so_far, amount_in. simpl. lia.
  - rewrite H0. unfold holdings, created_so_far, amount_in. simpl. rewrite (N.eqb_sym BASE r). destruct (r =? BASE)%N; lia.
  - rewrite H0. unfold holdings, created_so_far, amount_in. simpl. rewrite (N.eqb_sym BASE r). destruct (r =? BASE)%N; destruct (r =? XRD)%N; lia.
  - rewrite H4. unfold holdings, created_so_far, amount_in. simpl. rewrite H0, (N.eqb_sym BASE r), (N.eqb_sym PROTOCOL r).
    destruct (r =? BASE)%N; destruct (r =? PROTOCOL)%N; lia.
  - rewrite H3. unfold holdings, created_so_far, amount_in. simpl. rewrite (N.eqb_sym BASE r). destruct (r =? BASE)%N; lia.
  - rewrite H3. unfold holdings, created_so_far, amount_in. simpl. lia.
  - rewrite H4. apply (gn_add_allocation_amount _ _ _ _ _ _ _ _ _ r) in H3. unfold holdings, created_so_far. simpl. lia.
  - rewrite H2. unfold holdings, created_so_far, amount_in. simpl. lia.
  - rewrite H2. apply (gn_add_allocation_amount _ _ _ _ _ _ _ _ _ r) in H1. unfold holdings, created_so_far. simpl. lia.
  - rewrite H5. apply (gn_create_codes_amount _ _ _ _ _ _ _ r) in H4. unfold holdings, created_so_far. simpl. lia.
  - rewrite H3. apply gn_create_from_alloc_vaults in H2. unfold holdings, created_so_far, amount_in. simpl. rewrite H2. lia.
  - rewrite H6. unfold holdings, created_so_far, amount_in. simpl. rewrite H0, (N.eqb_sym BASE r), (N.eqb_sym LP r). destruct (r =? BASE)%N; destruct (r =? LP)%N; lia.
  - rewrite H10. unfold holdings, created_so_far, amount_in. simpl. rewrite H0, (N.eqb_sym BASE r), (N.eqb_sym LP r). destruct (r =? BASE)%N; destruct (r =? LP)%N; lia.
  - exfalso. eapply Hnl. reflexivity.
  - rewrite handed_no_pay by (apply Hpay; intros; destruct o; discriminate). destruct o; try discriminate H.
    + destruct H1 as (Hr & Hv & -> & _). unfold holdings, created_so_far, amount_in. simpl. rewrite Hv, Hr, (N.eqb_sym XRD r). destruct (r =? XRD)%N; lia.
    + destruct H1 as (a & Hv & _ & -> & _). unfold holdings, created_so_far, amount_in. simpl. rewrite Hv, (N.eqb_sym XRD r). destruct (r =? XRD)%N; lia.
    + destruct H1 as (Hv & -> & _). unfold holdings, created_so_far, amount_in. simpl. rewrite Hv. lia.
    + destruct H1 as (Hv & -> & _). unfold holdings, created_so_far, amount_in. simpl. rewrite Hv. lia.
    + destruct H1 as (Hv & -> & _). unfold holdings, created_so_far, amount_in. simpl. rewrite Hv. lia.
  - rewrite handed_no_pay by (apply Hpay; intros; destruct o; discriminate). rewrite H0. destruct o; try discriminate H; unfold holdings, created_so_far, amount_in; simpl; lia.
Qed.
(** lock_fee takes the XRD it locks for the transaction out of the delegator's vault and is
    otherwise the same. *)
Theorem C02_lock_fee E cx w amt w' out (r : resource) :
  step E cx w (OLockFee amt) = Ok (w', out) ->
  holdings w' r + amount_in r (handed_out out) + (if (r =? XRD)%N then amt else 0) =
  holdings w r + (created_so_far w' r - created_so_far w r).
Proof.
  intros H. pose proof (step_exec _ _ _ _ _ H) as (Hex & _). apply exec_payouts in Hex; [|discriminate]. rewrite handed_no_pay by exact Hex.
  apply step_gstep in H. inversion H; subst; try discriminate.
  match goal with H : o_tokens out = _ |- _ => rewrite H end. unfold holdings, created_so_far, amount_in. simpl.
  rewrite (N.eqb_sym FEE_OATH r). destruct (r =? XRD)%N; destruct (r =? FEE_OATH)%N; lia.
Qed.
(** The pool's and every account's part: tokens the exchange neither mints nor burns. *)
Corollary C02_external_tokens E cx w o w' out (r : resource) :
  step E cx w o = Ok (w', out) -> (forall amt, o <> OLockFee amt) ->
  r <> LP -> r <> KEEPER_REWARD -> r <> FEE_OATH -> r <> PROTOCOL ->
  holdings w' r + amount_in r (handed_out out) = holdings w r + amount_in r (op_buckets o).
Proof.
  intros H Hn H1 H2 H3 H4. rewrite (C02_tokens_conserved _ _ _ _ _ _ r H Hn). unfold created_so_far.
  rewrite <- N.eqb_neq in H1, H2, H3, H4. rewrite H1, H2, H3, H4. lia.
Qed.
(** A liquidation moves base tokens, a collateral and a keeper reward at once. *)
Example C02_ex : exists w' out, step sc_env cx_any W3 (OLiquidate A2 (BASE, dec 5000) (msg 17000%N 2000%N 87420%N)) = Ok (w', out) /\
  amount_in 20%N (handed_out out) = dec 2 /\ amount_in BASE (handed_out out) = dec 1400 /\ amount_in KEEPER_REWARD (handed_out out) = dec 1 /\ holdings w' 20%N = holdings W3 20%N - dec 2.
Proof.
  destruct (try_true W3 (cx_any, OLiquidate A2 (BASE, dec 5000) (msg 17000%N 2000%N 87420%N))
    (fun w' o => (amount_in 20%N (handed_out o) =? dec 2) && (amount_in BASE (handed_out o) =? dec 1400) && (amount_in KEEPER_REWARD (handed_out o) =? dec 1)
       && (holdings w' 20%N =? holdings W3 20%N - dec 2))) as (w' & out & H & Hf); [vm_compute; reflexivity|].
  exists w', out. split; [exact H|]. rewrite !andb_true_iff, !Z.eqb_eq in Hf. tauto.
Qed.
(** The resources the statements speak about are different ones: no payment in one can pass for another. *)
Lemma C02_resources_distinct : NoDup [BASE; LP; PROTOCOL; KEEPER_REWARD; FEE_OATH; AUTHORITY; REFERRAL; RECOVERY_KEY; XRD; FLASH_OATH].
Proof. apply (bool_decide_unpack _). vm_compute. exact I. Qed.
