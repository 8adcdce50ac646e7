(** * Properties of keeper requests: C04-C10, C42-C44, C54, C55 (requests). *)
From Verif Require Import Base DFloat Lists Types Config Oracle Pool Account Fees Referral ExInternal Exchange System Sums Trace Frames Calls Shape Spec P_Ledger P_Accounts Frames2 P_Fees P_Requests P_Requests2 P_Requests3 SpecRequests Scenario Witness.

Lemma request_at_inv w a i r : request_at w a i = Some r -> exists acc, w_accounts w !! a = Some acc /\ kl_get (ac_requests acc) i = Some r.
Proof. unfold request_at. intros H. destruct (w_accounts w !! a) as [acc|]; [|discriminate]. eauto. Qed.
Lemma request_at_some w a acc i : w_accounts w !! a = Some acc -> request_at w a i = kl_get (ac_requests acc) i.
Proof. unfold request_at. intros ->. reflexivity. Qed.
Lemma fwd_move a b : fwd a b <-> status_move a b.
Proof.
  unfold fwd. split.
  - intros [[-> [->|[->| ->]]]|[-> [->|[->| ->]]]]; constructor.
  - intros H. destruct H; cbv; tauto.
Qed.
Lemma final_not_pend r : final (kr_status r) -> pend r = false.
Proof. intros H. destruct (pend r) eqn:Hp; [|reflexivity]. apply is_pending_spec in Hp. unfold final in H. destruct Hp as [Hp|Hp], H as [H|[H|H]]; rewrite H in Hp; discriminate. Qed.
Lemma pend_pending r : pend r = true <-> pending (kr_status r).
Proof. rewrite is_pending_spec. reflexivity. Qed.

(** ** C04 *)
Theorem C04_requests_only_move_forward E cx w o w' out a i r :
  reachable E w -> step E cx w o = Ok (w', out) -> request_at w a i = Some r ->
  exists r', request_at w' a i = Some r' /\ kr_request r' = kr_request r /\ kr_submission r' = kr_submission r /\ kr_expiry r' = kr_expiry r /\
    kr_effected r' = kr_effected r /\ (kr_status r' = kr_status r \/ status_move (kr_status r) (kr_status r')).
Proof.
  intros Hr Hs H. apply request_at_inv in H as (acc & Ha & Hi). destruct (step_rq _ _ _ _ _ _ _ _ Hr Hs Ha) as (acc' & Ha' & _ & Hrel).
  destruct (rr_old _ _ Hrel _ _ Hi) as (s & Hi' & Hs'). exists (set_st r s). rewrite (request_at_some _ _ _ _ Ha'). repeat (split; [solve [exact Hi'|reflexivity]|]).
  rewrite set_st_status. destruct Hs' as [Hs'|Hs']; [left; exact Hs'|right; apply fwd_move; exact Hs'].
Qed.
Theorem C04_final_is_final E w l w' a i r :
  reachable E w -> steps E w l w' -> request_at w a i = Some r -> final (kr_status r) -> request_at w' a i = Some r.
Proof.
  intros Hr Hs H Hf. apply request_at_inv in H as (acc & Ha & Hi). destruct (steps_final _ _ _ _ _ _ _ _ Hs Hr Ha Hi (final_not_pend _ Hf)) as (acc' & Ha' & Hi').
  rewrite (request_at_some _ _ _ _ Ha'). exact Hi'.
Qed.
(** Every status is one of the five, and new requests start pending. *)
Theorem C04_statuses_known E w a i r : reachable E w -> request_at w a i = Some r -> pending (kr_status r) \/ final (kr_status r).
Proof.
  intros Hr. revert a i r. induction Hr as [owner auth keys now w Ha Hn Hg|w cx o w' out Hr IH Hs]; intros a i r Hi.
  - apply genesis_inv in Hg as (c & _ & ->). unfold request_at in Hi. simpl in Hi. rewrite lookup_empty in Hi. discriminate.
  - apply request_at_inv in Hi as (acc' & Ha' & Hi). destruct (w_accounts w !! a) as [acc|] eqn:Ha.
    + destruct (step_rq _ _ _ _ _ _ _ _ Hr Hs Ha) as (acc1 & Ha1 & _ & Hrel). rewrite Ha' in Ha1. injection Ha1 as <-.
      destruct (N.lt_ge_cases i (kl_len (ac_requests acc))) as [Hl|Hl].
      * apply (ok_list _ (acc_ok_reachable _ _ Hr _ _ Ha)) in Hl as [r0 Hr0].
        assert (request_at w a i = Some r0) as Hq by (rewrite (request_at_some _ _ _ _ Ha); exact Hr0).
        destruct (rr_old _ _ Hrel i r0 Hr0) as (s & Hs' & Hc). rewrite Hi in Hs'. injection Hs' as ->. rewrite set_st_status. destruct Hc as [->|Hc].
        -- eapply IH; eauto.
        -- apply fwd_move in Hc. destruct Hc; cbv; tauto.
      * left. apply pend_pending. eapply rr_new; eauto.
    + destruct (step_account _ _ _ _ _ _ a Hs) as [Heq|[[Ho (l & Hl & _)]|Hcr]].
      * rewrite Heq in Ha'. congruence.
      * apply acct_call_self in Hl as ((? & ?) & _). congruence.
      * apply (created_acc _ _ _ _ _ acc') in Hcr; [|exact Ha']. destruct Hcr as (_ & Hq & _). rewrite Hq in Hi. unfold kl_get in Hi. simpl in Hi. rewrite lookup_empty in Hi. discriminate.
Qed.

(** ** C05 *)
Lemma process_final E cx w a i upd w' out : reachable E w -> step E cx w (OProcessRequest a i upd) = Ok (w', out) ->
  exists r', request_at w' a i = Some r' /\ final (kr_status r').
Proof.
  intros Hr Hs. destruct (process_step _ _ _ _ _ _ _ _ Hr Hs) as (acc & acc' & r & Ha & Ha' & Hi & _ & _ & _ & _ & [(_ & _ & Hv)|(_ & Hst & Hv)]).
  - exists (set_st r STATUS_EXPIRED). rewrite (request_at_some _ _ _ _ Ha'), Hv. unfold mark. rewrite decide_True by reflexivity. rewrite Hi. split; [reflexivity|right; right; reflexivity].
  - exists (set_st r STATUS_EXECUTED). rewrite (request_at_some _ _ _ _ Ha'). split; [|left; reflexivity]. unfold exec_view in Hv. destruct (kr_request r) as [rm|ro].
    + rewrite Hv. unfold mark. rewrite decide_True by reflexivity. rewrite Hi. reflexivity.
    + destruct Hv as [_ Hv]. rewrite Hv. unfold after_set, mark. rewrite decide_True by reflexivity. rewrite Hi. simpl. reflexivity.
Qed.
Lemma process_needs_pending E cx w a i upd w' out : reachable E w -> step E cx w (OProcessRequest a i upd) = Ok (w', out) ->
  exists r, request_at w a i = Some r /\ pending (kr_status r).
Proof.
  intros Hr Hs. destruct (process_step _ _ _ _ _ _ _ _ Hr Hs) as (acc & acc' & r & Ha & Ha' & Hi & _ & _ & _ & _ & Hc).
  exists r. rewrite (request_at_some _ _ _ _ Ha). split; [exact Hi|]. destruct Hc as [(_ & Hp & _)|(_ & Hst & _)]; [apply pend_pending; exact Hp|right; exact Hst].
Qed.
Lemma pending_not_final s : pending s -> final s -> False.
Proof. intros [->| ->] [H|[H|H]]; discriminate. Qed.
Theorem C05_processed_once E cx w a i upd w1 out l w2 :
  reachable E w -> step E cx w (OProcessRequest a i upd) = Ok (w1, out) -> steps E w1 l w2 ->
  (forall cx' upd' res, step E cx' w2 (OProcessRequest a i upd') <> Ok res) /\
  (forall cx' oath is_ res, i ∈ is_ -> step E cx' w2 (OCancelRequests oath a is_) <> Ok res).
Proof.
  intros Hr Hs Hl. destruct (process_final _ _ _ _ _ _ _ _ Hr Hs) as (r' & Hi & Hf).
  assert (reachable E w1) as Hr1 by (eapply reach_step; eauto). pose proof (C04_final_is_final _ _ _ _ _ _ _ Hr1 Hl Hi Hf) as Hi2.
  pose proof (steps_reachable _ _ _ _ Hl Hr1) as Hr2. split.
  - intros cx' upd' [w3 o3] Hp. destruct (process_needs_pending _ _ _ _ _ _ _ _ Hr2 Hp) as (r2 & Hr2' & Hpd). rewrite Hi2 in Hr2'. injection Hr2' as <-. eapply pending_not_final; eauto.
  - intros cx' oath is_ [w3 o3] Hin Hp. destruct (cancel_step _ _ _ _ _ _ _ _ Hr2 Hp) as (acc & acc' & Ha & _ & Hpd & _). destruct (Hpd i Hin) as (r2 & Hr2' & Hp2).
    rewrite (request_at_some _ _ _ _ Ha) in Hi2. rewrite Hi2 in Hr2'. injection Hr2' as <-. apply pend_pending in Hp2. eapply pending_not_final; eauto.
Qed.

(** ** C06 *)
Theorem C06_active_set_exact E w a acc : reachable E w -> w_accounts w !! a = Some acc ->
  forall i, i ∈ active_set w a <-> (valid_start w a <= i)%N /\ exists r, request_at w a i = Some r /\ pending (kr_status r).
Proof.
  intros Hr Ha i. unfold active_set, valid_start. rewrite Ha. rewrite (ok_active _ (acc_ok_reachable _ _ Hr _ _ Ha)). rewrite (request_at_some _ _ _ _ Ha).
  split; intros (H & r & H1 & H2); (split; [exact H|]); exists r; (split; [exact H1|]); apply pend_pending; exact H2.
Qed.
Theorem C06_indexes_exist E w a acc i : reachable E w -> w_accounts w !! a = Some acc -> is_Some (request_at w a i) <-> (i < request_count w a)%N.
Proof. intros Hr Ha. rewrite (request_at_some _ _ _ _ Ha). unfold request_count. rewrite Ha. apply (acc_ok_reachable _ _ Hr _ _ Ha). Qed.

(** ** C08 *)
Lemma liquidate_vstart E cx w a b upd w' out : reachable E w -> step E cx w (OLiquidate a b upd) = Ok (w', out) ->
  exists acc acc', w_accounts w !! a = Some acc /\ w_accounts w' !! a = Some acc' /\ ac_vstart acc' = kl_len (ac_requests acc) /\
    kl_len (ac_requests acc') = kl_len (ac_requests acc).
Proof.
  intros Hr Hs. pose proof (step_acct _ _ _ _ _ _ a Hs eq_refl) as (l & Hl & Hac & _). pose proof (acct_call_self _ _ _ _ _ Hl) as ((acc & Ha) & (acc' & Ha') & _).
  exists acc, acc'. split; [exact Ha|]. split; [exact Ha'|]. pose proof (acc_ok_reachable _ _ Hr _ _ Ha) as Hok.
  destruct (rq_call _ _ _ _ _ _ _ Hl (op_acts_shape _ _ _ _ Hac) Ha Ha' Hok) as (c & orc & idsc & ids & v0 & s1 & _ & Hv & Hcomp & Hss & _ & _ & E1 & E2 & E3 & U1 & U2 & U3 & U4 & _).
  simpl in Hac. destruct Hac as (_ & paid & bs & st & lo & fee & -> & Hlo & _).
  match type of Hss with ssteps ?e ?n ?c ?o ?s _ ?s' => assert (ssteps e n c o s (([ALiqPos; AWithdraw bs; ADepositBase paid; ASettle st] ++ lo ++ [AFees fee]) ++ [AVstart]) s') as H2 end.
  { rewrite <- !app_assoc. exact Hss. }
  apply ssteps_app_inv in H2 as (s0 & S1 & S2). assert (g_rq (s_acc s0) = g_rq v0) as Hg.
  { eapply (ssteps_frame_rq _ _ _ _ _ _ _ S1). repeat (constructor; [reflexivity|]). apply Forall_app. split; [|repeat constructor]. destruct Hlo as [->|[x ->]]; repeat constructor. }
  inversion S2 as [|? ? s2 ? ? X1 X2]; subst. inversion X2; subst. inversion X1; subst. cbn [s_acc] in *. simpl in U4, U2, E3.
  split; [congruence|]. unfold g_rq in Hg. injection Hg as G1 G2 G3 G4 G5 G6 G7 G8 G9 G10 G11.
  rewrite U2, G8. apply get_acc_inv in Hv. destruct Hv as (? & _ & _ & _ & _ & _ & _ & _ & _ & _ & _ & Hra & _). rewrite Hra. simpl. lia.
Qed.
Theorem C08_liquidation_invalidates E cx w a payment upd w1 out l w2 i :
  reachable E w -> step E cx w (OLiquidate a payment upd) = Ok (w1, out) -> steps E w1 l w2 -> (i < request_count w a)%N ->
  forall cx' upd' res, step E cx' w2 (OProcessRequest a i upd') <> Ok res.
Proof.
  intros Hr Hs Hl Hi cx' upd' [w3 o3] Hp. destruct (liquidate_vstart _ _ _ _ _ _ _ _ Hr Hs) as (acc & acc' & Ha & Ha' & Hv & _).
  assert (reachable E w1) as Hr1 by (eapply reach_step; eauto). destruct (steps_vstart _ _ _ _ _ _ Hl Hr1 Ha') as (acc2 & Ha2 & Hv2 & _).
  destruct (process_step _ _ _ _ _ _ _ _ (steps_reachable _ _ _ _ Hl Hr1) Hp) as (acc3 & ? & r & Ha3 & _ & _ & Hge & _).
  rewrite Ha2 in Ha3. injection Ha3 as <-. unfold request_count in Hi. rewrite Ha in Hi. unfold kl_len in *. lia.
Qed.
(** In particular nothing submitted before is ever executed. *)
Theorem C08_never_executed E cx w a payment upd w1 out l w2 i r r2 :
  reachable E w -> step E cx w (OLiquidate a payment upd) = Ok (w1, out) -> steps E w1 l w2 -> request_at w a i = Some r -> pending (kr_status r) ->
  request_at w2 a i = Some r2 -> kr_status r2 <> STATUS_EXECUTED.
Proof.
  intros Hr Hs Hl Hi Hp H2 Hst.
  assert (i < request_count w a)%N as Hlt. { apply request_at_inv in Hi as (acc & Ha & Hi). unfold request_count. rewrite Ha. apply (acc_ok_reachable _ _ Hr _ _ Ha). unfold kl_get in Hi. eauto. }
  assert (reachable E w1) as Hr1 by (eapply reach_step; eauto).
  assert (forall l w2, steps E w1 l w2 -> exists r2, request_at w2 a i = Some r2 /\ kr_status r2 <> STATUS_EXECUTED) as Hall.
  { clear - Hr Hs Hi Hp Hlt Hr1. intros l. induction l as [|[[cx' o'] out'] l IH] using rev_ind; intros w2 Hl.
    - inversion Hl; subst. apply request_at_inv in Hi as (acc & Ha & Hi).
      destruct (old_step _ _ _ _ _ _ _ _ Hr Hs Ha (or_introl eq_refl)) as (acc' & Ha' & Hsame). exists r. rewrite (request_at_some _ _ _ _ Ha').
      split; [rewrite Hsame; [exact Hi|]; unfold request_count in Hlt; rewrite Ha in Hlt; exact Hlt|]. intros Hx. rewrite Hx in Hp. destruct Hp; discriminate.
    - assert (exists w3, steps E w1 l w3 /\ step E cx' w3 o' = Ok (w2, out')) as (w3 & H3 & H4).
      { clear - Hl. revert w1 Hl. induction l as [|[[? ?] ?] l IH]; intros w1 H; simpl in H; inversion H; subst.
        - inversion H7; subst. exists w1. split; [constructor|assumption].
        - destruct (IH _ H7) as (w3 & ? & ?). exists w3. split; [econstructor; eauto|assumption]. }
      destruct (IH _ H3) as (r3 & Hr3 & Hn3). pose proof (steps_reachable _ _ _ _ H3 Hr1) as Hre3. pose proof Hr3 as Hq3. apply request_at_inv in Hr3 as (acc3 & Ha3 & Hi3).
      destruct (decide (op_old o' = false \/ op_account o' <> Some a)) as [Hold|Hold].
      + destruct (old_step _ _ _ _ _ _ _ _ Hre3 H4 Ha3 Hold) as (acc4 & Ha4 & Hsame). exists r3. rewrite (request_at_some _ _ _ _ Ha4), Hsame; [auto|].
        apply (acc_ok_reachable _ _ Hre3 _ _ Ha3). unfold kl_get in Hi3. eauto.
      + destruct o'; simpl in Hold; try (exfalso; apply Hold; auto; fail).
        * destruct (decide (a0 = a)) as [->|Hne]; [|exfalso; apply Hold; right; congruence].
          destruct (cancel_step _ _ _ _ _ _ _ _ Hre3 H4) as (acc5 & acc6 & Ha5 & Ha6 & _ & Hv & _). rewrite Ha3 in Ha5. injection Ha5 as <-.
          rewrite (request_at_some _ _ _ _ Ha6), Hv. unfold after_set. rewrite Hi3. destruct (try_upd STATUS_CANCELLED r3) as [s|] eqn:Ht; [|eauto].
          case_decide; [|eauto]. eexists. split; [reflexivity|]. rewrite set_st_status. unfold try_upd in Ht. simpl in Ht. destruct (pend r3); [injection Ht as <-; discriminate|discriminate].
        * destruct (decide (a0 = a)) as [->|Hne]; [|exfalso; apply Hold; right; congruence].
          destruct (decide (i0 = i)) as [->|Hni]; [exfalso; exact (C08_liquidation_invalidates _ _ _ _ _ _ _ _ _ _ _ Hr Hs H3 Hlt _ _ _ H4)|].
          destruct (process_step _ _ _ _ _ _ _ _ Hre3 H4) as (acc5 & acc6 & r5 & Ha5 & Ha6 & _ & _ & _ & _ & _ & Hc). rewrite Ha3 in Ha5. injection Ha5 as <-.
          rewrite (request_at_some _ _ _ _ Ha6). destruct Hc as [(_ & _ & Hv)|(_ & _ & Hv)].
          -- rewrite Hv. unfold mark. rewrite decide_False by congruence. eauto.
          -- unfold exec_view in Hv. destruct (kr_request r5) as [rm|ro].
             ++ rewrite Hv. unfold mark. rewrite decide_False by congruence. eauto.
             ++ destruct Hv as [_ Hv]. rewrite Hv. unfold after_set at 1. unfold after_set at 1. unfold mark. rewrite decide_False by congruence. rewrite Hi3.
                assert (forall r (is_ : list N) st, kr_status r <> STATUS_EXECUTED -> exists r', (match try_upd st r with Some s => if decide (i ∈ is_) then Some (set_st r s) else Some r | None => Some r end) = Some r' /\ kr_status r' <> STATUS_EXECUTED) as Hgen.
                { clear. intros r is_ st Hn. destruct (try_upd st r) as [s|] eqn:Ht; [|eauto]. case_decide; [|eauto]. eexists. split; [reflexivity|]. rewrite set_st_status.
                  unfold try_upd in Ht. destruct (st =? 1)%N; [destruct (kr_status r =? 0)%N|destruct (pend r)]; try discriminate; injection Ht as <-; discriminate. }
                destruct (Hgen r3 (ro_activate ro) STATUS_ACTIVE Hn3) as (r6 & -> & Hn6). apply Hgen. exact Hn6. }
  destruct (Hall _ _ Hl) as (r3 & Hr3 & Hn). rewrite H2 in Hr3. injection Hr3 as <-. contradiction.
Qed.
