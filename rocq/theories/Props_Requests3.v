(** * Properties of keeper requests: C42 (cancelling), C43 (one cancels the other),
    and examples for C04-C06, C08. *)
From Verif Require Import Base DFloat Lists Types Config Oracle Pool Account Fees Referral ExInternal Exchange System Sums Trace Frames Calls Shape Spec P_Ledger P_Accounts Frames2 P_Fees P_Requests P_Requests2 P_Requests3 P_Requests4 P_Refs SpecRequests Props_Requests Props_Requests2 Scenario Witness.

(** ** C43 *)
Lemma try_upd_cases st r s : try_upd st r = Some s ->
  (st = 1%N /\ kr_status r = STATUS_DORMANT /\ s = STATUS_ACTIVE) \/ (st <> 1%N /\ pending (kr_status r) /\ s = STATUS_CANCELLED).
Proof.
  unfold try_upd. destruct (st =? 1)%N eqn:E1.
  - apply N.eqb_eq in E1. destruct (kr_status r =? 0)%N eqn:E2; [|discriminate]. apply N.eqb_eq in E2. intros [= <-]. left. auto.
  - apply N.eqb_neq in E1. destruct (pend r) eqn:Hp; [|discriminate]. intros [= <-]. right. split; [exact E1|]. split; [apply pend_pending; exact Hp|reflexivity].
Qed.
Lemma after_set_inv (is_ : list N) st f j r r' : f j = Some r -> after_set is_ st f j = Some r' ->
  r' = r \/ (j ∈ is_ /\ ((st = 1%N /\ kr_status r = STATUS_DORMANT /\ kr_status r' = STATUS_ACTIVE) \/ (st <> 1%N /\ pending (kr_status r) /\ kr_status r' = STATUS_CANCELLED))).
Proof.
  unfold after_set. intros ->. destruct (try_upd st r) as [s|] eqn:Ht; [|intros [= <-]; auto]. case_decide; [|intros [= <-]; auto].
  intros [= <-]. right. split; [assumption|]. rewrite set_st_status. apply try_upd_cases. exact Ht.
Qed.
(** Why the status of a request changed. *)
Lemma step_cause E cx w o w' out a i r r' : reachable E w -> step E cx w o = Ok (w', out) -> request_at w a i = Some r -> request_at w' a i = Some r' ->
  r' = r \/ (exists upd, o = OProcessRequest a i upd) \/
  (exists oath is_, o = OCancelRequests oath a is_ /\ i ∈ is_ /\ kr_status r' = STATUS_CANCELLED) \/
  (exists j upd rj rj' ro, o = OProcessRequest a j upd /\ j <> i /\ request_at w a j = Some rj /\ kr_request rj = ROrder ro /\
     request_at w' a j = Some rj' /\ kr_status rj' = STATUS_EXECUTED /\
     ((i ∈ ro_activate ro /\ kr_status r = STATUS_DORMANT /\ kr_status r' = STATUS_ACTIVE) \/ (i ∈ ro_cancel ro /\ kr_status r' = STATUS_CANCELLED))).
Proof.
  intros Hr Hs Hi Hi'. pose proof Hi as Hi0. apply request_at_inv in Hi as (acc & Ha & Hi).
  destruct (decide (op_old o = false \/ op_account o <> Some a)) as [Hold|Hold].
  { left. destruct (old_step _ _ _ _ _ _ _ _ Hr Hs Ha Hold) as (acc4 & Ha4 & Hsame). rewrite (request_at_some _ _ _ _ Ha4), Hsame in Hi'; [congruence|].
    apply (acc_ok_reachable _ _ Hr _ _ Ha). unfold kl_get in Hi. eauto. }
  destruct o; simpl in Hold; try (exfalso; apply Hold; auto; fail).
  - destruct (decide (a0 = a)) as [->|Hne]; [|exfalso; apply Hold; right; congruence].
    destruct (cancel_step _ _ _ _ _ _ _ _ Hr Hs) as (acc5 & acc6 & Ha5 & Ha6 & _ & Hv & _). rewrite Ha in Ha5. injection Ha5 as <-.
    rewrite (request_at_some _ _ _ _ Ha6), Hv in Hi'. destruct (after_set_inv _ _ _ _ _ _ Hi Hi') as [->|[Hin [(Hx & _)|(_ & _ & Hst)]]]; [auto|discriminate Hx|].
    right. right. left. eauto.
  - destruct (decide (a0 = a)) as [->|Hne]; [|exfalso; apply Hold; right; congruence].
    destruct (decide (i0 = i)) as [->|Hni]; [right; left; eauto|].
    destruct (process_step _ _ _ _ _ _ _ _ Hr Hs) as (acc5 & acc6 & r5 & Ha5 & Ha6 & Hi5 & _ & _ & _ & _ & Hc). rewrite Ha in Ha5. injection Ha5 as <-.
    pose proof (request_at_some _ _ _ i0 Ha) as Hq0. rewrite Hi5 in Hq0.
    rewrite (request_at_some _ _ _ _ Ha6) in Hi'. destruct Hc as [(_ & _ & Hv)|(_ & _ & Hv)].
    + left. rewrite Hv in Hi'. unfold mark in Hi'. rewrite decide_False in Hi' by congruence. congruence.
    + unfold exec_view in Hv. destruct (kr_request r5) as [rm|ro] eqn:Hrq.
      * left. rewrite Hv in Hi'. unfold mark in Hi'. rewrite decide_False in Hi' by congruence. congruence.
      * destruct Hv as [_ Hv].
        assert (request_at w' a i0 = Some (set_st r5 STATUS_EXECUTED)) as Hj.
        { rewrite (request_at_some _ _ _ _ Ha6), Hv. unfold after_set, mark. rewrite decide_True by reflexivity. rewrite Hi5. simpl. reflexivity. }
        rewrite Hv in Hi'. set (f0 := mark i0 STATUS_EXECUTED (kl_get (ac_requests acc))) in *.
        assert (f0 i = Some r) as F0 by (unfold f0, mark; rewrite decide_False by congruence; exact Hi).
        destruct (after_set (ro_activate ro) STATUS_ACTIVE f0 i) as [r1|] eqn:F1; [|unfold after_set at 1 in Hi'; rewrite F1 in Hi'; discriminate].
        assert (forall st, (exists j u rj rj' ro, OProcessRequest a i0 upd = OProcessRequest a j u /\ j <> i /\ request_at w a j = Some rj /\ kr_request rj = ROrder ro /\ request_at w' a j = Some rj' /\ kr_status rj' = STATUS_EXECUTED /\ st ro) <-> exists ro0, kr_request r5 = ROrder ro0 /\ st ro0) as Hpack.
        { intros st. split.
          - intros (j & upd0 & rj & rj' & ro' & [= <- <-] & _ & Hj1 & Hj2 & _ & _ & Hst). rewrite Hq0 in Hj1. injection Hj1 as <-. eauto.
          - intros (ro0 & H1 & H2). exists i0, upd, r5, (set_st r5 STATUS_EXECUTED), ro0. repeat (split; [solve [reflexivity|assumption|exact Hq0]|]). exact H2. }
        destruct (after_set_inv _ _ _ _ _ _ F1 Hi') as [->|[Hin [(Hx & _)|(_ & _ & Hst)]]]; [|discriminate Hx|].
        -- destruct (after_set_inv _ _ _ _ _ _ F0 F1) as [->|[Hin [(_ & Hd & Hst)|(Hx & _)]]]; [auto| |exfalso; apply Hx; reflexivity].
           right. right. right. apply Hpack. exists ro. split; [exact Hrq|]. left. auto.
        -- right. right. right. apply Hpack. exists ro. split; [exact Hrq|]. right. auto.
Qed.
Lemma final_cases s : final s <-> s = STATUS_EXECUTED \/ s = STATUS_CANCELLED \/ s = STATUS_EXPIRED. Proof. reflexivity. Qed.
(** The request was there before the call, or it is pending now. *)
Lemma request_was E cx w o w' out a i r' : reachable E w -> step E cx w o = Ok (w', out) -> request_at w' a i = Some r' -> final (kr_status r') ->
  exists r, request_at w a i = Some r /\ kr_request r' = kr_request r.
Proof.
  intros Hr Hs Hi Hf. destruct (request_at w a i) as [r|] eqn:Hq.
  { exists r. split; [reflexivity|]. destruct (C04_requests_only_move_forward _ _ _ _ _ _ _ _ _ Hr Hs Hq) as (r1 & H1 & H2 & _). congruence. }
  exfalso. apply request_at_inv in Hi as (acc' & Ha' & Hi). destruct (w_accounts w !! a) as [acc|] eqn:Ha.
  - destruct (step_rq _ _ _ _ _ _ _ _ Hr Hs Ha) as (acc1 & Ha1 & _ & Hrel). rewrite Ha' in Ha1. injection Ha1 as <-.
    assert (kl_len (ac_requests acc) <= i)%N as Hl.
    { destruct (N.lt_ge_cases i (kl_len (ac_requests acc))) as [Hl|Hl]; [|lia]. apply (ok_list _ (acc_ok_reachable _ _ Hr _ _ Ha)) in Hl as [r0 Hr0].
      rewrite (request_at_some _ _ _ _ Ha) in Hq. unfold kl_get in Hq. congruence. }
    pose proof (rr_new _ _ Hrel _ _ Hi Hl) as Hp. apply pend_pending in Hp. eapply pending_not_final; eauto.
  - destruct (step_account _ _ _ _ _ _ a Hs) as [Heq|[[Ho (l & Hl & _)]|Hcr]].
    + rewrite Heq in Ha'. congruence.
    + apply acct_call_self in Hl as ((? & ?) & _). congruence.
    + apply (created_acc _ _ _ _ _ acc') in Hcr; [|exact Ha']. destruct Hcr as (_ & Hq2 & _). rewrite Hq2 in Hi. unfold kl_get in Hi. simpl in Hi. rewrite lookup_empty in Hi. discriminate.
Qed.
Lemma executed_now E cx w o w' out a i r r' : reachable E w -> step E cx w o = Ok (w', out) -> request_at w a i = Some r -> request_at w' a i = Some r' ->
  kr_status r' = STATUS_EXECUTED -> kr_status r = STATUS_EXECUTED \/ exists upd, o = OProcessRequest a i upd.
Proof.
  intros Hr Hs Hi Hi' Hst. destruct (step_cause _ _ _ _ _ _ _ _ _ _ Hr Hs Hi Hi') as [->|[H|[(? & ? & _ & _ & H)|(? & ? & ? & ? & ? & _ & _ & _ & _ & _ & _ & [(_ & _ & H)|(_ & H)])]]]; auto; rewrite Hst in H; discriminate H.
Qed.
(** An executed order has left none of the requests it cancels pending. *)
Lemma executed_order_cancelled E w a i r o j : reachable E w -> request_at w a i = Some r -> kr_status r = STATUS_EXECUTED -> kr_request r = ROrder o -> j ∈ ro_cancel o ->
  exists rj, request_at w a j = Some rj /\ final (kr_status rj).
Proof.
  intros Hr. revert a i r o j. induction Hr as [owner auth keys now w Ha Hn Hg|w cx o w' out Hr IH Hs]; intros a i r oo j Hi Hst Hrq Hj.
  - apply genesis_inv in Hg as (c & _ & ->). unfold request_at in Hi. simpl in Hi. rewrite lookup_empty in Hi. discriminate.
  - destruct (request_was _ _ _ _ _ _ _ _ _ Hr Hs Hi) as (r0 & Hi0 & Hrq0); [left; exact Hst|].
    destruct (executed_now _ _ _ _ _ _ _ _ _ _ Hr Hs Hi0 Hi Hst) as [Hst0|[upd ->]].
    + destruct (IH a i r0 oo j Hi0 Hst0) as (rj & Hrj & Hfj); [congruence|exact Hj|]. exists rj. split; [|exact Hfj].
      eapply (C04_final_is_final _ w [_] w'); eauto. econstructor; [exact Hs|constructor].
    + destruct (process_step _ _ _ _ _ _ _ _ Hr Hs) as (acc5 & acc6 & r5 & Ha5 & Ha6 & Hi5 & _ & _ & _ & _ & Hc).
      rewrite (request_at_some _ _ _ _ Ha5) in Hi0. rewrite Hi5 in Hi0. injection Hi0 as ->. destruct Hc as [(_ & _ & Hv)|(_ & _ & Hv)].
      * exfalso. rewrite (request_at_some _ _ _ _ Ha6), Hv in Hi. unfold mark in Hi. rewrite decide_True in Hi by reflexivity. rewrite Hi5 in Hi. injection Hi as <-. rewrite set_st_status in Hst. discriminate.
      * unfold exec_view in Hv. rewrite <- Hrq0, Hrq in Hv. destruct Hv as [Hex Hv]. rewrite (request_at_some _ _ _ _ Ha6), Hv.
        destruct (Hex j) as [rj Hrj]; [apply elem_of_app; auto|].
        destruct (after_set (ro_activate oo) STATUS_ACTIVE (mark i STATUS_EXECUTED (kl_get (ac_requests acc5))) j) as [r1|] eqn:F1.
        2: { exfalso. unfold after_set, mark in F1. case_decide; rewrite Hrj in F1; simpl in F1; repeat case_match; discriminate. }
        unfold after_set at 1. rewrite F1. destruct (try_upd STATUS_CANCELLED r1) as [s|] eqn:Ht.
        -- rewrite decide_True by exact Hj. apply try_upd_cases in Ht as [(Hx & _)|(_ & _ & ->)]; [discriminate Hx|]. eexists. split; [reflexivity|]. rewrite set_st_status. right. left. reflexivity.
        -- exists r1. split; [reflexivity|].
           assert (request_at w' a j = Some r1) as Hw' by (rewrite (request_at_some _ _ _ _ Ha6), Hv; unfold after_set at 1; rewrite F1, Ht; reflexivity).
           destruct (C04_statuses_known E w' a j r1) as [Hp|Hf]; [eapply reach_step; eauto|exact Hw'| |exact Hf].
           exfalso. apply pend_pending in Hp. unfold try_upd in Ht. simpl in Ht. rewrite Hp in Ht. discriminate.
Qed.
(** When an order executes, the requests it cancels are settled for good: none of
    them is ever processed later, and none that was pending ever shows as executed. *)
Theorem C43_cancelled_never_executes E cx w a i upd w1 out r o j l w2 :
  reachable E w -> step E cx w (OProcessRequest a i upd) = Ok (w1, out) ->
  request_at w1 a i = Some r -> kr_status r = STATUS_EXECUTED -> kr_request r = ROrder o -> j ∈ ro_cancel o -> j <> i ->
  steps E w1 l w2 ->
  (forall cx' upd' res, step E cx' w2 (OProcessRequest a j upd') <> Ok res) /\
  (exists rj, request_at w2 a j = Some rj /\ final (kr_status rj)) /\
  (forall rj, request_at w a j = Some rj -> pending (kr_status rj) ->
     exists rj', request_at w2 a j = Some rj' /\ kr_status rj' = STATUS_CANCELLED).
Proof.
  intros Hr Hs Hi Hst Hrq Hj Hne Hl. assert (reachable E w1) as Hr1 by (eapply reach_step; eauto).
  destruct (executed_order_cancelled _ _ _ _ _ _ _ Hr1 Hi Hst Hrq Hj) as (rj & Hrj & Hf). pose proof (C04_final_is_final _ _ _ _ _ _ _ Hr1 Hl Hrj Hf) as H2.
  split; [|split; [eauto|]].
  - intros cx' upd' [w3 o3] Hp. destruct (process_needs_pending _ _ _ _ _ _ _ _ (steps_reachable _ _ _ _ Hl Hr1) Hp) as (r3 & Hr3 & Hp3). rewrite H2 in Hr3. injection Hr3 as <-. eapply pending_not_final; eauto.
  - intros r0 H0 Hp0. exists rj. split; [exact H2|].
    destruct (step_cause _ _ _ _ _ _ _ _ _ _ Hr Hs H0 Hrj) as [->|[(u & Hu)|[(? & ? & Hx & _)|(? & ? & ? & ? & ? & _ & _ & _ & _ & _ & _ & [(_ & _ & H)|(_ & H)])]]].
    + exfalso. eapply pending_not_final; eauto.
    + congruence.
    + discriminate Hx.
    + exfalso. rewrite H in Hf. destruct Hf as [Hx|[Hx|Hx]]; discriminate Hx.
    + exact H.
Qed.
(** Two orders that cancel each other are never both executed. *)
Theorem C43_mutual_never_both E w a i j ri rj oi oj : reachable E w -> i <> j ->
  request_at w a i = Some ri -> kr_request ri = ROrder oi -> j ∈ ro_cancel oi ->
  request_at w a j = Some rj -> kr_request rj = ROrder oj -> i ∈ ro_cancel oj ->
  kr_status ri = STATUS_EXECUTED -> kr_status rj = STATUS_EXECUTED -> False.
Proof.
  intros Hr. revert i j ri rj oi oj. induction Hr as [owner auth keys now w Ha Hn Hg|w cx o w' out Hr IH Hs]; intros i j ri rj oi oj Hne Hi Hoi Hji Hj Hoj Hij Hsi Hsj.
  - apply genesis_inv in Hg as (c & _ & ->). unfold request_at in Hi. simpl in Hi. rewrite lookup_empty in Hi. discriminate.
  - destruct (request_was _ _ _ _ _ _ _ _ _ Hr Hs Hi) as (ri0 & Hi0 & Hqi0); [left; exact Hsi|].
    destruct (request_was _ _ _ _ _ _ _ _ _ Hr Hs Hj) as (rj0 & Hj0 & Hqj0); [left; exact Hsj|].
    destruct (executed_now _ _ _ _ _ _ _ _ _ _ Hr Hs Hi0 Hi Hsi) as [Hsi0|[upd ->]], (executed_now _ _ _ _ _ _ _ _ _ _ Hr Hs Hj0 Hj Hsj) as [Hsj0|[upd' Hu]].
    + eapply (IH i j ri0 rj0 oi oj); eauto; congruence.
    + subst o. destruct (process_needs_pending _ _ _ _ _ _ _ _ Hr Hs) as (r2 & Hr2 & Hp). rewrite Hj0 in Hr2. injection Hr2 as <-.
      destruct (executed_order_cancelled _ _ _ _ _ _ _ Hr Hi0 Hsi0 (eq_trans (eq_sym Hqi0) Hoi) Hji) as (r3 & Hr3 & Hf). rewrite Hj0 in Hr3. injection Hr3 as <-. eapply pending_not_final; eauto.
    + destruct (process_needs_pending _ _ _ _ _ _ _ _ Hr Hs) as (r2 & Hr2 & Hp). rewrite Hi0 in Hr2. injection Hr2 as <-.
      destruct (executed_order_cancelled _ _ _ _ _ _ _ Hr Hj0 Hsj0 (eq_trans (eq_sym Hqj0) Hoj) Hij) as (r3 & Hr3 & Hf). rewrite Hi0 in Hr3. injection Hr3 as <-. eapply pending_not_final; eauto.
    + congruence.
Qed.
(** A dormant request is executed only after an order listing it for activation has been. *)
Theorem C43_dormant_needs_activation E w l w' a i r r' : reachable E w -> steps E w l w' ->
  request_at w a i = Some r -> kr_status r = STATUS_DORMANT -> request_at w' a i = Some r' -> kr_status r' = STATUS_EXECUTED ->
  exists l1 w1 cx j upd out w2 l2 rj o, l = l1 ++ (cx, OProcessRequest a j upd, out) :: l2 /\
    steps E w l1 w1 /\ step E cx w1 (OProcessRequest a j upd) = Ok (w2, out) /\ steps E w2 l2 w' /\ j <> i /\
    request_at w2 a j = Some rj /\ kr_status rj = STATUS_EXECUTED /\ kr_request rj = ROrder o /\ i ∈ ro_activate o.
Proof.
  intros Hr Hl. revert r Hr. induction Hl as [w|w cx o out w1 l w2 H1 H2 IH]; intros r Hr Hi Hd Hi' He.
  - rewrite Hi in Hi'. injection Hi' as <-. rewrite Hd in He. discriminate.
  - assert (reachable E w1) as Hr1 by (eapply reach_step; eauto).
    destruct (C04_requests_only_move_forward _ _ _ _ _ _ _ _ _ Hr H1 Hi) as (r1 & Hi1 & _ & _ & _ & _ & Hmv).
    assert (~ final (kr_status r1)) as Hnf_or.
    { intros Hf. pose proof (C04_final_is_final _ _ _ _ _ _ _ Hr1 H2 Hi1 Hf) as Hx. rewrite Hi' in Hx. injection Hx as ->. rewrite He in Hmv. rewrite Hd in Hmv.
      destruct Hmv as [Hmv|Hmv]; [discriminate|inversion Hmv]. }
    destruct (step_cause _ _ _ _ _ _ _ _ _ _ Hr H1 Hi Hi1) as [->|[(u & ->)|[(? & ? & _ & _ & H)|(j & u & rj & rj' & ro & -> & Hne & Hj & Hjo & Hj' & Hjs & [(Hin & _ & H)|(_ & H)])]]].
    + destruct (IH _ Hr1 Hi1 Hd Hi' He) as (l1 & w1' & cx' & j & upd & out' & w2' & l2 & rj & o' & -> & S1 & S2 & S3 & Hx).
      exists ((cx, o, out) :: l1), w1', cx', j, upd, out', w2', l2, rj, o'. split; [reflexivity|]. split; [econstructor; eauto|]. auto.
    + exfalso. destruct (process_final _ _ _ _ _ _ _ _ Hr H1) as (r3 & Hr3 & Hf). rewrite Hi1 in Hr3. injection Hr3 as <-. contradiction.
    + exfalso. apply Hnf_or. right. left. exact H.
    + exists [], w, cx, j, u, out, w1, l, rj', ro. split; [reflexivity|]. split; [constructor|]. split; [exact H1|]. split; [exact H2|]. split; [exact Hne|]. split; [exact Hj'|]. split; [exact Hjs|].
      split; [|exact Hin]. destruct (C04_requests_only_move_forward _ _ _ _ _ _ _ _ _ Hr H1 Hj) as (r4 & Hr4 & Hq4 & _). rewrite Hj' in Hr4. injection Hr4 as <-. congruence.
    + exfalso. apply Hnf_or. right. left. exact H.
Qed.
Lemma request_content E w l w' a i r : reachable E w -> steps E w l w' -> request_at w a i = Some r -> exists r', request_at w' a i = Some r' /\ kr_request r' = kr_request r.
Proof.
  intros Hr Hl Hi. apply request_at_inv in Hi as (acc & Ha & Hi). destruct (steps_rq _ _ _ _ _ _ _ _ Hl Hr Ha Hi) as (acc' & s & Ha' & Hi'). exists (set_st r s). rewrite (request_at_some _ _ _ _ Ha'). auto.
Qed.
(** For an order submitted with take-profit and stop-loss: at most one of the two is
    ever executed, and neither before an order listing it for activation was. *)
Theorem C43_tp_sl E cx w oath delay expiry a pair amount ro pl slip tp sl w1 out n t s l w2 :
  reachable E w -> step E cx w (OMarginOrderTpSlRequest oath delay expiry a pair amount ro pl slip (Some tp) (Some sl)) = Ok (w1, out) ->
  o_indexes out = [Some n; Some t; Some s] -> steps E w1 l w2 ->
  ~ (exists rt rs, request_at w2 a t = Some rt /\ kr_status rt = STATUS_EXECUTED /\ request_at w2 a s = Some rs /\ kr_status rs = STATUS_EXECUTED) /\
  (forall i r, i = t \/ i = s -> request_at w2 a i = Some r -> kr_status r = STATUS_EXECUTED ->
     exists l1 cx' j upd out' l2 v1 v2 rj o, l = l1 ++ (cx', OProcessRequest a j upd, out') :: l2 /\
       steps E w1 l1 v1 /\ step E cx' v1 (OProcessRequest a j upd) = Ok (v2, out') /\
       request_at v2 a j = Some rj /\ kr_status rj = STATUS_EXECUTED /\ kr_request rj = ROrder o /\ i ∈ ro_activate o).
Proof.
  intros Hr Hs Ho Hl. pose proof (C44_tp_sl_linked _ _ _ _ _ _ _ _ _ _ _ _ _ _ _ _ Hr Hs) as (it & is_ & Hoi & _ & _ & _ & Ht & Hsl & Hnd & _).
  rewrite Ho in Hoi. injection Hoi as Hn0 <- <-. specialize (Ht _ _ eq_refl eq_refl). specialize (Hsl _ _ eq_refl eq_refl). simpl in Hnd.
  assert (t <> s) as Hne. { apply NoDup_cons in Hnd as [_ Hnd]. apply NoDup_cons in Hnd as [Hnd _]. intros ->. apply Hnd. apply elem_of_list_singleton. reflexivity. }
  assert (reachable E w1) as Hr1 by (eapply reach_step; eauto). pose proof (steps_reachable _ _ _ _ Hl Hr1) as Hr2. split.
  - intros (rt & rs & Hrt & Hst & Hrs & Hss).
    destruct (request_content _ _ _ _ _ _ _ Hr1 Hl Ht) as (rt' & Hrt' & Hqt). destruct (request_content _ _ _ _ _ _ _ Hr1 Hl Hsl) as (rs' & Hrs' & Hqs).
    rewrite Hrt in Hrt'. injection Hrt' as <-. rewrite Hrs in Hrs'. injection Hrs' as <-. simpl in Hqt, Hqs.
    eapply (C43_mutual_never_both E w2 a t s); [exact Hr2|exact Hne|exact Hrt|exact Hqt| |exact Hrs|exact Hqs| |exact Hst|exact Hss]; simpl; apply elem_of_list_singleton; reflexivity.
  - intros i r Hi Hri Hst. assert (exists r0, request_at w1 a i = Some r0 /\ kr_status r0 = STATUS_DORMANT) as (r0 & H0 & Hd) by (destruct Hi as [->| ->]; eauto).
    destruct (C43_dormant_needs_activation _ _ _ _ _ _ _ _ Hr1 Hl H0 Hd Hri Hst) as (l1 & v1 & cx' & j & upd & out' & v2 & l2 & rj & o' & -> & S1 & S2 & S3 & _ & Hx & Hy & Hz & Hw).
    exists l1, cx', j, upd, out', l2, v1, v2, rj, o'. auto 10.
Qed.

(** ** C42 *)
Lemma keeper_requests_ok v (is_ : list N) : (forall i, i ∈ is_ -> exists r, va_keeper_request v i = Ok r) -> exists rs, va_keeper_requests v is_ = Ok rs.
Proof.
  unfold va_keeper_requests. match goal with |- _ -> exists rs, rfold ?f _ _ = _ => assert (forall l (m : gmap N keeper_request), (forall i, i ∈ l -> exists r, va_keeper_request v i = Ok r) -> exists rs, rfold f m l = Ok rs) as Hg end.
  { induction l as [|i l IH]; intros m Hall; simpl; [eauto|]. destruct (Hall i (elem_of_list_here _ _)) as (r & Hr). rewrite Hr. simpl. apply IH. intros j Hj. apply Hall. apply elem_of_list_further. exact Hj. }
  apply Hg.
Qed.
Lemma cancel_all_ok (l : list (N * keeper_request)) v : Forall (fun x => pend (snd x) = true) l -> (N.of_nat (length l) <= va_alen v)%N ->
  exists v', rfold va_cancel1 v l = Ok v' /\ va_comp v' = va_comp v /\ va_addr v' = va_addr v /\ va_req_add v' = va_req_add v /\ va_rewarded v' = va_rewarded v /\
    (forall i, is_Some (va_req_upd v' !! i) -> is_Some (va_req_upd v !! i) \/ i ∈ map fst l).
Proof.
  revert v. induction l as [|[i r] l IH]; intros v Hp Hlen; cbn [rfold].
  - exists v. repeat (split; [reflexivity|]). auto.
  - apply Forall_cons in Hp as [Hp0 Hp]. simpl in Hp0. simpl in Hlen.
    assert (exists v1, va_cancel1 v (i, r) = Ok v1 /\ va_comp v1 = va_comp v /\ va_addr v1 = va_addr v /\ va_req_add v1 = va_req_add v /\ va_rewarded v1 = va_rewarded v /\ va_alen v1 = (va_alen v - 1)%N /\ va_req_upd v1 = <[i := r <| kr_status := STATUS_CANCELLED |>]> (va_req_upd v)) as (v1 & H1 & C1 & C2 & C3 & C4 & C5 & C6).
    { unfold va_cancel1. cbn. unfold in_list. simpl. rewrite orb_false_r. unfold pend, is_pending in Hp0. change STATUS_DORMANT with 0%N in *. change STATUS_ACTIVE with 1%N in *.
      rewrite Hp0. simpl. unfold is_pending. change STATUS_DORMANT with 0%N. change STATUS_ACTIVE with 1%N. rewrite Hp0. unfold va_remove_active, usub.
      destruct (N.leb_spec 1 (va_alen v)); [|lia]. simpl. eexists. repeat (split; [reflexivity|]). reflexivity. }
    rewrite H1. simpl. destruct (IH v1 Hp) as (v' & H2 & D1 & D2 & D3 & D4 & D5); [rewrite C5; lia|].
    exists v'. split; [exact H2|]. split; [congruence|]. split; [congruence|]. split; [congruence|]. split; [congruence|].
    intros j Hj. destruct (D5 j Hj) as [Hx|Hx]; [|right; apply elem_of_list_further; exact Hx]. rewrite C6 in Hx.
    destruct (decide (j = i)) as [->|Hne]; [right; apply elem_of_list_here|]. rewrite lookup_insert_ne in Hx by congruence. auto.
Qed.
Lemma kl_update_ok {T} (m : list (N * T)) (l : klist T) : Forall (fun x => (fst x < kl_ptr l)%N) m -> exists l', rfold (fun l x => kl_update l (fst x) (snd x)) l m = Ok l'.
Proof.
  revert l. induction m as [|[k x] m IH]; intros l Hf; cbn [rfold]; [eauto|]. apply Forall_cons in Hf as [H1 H2]. cbn [fst snd] in *.
  apply N.ltb_lt in H1. assert (kl_update l k x = Ok (mkKlist (kl_ptr l) (<[k := x]> (kl_kvs l)))) as -> by (unfold kl_update; rewrite H1; reflexivity). cbn [mbind res_bind]. apply IH. eapply Forall_impl; [exact H2|]. intros [? ?]; simpl; auto.
Qed.
(** Whoever may cancel requests of an account can cancel any of its live requests. *)
Theorem C42_live_requests_cancellable E cx w a acc is_ :
  reachable E w -> w_accounts w !! a = Some acc -> (forall i, i ∈ is_ -> i ∈ active_set w a) ->
  access_ok cx w (ARole RCancelRequest) = true -> 1 <= w_auth w -> rule_sat (cx_sat cx) (ac_l3 acc) = true ->
  exists w' out, step E cx w (OCancelRequests None a is_) = Ok (w', out) /\
    (forall i r, i ∈ is_ -> request_at w a i = Some r -> request_at w' a i = Some (r <| kr_status := STATUS_CANCELLED |>)) /\
    (forall i, i ∉ is_ -> request_at w' a i = request_at w a i) /\
    (forall i, i ∈ active_set w' a <-> i ∈ active_set w a /\ i ∉ is_).
Proof.
  intros Hr Ha Hin Hacc Hauth Hrule. pose proof (acc_ok_reachable _ _ Hr _ _ Ha) as Hok.
  assert (forall i, i ∈ is_ -> exists r, kl_get (ac_requests acc) i = Some r /\ pend r = true) as Hpd.
  { intros i Hi. apply Hin in Hi. unfold active_set in Hi. rewrite Ha in Hi. apply (ok_active _ Hok) in Hi. destruct Hi as (_ & r & H1 & H2). eauto. }
  assert (exists w' out, step E cx w (OCancelRequests None a is_) = Ok (w', out)) as (w' & out & Hs).
  { unfold step. cbn [op_buckets option_list forallb op_access needs_authority exec implb]. apply Z.leb_le in Hauth. simpl (guard_ true _). cbn [mbind res_bind]. rewrite Hacc, Hauth. simpl (guard_ true _). cbn [mbind res_bind].
    unfold m_cancel_requests. destruct (get_acc_reachable _ _ _ _ Hr Ha) as (v & Hv & Hvc). rewrite Hv.
    pose proof (get_acc_inv _ _ _ Hv) as (acc0 & Ha0 & Hc0 & Hva & _ & _ & _ & _ & _ & Hal & _ & Hra & Hru & _ & _ & _ & Hrew & _). rewrite Hvc in Hc0. subst acc0.
    cbn [mbind res_bind]. unfold level_auth. change (ac_level 3 (va_comp v)) with (ac_l3 (va_comp v)). rewrite Hvc, Hrule. simpl (guard_ true _). cbn [mbind res_bind]. cbn [settle_oath_opt' mbind res_bind].
    assert (forall i, i ∈ is_ -> exists r, va_keeper_request v i = Ok r /\ pend r = true) as Hkr.
    { intros i Hi. destruct (Hpd i Hi) as (r & H1 & H2). exists r. split; [|exact H2]. unfold va_keeper_request. rewrite Hru, lookup_empty, Hvc, H1. reflexivity. }
    destruct (keeper_requests_ok v is_) as (rs & Hrs). { intros i Hi. destruct (Hkr i Hi) as (r & H1 & _). eauto. }
    unfold va_cancel_requests. rewrite Hrs. cbn [mbind res_bind]. pose proof (keeper_requests_inv _ _ _ Hrs) as [K1 K2].
    destruct (cancel_all_ok (map_to_list rs) v) as (v' & Hv' & D1 & D2 & D3 & D4 & D5).
    { apply Forall_forall. intros [i r] Hx. apply elem_of_map_to_list in Hx. destruct (K1 _ _ Hx) as [H1 H2]. destruct (Hkr i H1) as (r' & H3 & H4). rewrite H2 in H3. apply Ok_inj in H3. subst r'. exact H4. }
    { rewrite Hal. assert (length (map_to_list rs) <= size (ac_active acc))%nat; [|lia]. change (length (map_to_list rs)) with (size rs). rewrite <- (size_dom (D := gset N) rs). apply subseteq_size. intros i Hi. apply elem_of_dom in Hi as [r Hi]. destruct (K1 _ _ Hi) as [H1 _].
      apply Hin in H1. unfold active_set in H1. rewrite Ha in H1. exact H1. }
    rewrite Hv'. cbn [mbind res_bind]. unfold realize_acc, va_realize. rewrite D4, Hrew. cbn [mbind res_bind]. unfold acc_update. cbn [va_updates au_req_add au_req_upd]. rewrite D3, Hra. cbn [rfold mbind res_bind]. rewrite D1, Hvc.
    match goal with |- context [rfold ?f (ac_requests acc) ?m] => destruct (kl_update_ok m (ac_requests acc)) as (l' & Hl') end.
    { apply Forall_forall. intros [i r] Hx. apply elem_of_map_to_list in Hx. simpl. destruct (D5 i) as [Hy|Hy]; [eauto|rewrite Hru, lookup_empty in Hy; destruct Hy; discriminate|].
      apply elem_of_list_fmap in Hy as ([i' r'] & -> & Hy). apply elem_of_map_to_list in Hy. simpl. destruct (K1 _ _ Hy) as [H1 _]. destruct (Hpd _ H1) as (r0 & H2 & _).
      apply (ok_list _ Hok). unfold kl_get in H2. eauto. }
    rewrite Hl'. cbn [mbind res_bind]. eauto. }
  exists w', out. split; [exact Hs|]. destruct (cancel_step _ _ _ _ _ _ _ _ Hr Hs) as (acc0 & acc' & Ha0 & Ha' & _ & Hv & _ & Hvs). rewrite Ha in Ha0. injection Ha0 as <-.
  assert (reachable E w') as Hr' by (eapply reach_step; eauto).
  assert (forall i r, i ∈ is_ -> request_at w a i = Some r -> request_at w' a i = Some (r <| kr_status := STATUS_CANCELLED |>)) as P1.
  { intros i r Hi Hq. rewrite (request_at_some _ _ _ _ Ha) in Hq. destruct (Hpd i Hi) as (r0 & Hr0 & Hp). rewrite Hq in Hr0. injection Hr0 as <-.
    rewrite (request_at_some _ _ _ _ Ha'), Hv. unfold after_set. rewrite Hq. unfold try_upd. simpl. rewrite Hp. rewrite decide_True by exact Hi. reflexivity. }
  assert (forall i, i ∉ is_ -> request_at w' a i = request_at w a i) as P2.
  { intros i Hi. rewrite (request_at_some _ _ _ _ Ha'), Hv, (request_at_some _ _ _ _ Ha). unfold after_set. destruct (kl_get (ac_requests acc) i) as [r|]; [|reflexivity]. destruct (try_upd _ r); [|reflexivity]. rewrite decide_False by exact Hi. reflexivity. }
  split; [exact P1|]. split; [exact P2|]. intros i.
  rewrite (C06_active_set_exact _ _ _ _ Hr' Ha'), (C06_active_set_exact _ _ _ _ Hr Ha). unfold valid_start. rewrite Ha, Ha', Hvs. destruct (decide (i ∈ is_)) as [Hi|Hi].
  - split; [|tauto]. intros (_ & r & H1 & H2). exfalso. destruct (Hpd i Hi) as (r0 & Hr0 & _). pose proof (request_at_some _ _ _ i Ha) as Hq. rewrite Hr0 in Hq. rewrite (P1 _ _ Hi Hq) in H1. injection H1 as <-. simpl in H2. destruct H2; discriminate.
  - rewrite (P2 i Hi). tauto.
Qed.
(** The full claim fails for requests invalidated by a liquidation: in W4 the request 3
    of A2 is still dormant, but its owner cannot cancel it ... *)
Theorem C42_invalidated_refuted : exists r, request_at W4 A2 3%N = Some r /\ pending (kr_status r) /\ access_ok cx_u2 W4 (ARole RCancelRequest) = true /\ 1 <= w_auth W4 /\
  (exists acc, w_accounts W4 !! A2 = Some acc /\ rule_sat (cx_sat cx_u2) (ac_l3 acc) = true) /\
  step sc_env cx_u2 W4 (OCancelRequests None A2 [3%N]) = Err EArithmetic.
Proof.
  assert (match request_at W4 A2 3%N with Some r => (kr_status r =? STATUS_DORMANT)%N | None => false end = true) as H1 by (vm_compute; reflexivity).
  destruct (request_at W4 A2 3%N) as [r|]; [|exfalso; exact (Bool.diff_false_true H1)]. exists r. split; [reflexivity|]. apply N.eqb_eq in H1. split; [left; exact H1|].
  split; [vm_compute; reflexivity|]. split; [apply Z.leb_le; vm_compute; reflexivity|]. split; [|vm_compute; reflexivity].
  assert (match w_accounts W4 !! A2 with Some acc => rule_sat (cx_sat cx_u2) (ac_l3 acc) | None => false end = true) as H2 by (vm_compute; reflexivity).
  destruct (w_accounts W4 !! A2) as [acc|]; [|exfalso; exact (Bool.diff_false_true H2)]. eauto.
Qed.
(** ... unless another request is live. *)
Theorem C42_invalidated_marked : exists w' outs, steps sc_env W4 (hist [order cx_u2 A2 1%N (dec 1) false; (cx_u2, OCancelRequests None A2 [3%N])] outs) w' /\
  (kr_status <$> request_at w' A2 3%N) = Some STATUS_CANCELLED.
Proof.
  destruct (try_run_true W4 [order cx_u2 A2 1%N (dec 1) false; (cx_u2, OCancelRequests None A2 [3%N])] (fun w' _ => bool_decide ((kr_status <$> request_at w' A2 3%N) = Some STATUS_CANCELLED))) as (w' & out & H & Hf); [vm_compute; reflexivity|].
  exists w', out. split; [exact H|]. apply bool_decide_eq_true in Hf. exact Hf.
Qed.

(** ** Examples: the hypotheses of C04-C06, C08, C42 and C43 are met *)
Definition status_at (w : world) (a : addr) (i : N) : option N := kr_status <$> request_at w a i.
(** An order goes active -> executed (C04) by one successful process_request (C05). *)
Example C04_ex : exists w1 w2 out1 out2, steps sc_env W1 (hist [order cx_u2 A2 1%N (dec 2) false; (cx_any, OAdvance 1010)] out1) w1 /\ reachable sc_env w1 /\
  status_at w1 A2 0%N = Some STATUS_ACTIVE /\
  step sc_env cx_any w1 (OProcessRequest A2 0%N (msg 30000%N 2000%N 1009%N)) = Ok (w2, out2) /\ status_at w2 A2 0%N = Some STATUS_EXECUTED.
Proof.
  destruct (try_run_true W1 [order cx_u2 A2 1%N (dec 2) false; (cx_any, OAdvance 1010)]
    (fun w1 _ => bool_decide (status_at w1 A2 0%N = Some STATUS_ACTIVE) &&
       try_ w1 (cx_any, OProcessRequest A2 0%N (msg 30000%N 2000%N 1009%N)) (fun w2 _ => bool_decide (status_at w2 A2 0%N = Some STATUS_EXECUTED)))) as (w1 & out1 & H & Hf); [vm_compute; reflexivity|].
  apply andb_true_iff in Hf as [H1 H2]. apply bool_decide_eq_true in H1. apply try_true in H2 as (w2 & out2 & H2 & H3). apply bool_decide_eq_true in H3.
  exists w1, w2, out1, out2. split; [exact H|]. split; [exact (steps_reachable _ _ _ _ H W1_reach)|]. split; [exact H1|]. split; [exact H2|exact H3].
Qed.
Example C05_ex : exists w1 w2 out1 out2, reachable sc_env w1 /\ steps sc_env W1 (hist [order cx_u2 A2 1%N (dec 2) false; (cx_any, OAdvance 1010)] out1) w1 /\
  step sc_env cx_any w1 (OProcessRequest A2 0%N (msg 30000%N 2000%N 1009%N)) = Ok (w2, out2).
Proof. destruct C04_ex as (w1 & w2 & o1 & o2 & H1 & H2 & _ & H3 & _). exists w1, w2, o1, o2. split; [exact H2|]. split; [exact H1|exact H3]. Qed.
(** After a take-profit order was submitted in W3 the live requests are 2, 3 and 4; after
    the liquidation (W4) none is live although 2, 3 and 4 are still pending. *)
Example C06_ex : (exists w1 out, step sc_env cx_u2 W3 (snd tpsl_op) = Ok (w1, out) /\ active_set w1 A2 = {[2%N; 3%N; 4%N]}) /\
  active_set W4 A2 = ∅ /\ status_at W4 A2 2%N = Some STATUS_ACTIVE /\ status_at W4 A2 4%N = Some STATUS_DORMANT.
Proof.
  split.
  - destruct (try_true W3 tpsl_op (fun w1 _ => bool_decide (active_set w1 A2 = {[2%N; 3%N; 4%N]}))) as (w1 & out & H & Hf); [vm_compute; reflexivity|].
    apply bool_decide_eq_true in Hf. exists w1, out. split; [exact H|exact Hf].
  - split; [apply (bool_decide_unpack _); vm_compute; exact I|]. split; vm_compute; reflexivity.
Qed.
Example C08_ex : exists w1 w2 out1 out2, reachable sc_env w1 /\ status_at w1 A2 3%N = Some STATUS_DORMANT /\ request_count w1 A2 = 5%N /\
  step sc_env cx_any w1 (OLiquidate A2 (BASE, dec 5000) (msg 17000%N 2000%N 87440%N)) = Ok (w2, out2) /\ steps sc_env W3 (hist (firstn 2 sc_crash) out1) w1.
Proof.
  destruct (try_run_true W3 (firstn 2 sc_crash) (fun w1 _ => bool_decide (status_at w1 A2 3%N = Some STATUS_DORMANT) && bool_decide (request_count w1 A2 = 5%N) &&
     try_ w1 (cx_any, OLiquidate A2 (BASE, dec 5000) (msg 17000%N 2000%N 87440%N)) (fun _ _ => true))) as (w1 & out1 & H & Hf); [vm_compute; reflexivity|].
  apply andb_true_iff in Hf as [Hf H2]. apply andb_true_iff in Hf as [H0 H1]. apply bool_decide_eq_true in H0. apply bool_decide_eq_true in H1. apply try_true in H2 as (w2 & out2 & H2 & _).
  exists w1, w2, out1, out2. split; [exact (steps_reachable _ _ _ _ H W3_reach)|]. split; [exact H0|]. split; [exact H1|]. split; [exact H2|exact H].
Qed.
Example C42_ex : exists w1 out, step sc_env cx_u2 W3 (snd tpsl_op) = Ok (w1, out) /\ reachable sc_env w1 /\ 3%N ∈ active_set w1 A2 /\ 2%N ∈ active_set w1 A2 /\
  access_ok cx_u2 w1 (ARole RCancelRequest) = true /\ 1 <= w_auth w1 /\ (exists acc, w_accounts w1 !! A2 = Some acc /\ rule_sat (cx_sat cx_u2) (ac_l3 acc) = true).
Proof.
  destruct (try_true W3 tpsl_op (fun w1 _ => bool_decide (3%N ∈ active_set w1 A2) && bool_decide (2%N ∈ active_set w1 A2) && access_ok cx_u2 w1 (ARole RCancelRequest) && (1 <=? w_auth w1) &&
    match w_accounts w1 !! A2 with Some acc => rule_sat (cx_sat cx_u2) (ac_l3 acc) | None => false end)) as (w1 & out & H & Hf); [vm_compute; reflexivity|].
  rewrite !andb_true_iff in Hf. destruct Hf as ((((H1 & H2) & H3) & H4) & H5). apply bool_decide_eq_true in H1. apply bool_decide_eq_true in H2. apply Z.leb_le in H4.
  exists w1, out. split; [exact H|]. split; [exact (reach_step _ _ _ _ _ _ W3_reach H)|]. split; [exact H1|]. split; [exact H2|]. split; [exact H3|]. split; [exact H4|].
  destruct (w_accounts w1 !! A2) as [acc|]; [|exfalso; exact (Bool.diff_false_true H5)]. exists acc. split; [reflexivity|exact H5].
Qed.
(** The parent executes and activates both, the take-profit executes and cancels the stop-loss. *)
Definition oco_history : list (ctx * op) :=
  [ tpsl_op; (cx_any, OAdvance 87440); (cx_any, OProcessRequest A2 2%N (msg 30300%N 2000%N 87439%N));
    (cx_any, OAdvance 87450); (cx_any, OProcessRequest A2 3%N (msg 50000%N 2000%N 87449%N)) ].
Example C43_ex : exists w' outs, steps sc_env W3 (hist oco_history outs) w' /\
  status_at w' A2 2%N = Some STATUS_EXECUTED /\ status_at w' A2 3%N = Some STATUS_EXECUTED /\ status_at w' A2 4%N = Some STATUS_CANCELLED.
Proof.
  destruct (try_run_true W3 oco_history (fun w' _ => bool_decide (status_at w' A2 2%N = Some STATUS_EXECUTED) && bool_decide (status_at w' A2 3%N = Some STATUS_EXECUTED) && bool_decide (status_at w' A2 4%N = Some STATUS_CANCELLED))) as (w' & out & H & Hf); [vm_compute; reflexivity|].
  apply andb_true_iff in Hf as [Hf H2]. apply andb_true_iff in Hf as [H0 H1]. apply bool_decide_eq_true in H0. apply bool_decide_eq_true in H1. apply bool_decide_eq_true in H2. exists w', out. split; [exact H|]. split; [exact H0|]. split; [exact H1|exact H2].
Qed.
