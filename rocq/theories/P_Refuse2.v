(** * Why a call fails, continued: requests (for C65). *)
From Verif Require Import Base DFloat Lists Types Config Oracle Pool Account Fees Referral ExInternal Exchange System Sums Trace Frames Calls Spec SpecRequests SpecMargin SpecRefuse P_Ledger P_Accounts P_Refs Frames2 P_Requests P_Requests2 P_Refuse P_Keeper P_Oracle.

Definition none (e : error) : Prop := False.
Lemma f_none {A} (P : error -> Prop) (m : res A) : fails none m -> fails P m. Proof. intros H e He. destruct (H e He). Qed.
(** Writing back: only the list of requests can overflow. *)
Definition full (v : vacc) (e : error) : Prop := e = EArithmetic /\ (18446744073709551615 < kl_ptr (ac_requests (va_comp v)) + N.of_nat (length (va_req_add v)))%N.
Lemma f_push_all {T} (xs : list T) : forall l, fails (fun e => e = EArithmetic /\ (18446744073709551615 < kl_ptr l + N.of_nat (length xs))%N) (rfold kl_push l xs).
Proof.
  induction xs as [|x xs IH]; intros l; [apply f_Ok|]. cbn [rfold]. apply f_bind.
  - unfold kl_push. apply f_bind; [|intros; apply f_Ok]. unfold uadd. destruct (N.leb_spec (kl_ptr l + 1) 18446744073709551615); [apply f_Ok|]. apply f_Err. split; [reflexivity|]. cbn [length]. lia.
  - intros l' H. unfold kl_push in H. bd H as (p & Hp & H). apply Ok_inj in H. subst l'. apply uadd_Ok in Hp as [-> _]. eapply f_mono; [apply IH|]. cbn. intros e [-> He]. split; [reflexivity|]. cbn [length]. lia.
Qed.
Lemma f_accupd2 R v : rq_ok R v -> fails (full v) (acc_update (va_comp v) (va_updates v)).
Proof.
  intros [Ha Hl Hu _ _ _ _ _ _ _]. unfold acc_update. cbv zeta. apply f_bind; [apply f_push_all|].
  intros r1 H1. destruct (kl_push_all _ _ _ (ok_list _ Ha) H1) as (W1 & W2 & _). apply f_none. apply f_bind; [|intros; apply f_Ok].
  apply (f_rfold none (fun l => (kl_ptr (ac_requests (va_comp v)) <= kl_ptr l)%N)); [| |rewrite W2; lia].
  - intros l [i r] Hi Hle. unfold kl_update. apply f_bind; [|intros; apply f_Ok]. apply f_guard. intros Hf. exfalso. apply elem_of_map_to_list in Hi. apply Hu in Hi as (r0 & Hk & _). assert (i < kl_ptr (ac_requests (va_comp v)))%N by (apply (ok_list _ Ha); unfold kl_get in Hk; eauto). cbn [fst] in Hf. apply N.ltb_ge in Hf. lia.
  - intros l [i r] l' _ Hle H. unfold kl_update in H. bd H as ([] & _ & H). apply Ok_inj in H. subst l'. exact Hle.
Qed.
Lemma f_realize2 w v R : rq_ok R v -> va_rewarded v = false -> fails (full v) (realize_acc w v).
Proof. intros Hrq Hrw. unfold realize_acc, va_realize. rewrite Hrw. apply f_bind; [|intros [? ?] _; apply f_Ok]. cbn [mbind res_bind]. apply f_bind; [eapply f_accupd2; exact Hrq|intros; apply f_Ok]. Qed.
(** Settings for the pairs of a set. *)
Lemma f_config w ids : fails (fun e => e = EMissingPairConfig /\ exists k, k ∈ ids /\ pair_cfg w k = None) (get_config w ids).
Proof.
  unfold get_config, vc_new. apply f_bind; [|intros; apply f_Ok]. apply (f_rfold _ (fun _ => True)); [|auto|exact I]. intros m k Hk _. apply f_bind; [|intros; apply f_Ok]. intros e He. unfold expect, config_get_pair, hl_get in He. match type of He with match ?t with _ => _ end = _ => destruct t eqn:Hc end; [discriminate He|]. injection He as <-. split; [reflexivity|]. exists k. split; [apply elem_of_elements; exact Hk|].
  unfold pair_cfg. match goal with |- _ <$> ?t = _ => assert (t = None) as -> by exact Hc end. reflexivity.
Qed.
Lemma f_config0 w : fails none (get_config w ∅). Proof. eapply f_mono; [apply f_config|]. intros e (_ & k & Hk & _). exfalso. revert Hk. apply not_elem_of_empty. Qed.
(** Cancelling. *)
Lemma f_requests v is_ : fails (fun e => e = EMissingRequest /\ exists i, i ∈ is_ /\ va_keeper_request v i = Err EMissingRequest) (va_keeper_requests v is_).
Proof.
  unfold va_keeper_requests. apply (f_rfold _ (fun _ => True)); [|auto|exact I]. intros m i Hi _. apply f_bind; [|intros; apply f_Ok]. intros e He. assert (e = EMissingRequest) as ->; [|eauto].
  unfold va_keeper_request in He. destruct (va_req_upd v !! i); [discriminate He|]. destruct (kl_get _ i); [discriminate He|]. injection He as <-. reflexivity.
Qed.
Definition cancel_why (acc : account) (v0 : vacc) (is_ : list N) (e : error) : Prop :=
  e = EMissingRequest /\ (exists i, i ∈ is_ /\ kl_get (ac_requests acc) i = None) \/
  e = ECancelNotActiveOrDormant /\ (exists i r, i ∈ is_ /\ kl_get (ac_requests acc) i = Some r /\ pend r = false) \/
  e = EArithmetic /\ (exists i r, i ∈ is_ /\ kl_get (ac_requests acc) i = Some r /\ (i < ac_vstart acc)%N).
Definition cancelling (acc : account) (is_ : list N) (v : vacc) : Prop :=
  rq_ok mv v /\ va_comp v = acc /\ va_act_add v = [] /\ va_req_add v = [] /\ va_rewarded v = false /\ forall j, j ∈ va_act_rem v -> j ∈ is_.
Lemma subset_count (l : list N) (X : gset N) i : NoDup l -> (forall j, j ∈ l -> j ∈ X) -> i ∈ X -> i ∉ l -> (N.of_nat (length l) + 1 <= N.of_nat (size X))%N.
Proof.
  intros Hn Hl Hi Hni. assert ((list_to_set (i :: l) : gset N) ⊆ X) as Hs. { intros j Hj. apply elem_of_list_to_set, elem_of_cons in Hj as [->|Hj]; auto. }
  apply subseteq_size in Hs. rewrite size_list_to_set in Hs by (constructor; assumption). cbn [length] in Hs. lia.
Qed.
Lemma f_cancel1 acc is_ v i r : acc_ok acc -> cancelling acc is_ v -> i ∈ is_ -> va_keeper_request v i = Ok r -> kl_get (ac_requests acc) i = Some r -> fails (cancel_why acc v is_) (va_cancel1 v (i, r)) /\ forall v', va_cancel1 v (i, r) = Ok v' -> cancelling acc is_ v' /\ forall k, k <> i -> va_keeper_request v' k = va_keeper_request v k.
Proof.
  intros Hok (C1 & C2 & C3 & C4 & C6 & C5) Hi Hr Hg. split.
  - unfold va_cancel1. cbn [mbind res_bind status_phases]. apply f_bind; [apply f_Ok|]. intros ph Hph. apply Ok_inj in Hph. subst ph. apply f_bind.
    { apply f_guard. intros Hf. right; left. split; [reflexivity|]. exists i, r. split; [exact Hi|]. split; [exact Hg|]. unfold pend, is_pending. unfold in_list in Hf. cbn in Hf. destruct (kr_status r =? STATUS_DORMANT)%N eqn:E1, (kr_status r =? STATUS_ACTIVE)%N eqn:E2; try reflexivity; unfold STATUS_DORMANT, STATUS_ACTIVE in *; rewrite ?E1, ?E2 in Hf; cbn in Hf; discriminate Hf. }
    intros [] Hp. apply guard_Ok in Hp. apply f_bind; [|intros; apply f_Ok]. destruct (is_pending (kr_status r)) eqn:Hpd; [|apply f_Ok].
    unfold va_remove_active. apply f_bind; [|intros; apply f_Ok]. unfold usub. destruct (N.leb_spec 1 (va_alen v)) as [Hle|Hlt]; [apply f_Ok|]. apply f_Err. right; right. split; [reflexivity|].
    assert (forall j, j ∈ va_act_rem v -> exists r0, kl_get (ac_requests acc) j = Some r0 /\ pend r0 = true) as Hrem.
    { intros j Hj. apply (rk_arem _ _ C1) in Hj as (r1 & Hr1 & Hp1). destruct (rk_upd _ _ C1 _ _ Hr1) as (r0 & Q1 & Q2 & Q3). rewrite C2 in Q1. exists r0. split; [exact Q1|]. apply is_pending_spec. unfold mv in Q3. unfold pendP. tauto. }
    destruct (decide (Exists (fun j => (j < ac_vstart acc)%N) (va_act_rem v))) as [Hex|Hno].
    { apply Exists_exists in Hex as (j & J1 & J3). destruct (Hrem j J1) as (rj & J2 & _). exists j, rj. auto. }
    destruct (decide (i < ac_vstart acc)%N) as [Hlv|Hlv]; [exists i, r; auto|]. exfalso.
    pose proof (rk_alen _ _ C1) as HA. rewrite C3 in HA. cbn [length] in HA. rewrite C2 in HA.
    assert (i ∉ va_act_rem v) as Hni. { intros Hin. apply (rk_arem _ _ C1) in Hin as (r1 & Hr1 & Hp1). unfold va_keeper_request in Hr. rewrite Hr1 in Hr. apply Ok_inj in Hr. subst r1. unfold pend in *. rewrite Hpd in Hp1. discriminate Hp1. }
    pose proof (subset_count (va_act_rem v) (ac_active acc) i (rk_arem_nd _ _ C1)) as Hsz. assert (N.of_nat (length (va_act_rem v)) + 1 <= N.of_nat (size (ac_active acc)))%N; [|lia]. apply Hsz; [|apply (ok_active _ Hok); split; [lia|exists r; auto]|exact Hni].
    intros j Hj. apply (ok_active _ Hok). split; [destruct (N.le_gt_cases (ac_vstart acc) j); [assumption|exfalso; apply Hno; apply Exists_exists; eauto]|]. exact (Hrem j Hj).
  - intros v' H. assert (pend r = true /\ mv (kr_status r) STATUS_CANCELLED /\ set_one v i r STATUS_CANCELLED v') as (P1 & P2 & P3).
    { unfold va_cancel1 in H. cbn [mbind res_bind status_phases] in H. bd H as (ph & Hph & H). apply Ok_inj in Hph. subst ph. bd H as ([] & Hgd & H). apply guard_Ok in Hgd. assert (pend r = true) as Hp.
      { unfold in_list in Hgd. cbn in Hgd. unfold pend. apply is_pending_spec. unfold pendP. rewrite !orb_true_iff, !N.eqb_eq in Hgd. unfold STATUS_ACTIVE, STATUS_DORMANT in Hgd. destruct Hgd as [?|[?|Hx]]; [auto|auto|discriminate Hx]. }
      split; [exact Hp|]. split; [apply is_pending_spec in Hp; unfold mv, STATUS_CANCELLED; unfold pendP in Hp; tauto|]. assert (is_pending (kr_status r) = true) as Hp' by exact Hp. rewrite Hp' in H. bd H as (v2 & H2 & H). apply Ok_inj in H. subst v'. unfold set_one. simpl. eauto. }
    assert (rq_ok (fun _ _ => True) v) as C1' by (eapply rq_ok_weaken; [|exact C1]; auto).
    destruct (set_one_view v i r STATUS_CANCELLED v' i C1' Hr P3) as (_ & _ & V3 & V4 & _ & V6 & V7 & _).
    split; [|exact V7]. split; [eapply (set_one_ok mv mv); [exact C1|auto|exact mv_mv| |exact Hr|exact P2|exact P3]; unfold mv, pendP; tauto|].
    split; [congruence|]. split; [congruence|]. split; [congruence|].
    unfold set_one in P3. cbn in P3. destruct P3 as (v1 & Hv1 & ->). apply va_remove_active_inv in Hv1 as [_ ->]. split; [exact C6|]. cbn. intros j Hj. apply elem_of_app in Hj as [Hj|Hj]; [auto|]. apply elem_of_list_singleton in Hj. subst j. exact Hi.
Qed.
Lemma f_cancel acc v is_ : acc_ok acc -> cancelling acc is_ v -> va_req_upd v = ∅ -> fails (cancel_why acc v is_) (va_cancel_requests v is_) /\ forall v', va_cancel_requests v is_ = Ok v' -> cancelling acc is_ v'.
Proof.
  intros Hok Hc Hu. assert (forall i, va_keeper_request v i = expect (kl_get (ac_requests acc) i) EMissingRequest) as Hkr. { intros i. unfold va_keeper_request. rewrite Hu, lookup_empty. destruct Hc as (_ & -> & _). reflexivity. }
  assert (forall rs, va_keeper_requests v is_ = Ok rs -> fails (cancel_why acc v is_) (rfold va_cancel1 v (map_to_list rs)) /\ forall v', rfold va_cancel1 v (map_to_list rs) = Ok v' -> cancelling acc is_ v') as Hf.
  { intros rs Hrs. destruct (keeper_requests_inv _ _ _ Hrs) as [Hr1 _].
    assert (forall l v1, NoDup (map fst l) -> (forall i r, (i, r) ∈ l -> i ∈ is_ /\ va_keeper_request v1 i = Ok r /\ kl_get (ac_requests acc) i = Some r) -> cancelling acc is_ v1 ->
       fails (cancel_why acc v is_) (rfold va_cancel1 v1 l) /\ forall v', rfold va_cancel1 v1 l = Ok v' -> cancelling acc is_ v') as Hg.
    { induction l as [|[i r] l IH]; intros v1 Hn Hl Hc1; cbn [rfold]; [split; [apply f_Ok|intros v' H; apply Ok_inj in H; subst; exact Hc1]|].
      destruct (Hl i r ltac:(left)) as (L1 & L2 & L3). destruct (f_cancel1 acc is_ v1 i r Hok Hc1 L1 L2 L3) as [F1 F2]. cbn [map fst] in Hn. apply NoDup_cons in Hn as [Hni Hn].
      assert (forall v2, va_cancel1 v1 (i, r) = Ok v2 -> fails (cancel_why acc v is_) (rfold va_cancel1 v2 l) /\ forall v', rfold va_cancel1 v2 l = Ok v' -> cancelling acc is_ v') as Hnext.
      { intros v2 H2. destruct (F2 _ H2) as [G1 G2]. apply IH; [exact Hn| |exact G1]. intros j rj Hj. destruct (Hl j rj ltac:(right; exact Hj)) as (M1 & M2 & M3). split; [exact M1|]. split; [|exact M3]. rewrite G2; [exact M2|]. intros ->. apply Hni. change i with (fst (i, rj)). apply elem_of_list_In, in_map, elem_of_list_In. exact Hj. }
      split; [apply f_bind; [exact F1|intros v2 H2; apply (Hnext v2 H2)]|]. intros v' H. bd H as (v2 & H2 & H). exact (proj2 (Hnext v2 H2) _ H). }
    apply Hg; [apply NoDup_fst_map_to_list| |exact Hc]. intros i r Hi. apply elem_of_map_to_list in Hi. destruct (Hr1 _ _ Hi) as [I1 I2]. split; [exact I1|]. split; [exact I2|]. rewrite Hkr in I2. apply expect_Ok in I2. exact I2. }
  unfold va_cancel_requests. split.
  - apply f_bind; [|intros rs Hrs; apply (Hf rs Hrs)]. eapply f_mono; [apply f_requests|]. intros e (-> & i & Hi & He). left. split; [reflexivity|]. exists i. split; [exact Hi|]. rewrite Hkr in He. destruct (kl_get (ac_requests acc) i); [discriminate He|reflexivity].
  - intros v' H. bd H as (rs & Hrs & H). exact (proj2 (Hf rs Hrs) _ H).
Qed.
