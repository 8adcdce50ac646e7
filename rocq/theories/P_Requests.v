(** * Requests: the session-level invariant of the request cache and what a call does
    to the request list of an account. *)
From Verif Require Import Base DFloat Lists Types Config Oracle Pool Account Fees Referral ExInternal Exchange System Sums Trace Frames Calls Shape Spec P_Ledger P_Accounts Frames2.

Notation pend r := (is_pending (kr_status r)).
Definition kl_wf {T} (l : klist T) : Prop := forall i, is_Some (kl_kvs l !! i) <-> (i < kl_ptr l)%N.
(** Well-formed request part of an account. *)
Record acc_ok (a : account) : Prop := {
  ok_list : kl_wf (ac_requests a);
  ok_start : (ac_vstart a <= kl_len (ac_requests a))%N;
  ok_active : forall i, i ∈ ac_active a <-> (ac_vstart a <= i)%N /\ exists r, kl_get (ac_requests a) i = Some r /\ pend r = true }.

(** Status moves by activation and cancellation, and all moves. *)
Definition mv (a b : N) : Prop := (a = 0 /\ (b = 1 \/ b = 3) \/ a = 1 /\ b = 3)%N.
Definition fwd (a b : N) : Prop := (a = 0 /\ (b = 1 \/ b = 3 \/ b = 4) \/ a = 1 /\ (b = 2 \/ b = 3 \/ b = 4))%N.
Lemma mv_fwd a b : mv a b -> fwd a b. Proof. unfold mv, fwd. tauto. Qed.
Lemma mv_mv a b c : mv a b -> mv b c -> mv a c. Proof. unfold mv. intros [[? [?|?]]|[? ?]] [[? [?|?]]|[? ?]]; subst; try discriminate; auto. Qed.
Lemma fwd_mv a b c : fwd a b -> mv b c -> fwd a c.
Proof. unfold mv, fwd. intros [[? [?|[?|?]]]|[? [?|[?|?]]]] [[? [?|?]]|[? ?]]; subst; try discriminate; auto. Qed.
Definition pendP (s : N) : Prop := (s = 0 \/ s = 1)%N.
Lemma is_pending_spec s : is_pending s = true <-> pendP s.
Proof. unfold is_pending, pendP, STATUS_ACTIVE, STATUS_DORMANT. rewrite orb_true_iff, !N.eqb_eq. tauto. Qed.

Definition set_st (r : keeper_request) (s : N) : keeper_request := r <| kr_status := s |>.
Lemma set_st_status r s : kr_status (set_st r s) = s. Proof. reflexivity. Qed.
Lemma set_st_twice r s t : set_st (set_st r s) t = set_st r t. Proof. destruct r; reflexivity. Qed.
Lemma set_st_id r : set_st r (kr_status r) = r. Proof. destruct r; reflexivity. Qed.

Record rq_ok (R : N -> N -> Prop) (v : vacc) : Prop := {
  rk_acc : acc_ok (va_comp v);
  rk_len : va_rlen v = kl_len (ac_requests (va_comp v));
  rk_upd : forall i r, va_req_upd v !! i = Some r -> exists r0, kl_get (ac_requests (va_comp v)) i = Some r0 /\
             r = set_st r0 (kr_status r) /\ R (kr_status r0) (kr_status r);
  rk_add : forall r, r ∈ va_req_add v -> pend r = true;
  rk_aadd : forall i, i ∈ va_act_add v <-> (va_rlen v <= i < va_rlen v + N.of_nat (length (va_req_add v)))%N;
  rk_aadd_nd : NoDup (va_act_add v);
  rk_arem : forall i, i ∈ va_act_rem v <-> exists r, va_req_upd v !! i = Some r /\ pend r = false;
  rk_arem_nd : NoDup (va_act_rem v);
  rk_vstart : va_vstart v = ac_vstart (va_comp v) \/ va_vstart v = va_rlen v;
  rk_alen : (va_alen v + N.of_nat (length (va_act_rem v)) = N.of_nat (size (ac_active (va_comp v))) + N.of_nat (length (va_act_add v)))%N }.

Lemma rq_ok_frame R v v' : rq_ok R v -> g_rq v' = g_rq v -> rq_ok R v'.
Proof.
  intros [A1 A2 A3 A4 A5 A6 A7 A8 A9 A10] H. unfold g_rq in H. injection H as H1 H2 H3 H4 H5 H6 H7 H8 H9 H10 H11.
  split; rewrite ?H2, ?H3, ?H4, ?H5, ?H6, ?H7, ?H8, ?H9, ?H10, ?H11; try assumption.
  destruct A1 as [B1 B2 B3]. split; rewrite ?H2, ?H3, ?H4; assumption.
Qed.
Lemma rq_ok_new w a v R : get_acc w a = Ok v -> acc_ok (va_comp v) -> rq_ok R v.
Proof.
  intros H Ha. apply get_acc_inv in H. destruct H as (acc & _ & Hc & _ & _ & _ & _ & Hvs & Hrl & Hal & _ & Hra & Hru & Haa & Har & _).
  split; rewrite ?Hra, ?Hru, ?Haa, ?Har, ?Hc; try assumption; try (rewrite Hc in Ha; assumption).
  - intros i r Hi. rewrite lookup_empty in Hi. discriminate.
  - intros r Hr. inversion Hr.
  - intros i. simpl. split; [intros Hi; inversion Hi|lia].
  - constructor.
  - intros i. split; [intros Hi; inversion Hi|]. intros (r & Hi & _). rewrite lookup_empty in Hi. discriminate.
  - constructor.
  - left. congruence.
  - simpl. rewrite Hal. lia.
Qed.
Lemma rq_ok_weaken (R R' : N -> N -> Prop) v : (forall a b, R a b -> R' a b) -> rq_ok R v -> rq_ok R' v.
Proof. intros HR [A1 A2 A3 A4 A5 A6 A7 A8 A9 A10]. split; auto. intros i r Hi. apply A3 in Hi. destruct Hi as (r0 & ? & ? & ?); eauto. Qed.

(** The request list the caches stand for. *)
Definition rview (v : vacc) (i : N) : option keeper_request :=
  match va_req_upd v !! i with
  | Some r => Some r
  | None => if (i <? va_rlen v)%N then kl_get (ac_requests (va_comp v)) i else va_req_add v !! N.to_nat (i - va_rlen v)
  end.
Lemma rview_frame v v' i : g_rq v' = g_rq v -> rview v' i = rview v i.
Proof. unfold g_rq, rview. intros H. injection H as H1 H2 H3 H4 H5 H6 H7 H8 H9 H10 H11. rewrite H2, H6, H8, H9. reflexivity. Qed.
Lemma kr_view v i r : rq_ok (fun _ _ => True) v -> va_keeper_request v i = Ok r -> rview v i = Some r /\ (i < va_rlen v)%N.
Proof.
  intros [A1 A2 A3 _ _ _ _ _ _ _] H. unfold va_keeper_request in H. unfold rview. destruct (va_req_upd v !! i) eqn:Hu.
  - apply Ok_inj in H. subst. split; [reflexivity|]. apply A3 in Hu as (r0 & Hr & _). rewrite A2. apply A1. unfold kl_get in Hr. rewrite Hr. eauto.
  - apply expect_Ok in H. assert (i < va_rlen v)%N as Hi. { rewrite A2. apply A1. unfold kl_get in H. rewrite H. eauto. }
    split; [|exact Hi]. apply N.ltb_lt in Hi. rewrite Hi. exact H.
Qed.
Lemma view_kr v i r : rview v i = Some r -> (i < va_rlen v)%N -> va_keeper_request v i = Ok r.
Proof.
  unfold rview, va_keeper_request. intros H Hi. destruct (va_req_upd v !! i); [congruence|]. apply N.ltb_lt in Hi. rewrite Hi in H. rewrite H. reflexivity.
Qed.

(** One status change. *)
Definition put_st (v : vacc) (i : N) (r : keeper_request) (s : N) : vacc := v <| va_req_upd := <[i := set_st r s]> (va_req_upd v) |>.
Definition set_one (v : vacc) (i : N) (r : keeper_request) (s : N) (v' : vacc) : Prop :=
  if is_pending s then v' = put_st v i r s else exists v1, va_remove_active v i = Ok v1 /\ v' = put_st v1 i r s.
Lemma va_remove_active_inv v i v1 : va_remove_active v i = Ok v1 -> (1 <= va_alen v)%N /\
  v1 = v <| va_alen := (va_alen v - 1)%N |> <| va_act_rem := va_act_rem v ++ [i] |>.
Proof. unfold va_remove_active. intros H. inv_step H. inv_step Hb. inv_step Hk. subst. auto. Qed.
Lemma set_one_ok (R : N -> N -> Prop) (M : N -> N -> Prop) v i r s v' :
  rq_ok R v -> (forall a b, M a b -> R a b) -> (forall a b c, R a b -> M b c -> R a c) -> (forall a b, M a b -> pendP a) ->
  va_keeper_request v i = Ok r -> M (kr_status r) s -> set_one v i r s v' -> rq_ok R v'.
Proof.
  intros [A1 A2 A3 A4 A5 A6 A7 A8 A9 A10] HM HT HP Hr Hm Hs.
  assert (exists r0, kl_get (ac_requests (va_comp v)) i = Some r0 /\ set_st r s = set_st r0 s /\ R (kr_status r0) s) as Hb.
  { unfold va_keeper_request in Hr. destruct (va_req_upd v !! i) as [r1|] eqn:Hu.
    - apply Ok_inj in Hr. subst r1. apply A3 in Hu as (r0 & H0 & H1 & H2). exists r0. split; [exact H0|]. split; [|eauto]. rewrite H1. apply set_st_twice.
    - apply expect_Ok in Hr. exists r. split; [exact Hr|]. auto. }
  assert (pend r = true) as Hpr by (apply is_pending_spec; eauto).
  assert (~ i ∈ va_act_rem v) as Hni.
  { intros Hi. apply A7 in Hi as (r1 & Hi & Hp). unfold va_keeper_request in Hr. rewrite Hi in Hr. apply Ok_inj in Hr. congruence. }
  assert (forall j r1, <[i := set_st r s]> (va_req_upd v) !! j = Some r1 -> exists r0, kl_get (ac_requests (va_comp v)) j = Some r0 /\
             r1 = set_st r0 (kr_status r1) /\ R (kr_status r0) (kr_status r1)) as Hupd.
  { intros j r1 Hj. destruct (decide (j = i)) as [->|Hn].
    - rewrite lookup_insert in Hj. injection Hj as <-. destruct Hb as (r0 & H0 & H1 & H2). exists r0. rewrite set_st_status. auto.
    - rewrite lookup_insert_ne in Hj by congruence. eauto. }
  unfold set_one in Hs. destruct (is_pending s) eqn:Hps.
  - subst v'. unfold put_st. split; simpl; try assumption. intros j. rewrite A7. split; intros (r1 & Hj & Hp1).
    + destruct (decide (j = i)) as [->|Hn]; [exfalso; apply Hni; apply A7; eauto|]. exists r1. rewrite lookup_insert_ne by congruence. auto.
    + destruct (decide (j = i)) as [->|Hn]; [rewrite lookup_insert in Hj; injection Hj as <-; rewrite set_st_status in Hp1; congruence|].
      rewrite lookup_insert_ne in Hj by congruence. eauto.
  - destruct Hs as (v1 & Hv1 & ->). apply va_remove_active_inv in Hv1 as [Hl ->]. unfold put_st. split; simpl; try assumption.
    + intros j. rewrite elem_of_app, elem_of_list_singleton, A7. split.
      * intros [(r1 & Hj & Hp1)| ->].
        -- destruct (decide (j = i)) as [->|Hn]; [exists (set_st r s); rewrite lookup_insert; auto|]. exists r1. rewrite lookup_insert_ne by congruence. auto.
        -- exists (set_st r s). rewrite lookup_insert. auto.
      * intros (r1 & Hj & Hp1). destruct (decide (j = i)) as [->|Hn]; [auto|]. rewrite lookup_insert_ne in Hj by congruence. eauto.
    + apply NoDup_app. split; [exact A8|]. split; [|apply NoDup_singleton]. intros j Hj. rewrite elem_of_list_singleton. intros ->. auto.
    + rewrite app_length. simpl. lia.
Qed.
Lemma set_one_view v i r s v' j : rq_ok (fun _ _ => True) v -> va_keeper_request v i = Ok r -> set_one v i r s v' ->
  rview v' j = (if decide (j = i) then Some (set_st r s) else rview v j) /\ va_rlen v' = va_rlen v /\ va_comp v' = va_comp v /\
  va_req_add v' = va_req_add v /\ va_vstart v' = va_vstart v /\ va_act_add v' = va_act_add v /\
  (forall k, k <> i -> va_keeper_request v' k = va_keeper_request v k) /\ va_keeper_request v' i = Ok (set_st r s).
Proof.
  intros Ho Hr Hs. assert (exists n rem, v' = v <| va_alen := n |> <| va_act_rem := rem |> <| va_req_upd := <[i := set_st r s]> (va_req_upd v) |>) as (n & rem & ->).
  { unfold set_one in Hs. destruct (is_pending s).
    - exists (va_alen v), (va_act_rem v). subst. destruct v; reflexivity.
    - destruct Hs as (v1 & Hv & ->). apply va_remove_active_inv in Hv as [_ ->]. eexists _, _. reflexivity. }
  unfold rview, va_keeper_request. simpl. repeat split.
  - destruct (decide (j = i)) as [->|Hn]; [rewrite lookup_insert; reflexivity|]. rewrite lookup_insert_ne by congruence. reflexivity.
  - intros k Hk. rewrite lookup_insert_ne by congruence. reflexivity.
  - rewrite lookup_insert. reflexivity.
Qed.

(** The batch reads. *)
Lemma keeper_requests_inv v is_ rs : va_keeper_requests v is_ = Ok rs ->
  (forall i r, rs !! i = Some r -> i ∈ is_ /\ va_keeper_request v i = Ok r) /\ (forall i, i ∈ is_ -> exists r, rs !! i = Some r).
Proof.
  unfold va_keeper_requests.
  match goal with |- rfold ?f _ _ = _ -> _ => assert (forall l m0 m1, rfold f m0 l = Ok m1 ->
    (forall i r, m1 !! i = Some r -> m0 !! i = Some r \/ (i ∈ l /\ va_keeper_request v i = Ok r)) /\
    (forall i, i ∈ l -> exists r, m1 !! i = Some r) /\ (forall i r, m0 !! i = Some r -> exists r', m1 !! i = Some r')) as Hg end.
  { induction l as [|x l IH]; intros m0 m1 H; simpl in H.
    - apply Ok_inj in H. subst. split; [auto|]. split; [intros i Hi; inversion Hi|eauto].
    - bd H as (m2 & H1 & H). bd H1 as (r1 & Hr1 & H1). apply Ok_inj in H1. subst m2. apply IH in H as (H1 & H2 & H3). split; [|split].
      + intros i r Hi. apply H1 in Hi as [Hi|[Hi Hk]]; [|right; split; [right; assumption|assumption]].
        destruct (decide (i = x)) as [->|Hn].
        * rewrite lookup_insert in Hi. injection Hi as <-. right. split; [left|exact Hr1].
        * rewrite lookup_insert_ne in Hi by congruence. auto.
      + intros i Hi. apply elem_of_cons in Hi as [->|Hi]; [|auto]. eapply H3. apply lookup_insert.
      + intros i r Hi. destruct (decide (i = x)) as [->|Hn]; [eapply H3; apply lookup_insert|]. eapply H3. rewrite lookup_insert_ne by congruence. exact Hi. }
  intros H. apply Hg in H as (H1 & H2 & _). split; [|exact H2].
  intros i r Hi. apply H1 in Hi as [Hi|Hi]; [rewrite lookup_empty in Hi; discriminate|exact Hi].
Qed.

(** Effect of a batch on the view: [upd r] is the new status of a request, if it changes. *)
Definition view_after (v : vacc) (is_ : list N) (upd : keeper_request -> option N) (v' : vacc) : Prop :=
  (forall i, i ∈ is_ -> exists r, va_keeper_request v i = Ok r) /\
  (forall i, rview v' i = match rview v i with
     | Some r => match upd r with Some s => if decide (i ∈ is_) then Some (set_st r s) else Some r | None => Some r end
     | None => None end) /\
  va_rlen v' = va_rlen v /\ va_comp v' = va_comp v /\ va_req_add v' = va_req_add v /\ va_vstart v' = va_vstart v /\ va_act_add v' = va_act_add v.

Section batch.
  Context (R M : N -> N -> Prop) (HM : forall a b, M a b -> R a b) (HT : forall a b c, R a b -> M b c -> R a c) (HP : forall a b, M a b -> pendP a).
  Context (f : vacc -> N * keeper_request -> res vacc) (upd : keeper_request -> option N).
  Context (Hf : forall v i r v', f v (i, r) = Ok v' ->
    match upd r with Some s => M (kr_status r) s /\ set_one v i r s v' | None => v' = v end).
  Lemma batch_fold l : forall v v', NoDup (map fst l) -> (forall i r, (i, r) ∈ l -> va_keeper_request v i = Ok r) ->
    rfold f v l = Ok v' -> rq_ok R v -> rq_ok R v' /\ view_after v (map fst l) upd v'.
  Proof.
    induction l as [|[i r] l IH]; intros v v' Hnd Hl H Ho; cbn [rfold map fst] in *.
    - apply Ok_inj in H. subst v'. split; [exact Ho|]. split; [intros i Hi; inversion Hi|]. split; [|auto 10].
      intros i. destruct (rview v i) as [r|]; [|reflexivity]. destruct (upd r); [|reflexivity]. case_decide as Hd; [inversion Hd|reflexivity].
    - bd H as (v1 & H1 & H). apply NoDup_cons in Hnd as [Hni Hnd]. apply Hf in H1.
      assert (rq_ok (fun _ _ => True) v) as Hot by (eapply rq_ok_weaken; [|exact Ho]; auto).
      assert (va_keeper_request v i = Ok r) as Hr by (apply Hl; left).
      destruct (kr_view _ _ _ Hot Hr) as [Hvi _].
      destruct (upd r) as [s|] eqn:Hu.
      + destruct H1 as [Hm Hs]. pose proof (set_one_ok R M _ _ _ _ _ Ho HM HT HP Hr Hm Hs) as Ho1.
        pose proof (fun j => set_one_view v i r s v1 j Hot Hr Hs) as Hv.
        assert (forall j r', (j, r') ∈ l -> va_keeper_request v1 j = Ok r') as Hl1.
        { intros j r' Hj. destruct (Hv j) as (_ & _ & _ & _ & _ & _ & Hk & _). rewrite Hk; [apply Hl; right; exact Hj|].
          intros ->. apply Hni. apply elem_of_list_fmap. exists (i, r'). auto. }
        specialize (IH _ _ Hnd Hl1 H Ho1). destruct IH as (Ho' & He & Hw & E1 & E2 & E3 & E4 & E5).
        destruct (Hv 0%N) as (_ & F1 & F2 & F3 & F4 & F5 & Fk & _).
        split; [exact Ho'|]. split; [|split; [|repeat split; congruence]].
        * intros j Hj. apply elem_of_cons in Hj as [->|Hj]; [eauto|]. destruct (He j Hj) as [r' Hr']. rewrite Fk in Hr'; [eauto|]. intros ->. auto.
        * intros j. rewrite Hw. destruct (Hv j) as (Fv & _). rewrite Fv. destruct (decide (j = i)) as [->|Hn].
          -- rewrite Hvi, Hu. destruct (decide (i ∈ i :: map fst l)) as [_|Hc]; [|exfalso; apply Hc; left].
             destruct (upd (set_st r s)); [|reflexivity]. case_decide as Hd; [exfalso; apply Hni; exact Hd|reflexivity].
          -- destruct (rview v j) as [r'|]; [|reflexivity]. destruct (upd r'); [|reflexivity].
             destruct (decide (j ∈ map fst l)) as [Hd|Hd], (decide (j ∈ i :: map fst l)) as [Hd'|Hd']; try reflexivity.
             ++ exfalso. apply Hd'. right. exact Hd.
             ++ apply elem_of_cons in Hd' as [?|?]; tauto.
      + subst v1. assert (forall j r', (j, r') ∈ l -> va_keeper_request v j = Ok r') as Hl1 by (intros; apply Hl; right; assumption).
        specialize (IH _ _ Hnd Hl1 H Ho). destruct IH as (Ho' & He & Hw & E1). split; [exact Ho'|]. split; [|split; [|exact E1]].
        * intros j Hj. apply elem_of_cons in Hj as [->|Hj]; eauto.
        * intros j. rewrite Hw. destruct (decide (j = i)) as [->|Hn].
          -- rewrite Hvi, Hu. reflexivity.
          -- destruct (rview v j) as [r'|]; [|reflexivity]. destruct (upd r'); [|reflexivity].
             destruct (decide (j ∈ map fst l)) as [Hd|Hd], (decide (j ∈ i :: map fst l)) as [Hd'|Hd']; try reflexivity.
             ++ exfalso. apply Hd'. right. exact Hd.
             ++ apply elem_of_cons in Hd' as [?|?]; tauto.
  Qed.
  Lemma batch_all v is_ rs v' : va_keeper_requests v is_ = Ok rs -> rfold f v (map_to_list rs) = Ok v' -> rq_ok R v ->
    rq_ok R v' /\ view_after v is_ upd v'.
  Proof.
    intros Hrs H Ho. apply keeper_requests_inv in Hrs as [H1 H2].
    apply batch_fold in H; [|apply NoDup_fst_map_to_list| |exact Ho].
    2: { intros i r Hi. apply elem_of_map_to_list in Hi. apply H1 in Hi. apply Hi. }
    destruct H as (Ho' & He & Hw & E1). split; [exact Ho'|].
    assert (forall i, i ∈ map fst (map_to_list rs) <-> i ∈ is_) as Hi.
    { intros i. rewrite elem_of_list_fmap. split.
      - intros ([k r] & -> & Hk). apply elem_of_map_to_list in Hk. apply H1 in Hk. apply Hk.
      - intros Hi. apply H2 in Hi as [r Hr]. exists (i, r). split; [reflexivity|]. apply elem_of_map_to_list. exact Hr. }
    split; [|split; [|exact E1]].
    - intros i Hin. apply He, Hi, Hin.
    - intros i. rewrite Hw. destruct (rview v i) as [r|]; [|reflexivity]. destruct (upd r); [|reflexivity].
      destruct (decide (i ∈ map fst (map_to_list rs))) as [Hd|Hd], (decide (i ∈ is_)) as [Hd'|Hd']; try reflexivity; exfalso; rewrite Hi in Hd; tauto.
  Qed.
End batch.

(** Activation and cancellation of a batch. *)
Definition try_upd (st : N) (r : keeper_request) : option N :=
  if (st =? 1)%N then (if (kr_status r =? 0)%N then Some 1%N else None)
  else (if pend r then Some 3%N else None).
Lemma rfold_snd_vacc ph st l v acc v' acc' :
  rfold (va_try_set1 ph st) (v, acc) l = Ok (v', acc') ->
  rfold (fun v x => '(v1, _) ← va_try_set1 ph st (v, []) x; Ok v1) v l = Ok v'.
Proof.
  revert v acc. induction l as [|x l IH]; intros v acc H; cbn [rfold] in *.
  - apply Ok_inj in H. congruence.
  - bd H as ([v1 acc1] & H1 & H). apply IH in H.
    assert (exists l', va_try_set1 ph st (v, []) x = Ok (v1, l')) as [l' ->]; [|exact H].
    clear H. unfold va_try_set1 in *. destruct x as [i r]. destruct (in_list (kr_status r) ph).
    + bd H1 as (v2 & H2 & H1). rewrite H2. apply Ok_inj in H1. injection H1 as <- _. eexists. reflexivity.
    + apply Ok_inj in H1. injection H1 as <- _. eauto.
Qed.
Lemma try_set_inv (R : N -> N -> Prop) v is_ st v' l : (forall a b, mv a b -> R a b) -> (forall a b c, R a b -> mv b c -> R a c) ->
  (st = STATUS_ACTIVE \/ st = STATUS_CANCELLED) ->
  va_try_set_status v is_ st = Ok (v', l) -> rq_ok R v -> rq_ok R v' /\ view_after v is_ (try_upd st) v'.
Proof.
  intros H1 H2 Hst H Ho. unfold va_try_set_status in H. bd H as (ph & Hph & H). bd H as (rs & Hrs & H). apply rfold_snd_vacc in H.
  eapply (batch_all R mv H1 H2) in H; [exact H| | |exact Hrs|exact Ho].
  - unfold mv, pendP. intros a b. tauto.
  - clear - Hst Hph. intros v i r v' H. bd H as ([v1 l1] & H & H1). apply Ok_inj in H1. subst v1. unfold va_try_set1 in H.
    unfold try_upd. destruct Hst as [-> | ->]; cbn in Hph; apply Ok_inj in Hph; subst ph; cbn in H.
    + unfold in_list in H. simpl in H. rewrite orb_false_r in H. change STATUS_DORMANT with 0%N in H. cbn.
      destruct (N.eqb_spec (kr_status r) 0) as [Hs|Hs]; [|apply Ok_inj in H; congruence].
      bd H as (v2 & H2 & H). rewrite Hs in H2. simpl in H2. apply Ok_inj in H2. subst v2. apply Ok_inj in H. injection H as <- _.
      split; [unfold mv; rewrite Hs; tauto|]. unfold set_one. reflexivity.
    + unfold in_list in H. simpl in H. rewrite orb_false_r in H. unfold is_pending in *. change STATUS_DORMANT with 0%N in *. change STATUS_ACTIVE with 1%N in *. cbn in H |- *.
      destruct ((kr_status r =? 1)%N || (kr_status r =? 0)%N) eqn:Hs; [|apply Ok_inj in H; congruence].
      bd H as (v2 & H2 & H). apply Ok_inj in H. injection H as <- _.
      split; [unfold mv; rewrite orb_true_iff, !N.eqb_eq in Hs; tauto|]. unfold set_one. simpl. eauto.
Qed.
Lemma cancel_inv (R : N -> N -> Prop) v is_ v' : (forall a b, mv a b -> R a b) -> (forall a b c, R a b -> mv b c -> R a c) ->
  va_cancel_requests v is_ = Ok v' -> rq_ok R v -> rq_ok R v' /\ view_after v is_ (try_upd STATUS_CANCELLED) v' /\
  (forall i, i ∈ is_ -> exists r, va_keeper_request v i = Ok r /\ pend r = true).
Proof.
  intros H1 H2 H Ho. unfold va_cancel_requests in H. bd H as (rs & Hrs & H).
  assert (forall v0 i r v', va_cancel1 v0 (i, r) = Ok v' -> pend r = true /\ match try_upd STATUS_CANCELLED r with Some s => mv (kr_status r) s /\ set_one v0 i r s v' | None => v' = v0 end) as Hf.
  { clear. intros v i r v' H. unfold va_cancel1 in H. cbn in H. bd H as (? & Hg & H). apply guard_Ok in Hg. unfold in_list in Hg. simpl in Hg.
    rewrite orb_false_r in Hg. unfold try_upd, is_pending in *. change STATUS_DORMANT with 0%N in *. change STATUS_ACTIVE with 1%N in *. cbn in H |- *.
    rewrite Hg in *. split; [reflexivity|]. bd H as (v2 & H2 & H). apply Ok_inj in H. subst v'.
    split; [unfold mv; rewrite orb_true_iff, !N.eqb_eq in Hg; tauto|]. unfold set_one. simpl. eauto. }
  assert (forall i r, rs !! i = Some r -> pend r = true) as Hpd.
  { intros i r Hi. apply elem_of_map_to_list in Hi. revert H Hi. generalize (map_to_list rs) as l. clear - Hf. intros l. revert v.
    induction l as [|x l IH]; intros v H Hi; [inversion Hi|]. cbn in H. bd H as (v1 & H1 & H). apply elem_of_cons in Hi as [<-|Hi]; [|eauto].
    apply Hf in H1. apply H1. }
  pose proof (keeper_requests_inv _ _ _ Hrs) as [Hr1 Hr2].
  eapply (batch_all R mv H1 H2) in H; [| | |exact Hrs|exact Ho].
  - destruct H as [Ho' Hv]. split; [exact Ho'|]. split; [exact Hv|]. intros i Hi. apply Hr2 in Hi as [r Hr]. exists r. split; [apply Hr1 in Hr; apply Hr|eauto].
  - unfold mv, pendP. intros a b. tauto.
  - intros. apply Hf. assumption.
Qed.

(** Processing and pushing. *)
Definition pm (a b : N) : Prop := ((a = 0 \/ a = 1) /\ b = 4 \/ a = 1 /\ b = 2)%N.
Lemma process_inv now v i v' rq ex : va_process_request now v i = Ok (v', rq, ex) ->
  exists r st, va_keeper_request v i = Ok r /\ (va_vstart v <= i)%N /\ kr_request r = rq /\ kr_submission r < now /\
    pm (kr_status r) st /\ st = (if ex then 4 else 2)%N /\ (ex = false -> kr_status r = 1%N) /\ ex = (kr_expiry r <=? now) /\ set_one v i r st v'.
Proof.
  unfold va_process_request. intros H. bd H as (? & Hg & H). apply guard_Ok, N.leb_le in Hg. bd H as (r & Hr & H).
  bd H as (st & Hst & H). bd H as (? & Hsub & H). apply guard_Ok, Z.ltb_lt in Hsub. bd H as (v1 & Hv1 & H). apply Ok_inj in H. injection H as <- <- <-.
  exists r, st. repeat (split; [solve [eauto]|]).
  destruct (kr_expiry r <=? now) eqn:Hex.
  - bd Hst as (? & Hp & Hst). apply guard_Ok, is_pending_spec in Hp. apply Ok_inj in Hst. subst st.
    split; [unfold pm; left; split; [exact Hp|reflexivity]|]. split; [reflexivity|]. split; [discriminate|]. split; [reflexivity|].
    unfold set_one. simpl. exists v1. split; [exact Hv1|reflexivity].
  - bd Hst as (? & Hp & Hst). apply guard_Ok, N.eqb_eq in Hp. apply Ok_inj in Hst. subst st.
    split; [unfold pm; right; split; [exact Hp|reflexivity]|]. split; [reflexivity|]. split; [auto|]. split; [reflexivity|].
    unfold set_one. simpl. exists v1. split; [exact Hv1|reflexivity].
Qed.
Lemma process_ok now v i v' rq ex : va_process_request now v i = Ok (v', rq, ex) -> rq_ok pm v -> rq_ok fwd v'.
Proof.
  intros H Ho. apply process_inv in H as (r & st & Hr & _ & _ & _ & Hpm & _ & _ & _ & Hs). apply (rq_ok_weaken pm).
  - unfold pm, fwd. tauto.
  - eapply (set_one_ok pm pm); [exact Ho|auto| | |exact Hr|exact Hpm|exact Hs].
    + unfold pm. intros a b c. intros [[? ->]|[? ->]] [[[?|?] ->]|[? ->]]; discriminate.
    + unfold pm, pendP. tauto.
Qed.
Lemma push_inv now v r d e st eff v' : va_push_request now v r d e st eff = Ok v' ->
  exists kr i, kr = mkKReq r (now + u64_as_i64 d) (now + u64_as_i64 d + u64_as_i64 e) st eff /\ i = (va_rlen v + N.of_nat (length (va_req_add v)))%N /\
  pend kr = true /\ I64MIN <= now + u64_as_i64 d <= I64MAX /\ I64MIN <= now + u64_as_i64 d + u64_as_i64 e <= I64MAX /\
  v' = v <| va_alen := (va_alen v + 1)%N |> <| va_act_add := va_act_add v ++ [i] |> <| va_req_add := va_req_add v ++ [kr] |>.
Proof.
  unfold va_push_request, va_add_active. intros H. bd H as (? & Hg & H). apply guard_Ok in Hg. bd H as (sub & Hs & H). inv_step Hs. bd H as (ex & He & H). inv_step He.
  bd H as (i & Hi & H). inv_step Hi. bd H as (v1 & Hv & H). bd Hv as (n & Hn & Hv). inv_step Hn. apply Ok_inj in Hv, H. subst.
  eexists _, _. split; [reflexivity|]. split; [reflexivity|]. split; [exact Hg|]. split; [lia|]. split; [lia|]. reflexivity.
Qed.
Lemma push_ok R now v r d e st eff v' : va_push_request now v r d e st eff = Ok v' -> rq_ok R v -> rq_ok R v'.
Proof.
  intros H [A1 A2 A3 A4 A5 A6 A7 A8 A9 A10]. apply push_inv in H as (kr & i & Hkr & Hi & Hp & _ & _ & ->). split; simpl; try assumption.
  - intros k Hk. apply elem_of_app in Hk as [Hk|Hk]; [auto|]. apply elem_of_list_singleton in Hk. subst k. exact Hp.
  - intros j. rewrite elem_of_app, elem_of_list_singleton, A5, app_length. simpl. lia.
  - apply NoDup_app. split; [exact A6|]. split; [|apply NoDup_singleton]. intros j Hj. rewrite elem_of_list_singleton. apply A5 in Hj. lia.
  - rewrite app_length. simpl. lia.
Qed.
Definition notproc (x : sact) : Prop := match x with AProcess _ => False | ATrySet _ st => st = STATUS_ACTIVE \/ st = STATUS_CANCELLED | _ => True end.
Lemma sstep_rq (R : N -> N -> Prop) E now c o s x s' : (forall a b, mv a b -> R a b) -> (forall a b c, R a b -> mv b c -> R a c) ->
  sstep E now c o s x s' -> notproc x -> rq_ok R (s_acc s) -> rq_ok R (s_acc s').
Proof.
  intros H1 H2 H Hn Ho. destruct (touches_rq x) eqn:Hx.
  - destruct H; try discriminate Hx; simpl in *; try tauto.
    + eapply try_set_inv in H; eauto. apply H.
    + eapply cancel_inv in H; eauto. apply H.
    + eapply push_ok; eauto.
    + destruct Ho as [A1 A2 A3 A4 A5 A6 A7 A8 A9 A10]. split; simpl; try assumption. right. reflexivity.
  - apply sstep_frames in H. destruct H as (_ & H & _). eapply rq_ok_frame; [exact Ho|auto].
Qed.
Lemma ssteps_rq (R : N -> N -> Prop) E now c o s l s' : (forall a b, mv a b -> R a b) -> (forall a b c, R a b -> mv b c -> R a c) ->
  ssteps E now c o s l s' -> Forall notproc l -> rq_ok R (s_acc s) -> rq_ok R (s_acc s').
Proof.
  intros H1 H2 H. induction H as [|s x s1 l s2 Hx Hl IH]; intros Hf Ho; [exact Ho|]. apply Forall_cons in Hf as [Hf1 Hf2].
  apply IH; [exact Hf2|]. eapply sstep_rq; eauto.
Qed.

(** Writing the caches back. *)
Lemma kl_push_all {T} (xs : list T) (l l' : klist T) : kl_wf l -> rfold kl_push l xs = Ok l' ->
  kl_wf l' /\ kl_ptr l' = (kl_ptr l + N.of_nat (length xs))%N /\
  forall i, kl_get l' i = if (i <? kl_ptr l)%N then kl_get l i else xs !! N.to_nat (i - kl_ptr l).
Proof.
  revert l. induction xs as [|x xs IH]; intros l Hw H; cbn [rfold] in H.
  - apply Ok_inj in H. subst l'. split; [exact Hw|]. split; [simpl; lia|]. intros i. unfold kl_get. destruct (N.ltb_spec i (kl_ptr l)) as [Hi|Hi]; [reflexivity|].
    simpl. destruct (kl_kvs l !! i) eqn:Hk; [|reflexivity]. assert (i < kl_ptr l)%N by (apply Hw; eauto). lia.
  - bd H as (l1 & H1 & H). unfold kl_push in H1. bd H1 as (p & Hp & H1). inv_step Hp. apply Ok_inj in H1. subst l1 p.
    assert (kl_wf (mkKlist (kl_ptr l + 1)%N (<[kl_ptr l := x]> (kl_kvs l)))) as Hw1.
    { intros i. simpl. destruct (decide (i = kl_ptr l)) as [->|Hn].
      - rewrite lookup_insert. split; [lia|eauto].
      - rewrite lookup_insert_ne by congruence. rewrite (Hw i). lia. }
    apply IH in H; [|exact Hw1]. destruct H as (K1 & K2 & K3). split; [exact K1|]. simpl in K2, K3. split; [simpl; lia|].
    intros i. rewrite K3. unfold kl_get. simpl. destruct (N.ltb_spec i (kl_ptr l + 1)) as [Hi|Hi].
    + destruct (decide (i = kl_ptr l)) as [->|Hn].
      * rewrite lookup_insert, N.ltb_irrefl, N.sub_diag. reflexivity.
      * rewrite lookup_insert_ne by congruence. destruct (N.ltb_spec i (kl_ptr l)) as [_|]; [reflexivity|lia].
    + destruct (N.ltb_spec i (kl_ptr l)) as [|_]; [lia|]. replace (N.to_nat (i - kl_ptr l)) with (S (N.to_nat (i - (kl_ptr l + 1)))) by lia. reflexivity.
Qed.
Lemma kl_update_all {T} (m : list (N * T)) (l l' : klist T) : NoDup (map fst m) -> kl_wf l ->
  rfold (fun l x => kl_update l (fst x) (snd x)) l m = Ok l' ->
  kl_wf l' /\ kl_ptr l' = kl_ptr l /\ (forall i x, (i, x) ∈ m -> kl_get l' i = Some x) /\ (forall i, i ∉ map fst m -> kl_get l' i = kl_get l i).
Proof.
  revert l. induction m as [|[k x] m IH]; intros l Hnd Hw H; cbn [rfold map fst snd] in *.
  - apply Ok_inj in H. subst l'. split; [exact Hw|]. split; [reflexivity|]. split; [intros ? ? Hi; inversion Hi|reflexivity].
  - bd H as (l1 & H1 & H). apply NoDup_cons in Hnd as [Hni Hnd]. unfold kl_update in H1. bd H1 as (? & Hg & H1). apply guard_Ok, N.ltb_lt in Hg. apply Ok_inj in H1. subst l1.
    assert (kl_wf (mkKlist (kl_ptr l) (<[k := x]> (kl_kvs l)))) as Hw1.
    { intros i. simpl. destruct (decide (i = k)) as [->|Hn].
      - rewrite lookup_insert. split; [auto|eauto].
      - rewrite lookup_insert_ne by congruence. apply Hw. }
    apply IH in H; [|exact Hnd|exact Hw1]. destruct H as (H1 & H2 & H3 & H4). split; [exact H1|]. split; [exact H2|]. split.
    + intros i y Hi. apply elem_of_cons in Hi as [Hi|Hi]; [|auto]. injection Hi as -> ->. rewrite H4 by exact Hni. unfold kl_get. simpl. apply lookup_insert.
    + intros i Hi. rewrite H4 by (intros Hc; apply Hi; right; exact Hc). unfold kl_get. simpl. apply lookup_insert_ne. intros ->. apply Hi. left.
Qed.
Lemma acc_update_rq (R : N -> N -> Prop) v acc' : (forall a b, R a b -> pendP a) -> rq_ok R v -> acc_update (va_comp v) (va_updates v) = Ok acc' ->
  acc_ok acc' /\ kl_len (ac_requests acc') = (va_rlen v + N.of_nat (length (va_req_add v)))%N /\
  (forall i, kl_get (ac_requests acc') i = rview v i) /\ ac_vstart acc' = va_vstart v /\
  (va_vstart v = ac_vstart (va_comp v) -> va_act_rem v = [] -> N.of_nat (size (ac_active acc')) = va_alen v).
Proof.
  intros HRp [A1 A2 A3 A4 A5 A6 A7 A8 A9 A10] H. unfold acc_update in H. bd H as (l1 & H1 & H). bd H as (l2 & H2 & H). apply Ok_inj in H. subst acc'.
  destruct A1 as [B1 B2 B3]. simpl in *. apply kl_push_all in H1 as (C1 & C2 & C3); [|exact B1].
  apply kl_update_all in H2 as (D1 & D2 & D3 & D4); [|apply NoDup_fst_map_to_list|exact C1].
  assert (forall i, kl_get l2 i = rview v i) as Hview.
  { intros i. unfold rview. destruct (va_req_upd v !! i) as [r|] eqn:Hu.
    - apply D3. apply elem_of_map_to_list. exact Hu.
    - rewrite D4; [rewrite C3; unfold kl_len in A2; rewrite A2; reflexivity|].
      intros Hi. apply elem_of_list_fmap in Hi as ([k x] & -> & Hi). apply elem_of_map_to_list in Hi. simpl in Hu. congruence. }
  assert (kl_len l2 = (va_rlen v + N.of_nat (length (va_req_add v)))%N) as Hlen by (unfold kl_len in *; rewrite D2, C2, A2; reflexivity).
  assert ((if (ac_vstart (va_comp v) <? va_vstart v)%N then va_vstart v else ac_vstart (va_comp v)) = va_vstart v) as Hvs.
  { destruct (N.ltb_spec (ac_vstart (va_comp v)) (va_vstart v)); [reflexivity|]. destruct A9 as [Ha9|Ha9]; [congruence|]. rewrite Ha9, A2 in *. unfold kl_len in *. lia. }
  assert (forall i, (i < va_rlen v)%N -> rview v i = match va_req_upd v !! i with Some r => Some r | None => kl_get (ac_requests (va_comp v)) i end) as Hlow.
  { intros i Hi. unfold rview. apply N.ltb_lt in Hi. rewrite Hi. reflexivity. }
  assert (forall i, (va_rlen v <= i)%N -> rview v i = va_req_add v !! N.to_nat (i - va_rlen v)) as Hhigh.
  { intros i Hi. unfold rview. destruct (va_req_upd v !! i) eqn:Hu.
    - apply A3 in Hu as (r0 & Hr0 & _). assert (i < va_rlen v)%N; [|lia]. rewrite A2. apply B1. unfold kl_get in Hr0. rewrite Hr0. eauto.
    - destruct (N.ltb_spec i (va_rlen v)); [lia|reflexivity]. }
  split; [|split; [exact Hlen|split; [exact Hview|split; [exact Hvs|]]]].
  - split; simpl.
    + exact D1.
    + rewrite Hvs, Hlen. destruct A9 as [->| ->]; [rewrite A2|]; lia.
    + intros i. rewrite Hvs.
      assert (i ∈ (if (ac_vstart (va_comp v) <? va_vstart v)%N then filter (fun i0 => (va_vstart v <= i0)%N) (ac_active (va_comp v)) else ac_active (va_comp v)) <->
              i ∈ ac_active (va_comp v) /\ (va_vstart v <= i)%N) as Hf.
      { destruct (N.ltb_spec (ac_vstart (va_comp v)) (va_vstart v)) as [Hl|Hl].
        - rewrite elem_of_filter. tauto.
        - assert (va_vstart v = ac_vstart (va_comp v)) as -> by (destruct A9 as [?|Ha]; [assumption|rewrite Ha, A2 in *; lia]).
          rewrite B3. tauto. }
      rewrite elem_of_difference, elem_of_union, Hf, !elem_of_list_to_set, A5, A7, B3, Hview. clear Hf.
      destruct (N.lt_ge_cases i (va_rlen v)) as [Hi|Hi].
      * rewrite Hlow by exact Hi. split.
        -- intros [[[[Hst (r & Hr & Hp)] Hge]|?] Hno]; [|lia]. split; [exact Hge|]. destruct (va_req_upd v !! i) as [r1|] eqn:Hu; [|eauto].
           exists r1. split; [reflexivity|]. destruct (pend r1) eqn:Hp1; [reflexivity|]. exfalso. apply Hno. eauto.
        -- intros [Hge (r & Hr & Hp)]. split.
           ++ left. split; [|exact Hge]. split; [destruct A9 as [Ha|Ha]; rewrite Ha in Hge; lia|].
              destruct (va_req_upd v !! i) as [r1|] eqn:Hu; [|eauto]. destruct (A3 _ _ Hu) as (r0 & Hr0 & He & HR). exists r0. split; [exact Hr0|].
              apply is_pending_spec. eauto.
           ++ intros (r1 & Hu & Hp1). rewrite Hu in Hr. congruence.
      * rewrite Hhigh by exact Hi. split.
        -- intros [[[[_ (r & Hr & _)] _]|Hi2] _].
           ++ exfalso. assert (i < va_rlen v)%N; [|lia]. rewrite A2. apply B1. unfold kl_get in Hr. rewrite Hr. eauto.
           ++ split; [destruct A9 as [->| ->]; lia|]. assert (is_Some (va_req_add v !! N.to_nat (i - va_rlen v))) as [r Hr] by (apply lookup_lt_is_Some; lia).
              exists r. split; [exact Hr|]. apply A4. eapply elem_of_list_lookup_2. exact Hr.
        -- intros [_ (r & Hr & _)]. split.
           ++ right. apply lookup_lt_Some in Hr. lia.
           ++ intros (r1 & Hu & _). apply A3 in Hu as (r0 & Hr0 & _). assert (i < va_rlen v)%N; [|lia]. rewrite A2. apply B1. unfold kl_get in Hr0. rewrite Hr0. eauto.
  - intros Hv Hrem. rewrite Hv, N.ltb_irrefl, Hrem. simpl. rewrite difference_empty_L, size_union.
    + rewrite size_list_to_set by exact A6. rewrite Hrem in A10. simpl in A10. lia.
    + intros i Hi1 Hi2. rewrite elem_of_list_to_set, A5 in Hi2. apply B3 in Hi1 as [_ (r & Hr & _)].
      assert (i < va_rlen v)%N; [|lia]. rewrite A2. apply B1. unfold kl_get in Hr. rewrite Hr. eauto.
Qed.
