(** * C65, continued: submitting and cancelling are refused only for a stated reason. *)
From Verif Require Import Base DFloat Lists Types Config Oracle Pool Account Fees Referral ExInternal Exchange System Scenario Sums Trace Frames Calls Spec SpecAuth SpecRequests SpecMargin SpecRefuse P_Ledger P_Accounts P_Refs Frames2 P_Requests P_Requests2 P_Requests3 P_Requests4 P_Oracle P_Refuse P_Refuse2 Props_Requests2 Props_Refuse.

Lemma f_get_acc E w a : reachable E w -> fails (fun e => e = EInvalidMarginAccount /\ w_accounts w !! a = None) (get_acc w a).
Proof.
  intros Hr e He. destruct (w_accounts w !! a) as [acc|] eqn:Ha; [destruct (get_acc_reachable _ _ _ _ Hr Ha) as (v & Hv & _); congruence|].
  unfold get_acc, va_new in He. rewrite Ha in He. cbn in He. injection He as <-. auto.
Qed.
(** The engine's checks and the account's rule. *)
Lemma f_door E cx w o r a lvl bs (P : error -> Prop) (body : vacc -> res (world * outp)) : reachable E w -> op_buckets o = bs -> op_access o = ARole r -> needs_authority o = true ->
  exec E cx w o = (v ← get_acc w a; _ ← level_auth cx lvl v; body v) ->
  (forall v acc, get_acc w a = Ok v -> va_comp v = acc -> w_accounts w !! a = Some acc -> acc_ok acc -> forallb (bucket_ok E) bs = true -> fails P (body v)) ->
  fails (fun e => at_the_door E cx w r a lvl bs e \/ P e) (step E cx w o).
Proof.
  intros Hr Hb Hac Hna Hx Hbody. unfold step. rewrite Hb, Hac, Hna, Hx. cbn [implb]. apply f_bind.
  { apply f_guard. intros Hf. left; right; left. split; [reflexivity|]. right. assert (exists b, b ∈ bs /\ bucket_ok E b = false) as (b & H1 & H2); [|exists b; split; [exact H1|apply bad_bucket_ok; exact H2]].
    clear - Hf. induction bs as [|b bs IH]; [discriminate Hf|]. cbn in Hf. destruct (bucket_ok E b) eqn:Hb; [destruct (IH Hf) as (x & X1 & X2); exists x; split; [right; exact X1|exact X2]|exists b; split; [left|exact Hb]]. }
  intros [] Hbs. apply guard_Ok in Hbs. apply f_bind; [apply f_guard; intros Hf; left; left; split; [reflexivity|left; exact Hf]|]. intros [] _. apply f_bind; [apply f_guard; intros Hf; apply Z.leb_gt in Hf; left; right; left; split; [reflexivity|left; lia]|]. intros [] _.
  apply f_bind; [eapply f_mono; [eapply f_get_acc; exact Hr|]; intros e (-> & He); left; right; right; auto|]. intros v Hv. pose proof Hv as Hv'. apply get_acc_inv in Hv' as (acc & Ha & Hc & _).
  apply f_bind; [|intros [] _; eapply f_mono; [eapply Hbody; [exact Hv|exact Hc|exact Ha|exact (acc_ok_reachable _ _ Hr _ _ Ha)|exact Hbs]|auto]].
  unfold level_auth. apply f_guard. intros Hf. left; left. split; [reflexivity|]. right. intros (rl & H1 & H2). unfold rule_of in H1. rewrite Ha in H1. cbn in H1. injection H1 as <-. unfold satisfies in H2. rewrite Hc in Hf. congruence.
Qed.

(** Room for new requests. *)
Lemma size_below (X : gset N) (n : N) : (forall i, i ∈ X -> (i < n)%N) -> (N.of_nat (size X) <= n)%N.
Proof.
  intros H. set (l := N.of_nat <$> seq 0 (N.to_nat n)). assert (NoDup l) as Hn. { apply (NoDup_fmap_2 N.of_nat). apply NoDup_seq. }
  assert (X ⊆ (list_to_set l : gset N)) as Hs. { intros i Hi. apply elem_of_list_to_set. apply elem_of_list_fmap. exists (N.to_nat i). split; [lia|]. apply elem_of_seq. specialize (H i Hi). lia. }
  apply subseteq_size in Hs. rewrite size_list_to_set in Hs by exact Hn. unfold l in Hs. rewrite fmap_length, seq_length in Hs. lia.
Qed.
Lemma active_bound acc : acc_ok acc -> (N.of_nat (size (ac_active acc)) <= kl_ptr (ac_requests acc))%N.
Proof. intros Ha. apply size_below. intros i Hi. apply (ok_active _ Ha) in Hi as (_ & r & Hr & _). apply (ok_list _ Ha). unfold kl_get in Hr. eauto. Qed.
Definition pushing (acc : account) (n : nat) (v : vacc) : Prop := rq_ok fwd v /\ va_comp v = acc /\ va_rewarded v = false /\ length (va_req_add v) = n /\ length (va_act_add v) = n /\ va_act_rem v = [].
Lemma pushing_new w a v acc : get_acc w a = Ok v -> va_comp v = acc -> acc_ok acc -> pushing acc 0 v.
Proof.
  intros Hv Hc Ha. split; [eapply rq_ok_new; [exact Hv|rewrite Hc; exact Ha]|]. split; [exact Hc|].
  unfold get_acc, va_new in Hv. bd Hv as (acc' & _ & Hv). bd Hv as (rd & _ & Hv). apply Ok_inj in Hv. subst v. cbn. auto.
Qed.
Definition push_why (now : Z) (acc : account) (n : nat) (delay expiry status : N) (e : error) : Prop :=
  e = EInvalidRequestStatus /\ is_pending status = false \/
  e = EArithmetic /\ (no_time (after now delay) \/ no_time (after (after now delay) expiry) \/ (2 ^ 64 <= kl_ptr (ac_requests acc) + N.of_nat n + 1)%N).
Lemma f_iadd_time a b : fails (fun e => e = EArithmetic /\ no_time (a + b)) (iadd a b).
Proof. unfold iadd. destruct (in_i64 (a + b)) eqn:H; [apply f_Ok|]. apply f_Err. split; [reflexivity|]. intros Ht. unfold in_i64, I64MIN, I64MAX in H. apply andb_false_iff in H as [H|H]; apply Z.leb_gt in H; lia. Qed.
Lemma f_push now acc n v r d x st eff : pushing acc n v -> fails (push_why now acc n d x st) (va_push_request now v r d x st eff) /\ forall v', va_push_request now v r d x st eff = Ok v' -> pushing acc (S n) v'.
Proof.
  intros (A1 & A2 & A3 & A4 & A5 & A6). pose proof (rk_acc _ _ A1) as Ha. rewrite A2 in Ha. pose proof (active_bound _ Ha) as Hb. pose proof (rk_alen _ _ A1) as HA. rewrite A2, A5, A6 in HA. cbn [length] in HA. pose proof (rk_len _ _ A1) as HL. rewrite A2 in HL. unfold kl_len in HL. split.
  - unfold va_push_request. apply f_bind; [apply f_guard; intros H; left; auto|]. intros [] _. apply f_bind; [eapply f_mono; [apply f_iadd_time|]; intros e (-> & He); right; split; [reflexivity|left; rewrite after_as; exact He]|].
    intros sub Hs. apply iadd_Ok in Hs as [-> _]. apply f_bind; [eapply f_mono; [apply f_iadd_time|]; intros e (-> & He); right; split; [reflexivity|right; left; rewrite !after_as; exact He]|]. intros ex _.
    apply f_bind. { unfold uadd. destruct (N.leb_spec (va_rlen v + N.of_nat (length (va_req_add v))) 18446744073709551615) as [H|H]; [apply f_Ok|]. apply f_Err. right. split; [reflexivity|]. right; right. rewrite HL, A4 in H. change (2 ^ 64)%N with 18446744073709551616%N. lia. }
    intros i _. apply f_bind; [|intros; apply f_Ok]. unfold va_add_active. apply f_bind; [|intros; apply f_Ok]. unfold uadd. destruct (N.leb_spec (va_alen v + 1) 18446744073709551615) as [H|H]; [apply f_Ok|]. apply f_Err. right. split; [reflexivity|]. right; right. change (2 ^ 64)%N with 18446744073709551616%N. lia.
  - intros v' H. assert (rq_ok fwd v') as B by (eapply push_ok; [exact H|exact A1]). apply push_inv in H as (kr & i & -> & -> & _ & _ & _ & ->). split; [exact B|]. cbn. rewrite !app_length. cbn [length]. repeat split; try assumption; lia.
Qed.
Lemma f_active c w acc n v : pushing acc n v -> vc_exchange c = g_exchange_config w -> fails (fun e => e = EActiveRequestsTooMany /\ (ec_active_requests_max (g_exchange_config w) < N.of_nat (size (ac_active acc)) + N.of_nat n)%N) (x_assert_active_requests_limit c v).
Proof.
  intros (A1 & A2 & A3 & A4 & A5 & A6) Hc. unfold x_assert_active_requests_limit. apply f_guard. intros H. apply N.leb_gt in H. split; [reflexivity|]. rewrite Hc in H. pose proof (rk_alen _ _ A1) as HA. rewrite A2, A5, A6 in HA. cbn [length] in HA. lia.
Qed.
Lemma f_realize_push w acc n v : pushing acc n v -> fails (fun e => e = EArithmetic /\ (2 ^ 64 <= kl_ptr (ac_requests acc) + N.of_nat n)%N) (realize_acc w v).
Proof. intros (A1 & A2 & A3 & A4 & A5 & A6). eapply f_mono; [eapply f_realize2; eassumption|]. intros e [-> H]. split; [reflexivity|]. rewrite A2, A4 in H. change (2 ^ 64)%N with 18446744073709551616%N. lia. Qed.
Lemma config_exchange w ids c : get_config w ids = Ok c -> vc_exchange c = g_exchange_config w.
Proof. intros H. destruct (vc_new_spec _ _ _ H) as (C1 & _). exact C1. Qed.
Lemma config_pair_in w k c : get_config w {[k]} = Ok c -> exists pc, vc_pairs c !! k = Some pc /\ pair_cfg w k = Some pc.
Proof.
  intros H. destruct (vc_new_spec _ _ _ H) as (_ & _ & C3 & _). destruct (C3 k ltac:(set_solver)) as (pc & P1 & P2). exists (pc_decompress pc). split; [exact P2|]. unfold pair_cfg.
  match goal with |- _ <$> ?t = _ => assert (t = Some pc) as -> by exact P1 end. reflexivity.
Qed.
Lemma f_vpair w k c P : get_config w {[k]} = Ok c -> fails P (vc_pair c k).
Proof. intros H. destruct (config_pair_in _ _ _ H) as (pc & H1 & _). unfold vc_pair. apply f_some. eauto. Qed.
Lemma f_resolve r n : fails (fun e => e = EArithmetic /\ exists off, r = IRRelative off /\ no_time (after off n)) (ir_resolve r n).
Proof.
  destruct r as [i|off]; [apply f_Ok|]. unfold ir_resolve. apply f_bind; [|intros; apply f_Ok]. eapply f_mono; [apply f_iadd_time|]. intros e [-> H]. split; [reflexivity|]. exists off. split; [reflexivity|]. rewrite after_as. rewrite Z.add_comm. exact H.
Qed.
Lemma f_dabs_big x : fails (fun e => e = EArithmetic /\ DMAX < Z.abs x) (dabs x).
Proof. unfold dabs, chk. destruct (in_dec (Z.abs x)) eqn:H; [apply f_Ok|]. apply f_Err. split; [reflexivity|]. destruct (Z.lt_ge_cases DMAX (Z.abs x)); [assumption|]. assert (in_dec (Z.abs x) = true); [|congruence]. apply in_dec_spec. unfold DMIN, DMAX in *. lia. Qed.
Lemma f_dneg_big x : fails (fun e => e = EArithmetic /\ DMAX < Z.abs x) (dneg x).
Proof. unfold dneg, chk. destruct (in_dec (- x)) eqn:H; [apply f_Ok|]. apply f_Err. split; [reflexivity|]. destruct (Z.lt_ge_cases DMAX (Z.abs x)); [assumption|]. assert (in_dec (- x) = true); [|congruence]. apply in_dec_spec. unfold DMIN, DMAX in *. lia. Qed.
Lemma active_of w a acc : w_accounts w !! a = Some acc -> ac_active acc = active_set w a. Proof. intros H. unfold active_set. rewrite H. reflexivity. Qed.
Lemma count_of w a acc : w_accounts w !! a = Some acc -> kl_ptr (ac_requests acc) = request_count w a. Proof. intros H. unfold request_count. rewrite H. reflexivity. Qed.
Lemma not_pending s : is_pending s = false -> ~ pending s.
Proof. intros H Hp. assert (is_pending s = true); [|congruence]. apply is_pending_spec. unfold pendP, pending, STATUS_DORMANT, STATUS_ACTIVE in *. exact Hp. Qed.

Ltac door Hr r lvl bs := match goal with |- forall e, step ?E ?cx ?w ?o = Err e -> @?A e \/ @?P e => refine (f_door E cx w o r _ lvl bs P _ Hr eq_refl eq_refl eq_refl eq_refl _) end.
(** C65, cancelling. *)
Theorem C65_cancel E cx w a is_ e : reachable E w -> step E cx w (OCancelRequests None a is_) = Err e ->
  at_the_door E cx w RCancelRequest a 3 [] e \/
  e = EMissingRequest /\ (exists i, i ∈ is_ /\ request_at w a i = None) \/
  e = ECancelNotActiveOrDormant /\ (exists i r, i ∈ is_ /\ request_at w a i = Some r /\ ~ pending (kr_status r)) \/
  e = EArithmetic /\ (exists i r, i ∈ is_ /\ request_at w a i = Some r /\ (i < valid_start w a)%N).
Proof.
  intros Hr. revert e. door Hr RCancelRequest 3%N (@nil bucket).
  intros v acc Hv Hc Ha Hok _. cbn [settle_oath_opt' mbind res_bind].
  assert (forall i, request_at w a i = kl_get (ac_requests acc) i) as Hra by (intros i; unfold request_at; rewrite Ha; reflexivity).
  assert (valid_start w a = ac_vstart acc) as Hvs by (unfold valid_start; rewrite Ha; reflexivity).
  pose proof Hv as Hv'. unfold get_acc, va_new in Hv'. bd Hv' as (acc' & _ & Hv'). bd Hv' as (rd & _ & Hv'). apply Ok_inj in Hv'.
  assert (cancelling acc is_ v) as Hcn. { split; [eapply rq_ok_new; [exact Hv|rewrite Hc; exact Hok]|]. split; [exact Hc|]. subst v. cbn. repeat split. intros j Hj. inversion Hj. }
  assert (va_req_upd v = ∅) as Hu by (subst v; reflexivity). clear Hv'.
  destruct (f_cancel acc v is_ Hok Hcn Hu) as [F1 F2]. apply f_bind.
  - eapply f_mono; [exact F1|]. intros e [(-> & i & Hi & H)|[(-> & i & r & Hi & H & Hp)|(-> & i & r & Hi & H & Hp)]].
    + left. split; [reflexivity|]. exists i. rewrite Hra. auto.
    + right; left. split; [reflexivity|]. exists i, r. rewrite Hra. split; [exact Hi|]. split; [exact H|]. apply not_pending. exact Hp.
    + right; right. split; [reflexivity|]. exists i, r. rewrite Hra, Hvs. auto.
  - intros v' H'. destruct (F2 v' H') as (G1 & G2 & G3 & G4 & G5 & _). apply f_bind; [|intros; apply f_Ok]. unfold realize_acc, va_realize. rewrite G5. cbn [mbind res_bind].
    apply f_bind; [|intros [? ?] _; apply f_Ok]. apply f_bind; [|intros; apply f_Ok]. apply f_none. unfold acc_update. cbv zeta. cbn [au_req_add va_updates]. rewrite G4. cbn [rfold mbind res_bind]. apply f_bind; [|intros; apply f_Ok].
    apply (f_rfold none (fun l => (kl_ptr (ac_requests (va_comp v')) <= kl_ptr l)%N)); [| |lia].
    + intros l [i r] Hi Hle. unfold kl_update. apply f_bind; [|intros; apply f_Ok]. apply f_guard. intros Hf. exfalso. apply elem_of_map_to_list in Hi. apply (rk_upd _ _ G1) in Hi as (r0 & Hk & _). assert (i < kl_ptr (ac_requests (va_comp v')))%N by (apply (ok_list _ (rk_acc _ _ G1)); unfold kl_get in Hk; eauto). cbn [fst] in Hf. apply N.ltb_ge in Hf. lia.
    + intros l [i r] l' _ Hle H. unfold kl_update in H. bd H as ([] & _ & H). apply Ok_inj in H. subst l'. exact Hle.
Qed.
(** C65, asking for a withdrawal. *)
Theorem C65_withdrawal_request E cx w expiry a target cs e : reachable E w -> step E cx w (ORemoveCollateralRequest None expiry a target cs) = Err e ->
  at_the_door E cx w RRemoveCollateralRequest a 2 [] e \/
  e = EClaimsTooMany /\ (10 < length cs)%nat \/
  e = EActiveRequestsTooMany /\ (ec_active_requests_max (g_exchange_config w) < N.of_nat (size (active_set w a)) + 1)%N \/
  e = EArithmetic /\ (no_time (after (w_now w) 0) \/ no_time (after (after (w_now w) 0) expiry) \/ no_index_left w a 1).
Proof.
  intros Hr. revert e. door Hr RRemoveCollateralRequest 2%N (@nil bucket).
  intros v acc Hv Hc Ha Hok _. cbn [settle_oath_opt]. pose proof (pushing_new _ _ _ _ Hv Hc Hok) as P0. unfold no_index_left. rewrite <- (active_of _ _ _ Ha), <- (count_of _ _ _ Ha).
  destruct (get_config w ∅) as [c|e] eqn:Hcf; [|destruct (f_config0 w e Hcf)]. cbn [mbind res_bind]. apply f_bind; [apply f_guard; intros H; apply N.leb_gt in H; left; split; [reflexivity|lia]|]. intros [] _.
  match goal with |- context [va_push_request ?n ?v ?r ?d ?x ?st ?ef] => destruct (f_push n acc 0 v r d x st ef P0) as [F1 F2] end. apply f_bind.
  { eapply f_mono; [exact F1|]. intros e [(-> & H)|(-> & H)]; [discriminate H|]. right; right. split; [reflexivity|]. replace (N.of_nat 0) with 0%N in H by reflexivity. rewrite N.add_0_r in H. exact H. }
  intros v1 H1. specialize (F2 v1 H1). apply f_bind. { eapply f_mono; [eapply f_active; [exact F2|exact (config_exchange _ _ _ Hcf)]|]. intros e [-> H]. right; left. split; [reflexivity|]. exact H. }
  intros [] _. apply f_bind; [|intros; apply f_Ok]. eapply f_mono; [eapply f_realize_push; exact F2|]. intros e [-> H]. right; right. split; [reflexivity|]. right; right. exact H.
Qed.
(** C65, asking for a trade. *)
Theorem C65_order_request E cx w delay expiry a pair amount ro pl slip act can status e : reachable E w ->
  step E cx w (OMarginOrderRequest None delay expiry a pair amount ro pl slip act can status) = Err e ->
  at_the_door E cx w RMarginOrderRequest a 3 [] e \/
  e = EMissingPairConfig /\ pair_cfg w pair = None \/
  e = ETradeSizeMinNotMet /\ (exists pc, pair_cfg w pair = Some pc /\ Z.abs amount < pc_trade_size_min pc) \/
  e = EEffectedRequestsTooMany /\ (2 < length act \/ 2 < length can)%nat \/
  e = EInvalidRequestStatus /\ ~ pending status \/
  e = EActiveRequestsTooMany /\ (ec_active_requests_max (g_exchange_config w) < N.of_nat (size (active_set w a)) + 1)%N \/
  e = EArithmetic /\ (DMAX < Z.abs amount \/ (exists off, IRRelative off ∈ act ++ can /\ no_time (after off (request_count w a))) \/
    no_time (after (w_now w) delay) \/ no_time (after (after (w_now w) delay) expiry) \/ no_index_left w a 1).
Proof.
  intros Hr. revert e. door Hr RMarginOrderRequest 3%N (@nil bucket).
  intros v acc Hv Hc Ha Hok _. cbn [settle_oath_opt]. pose proof (pushing_new _ _ _ _ Hv Hc Hok) as P0. unfold no_index_left. rewrite <- (active_of _ _ _ Ha), <- (count_of _ _ _ Ha).
  assert (va_rlen v = kl_ptr (ac_requests acc)) as Hrl. { destruct P0 as (A1 & A2 & _). rewrite (rk_len _ _ A1), A2. reflexivity. }
  pose proof (f_config w {[pair]}) as Hfc. destruct (get_config w {[pair]}) as [c|e] eqn:Hcf; cbn [mbind res_bind].
  2: { apply f_Err. destruct (Hfc e eq_refl) as (-> & k & Hk & Hn). apply elem_of_singleton in Hk. subst k. left. auto. }
  clear Hfc. destruct (config_pair_in _ _ _ Hcf) as (pc & Hp1 & Hp2). unfold vc_pair. match goal with |- context [expect ?t _] => assert (t = Some pc) as -> by exact Hp1 end. cbn [expect mbind res_bind].
  apply f_bind. { eapply f_mono; [apply f_dabs_big|]. intros e [-> H]. right; right; right; right; right. auto. }
  intros ab Hab. apply dabs_Ok in Hab as [-> _]. apply f_bind. { apply f_guard. intros H. apply Z.leb_gt in H. right; left. split; [reflexivity|]. exists pc. auto. }
  intros [] _. apply f_bind; [apply f_guard; intros H; apply N.leb_gt in H; right; right; left; split; [reflexivity|left; lia]|]. intros [] _. apply f_bind; [apply f_guard; intros H; apply N.leb_gt in H; right; right; left; split; [reflexivity|right; lia]|]. intros [] _.
  cbv zeta. rewrite Hrl. apply f_bind.
  { apply f_rmap. intros x Hx. eapply f_mono; [apply f_resolve|]. intros e (-> & off & -> & H). right; right; right; right; right. split; [reflexivity|]. right; left. exists off. split; [apply elem_of_app; left; exact Hx|exact H]. }
  intros act' _. apply f_bind. { apply f_rmap. intros x Hx. eapply f_mono; [apply f_resolve|]. intros e (-> & off & -> & H). right; right; right; right; right. split; [reflexivity|]. right; left. exists off. split; [apply elem_of_app; right; exact Hx|exact H]. }
  intros can' _. match goal with |- context [va_push_request ?n ?v ?r ?d ?x ?st ?ef] => destruct (f_push n acc 0 v r d x st ef P0) as [F1 F2] end. apply f_bind.
  { eapply f_mono; [exact F1|]. intros e [(-> & H)|(-> & H)]; [right; right; right; left; split; [reflexivity|apply not_pending; exact H]|]. right; right; right; right; right. split; [reflexivity|]. right; right. replace (N.of_nat 0) with 0%N in H by reflexivity. rewrite N.add_0_r in H. exact H. }
  intros v1 H1. specialize (F2 v1 H1). apply f_bind. { eapply f_mono; [eapply f_active; [exact F2|exact (config_exchange _ _ _ Hcf)]|]. intros e [-> H]. right; right; right; right; left. split; [reflexivity|]. exact H. }
  intros [] _. apply f_bind; [|intros; apply f_Ok]. eapply f_mono; [eapply f_realize_push; exact F2|]. intros e [-> H]. right; right; right; right; right. split; [reflexivity|]. right; right; right; right. exact H.
Qed.
