(** * C65, continued: an account's rules, with or without a fee oath. *)
From Verif Require Import Base DFloat Lists Types Config Oracle Pool Account Fees Referral ExInternal Exchange System Scenario Sums Trace Frames Calls Spec SpecAuth SpecRequests SpecOracle SpecTrading SpecMargin SpecReferral SpecRefuse SpecRefuse2 P_Ledger P_Accounts P_Refs P_Requests P_Requests2 Witness P_Refuse P_Refuse2 P_Refuse3 P_Refuse4 Props_Requests2 Props_Refuse Props_Refuse2 Props_Refuse5 Props_Refuse6 Props_Refuse10 P_Refuse6 Props_Refuse11 Props_Refuse12.

Lemma f_rule_oath w w1 a v v0 x lvl rule g v' : get_acc w a = Ok v -> v0 = v <| va_vb := x |> -> x_set_level_auth lvl g v0 rule = (w_perms w1, v') -> fails none (realize_acc w1 v').
Proof.
  intros Hv -> Hx. unfold get_acc, va_new in Hv. bd Hv as (acc & _ & Hv). bd Hv as (rd & _ & Hv). apply Ok_inj in Hv. subst v. unfold x_set_level_auth in Hx. injection Hx as _ <-.
  unfold realize_acc, va_realize, acc_update, va_updates. cbn -[map_to_list]. rewrite map_to_list_empty. intros e He. discriminate He.
Qed.
Theorem C65_rules_oath E cx w a oath : reachable E w ->
  let stopped e := at_the_door E cx w RAccountManagement a 1 (handed oath) e \/ oath_stopped E w a ∅ oath e in
  (forall e, step E cx w (OCreateRecoveryKey oath a) = Err e -> stopped e) /\
  (forall lvl n e, step E cx w (OAddAuthRule oath a lvl n) = Err e -> stopped e \/ e = EInvalidAuthLevel /\ ~ (1 <= lvl <= 3)%N) /\
  (forall r e, step E cx w (OSetLevel1Auth oath a r) = Err e -> stopped e) /\ (forall r e, step E cx w (OSetLevel2Auth oath a r) = Err e -> stopped e) /\ (forall r e, step E cx w (OSetLevel3Auth oath a r) = Err e -> stopped e).
Proof.
  intros Hr stopped.
  assert (forall o (extra : error -> Prop) body, op_buckets o = handed oath -> op_access o = ARole RAccountManagement -> needs_authority o = true ->
    exec E cx w o = (v ← get_acc w a; _ ← level_auth cx 1 v; '(w, v) ← settle_oath_opt' E w v oath; body w v) ->
    (forall v w1 x s, get_acc w a = Ok v -> w1 = w <| w_oath := s |> -> fails extra (body w1 (v <| va_vb := x |>))) -> forall e, step E cx w o = Err e -> stopped e \/ extra e) as Hgo.
  { intros o extra body H1 H2 H3 H4 H5 e He. destruct (f_door E cx w o RAccountManagement a 1 (handed oath) (fun e => oath_stopped E w a ∅ oath e \/ extra e) (fun v => '(w, v) ← settle_oath_opt' E w v oath; body w v) Hr H1 H2 H3 H4) with (e := e) as [H|[H|H]]; [|exact He|left; left; exact H|left; right; exact H|right; exact H].
    intros v acc Hv _ Ha _ _. apply f_bind; [eapply f_mono; [eapply f_oath_opt'; eassumption|auto]|]. intros [w1 v1] Hso. apply oath_opt'_out in Hso as (s & x & -> & ->). eapply f_mono; [eapply H5; [exact Hv|reflexivity]|]. auto. }
  assert (forall o body, op_buckets o = handed oath -> op_access o = ARole RAccountManagement -> needs_authority o = true ->
    exec E cx w o = (v ← get_acc w a; _ ← level_auth cx 1 v; '(w, v) ← settle_oath_opt' E w v oath; body w v) ->
    (forall v w1 x s, get_acc w a = Ok v -> w1 = w <| w_oath := s |> -> fails none (body w1 (v <| va_vb := x |>))) -> forall e, step E cx w o = Err e -> stopped e) as Hgo'.
  { intros o body H1 H2 H3 H4 H5 e He. destruct (Hgo o none body H1 H2 H3 H4 H5 e He) as [H|[]]. exact H. }
  split; [|split; [|split; [|split]]].
  - eapply Hgo'; [destruct oath; reflexivity|reflexivity..|]. intros v w1 x s Hv ->. cbv zeta. match goal with |- context [x_set_level_auth ?l ?g ?v ?r] => destruct (x_set_level_auth l g v r) as [g1 v1] eqn:Hx end. apply f_bind; [|intros; apply f_Ok]. eapply f_rule_oath; [exact Hv|reflexivity|exact Hx].
  - intros lvl n. eapply Hgo; [destruct oath; reflexivity|reflexivity..|]. intros v w1 x s Hv ->. apply f_bind. { apply f_guard. intros Hf. split; [reflexivity|]. intros [H1 H2]. apply andb_false_iff in Hf as [Hf|Hf]; apply N.leb_gt in Hf; lia. }
    intros [] _. match goal with |- context [x_set_level_auth ?l ?g ?v ?r] => destruct (x_set_level_auth l g v r) as [g1 v1] eqn:Hx end. apply f_bind; [|intros; apply f_Ok]. apply f_none. eapply f_rule_oath; [exact Hv|reflexivity|exact Hx].
  - intros r. eapply Hgo'; [destruct oath; reflexivity|reflexivity..|]. intros v w1 x s Hv ->. match goal with |- context [x_set_level_auth ?l ?g ?v ?r] => destruct (x_set_level_auth l g v r) as [g1 v1] eqn:Hx end. apply f_bind; [|intros; apply f_Ok]. eapply f_rule_oath; [exact Hv|reflexivity|exact Hx].
  - intros r. eapply Hgo'; [destruct oath; reflexivity|reflexivity..|]. intros v w1 x s Hv ->. match goal with |- context [x_set_level_auth ?l ?g ?v ?r] => destruct (x_set_level_auth l g v r) as [g1 v1] eqn:Hx end. apply f_bind; [|intros; apply f_Ok]. eapply f_rule_oath; [exact Hv|reflexivity|exact Hx].
  - intros r. eapply Hgo'; [destruct oath; reflexivity|reflexivity..|]. intros v w1 x s Hv ->. match goal with |- context [x_set_level_auth ?l ?g ?v ?r] => destruct (x_set_level_auth l g v r) as [g1 v1] eqn:Hx end. apply f_bind; [|intros; apply f_Ok]. eapply f_rule_oath; [exact Hv|reflexivity|exact Hx].
Qed.
(** The owner locks fees; the oaths can then be spent. *)
Definition sc_wo : res world := go sc_env (Ok W2) [(cx_owner, ODlDeposit (XRD, dec 900000)); (cx_owner, ODlMaxLock (dec 1000000)); (cx_owner, OLockFee (dec 800000))].
Definition WO : world := get sc_wo.
Lemma WO_reach : reachable sc_env WO.
Proof. apply go_reachable; [vm_compute; reflexivity|]. intros w H. apply Ok_inj in H. subst w. exact W2_reach. Qed.
(** With 20000 in base and a position of two units, an oath of 5000 is paid and one of 19999 is not; no other token is taken for one. *)
Example C65_ex_oath : okb (step sc_env cx_u2 WO (OCancelRequests (Some (FEE_OATH, dec 5000)) A2 [])) && refused WO (cx_u2, OCancelRequests (Some (FEE_OATH, dec 19999)) A2 []) EInsufficientMargin && refused WO (cx_u2, OCancelRequests (Some (BASE, dec 5)) A2 []) EInvalidFeeOath &&
  refused WO (cx_u2, OSetLevel1Auth (Some (FEE_OATH, dec 19999)) A2 DenyAll) EInsufficientMargin && okb (step sc_env cx_u2 WO (OSetLevel1Auth (Some (FEE_OATH, dec 5000)) A2 DenyAll)) && refused W2 (cx_u2, OCancelRequests (Some (FEE_OATH, dec 5)) A2 []) EEngine &&
  okb (step sc_env cx_u2 WO (OAddCollateral (Some (FEE_OATH, dec 19999)) A2 [(BASE, dec 30000)])) && refused WO (cx_u2, OAddCollateral (Some (FEE_OATH, dec 49999)) A2 [(BASE, dec 30000)]) EInsufficientMargin &&
  refused WO (cx_u2, OAddCollateral (Some (FEE_OATH, dec 5000)) A2 [(99%N, dec 30000)]) EInvalidCollateral &&
  refused WO (cx_any, OCreateAccount None AllowAll [] None A2) EEngine && refused WO (cx_any, OCreateAccount None AllowAll [] (Some 77%N) 300%N) EReferralCodeNotFound && okb (step sc_env cx_any WO (OCreateAccount (Some (FEE_OATH, dec 5)) AllowAll [(BASE, dec 30)] None 300%N)) &&
  refused WO (cx_any, OCreateAccount (Some (FEE_OATH, dec 35)) AllowAll [(BASE, dec 30)] None 300%N) EInsufficientMargin && refused W5 (cx_any, OCreateAccount None AllowAll [] (Some 7%N) 300%N) EReferralCodeClaimed = true.
Proof. vm_compute. reflexivity. Qed.
Global Opaque WO.
