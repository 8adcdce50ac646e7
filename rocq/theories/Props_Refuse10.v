(** * C65. A call is refused only for a stated reason: an account's rules, the oracle's calls, referrals. *)
From Verif Require Import Base DFloat Lists Types Config Oracle Pool Account Fees Referral ExInternal Exchange System Getters Scenario Sums Trace Frames Calls Shape Spec SpecAuth SpecRequests SpecOracle SpecMargin SpecRefuse P_Ledger P_Accounts P_Fees P_Refs P_Requests P_Requests2 Props_Config Witness P_Refuse P_Refuse2 P_Refuse3 P_Refuse4 Props_Refuse Props_Refuse2 Props_Refuse5 Props_Refuse6 Props_Refuse7.

Lemma f_rule w w1 a v lvl rule g v' : get_acc w a = Ok v -> x_set_level_auth lvl g v rule = (w_perms w1, v') -> fails none (realize_acc w1 v').
Proof.
  intros Hv Hx. unfold get_acc, va_new in Hv. bd Hv as (acc & _ & Hv). bd Hv as (rd & _ & Hv). apply Ok_inj in Hv. subst v. unfold x_set_level_auth in Hx. injection Hx as _ <-.
  unfold realize_acc, va_realize, acc_update, va_updates. cbn -[map_to_list]. rewrite map_to_list_empty. intros e He. discriminate He.
Qed.
(** C65, an account's rules: nothing but the door stands in the way of whoever satisfies the level 1 rule. *)
Theorem C65_rules E cx w a : reachable E w ->
  let door := at_the_door E cx w RAccountManagement a 1 [] in
  (forall e, step E cx w (OCreateRecoveryKey None a) = Err e -> door e) /\
  (forall lvl n e, step E cx w (OAddAuthRule None a lvl n) = Err e -> door e \/ e = EInvalidAuthLevel /\ ~ (1 <= lvl <= 3)%N) /\
  (forall r e, step E cx w (OSetLevel1Auth None a r) = Err e -> door e) /\ (forall r e, step E cx w (OSetLevel2Auth None a r) = Err e -> door e) /\ (forall r e, step E cx w (OSetLevel3Auth None a r) = Err e -> door e).
Proof.
  intros Hr door. 
  assert (forall o body, op_buckets o = [] -> op_access o = ARole RAccountManagement -> needs_authority o = true -> exec E cx w o = (v ← get_acc w a; _ ← level_auth cx 1 v; body v) ->
    (forall v, get_acc w a = Ok v -> fails none (body v)) -> forall e, step E cx w o = Err e -> door e) as Hgo.
  { intros o body H1 H2 H3 H4 H5 e He. destruct (f_door E cx w o RAccountManagement a 1 [] none body Hr H1 H2 H3 H4 (fun v acc Hv _ _ _ _ => H5 v Hv) e He) as [H|[]]. exact H. }
  split; [|split; [|split; [|split]]].
  - apply (Hgo _ (fun v => '(w, v) ← settle_oath_opt' E w v None; let id := w_next w in let w := w <| w_next := (id + 1)%N |> in let '(g, v) := x_set_level_auth 1 (w_perms w) v (extend_rule (ac_level 1 (va_comp v)) (NLeaf (LKey id))) in w ← realize_acc (w <| w_perms := g |>) v; Ok (w, out0 <| o_nfts := [(RECOVERY_KEY, id)] |> <| o_events := acc_events v |>))); [reflexivity..|].
    intros v Hv. cbn [settle_oath_opt' mbind res_bind]. cbv zeta. match goal with |- context [x_set_level_auth ?l ?g ?v ?r] => destruct (x_set_level_auth l g v r) as [g1 v1] eqn:Hx end. apply f_bind; [|intros; apply f_Ok]. eapply f_rule; [exact Hv|exact Hx].
  - intros lvl n e He. assert (at_the_door E cx w RAccountManagement a 1 [] e \/ (e = EInvalidAuthLevel /\ ~ (1 <= lvl <= 3)%N)) as [H|H]; [|left; exact H|right; exact H].
    revert e He. eapply (f_door E cx w _ RAccountManagement a 1 [] _ (fun v => '(w, v) ← settle_oath_opt' E w v None; _ ← guard_ ((1 <=? lvl) && (lvl <=? 3))%N EInvalidAuthLevel; let '(g, v) := x_set_level_auth lvl (w_perms w) v (extend_rule (ac_level lvl (va_comp v)) n) in w ← realize_acc (w <| w_perms := g |>) v; Ok (w, out0 <| o_events := acc_events v |>))); [exact Hr|reflexivity..|].
    intros v acc Hv _ _ _ _. cbn [settle_oath_opt' mbind res_bind]. apply f_bind. { apply f_guard. intros Hf. split; [reflexivity|]. intros [H1 H2]. apply andb_false_iff in Hf as [Hf|Hf]; apply N.leb_gt in Hf; lia. }
    intros [] _. match goal with |- context [x_set_level_auth ?l ?g ?v ?r] => destruct (x_set_level_auth l g v r) as [g1 v1] eqn:Hx end. apply f_bind; [|intros; apply f_Ok]. apply f_none. eapply f_rule; [exact Hv|exact Hx].
  - intros r. apply (Hgo _ (fun v => '(w, v) ← settle_oath_opt' E w v None; let '(g, v) := x_set_level_auth 1 (w_perms w) v r in w ← realize_acc (w <| w_perms := g |>) v; Ok (w, out0 <| o_events := acc_events v |>))); [reflexivity..|].
    intros v Hv. cbn [settle_oath_opt' mbind res_bind]. match goal with |- context [x_set_level_auth ?l ?g ?v ?r] => destruct (x_set_level_auth l g v r) as [g1 v1] eqn:Hx end. apply f_bind; [|intros; apply f_Ok]. eapply f_rule; [exact Hv|exact Hx].
  - intros r. apply (Hgo _ (fun v => '(w, v) ← settle_oath_opt' E w v None; let '(g, v) := x_set_level_auth 2 (w_perms w) v r in w ← realize_acc (w <| w_perms := g |>) v; Ok (w, out0 <| o_events := acc_events v |>))); [reflexivity..|].
    intros v Hv. cbn [settle_oath_opt' mbind res_bind]. match goal with |- context [x_set_level_auth ?l ?g ?v ?r] => destruct (x_set_level_auth l g v r) as [g1 v1] eqn:Hx end. apply f_bind; [|intros; apply f_Ok]. eapply f_rule; [exact Hv|exact Hx].
  - intros r. apply (Hgo _ (fun v => '(w, v) ← settle_oath_opt' E w v None; let '(g, v) := x_set_level_auth 3 (w_perms w) v r in w ← realize_acc (w <| w_perms := g |>) v; Ok (w, out0 <| o_events := acc_events v |>))); [reflexivity..|].
    intros v Hv. cbn [settle_oath_opt' mbind res_bind]. match goal with |- context [x_set_level_auth ?l ?g ?v ?r] => destruct (x_set_level_auth l g v r) as [g1 v1] eqn:Hx end. apply f_bind; [|intros; apply f_Ok]. eapply f_rule; [exact Hv|exact Hx].
Qed.
(** Badges are numbered one after the other: the number of the next one is not taken. *)
Lemma next_fresh E w : reachable E w -> forall id, is_Some (w_refs w !! id) -> (id < w_next w)%N.
Proof.
  induction 1 as [owner auth keys now w Ha Hn Hg|w cx o w' out Hr IH Hs].
  - apply genesis_inv in Hg as (c & _ & ->). intros id [x Hx]. cbn in Hx. rewrite lookup_empty in Hx. discriminate Hx.
  - apply step_gstep in Hs. assert (forall id d0 (d : referral), w_refs w !! id = Some d0 -> forall j, is_Some (<[id := d]> (w_refs w) !! j) -> (j < w_next w)%N) as Hin.
    { intros id d0 d Hd j Hj. destruct (decide (j = id)) as [->|Hne]; [apply IH; eauto|rewrite lookup_insert_ne in Hj by congruence; auto]. }
    assert (forall a l w1 w2, acct_call E w1 a l w2 -> w_refs w1 = w_refs w -> forall id, is_Some (w_refs w2 !! id) -> (id < w_next w)%N) as Hac.
    { intros a l w1 w2 H Hrr id Hi. apply acct_call_refs in H as [H|(acc & id0 & d0 & b & t & _ & _ & Hd0 & H)]; rewrite H, Hrr in Hi; [auto|]. rewrite Hrr in Hd0. eapply Hin; eassumption. }
    destruct Hs; try exact IH; cbn.
    + destruct H0 as (l & H0 & _ & Hside). intros id Hi. pose proof (Hac _ _ _ _ H0 eq_refl id Hi) as Hlt. assert (w_next w <= w_next w')%N; [|lia].
      destruct o; try discriminate H; cbn [op_side] in Hside; unfold same_perms in Hside; repeat match goal with
        | H : exists _, _ |- _ => destruct H | H : _ /\ _ |- _ => destruct H end; lia.
    + intros id Hi. match goal with Hq : w_next _ = w_next w |- _ => rewrite Hq end. eapply Hac; [exact H1| |exact Hi]. reflexivity.
    + intros j Hj. eapply Hin; eassumption.
    + intros j Hj. destruct (decide (j = w_next w)) as [->|Hne]; [lia|rewrite lookup_insert_ne in Hj by congruence; pose proof (IH _ Hj); lia].
    + intros j Hj. destruct (decide (j = w_next w)) as [->|Hne]; [lia|rewrite lookup_insert_ne in Hj by congruence; pose proof (IH _ Hj); lia].
    + intros j Hj. eapply Hin; eassumption.
    + intros j Hj. eapply Hin; eassumption.
    + intros j Hj. eapply Hin; eassumption.
Qed.
(** C65, referrals: minting, changing, spending an allocation on codes. *)
Definition no_share (x : Z) : Prop := ~ (0 <= x <= 10 ^ 17).
Lemma no_share_of x : ref_fee_ok x = false -> no_share x.
Proof. unfold ref_fee_ok, no_share. intros Hf [H1 H2]. apply andb_false_iff in Hf as [Hf|Hf]; apply Z.leb_gt in Hf; [lia|]. unfold FEE_REF_MAX in Hf. change (10 ^ 17) with 100000000000000000 in H2. lia. Qed.
Theorem C65_mint_referral E cx w fr fb mr e : reachable E w -> step E cx w (OMintReferral fr fb mr) = Err e ->
  at_the_gate E cx w RReferralAdmin [] e \/ e = EInvalidReferralData /\ (no_share fr \/ no_share fb).
Proof.
  intros Hr. revert e. match goal with |- forall e, _ -> _ \/ @?Q e => apply (f_gate E cx w _ RReferralAdmin [] Q) end; [reflexivity..|]. intros _ _. cbn [exec]. unfold m_mint_referral, mint_referral_nft. cbv zeta.
  apply f_bind; [|intros [? ?] _; apply f_Ok]. apply f_bind; [apply f_guard; intros Hf; split; [reflexivity|left; apply no_share_of; exact Hf]|]. intros [] _. apply f_bind; [apply f_guard; intros Hf; split; [reflexivity|right; apply no_share_of; exact Hf]|]. intros [] _.
  apply f_bind; [|intros; apply f_Ok]. apply f_guard. intros Hf. exfalso. apply bool_decide_eq_false in Hf. apply Hf. destruct (w_refs w !! w_next w) as [d|] eqn:Ed; [|reflexivity]. pose proof (next_fresh _ _ Hr (w_next w) ltac:(rewrite Ed; eauto)). lia.
Qed.
Theorem C65_update_referral E cx w id fr fb mr e : step E cx w (OUpdateReferral id fr fb mr) = Err e ->
  at_the_gate E cx w RReferralAdmin [] e \/ e = EInvalidReferralData /\ (exists x, (fr = Some x \/ fb = Some x) /\ no_share x) \/ e = EEngine /\ w_refs w !! id = None.
Proof.
  revert e. match goal with |- forall e, _ -> _ \/ @?Q e => apply (f_gate E cx w _ RReferralAdmin [] Q) end; [reflexivity..|]. intros _ _. cbn [exec]. unfold m_update_referral.
  destruct (w_refs w !! id) as [d|] eqn:Ed.
  - apply f_bind. { destruct fr as [x|]; [|apply f_Ok]. apply f_bind; [apply f_guard; intros Hf; left; split; [reflexivity|exists x; split; [auto|apply no_share_of; exact Hf]]|]. intros [] _. cbn. apply f_Ok. }
    intros w1 H1. assert (exists d1, w_refs w1 !! id = Some d1) as [d1 E1]. { destruct fr as [x|]; [|apply Ok_inj in H1; subst w1; eauto]. bd H1 as (? & _ & H1). rewrite ?Ed in H1. cbn in H1. apply Ok_inj in H1. subst w1. cbn. rewrite lookup_insert. eauto. }
    apply f_bind. { destruct fb as [x|]; [|apply f_Ok]. apply f_bind; [apply f_guard; intros Hf; left; split; [reflexivity|exists x; split; [auto|apply no_share_of; exact Hf]]|]. intros [] _. rewrite E1. cbn. apply f_Ok. }
    intros w2 H2. assert (exists d2, w_refs w2 !! id = Some d2) as [d2 E2]. { destruct fb as [x|]; [|apply Ok_inj in H2; subst w2; eauto]. bd H2 as (? & _ & H2). rewrite ?E1 in H2. cbn in H2. apply Ok_inj in H2. subst w2. cbn. rewrite lookup_insert. eauto. }
    apply f_bind; [|intros; apply f_Ok]. destruct mr as [x|]; [|apply f_Ok]. rewrite E2. cbn. apply f_Ok.
  - apply f_bind. { destruct fr as [x|]; [|apply f_Ok]. apply f_bind; [apply f_guard; intros Hf; left; split; [reflexivity|exists x; split; [auto|apply no_share_of; exact Hf]]|]. intros [] _. cbn. apply f_Err. auto. }
    intros w1 H1. assert (w1 = w) as ->. { destruct fr as [x|]; [|apply Ok_inj in H1; congruence]. bd H1 as (? & _ & H1). rewrite ?Ed in H1. discriminate H1. }
    apply f_bind. { destruct fb as [x|]; [|apply f_Ok]. apply f_bind; [apply f_guard; intros Hf; left; split; [reflexivity|exists x; split; [auto|apply no_share_of; exact Hf]]|]. intros [] _. rewrite Ed. cbn. apply f_Err. auto. }
    intros w2 H2. assert (w2 = w) as ->. { destruct fb as [x|]; [|apply Ok_inj in H2; congruence]. bd H2 as (? & _ & H2). rewrite ?Ed in H2. discriminate H2. }
    apply f_bind; [|intros; apply f_Ok]. destruct mr as [x|]; [|apply f_Ok]. rewrite Ed. cbn. apply f_Err. auto.
Qed.
Lemma f_codes (f : N -> rcode) hs : NoDup hs -> forall m, fails (fun e => e = EReferralCodeExists /\ exists h, h ∈ hs /\ is_Some (m !! h)) (rfold (fun cd h => insert_code cd h (f h)) m hs).
Proof.
  induction hs as [|h hs IH]; intros Hnd m; [apply f_Ok|]. apply NoDup_cons in Hnd as [Hh Hnd]. cbn [rfold]. apply f_bind.
  - unfold insert_code. apply f_bind; [|intros; apply f_Ok]. apply f_guard. intros Hf. apply bool_decide_eq_false in Hf. split; [reflexivity|]. exists h. split; [left|]. destruct (m !! h); [eauto|congruence].
  - intros m1 H1. unfold insert_code in H1. bd H1 as (? & _ & H1). apply Ok_inj in H1. subst m1. eapply f_mono; [apply IH; exact Hnd|]. cbn. intros e (-> & h' & H1 & H2). split; [reflexivity|]. exists h'. split; [right; exact H1|].
    rewrite lookup_insert_ne in H2 by (intros ->; contradiction). exact H2.
Qed.
Theorem C65_codes_from_allocation E cx w pr i hs e : step E cx w (OCreateReferralCodesFromAllocation pr i hs) = Err e ->
  at_the_gate E cx w RReferralUser [] e \/ e = EEngine /\ (cx_proves cx (fst pr) (snd pr) = false \/ w_refs w !! snd pr = None) \/ e = EInvalidReferral /\ fst pr <> REFERRAL \/
  let l := default [] (gn_allocs (w_gen w) !! snd pr) in
  e = EAllocationNotFound /\ l !! N.to_nat i = None \/
  (exists al, l !! N.to_nat i = Some al /\ (e = EAllocationLimit \/ e = EArithmetic) /\ (N.min (ra_max al) (2 ^ 64 - 1) < ra_count al + N.of_nat (size hs))%N) \/
  e = EReferralCodeExists /\ exists h, h ∈ hs /\ is_Some (gn_codes (w_gen w) !! h).
Proof.
  cbv zeta. revert e. match goal with |- forall e, _ -> _ \/ @?Q e => apply (f_gate E cx w _ RReferralUser [] Q) end; [reflexivity..|]. intros _ _. cbn [exec].
  unfold m_create_referral_codes_from_allocation, check_ref_proof. apply f_bind.
  { apply f_bind; [apply f_guard; auto|]. intros [] _. apply f_bind; [apply f_guard; intros Hf; apply N.eqb_neq in Hf; auto|]. intros [] _. intros e He. unfold expect in He. destruct (w_refs w !! snd pr) eqn:Ed; [discriminate He|]. injection He as <-. left. auto. }
  intros d _. apply f_bind; [|intros; apply f_Ok]. unfold gn_create_from_alloc. destruct (gn_allocs (w_gen w) !! snd pr) as [l|]; cbn [expect mbind res_bind default from_option id].
  - destruct (l !! N.to_nat i) as [al|] eqn:El; cbn [expect mbind res_bind]; [|apply f_Err; auto]. apply f_bind.
    { intros e He. pose proof (f_uadd _ _ _ He) as ->. right; right; right; left. exists al. split; [reflexivity|]. split; [auto|]. unfold uadd in He. destruct (_ <=? _)%N eqn:Hf; [discriminate He|]. apply N.leb_gt in Hf. change (2 ^ 64 - 1)%N with 18446744073709551615%N. lia. }
    intros c Hc. assert (c = ra_count al + N.of_nat (size hs))%N as ->. { unfold uadd in Hc. destruct (_ <=? _)%N; [|discriminate Hc]. apply Ok_inj in Hc. congruence. }
    apply f_bind. { apply f_guard. intros Hf. apply N.leb_gt in Hf. right; right; right; left. exists al. split; [reflexivity|]. split; [auto|]. lia. }
    intros [] _. apply f_bind; [|intros; apply f_Ok]. eapply f_mono; [apply (f_codes (fun _ => mkRC (snd pr) (ra_claims al) 0 1)); apply NoDup_elements|]. intros e (-> & h & H1 & H2). right; right; right; right. split; [reflexivity|]. exists h. split; [apply elem_of_elements; exact H1|exact H2].
  - apply f_Err. right; right; left. split; [reflexivity|]. reflexivity.
Qed.
(** C65, the oracle's own calls. *)
Theorem C65_oracle E cx w :
  (forall id k e, step E cx w (OOracleAddKey id k) = Err e -> e = EAuth /\ satisfies cx (w_owner w) = false \/ e = EKeyIdAlreadyExists /\ is_Some (or_keys (w_oracle w) !! id)) /\
  (forall id e, step E cx w (OOracleRemoveKey id) = Err e -> e = EAuth /\ satisfies cx (w_owner w) = false) /\ (forall k e, step E cx w (OOracleRemovePrice k) = Err e -> e = EAuth /\ satisfies cx (w_owner w) = false) /\
  (forall ids m e, step E cx w (OOraclePush ids m) = Err e -> bad_message E w (Some m) e \/ e = EMissingPair /\ exists k, k ∈ ids /\ told E w (Some m) k = None).
Proof.
  unfold step. cbn [op_buckets forallb guard_ mbind res_bind op_access needs_authority implb access_ok exec]. split; [|split; [|split]].
  - intros id k. apply f_bind; [apply f_guard; intros Hf; left; split; [reflexivity|exact Hf]|]. intros [] _. cbn [mbind res_bind]. apply f_bind; [|intros; apply f_Ok]. unfold oracle_add_key. apply f_bind; [|intros; apply f_Ok]. apply f_guard. intros Hf. apply bool_decide_eq_false in Hf. right. split; [reflexivity|]. destruct (or_keys (w_oracle w) !! id); [eauto|congruence].
  - intros id e He. destruct (rule_sat (cx_sat cx) (w_owner w)) eqn:Hf; [discriminate He|]. injection He as <-. auto.
  - intros id e He. destruct (rule_sat (cx_sat cx) (w_owner w)) eqn:Hf; [discriminate He|]. injection He as <-. auto.
  - intros ids m. apply f_bind; [eapply f_mono; [apply f_push_msg|auto]|]. intros x Hx. apply f_bind; [|intros; apply f_Ok]. eapply f_mono; [apply f_oracle_get|]. intros e (-> & k & H1 & H2). right. split; [reflexivity|]. exists k. split; [exact H1|]. rewrite <- (told_push E w (Some m) x Hx k). exact H2.
Qed.
Example C65_ex_rules : refused W3 (cx_u3, OCreateRecoveryKey None A2) EAuth && okb (step sc_env cx_u2 W3 (OCreateRecoveryKey None A2)) && refused W3 (cx_u2, OAddAuthRule None A2 4%N (NLeaf (LKey 3%N))) EInvalidAuthLevel && okb (step sc_env cx_u2 W3 (OSetLevel1Auth None A2 DenyAll)) &&
  refused W3 (cx_any, OMintReferral 0 0 1%N) EAuth && refused W3 (cx_owner, OMintReferral (-1) 0 1%N) EInvalidReferralData && refused W3 (cx_owner, OMintReferral 0 (10 ^ 17 + 1) 1%N) EInvalidReferralData && okb (step sc_env cx_owner W3 (OMintReferral 0 (10 ^ 17) 1%N)) &&
  refused W3 (cx_owner, OUpdateReferral 9%N None None (Some 3%N)) EEngine && okb (step sc_env cx_owner W5 (OUpdateReferral 0%N None None (Some 3%N))) = true.
Proof. vm_compute. reflexivity. Qed.
