(** * C65, continued: the owner's calls and the passing of time. *)
From Verif Require Import Base DFloat Lists Types Config Oracle Pool Account Fees Referral ExInternal Exchange System Scenario Sums Trace Frames Calls Spec SpecAuth SpecRequests SpecOracle SpecTrading SpecMargin SpecRefuse SpecRefuse3 P_DFloat P_Ledger Witness P_Refuse P_Refuse2 P_Refuse3 Props_Refuse Props_Refuse2 Props_Refuse3 Props_Refuse5 Props_Refuse6.

Definition too_big (e : error) : Prop := e = EArithmetic \/ e = EInvalidConfig.
Lemma f_float v : fails (fun e => too_big e /\ unstorable v) (dfloat_from v).
Proof.
  intros e He. assert (unstorable v) as Hu. { intros Hb. destruct (dfloat_from_ok v Hb) as [f Hf]. rewrite Hf in He. discriminate He. }
  split; [|exact Hu]. revert e He. change (fails too_big (dfloat_from v)). assert (forall a b, fails too_big (dfloat_new a b)) as Hn by (intros a b; unfold dfloat_new; repeat (apply f_bind; [apply f_guard; intros _; right; reflexivity|intros ? _]); apply f_Ok).
  unfold dfloat_from. destruct (v =? 0); [apply Hn|]. cbv zeta. apply f_bind; [apply f_guard; intros _; left; reflexivity|]. intros [] _. match goal with |- fails _ (if ?b then _ else _) => destruct b end; apply Hn.
Qed.
Ltac floats := repeat (apply f_bind; [eapply f_mono; [apply f_float|]; intros ? [? ?]; split; [assumption|eexists; split; [|eassumption]; set_solver]|intros ? _]); apply f_Ok.
Lemma f_ecc c : fails (fun e => too_big e /\ exists x, x ∈ exchange_decimals c /\ unstorable x) (ec_compress c). Proof. unfold ec_compress. floats. Qed.
Lemma f_pcc c : fails (fun e => too_big e /\ exists x, x ∈ pair_decimals c /\ unstorable x) (pc_compress c). Proof. unfold pc_compress. floats. Qed.
Lemma f_ccc c : fails (fun e => too_big e /\ exists x, x ∈ collateral_decimals c /\ unstorable x) (cc_compress c). Proof. unfold cc_compress. floats. Qed.
Ltac bad_cfg := intros Hf; unfold outside; change (3 * 10 ^ 17) with 300000000000000000; change (15 * 10 ^ 16) with 150000000000000000; change (8 * 10 ^ 17) with 800000000000000000; change (1000 * 10 ^ 18) with (dec 1000); change (10000 * 10 ^ 18) with (dec 10000); change (2 * 10 ^ 18) with (dec 2); change (4 * 10 ^ 18) with (dec 4);
  change (10 ^ 18) with (dec 1); change (10 ^ 17) with 100000000000000000; change (15 * 10 ^ 15) with 15000000000000000; change (10 ^ 12) with 1000000000000;
  repeat match goal with H : _ && _ = false |- _ => apply andb_false_iff in H as [H|H] end; (apply Z.leb_gt in Hf || apply Z.ltb_ge in Hf || apply N.ltb_ge in Hf); lia.
Lemma bad_ec c : ec_validate c = false -> bad_exchange_config c. Proof. unfold ec_validate, bad_exchange_config. bad_cfg. Qed.
Lemma bad_pc c : pc_validate c = false -> bad_pair_config c. Proof. unfold pc_validate, bad_pair_config. bad_cfg. Qed.
Lemma bad_cc c : cc_validate c = false -> bad_collateral_config c. Proof. unfold cc_validate, bad_collateral_config. bad_cfg. Qed.
Lemma f_owner E cx w o (Q : error -> Prop) : op_buckets o = [] -> op_access o = AOwner -> fails Q (exec E cx w o) ->
  fails (fun e => e = EAuth /\ not_owner cx w \/ e = EEngine /\ needs_authority o = true /\ w_auth w < 1 \/ Q e) (step E cx w o).
Proof.
  intros Hb Ha Hq. unfold step. rewrite Hb, Ha. cbn [forallb guard_ mbind res_bind access_ok]. apply f_bind; [apply f_guard; intros Hf; left; split; [reflexivity|exact Hf]|]. intros [] _.
  apply f_bind; [|intros [] _; eapply f_mono; [exact Hq|auto]]. apply f_guard. intros Hf. right; left. split; [reflexivity|]. destruct (needs_authority o); [|discriminate Hf]. cbn in Hf. apply Z.leb_gt in Hf. auto.
Qed.
Definition owner_door (cx : ctx) (w : world) (e : error) : Prop := e = EAuth /\ not_owner cx w \/ e = EEngine /\ w_auth w < 1.
Lemma f_owner2 E cx w o (Q : error -> Prop) : op_buckets o = [] -> op_access o = AOwner -> fails Q (exec E cx w o) -> fails (fun e => owner_door cx w e \/ Q e) (step E cx w o).
Proof. intros H1 H2 H3. eapply f_mono; [exact (f_owner _ _ _ _ _ H1 H2 H3)|]. intros e [H|[(H & _ & Hb)|H]]; [left; left; exact H|left; right; auto|right; exact H]. Qed.
(** C65, changing the exchange's configuration. *)
Theorem C65_exchange_config E cx w c e : step E cx w (OUpdateExchangeConfig c) = Err e ->
  owner_door cx w e \/ e = EInvalidConfig /\ bad_exchange_config c \/ too_big e /\ exists x, x ∈ exchange_decimals c /\ unstorable x.
Proof.
  revert e. match goal with |- forall e, _ -> _ \/ @?Q e => apply (f_owner2 E cx w _ Q) end; [reflexivity..|]. cbn [exec]. unfold m_update_exchange_config, config_update_exchange.
  apply f_bind; [|intros; apply f_Ok]. apply f_bind; [apply f_guard; intros Hf; left; split; [reflexivity|apply bad_ec; exact Hf]|]. intros [] _. apply f_bind; [|intros; apply f_Ok]. eapply f_mono; [apply f_ecc|auto].
Qed.
Theorem C65_pair_configs E cx w cs e : step E cx w (OUpdatePairConfigs cs) = Err e ->
  owner_door cx w e \/ e = EInvalidConfig /\ (exists c, c ∈ cs /\ bad_pair_config c) \/
  too_big e /\ (exists c x, c ∈ cs /\ x ∈ pair_decimals c /\ unstorable x) \/ e = EArithmetic /\ (2 ^ 64 - 1 < hl_len (cf_pairs (w_config w)) + N.of_nat (length cs))%N.
Proof.
  revert e. match goal with |- forall e, _ -> _ \/ @?Q e => apply (f_owner2 E cx w _ Q) end; [reflexivity..|]. cbn [exec]. unfold m_update_pair_configs, config_update_pairs.
  apply f_bind; [|intros; apply f_Ok]. clear. generalize (w_config w). induction cs as [|c cs IH]; intros cf; [apply f_Ok|]. cbn [rfold]. apply f_bind.
  - unfold config_update_pair1. apply f_bind; [apply f_guard; intros Hf; left; split; [reflexivity|]; exists c; split; [left|apply bad_pc; exact Hf]|]. intros [] _.
    apply f_bind; [eapply f_mono; [apply f_pcc|]; intros e (Hb & x & H1 & H2); right; left; split; [exact Hb|]; exists c, x; split; [left|auto]|]. intros cp _. apply f_bind; [|intros; apply f_Ok].
    unfold hl_insert. match goal with |- fails _ (match ?x with _ => _ end) => destruct x end; [apply f_Ok|]. apply f_bind; [|intros; apply f_Ok]. unfold kl_push. apply f_bind; [|intros; apply f_Ok]. intros e He. pose proof (f_uadd _ _ _ He) as ->. right; right. split; [reflexivity|].
    unfold uadd in He. destruct (_ <=? _)%N eqn:Hf in He; [discriminate He|]. apply N.leb_gt in Hf. change (2 ^ 64 - 1)%N with 18446744073709551615%N. unfold hl_len, kl_len. cbn [length]. lia.
  - intros cf1 H1. assert (hl_len (cf_pairs cf1) <= hl_len (cf_pairs cf) + 1)%N as Hl.
    { unfold config_update_pair1 in H1. bd H1 as (? & _ & H1). bd H1 as (cp & _ & H1). bd H1 as (ps & Hps & H1). apply Ok_inj in H1. subst cf1. cbn. unfold hl_insert in Hps. match type of Hps with (match ?x with _ => _ end) = _ => destruct x end; [apply Ok_inj in Hps; subst ps; cbn; unfold hl_len; cbn; lia|].
      bd Hps as (l & Hl & Hps). apply Ok_inj in Hps. subst ps. unfold kl_push in Hl. bd Hl as (p & Hp & Hl). apply Ok_inj in Hl. subst l. unfold uadd in Hp. destruct (_ <=? _)%N; [|discriminate Hp]. apply Ok_inj in Hp. unfold hl_len, kl_len. cbn. lia. }
    eapply f_mono; [apply IH|]. intros e [(-> & c0 & H & H2)|[(Hb & c0 & x & H & H2)|(-> & H)]]; [left; split; [reflexivity|]; exists c0; split; [right; exact H|exact H2]|right; left; split; [exact Hb|]; exists c0, x; split; [right; exact H|exact H2]|right; right; split; [reflexivity|]; cbn [length]; lia].
Qed.
Theorem C65_collateral_configs E cx w cs e : step E cx w (OUpdateCollateralConfigs cs) = Err e ->
  owner_door cx w e \/ e = EInvalidConfig /\ (exists r c, (r, c) ∈ cs /\ bad_collateral_config c) \/ too_big e /\ (exists r c x, (r, c) ∈ cs /\ x ∈ collateral_decimals c /\ unstorable x).
Proof.
  revert e. match goal with |- forall e, _ -> _ \/ @?Q e => apply (f_owner2 E cx w _ Q) end; [reflexivity..|]. cbn [exec]. unfold m_update_collateral_configs, config_update_collaterals.
  apply f_bind; [|intros; apply f_Ok]. apply f_bind.
  { apply f_guard. intros Hf. left. split; [reflexivity|]. assert (exists x, In x cs /\ cc_validate (snd x) = false) as ([r c] & H1 & H2).
    { clear - Hf. induction cs as [|x l IH]; [discriminate Hf|]. cbn in Hf. apply andb_false_iff in Hf as [Hf|Hf]; [exists x; split; [left; reflexivity|exact Hf]|]. destruct (IH Hf) as (y & H1 & H2). exists y. split; [right; exact H1|exact H2]. }
    exists r, c. split; [apply elem_of_list_In; exact H1|apply bad_cc; exact H2]. }
  intros [] _. apply (f_rfold _ (fun _ => True)); [|auto|exact I]. intros cf [r c] Hx _. cbn [snd fst]. apply f_bind; [|intros; apply f_Ok]. eapply f_mono; [apply f_ccc|]. intros e (Hb & x & H1 & H2). right. split; [exact Hb|]. exists r, c, x. auto.
Qed.
Theorem C65_owner E cx w :
  (forall r e, step E cx w (ORemoveCollateralConfig r) = Err e -> owner_door cx w e) /\
  (forall a e, step E cx w (OSignalUpgrade a) = Err e -> e = EAuth /\ not_owner cx w) /\ (forall e, step E cx w OWithdrawAuthority = Err e -> e = EAuth /\ not_owner cx w) /\
  (forall b e, step E cx w (ODepositAuthority b) = Err e -> e = EAuth /\ not_owner cx w \/ e = EEngine /\ (bad_bucket E b \/ b_res b <> AUTHORITY) \/ e = EArithmetic /\ overflows (w_auth w) (b_amt b)) /\
  (forall r rule e, step E cx w (OSetRole r rule) = Err e -> e = EAuth /\ not_owner cx w /\ (r ∈ user_roles -> not_allowed cx w RUserAdmin)) /\
  (forall t e, step E cx w (OAdvance t) = Err e -> e = EEngine /\ (t < w_now w \/ no_time t)).
Proof.
  split; [|split; [|split; [|split; [|split]]]].
  - intros r e He. apply (f_owner _ _ _ _ none) in He as [H|[(H & _ & H2)|[]]]; [left; exact H|right; auto|reflexivity|reflexivity|apply f_Ok].
  - intros a e He. apply (f_owner _ _ _ _ none) in He as [H|[(H & H1 & _)|[]]]; [exact H|discriminate H1|reflexivity|reflexivity|apply f_Ok].
  - intros e He. apply (f_owner _ _ _ _ none) in He as [H|[(H & H1 & _)|[]]]; [exact H|discriminate H1|reflexivity|reflexivity|apply f_Ok].
  - intros b. unfold step. cbn [op_buckets op_access needs_authority implb exec access_ok]. apply f_bind. { apply f_guard. intros Hf. right; left. split; [reflexivity|]. left. apply bad_bucket_ok. cbn in Hf. rewrite andb_true_r in Hf. exact Hf. }
    intros [] _. apply f_bind; [apply f_guard; intros Hf; left; split; [reflexivity|exact Hf]|]. intros [] _. cbn [guard_ mbind res_bind]. unfold m_deposit_authority. apply f_bind; [apply f_guard; intros Hf; apply N.eqb_neq in Hf; right; left; auto|]. intros [] _.
    apply f_bind; [|intros; apply f_Ok]. eapply f_mono; [apply f_dadd_over|]. intros e H. auto.
  - intros r rule. unfold step. cbn [op_buckets forallb guard_ mbind res_bind]. apply f_bind; [|intros [] _; cbn; apply f_Ok]. apply f_guard. intros Hf. split; [reflexivity|]. unfold not_owner, not_allowed. destruct r; cbn [op_access access_ok] in Hf; try (apply orb_false_iff in Hf as [Hf1 Hf2]; split; [exact Hf1|intros _; exact Hf2]);
      (split; [exact Hf|intros Hin; exfalso; clear - Hin; unfold user_roles in Hin; set_solver]).
  - intros t. unfold step. cbn [op_buckets op_access needs_authority implb exec access_ok forallb guard_ mbind res_bind]. apply f_bind; [|intros; apply f_Ok]. apply f_guard. intros Hf. split; [reflexivity|]. apply andb_false_iff in Hf as [Hf|Hf]; [apply Z.leb_gt in Hf; auto|]. right. unfold no_time. unfold in_i64, I64MIN, I64MAX in Hf. lia.
Qed.
