(** * A withdrawal refused for its margin (for C67): what the account would be left with. *)
From Verif Require Import Base DFloat Lists Types Config Oracle Pool Account Fees Referral ExInternal Exchange System Sums Trace Frames Calls Spec SpecOracle SpecTrading SpecRequests SpecMargin SpecRefuse P_Ledger P_Accounts Frames2 P_Requests P_Requests2 P_Tokens Trading P_Positions P_Positions2 P_Oracle P_Keeper P_Coll P_Remove P_Final P_OrderCall P_Refuse P_Refuse2 P_Refuse3 P_Refuse4 P_Refuse5.

Lemma coll_subs_amount bs : forall c c', rfold coll_sub c bs = Ok c' -> forall r, default 0 (c' !! r) = default 0 (c !! r) - amount_in r bs.
Proof.
  induction bs as [|[q x] bs IH]; intros c c' H r; cbn [rfold] in H; [apply Ok_inj in H; subst c'; unfold amount_in; cbn; lia|].
  bd H as (c1 & H1 & H). rewrite (IH _ _ H r), amount_cons. cbn [b_res b_amt fst snd]. unfold coll_sub in H1. cbn [b_res b_amt fst snd] in H1. bd H1 as (y & Hy & H1). bd H1 as (t & Ht & H1). apply expect_Ok in Hy. apply dsub_Ok in Ht as [-> _]. apply Ok_inj in H1. subst c1.
  destruct (N.eqb_spec q r) as [->|Hne].
  - match goal with |- _ = default 0 ?t - _ => assert (t = Some y) as -> by exact Hy end. destruct (Z.eqb_spec (y - x) 0); [rewrite lookup_delete|rewrite lookup_insert]; cbn; lia.
  - destruct (y - x =? 0); [rewrite lookup_delete_ne by exact Hne|rewrite lookup_insert_ne by exact Hne]; lia.
Qed.
Record left_with (E : env) (v : vacc) (rq : req_remove) (a2 : vacc) : Prop := {
  lw_pos : va_positions a2 = va_positions v; lw_upd : va_pos_upd a2 = va_pos_upd v; lw_ref : va_ref a2 = va_ref v; lw_cpos : ac_positions (va_comp a2) = ac_positions (va_comp v); lw_cref : ac_ref (va_comp a2) = ac_ref (va_comp v);
  lw_sync : coll_sync a2; lw_vb : va_vb a2 = va_vb v - units E BASE (amount_in BASE (rr_claims rq));
  lw_coll : forall r, r <> BASE -> default 0 (va_coll a2 !! r) = default 0 (va_coll v !! r) - units E r (amount_in r (rr_claims rq));
  lw_base : default 0 (va_coll a2 !! BASE) = default 0 (va_coll v !! BASE) }.
Lemma f_withdraw_short E cx c p v o rq (G : Prop) : va_coll v = ac_coll (va_comp v) -> coll_ok (va_comp v) -> have_all c o p v -> feeds_ok c o -> vp_base p = po_base (vp_comp p) ->
  (forall p1 a2 pnl mp disc mc, vp_positions p1 = vp_positions p -> left_with E v rq a2 -> x_value_positions c p1 a2 o = Ok (pnl, mp) -> x_value_collateral c a2 o = Ok (disc, mc) -> pnl + disc + va_vb a2 < mp + mc -> G) ->
  fails (fun e => e = EInsufficientMargin -> G) (x_remove_collateral E cx c p v o rq).
Proof.
  intros Hsy Hco Hall Hf Hb HG. set (Q := fun e => e = EInsufficientMargin -> G). assert (forall e, e <> EInsufficientMargin -> Q e) as HN by (intros e He E0; contradiction). assert (Q EArithmetic) as HA by (apply HN; discriminate).
  unfold x_remove_collateral. apply f_bind; [apply f_arP; [exact HA|apply f_merge]|]. intros m Hm. assert (NoDup (map fst (map_to_list m))) as Hnd by apply NoDup_fst_map_to_list.
  apply f_bind. { eapply (f_claims E Q (po_base (vp_comp p)) (va_vb v) v); [exact Hnd|exact HA|intros; apply HN; discriminate|intros; apply HN; discriminate|intros; apply HN; discriminate|split; reflexivity|intros _; auto]. }
  intros [[[p1 a1] t1] r1] Hcl. destruct (claims_checked _ _ _ _ _ _ _ _ _ _ Hcl) as [[K1 K2] K3]. destruct (claims_served _ _ _ _ _ _ _ _ _ _ Hcl Hnd) as (-> & Hcase). cbn [app].
  set (cs := List.filter (fun x => negb (fst x =? BASE)%N) (map_to_list m)). assert (NoDup (map fst cs)) as Hnc by (apply filter_nodup; exact Hnd).
  assert (forall r x, (r, x) ∈ cs -> x <= held_coll (va_comp v) r) as Hcv.
  { intros r x Hx. pose proof Hx as Hx'. apply filter_in in Hx'. apply elem_of_list_In, filter_In in Hx as [_ Hx]. cbn in Hx. apply negb_true_iff, N.eqb_neq in Hx. pose proof (K3 _ _ Hx' Hx) as K. unfold va_collateral_amount in K. rewrite Hsy in K. exact K. }
  assert (Q EEngine) as HE by (apply HN; discriminate).
  destruct (f_take2 E Q HA cs (ac_vaults (va_comp v)) Hnc) as [T1 T2].
  { intros r x Hx. pose proof (Hcv _ _ Hx) as L1. destruct (Hco r) as [C1 C2]. unfold in_vault in *. unfold vts_amount. split; [rewrite C1 in L1; exact L1|auto]. }
  apply f_bind.
  { unfold va_withdraw, acc_withdraw. rewrite K2, K1, Hsy. apply f_bind.
    - apply f_bind; [exact T1|]. intros [v1 bs] Hbs. apply f_bind; [apply f_collsub2; [exact HA|rewrite (T2 _ _ Hbs); exact Hnc|auto]|]. intros; apply f_Ok.
    - intros [ac bs] Hbs. bd Hbs as ([v1 bs1] & Hb1 & Hbs). bd Hbs as (c1 & _ & Hbs). apply Ok_inj in Hbs. injection Hbs as _ <-. apply f_bind; [apply f_collsub2; [exact HA|rewrite (T2 _ _ Hb1); exact Hnc|auto]|]. intros; apply f_Ok. }
  intros [a2 more] Hw. apply f_bind; [apply f_guard; intros _; apply HN; discriminate|]. intros [] _. apply f_bind; [|intros; apply f_Ok].
  assert (left_with E v rq a2) as HL.
  { unfold va_withdraw, acc_withdraw in Hw. bd Hw as ([ac1 b1] & H2 & Hw). bd Hw as (c1 & H1 & Hw). bd H2 as ([v2 b2] & H2a & H2). bd H2 as (c2 & H2b & H2). apply Ok_inj in Hw, H2. injection H2 as <- <-. injection Hw as <- <-. rewrite K2 in H2a, H2b. rewrite K1 in H1. rewrite Hsy in H1. rewrite H1 in H2b. apply Ok_inj in H2b. subst c2.
    pose proof (more_amount _ _ _ _ _ _ Hm H2a) as Hmore. pose proof (coll_subs_amount _ _ _ H1) as Hsub.
    assert (va_vb a1 = va_vb v - units E BASE (amount_in BASE (rr_claims rq))) as Hvb.
    { rewrite <- (merge_claims_amount BASE _ _ Hm). destruct Hcase as [(Hno & _ & -> & _)|(amt & x & Hin & -> & _ & _ & _ & _ & ->)].
      + destruct (m !! BASE) as [y|] eqn:Hy; [exfalso; apply Hno; change BASE with (fst (BASE, y)); apply in_map, elem_of_list_In, elem_of_map_to_list; exact Hy|]. cbn [default]. assert (units E BASE 0 = 0) as -> by (unfold units; destruct (unit_of E BASE); reflexivity). lia.
      + apply elem_of_list_In, elem_of_map_to_list in Hin. rewrite Hin. reflexivity. }
    assert (va_positions a1 = va_positions v /\ va_pos_upd a1 = va_pos_upd v /\ va_ref a1 = va_ref v) as (E1 & E2 & E3) by (destruct Hcase as [(_ & _ & -> & _)|(amt & x & _ & _ & _ & _ & _ & _ & ->)]; split; [reflexivity|split; reflexivity|reflexivity|split; reflexivity]).
    constructor; cbn [va_positions va_pos_upd va_ref va_comp va_coll va_vb ac_positions ac_ref ac_coll]; try assumption; try (cbn; rewrite K2; reflexivity); try reflexivity.
    - intros r Hr. rewrite Hsy. cbn. rewrite Hsub, Hmore. apply N.eqb_neq in Hr. rewrite Hr. reflexivity.
    - rewrite Hsy. cbn. rewrite Hsub, Hmore. rewrite N.eqb_refl. lia. }
  assert (vp_positions p1 = vp_positions p) as Hpp. { destruct Hcase as [(_ & -> & _)|(amt & x & _ & _ & _ & _ & _ & -> & _)]; reflexivity. }
  assert (have_all c o p1 a2) as Hall2. { intros k Hk. rewrite (lw_pos _ _ _ _ HL) in Hk. destruct (Hall k Hk) as (J1 & J2 & J3). split; [exact J1|]. split; [exact J2|]. rewrite Hpp. exact J3. }
  unfold x_assert_account_integrity. apply f_bind; [apply f_arP; [exact HA|apply f_value; exact Hall2]|]. intros [pnl mp] Hvp. apply f_bind; [apply f_arP; [exact HA|apply f_value_coll; exact Hf]|]. intros [disc mc] Hvc.
  apply f_bind; [apply f_arP; [exact HA|apply f_dadd]|]. intros t Ht. apply f_bind; [apply f_arP; [exact HA|apply f_dadd]|]. intros av Hav. apply f_bind; [apply f_arP; [exact HA|apply f_dadd]|]. intros mg Hmg.
  apply dadd_Ok in Ht as [-> _], Hav as [-> _], Hmg as [-> _]. apply f_guard. intros Hle _. apply Z.leb_gt in Hle. exact (HG _ _ _ _ _ _ Hpp HL Hvp Hvc Hle).
Qed.
