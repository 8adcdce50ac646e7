(** * Snapshots of each pair and the time of its last update (C18, C55). *)
From Verif Require Import Base DFloat Lists Types Config Oracle Pool Account Fees Referral ExInternal Exchange System Sums Trace Frames Calls Shape Spec P_Ledger P_Accounts Frames2 Trading P_Positions P_Positions2.

(** ** Last update times. *)
Definition lu_bound (now : Z) (p : vpool) : Prop := forall k pp, real p !! k = Some pp -> pp_last_update pp <= now.
Definition mono (now : Z) (p p' : vpool) : Prop := cached_ok now p -> lu_bound now p ->
  cached_ok now p' /\ lu_bound now p' /\ forall k pp, real p !! k = Some pp -> exists pp', real p' !! k = Some pp' /\ pp_last_update pp <= pp_last_update pp'.
Lemma mono_refl now p : mono now p p.
Proof. intros C L. split; [exact C|]. split; [exact L|]. intros k pp H. exists pp. split; [exact H|lia]. Qed.
Lemma mono_trans now p1 p2 p3 : mono now p1 p2 -> mono now p2 p3 -> mono now p1 p3.
Proof.
  intros H1 H2 C L. destruct (H1 C L) as (C1 & L1 & M1). destruct (H2 C1 L1) as (C2 & L2 & M2). split; [exact C2|]. split; [exact L2|]. intros k pp H.
  destruct (M1 _ _ H) as (pp1 & Hp1 & Hl1). destruct (M2 _ _ Hp1) as (pp2 & Hp2 & Hl2). exists pp2. split; [exact Hp2|lia].
Qed.
Lemma mono_g now p p' : g_ppos p' = g_ppos p -> mono now p p'.
Proof.
  intros Hg C L. split; [eapply cached_g; eauto|]. split; [intros k pp; rewrite (real_g _ _ Hg); apply L|]. intros k pp H. exists pp. rewrite (real_g _ _ Hg). split; [exact H|lia].
Qed.
Lemma mono_set now p k pp x : vp_positions p !! k = Some pp -> (pp_last_update pp <= now -> pp_last_update pp <= pp_last_update x <= now) -> mono now p (vp_set_position p k x).
Proof.
  intros Hk Hx C L. assert (pp_last_update pp <= now) as Hb. { destruct (C _ _ Hk) as [Hr|[_ ->]]; [exact (L _ _ Hr)|simpl; lia]. }
  specialize (Hx Hb). split; [apply cached_set; exact C|]. split.
  - intros j y. rewrite real_set. destruct (decide (j = k)) as [->|Hne]; [rewrite lookup_insert; intros [= <-]; lia|rewrite lookup_insert_ne by congruence; apply L].
  - intros j y Hy. rewrite real_set. destruct (decide (j = k)) as [->|Hne].
    + rewrite lookup_insert. exists x. split; [reflexivity|]. destruct (C _ _ Hk) as [Hr|[Hr ->]]; rewrite Hr in Hy; [injection Hy as <-; lia|discriminate].
    + rewrite lookup_insert_ne by congruence. exists y. split; [exact Hy|lia].
Qed.
Lemma mono_put now p k pp x : vp_positions p !! k = Some pp -> (pp_last_update pp <= now -> pp_last_update pp <= pp_last_update x <= now) -> mono now p (put_snap p k pp x).
Proof. intros Hk Hx. eapply mono_trans; [eapply mono_set; eauto|]. apply mono_g. reflexivity. Qed.
Lemma mono_update now c o p pid p' b : x_update_pair now c o p pid = Ok (p', b) -> mono now p p'.
Proof.
  intros H. apply update_pair_fields in H as (pp & pp2 & fpd & Hk & -> & _ & Hl). eapply mono_trans; [eapply (mono_put now p pid pp pp2); [exact Hk|rewrite Hl; lia]|]. apply mono_g. reflexivity.
Qed.
Lemma mono_snaps now o p pid p' : x_update_pair_snaps o p pid = Ok p' -> mono now p p'.
Proof. intros H. apply update_snaps_inv in H as (price & pp & _ & Hk & ->). eapply mono_put; [exact Hk|]. unfold resnap. simpl. lia. Qed.
Lemma traded_lu pp b x y : pp_last_update (traded pp b x y) = pp_last_update pp.
Proof. unfold traded. destruct b; reflexivity. Qed.
Lemma resnap_lu price pp : pp_last_update (resnap price pp) = pp_last_update pp.
Proof. reflexivity. Qed.
Lemma rfold_mono {A} now (g : vpool -> A -> res vpool) l : (forall p x p', g p x = Ok p' -> mono now p p') -> forall p p', rfold g p l = Ok p' -> mono now p p'.
Proof. intros Hg. apply (rfold_ind g (mono now)); [apply mono_refl|]. intros s x s1 s2 H1 H2. eapply mono_trans; [eapply Hg; exact H1|exact H2]. Qed.
Lemma mono_liq1 now c fr o l : forall p t p' t', rfold (x_liq_position1 c fr o) (p, t) l = Ok (p', t') -> mono now p p'.
Proof.
  induction l as [|[pid pos] l IH]; intros p t p' t' H; cbn [rfold] in H.
  - apply Ok_inj in H. injection H as <- <-. apply mono_refl.
  - bd H as ([p1 t1] & H1 & H). destruct t as [[[tp tm] tf] tfe]. apply liq1_inv in H1 as (pc & price & pp & fee & fu & _ & _ & Hk & _ & _ & -> & _).
    eapply mono_trans; [|eapply IH; exact H]. eapply mono_set; [exact Hk|]. rewrite traded_lu. lia.
Qed.
Lemma sstep_mono E now c o s x s' : sstep E now c o s x s' -> mono now (s_pool s) (s_pool s').
Proof.
  intros H. pose proof (sstep_frames _ _ _ _ _ _ _ H) as (_ & _ & _ & _ & _ & Fpp & _). destruct (touches_ppos x) eqn:T.
  - clear Fpp. destruct H; simpl in T; try discriminate T; cbn [s_pool].
    + eapply mono_update; eauto.
    + destruct q as [pnl fee]. apply close_inv in H as (pc & fr & price & pp & pos & cost & pp2 & _ & _ & _ & Hk & _ & _ & _ & _ & _ & _ & _ & Hp2 & -> & _).
      eapply mono_trans; [eapply (mono_put now p pid pp (resnap price pp2)); [exact Hk|]|apply mono_g; reflexivity]. subst pp2. rewrite resnap_lu, traded_lu. lia.
    + apply open_inv in H as (pc & fr & price & pp & cost & pp2 & _ & _ & _ & Hk & _ & _ & _ & Hp2 & _ & _ & -> & _).
      eapply mono_put; [exact Hk|]. subst pp2. rewrite resnap_lu, traded_lu. lia.
    + apply liquidate_positions_inv in H as (fr & p1 & p2 & tp & tm & tf & tfe & _ & H1 & H2 & H3 & _).
      eapply mono_trans; [eapply rfold_mono; [|exact H1]|eapply mono_trans; [eapply mono_liq1; exact H2|eapply mono_trans; [|eapply rfold_mono; [|exact H3]]]].
      * intros q k q' Hq. bd Hq as ([q1 b] & Hq1 & Hq). apply Ok_inj in Hq. subst q1. eapply mono_update; eauto.
      * apply mono_g. reflexivity.
      * intros. eapply mono_snaps; eauto.
  - apply mono_g. apply Fpp. reflexivity.
Qed.
Lemma ssteps_mono E now c o s l s' : ssteps E now c o s l s' -> mono now (s_pool s) (s_pool s').
Proof. induction 1; [apply mono_refl|]. eapply mono_trans; [eapply sstep_mono; eauto|assumption]. Qed.
Lemma mono_upd_pairs now c o l : forall p fls p' fls', rfold (upd_pair1 now c o) (p, fls) l = Ok (p', fls') -> mono now p p'.
Proof.
  induction l as [|pid l IH]; intros p fls p' fls' H; cbn [rfold] in H.
  - apply Ok_inj in H. injection H as <- <-. apply mono_refl.
  - bd H as ([p1 f1] & H1 & H). eapply mono_trans; [|eapply IH; exact H]. unfold upd_pair1 in H1. cbn [fst snd] in H1. bd H1 as ([q b] & Hq & H1). apply Ok_inj in H1. injection H1 as <- <-. eapply mono_update; eauto.
Qed.

(** ** World level. *)
Definition lu_ok (w : world) : Prop := forall k pp, po_positions (w_pool w) !! k = Some pp -> pp_last_update pp <= w_now w.
Definition lu_le (w w' : world) : Prop := forall k pp, po_positions (w_pool w) !! k = Some pp -> exists pp', po_positions (w_pool w') !! k = Some pp' /\ pp_last_update pp <= pp_last_update pp'.
Lemma lu_le_refl w w' : po_positions (w_pool w') = po_positions (w_pool w) -> lu_le w w'.
Proof. intros H k pp Hk. exists pp. rewrite H. split; [exact Hk|lia]. Qed.
Lemma call_lu E w a l w' : acct_call E w a l w' -> lu_ok w -> lu_ok w' /\ lu_le w w'.
Proof.
  intros [c o idsc ids v0 s1 acc1 refs' Hc Ho Hv Hs Hz Hw] Hl. assert (po_positions (w_pool w') = real (s_pool s1) /\ w_now w' = w_now w) as [Hp Hn] by (rewrite Hw; split; reflexivity).
  apply ssteps_mono in Hs. destruct (Hs (cached_new _ _ _)) as (_ & L & M).
  { intros k pp. cbn [s_pool]. rewrite real_get_pool. apply Hl. }
  cbn [s_pool] in M. split.
  - intros k pp. rewrite Hp, Hn. apply L.
  - intros k pp Hk. rewrite Hp. apply M. rewrite real_get_pool. exact Hk.
Qed.
Lemma step_lu E cx w o w' out : step E cx w o = Ok (w', out) -> lu_ok w -> lu_ok w' /\ lu_le w w'.
Proof.
  intros Hs Hl. apply step_gstep in Hs. destruct Hs; try (split; [exact Hl|apply lu_le_refl; reflexivity]).
  - destruct H0 as (l & H0 & _). eapply call_lu; eauto.
  - assert (lu_ok (new_account_world E w rule a ref g)) as Hl' by exact Hl. destruct (call_lu _ _ _ _ _ H1 Hl') as [A B]. split; [exact A|]. intros k pp Hk. apply B. exact Hk.
  - apply mono_upd_pairs in H1. destruct (H1 (cached_new _ _ _)) as (_ & L & M). { intros k pp. rewrite real_get_pool. apply Hl. }
    split; [exact L|]. intros k pp Hk. apply M. rewrite real_get_pool. exact Hk.
  - split; [|apply lu_le_refl; reflexivity]. intros k pp Hk. specialize (Hl k pp Hk). simpl. lia.
Qed.
Lemma lu_reachable E w : reachable E w -> lu_ok w.
Proof.
  induction 1 as [owner auth keys now w Ha Hn Hg|w cx o w' out Hr IH Hs].
  - apply genesis_inv in Hg as (c & _ & ->). intros k pp H. simpl in H. rewrite lookup_empty in H. discriminate.
  - eapply step_lu; eauto.
Qed.

(** ** Every stored snapshot is the one of the stored open interest at the last price. *)
Definition snap_ok (pp : pool_position) : Prop :=
  pp_skew_abs_snap pp = Z.abs (skew_at pp (pp_last_price pp)) /\ pp_pnl_snap pp = pp_cost pp - skew_at pp (pp_last_price pp).
Definition snaps_ok (p : vpool) : Prop := forall k pp, real p !! k = Some pp -> snap_ok pp.
Definition priced (o : voracle) (K : gset pair_id) (p : vpool) : Prop :=
  forall k pp price, k ∈ K -> vp_positions p !! k = Some pp -> vo_prices o !! k = Some price -> pp_last_price pp = price.
Definition PS (o : voracle) (K : gset pair_id) (p : vpool) : Prop := snaps_ok p /\ priced o K p.
Lemma snap_resnap price pp : pp_last_price pp = price -> snap_ok (resnap price pp).
Proof. intros <-. split; reflexivity. Qed.
Lemma snap_same pp pp' : same_trade pp pp' -> snap_ok pp -> snap_ok pp'.
Proof. intros (H1 & H2 & H3 & H4 & H5 & _ & H7) [A B]. unfold snap_ok, skew_at in *. rewrite H1, H2, H3, H4, H5, H7. auto. Qed.
Lemma PS_put o K p k pp x : PS o K p -> snap_ok x -> (forall price, k ∈ K -> vo_prices o !! k = Some price -> pp_last_price x = price) -> PS o K (put_snap p k pp x).
Proof.
  intros [H1 H2] Hx Hp. split.
  - intros j y. rewrite put_snap_real. destruct (decide (j = k)) as [->|Hne]; [rewrite lookup_insert; intros [= <-]; exact Hx|rewrite lookup_insert_ne by congruence; apply H1].
  - intros j y price Hj Hy. unfold put_snap, vp_set_position in Hy. simpl in Hy. destruct (decide (j = k)) as [->|Hne].
    + rewrite lookup_insert in Hy. injection Hy as <-. intros Hpr. apply Hp; assumption.
    + rewrite lookup_insert_ne in Hy by congruence. eapply H2; eauto.
Qed.
Lemma PS_g o K p p' : g_ppos p' = g_ppos p -> PS o K p -> PS o K p'.
Proof.
  intros Hg [H1 H2]. split; [intros k pp; rewrite (real_g _ _ Hg); apply H1|]. intros k pp price Hk. unfold g_ppos in Hg. injection Hg as -> _ _. apply H2. exact Hk.
Qed.
Lemma PS_update now c o K p pid p' b : x_update_pair now c o p pid = Ok (p', b) -> PS o K p -> PS o ({[pid]} ∪ K) p'.
Proof.
  intros H [H1 H2]. apply update_pair_inv in H as (pc & price & pp & pp1 & pp2 & fpd & _ & Hpr & Hk & Hp1 & Hf & -> & _).
  assert (snap_ok pp2 /\ pp_last_price pp2 = price) as [Hs Hl].
  { assert (snap_ok pp1 /\ pp_last_price pp1 = price) as [A B] by (subst pp1; split; [split; reflexivity|reflexivity]).
    destruct Hf as [(_ & -> & _)|(_ & Hf)]; [auto|]. apply funding_step_inv in Hf as [Hst _]. split; [eapply snap_same; eauto|]. destruct Hst as (_ & _ & _ & _ & _ & _ & ->). exact B. }
  apply (PS_g _ _ (put_snap p pid pp pp2)); [reflexivity|]. split.
  - intros j y. rewrite put_snap_real. destruct (decide (j = pid)) as [->|Hne]; [rewrite lookup_insert; intros [= <-]; exact Hs|rewrite lookup_insert_ne by congruence; apply H1].
  - intros j y pr Hj Hy Hpj. unfold put_snap, vp_set_position in Hy. simpl in Hy. destruct (decide (j = pid)) as [->|Hne].
    + rewrite lookup_insert in Hy. injection Hy as <-. congruence.
    + rewrite lookup_insert_ne in Hy by congruence. eapply H2; eauto. set_solver.
Qed.
Lemma traded_lp pp b x y : pp_last_price (traded pp b x y) = pp_last_price pp.
Proof. unfold traded. destruct b; reflexivity. Qed.
(** Liquidation: the pairs of the account are inconsistent in between. *)
Definition snaps_but (K : gset pair_id) (p : vpool) : Prop := forall k pp, k ∉ K -> real p !! k = Some pp -> snap_ok pp.
Lemma liq1_fold_but c fr o l : forall p t p' t' K, rfold (x_liq_position1 c fr o) (p, t) l = Ok (p', t') -> list_to_set (map fst l) ⊆ K -> snaps_but K p -> priced o K p -> snaps_but K p' /\ priced o K p'.
Proof.
  induction l as [|[pid pos] l IH]; intros p t p' t' K H HK Hs Hp; cbn [rfold] in H.
  - apply Ok_inj in H. injection H as <- <-. auto.
  - bd H as ([p1 t1] & H1 & H). destruct t as [[[tp tm] tf] tfe]. apply liq1_inv in H1 as (pc & price & pp & fee & fu & _ & Hpr & Hk & _ & _ & -> & _).
    simpl in HK. eapply IH; [exact H|set_solver| |].
    + intros j y Hj. rewrite real_set. rewrite lookup_insert_ne by set_solver. apply Hs. exact Hj.
    + intros j y pr Hj Hy Hpj. unfold vp_set_position in Hy. simpl in Hy. destruct (decide (j = pid)) as [->|Hne].
      * rewrite lookup_insert in Hy. injection Hy as <-. rewrite traded_lp. eapply Hp; eauto.
      * rewrite lookup_insert_ne in Hy by congruence. eapply Hp; eauto.
Qed.
Lemma snaps_fold_but o (l : list pair_id) : forall p p' K K', rfold (x_update_pair_snaps o) p l = Ok p' -> K' ⊆ list_to_set l ∪ K -> list_to_set l ⊆ K' -> snaps_but K' p -> priced o K' p -> snaps_but (K' ∖ list_to_set l) p'.
Proof.
  induction l as [|pid l IH]; intros p p' K K' H HK HK' Hs Hp; cbn [rfold] in H.
  - apply Ok_inj in H. subst p'. intros k pp Hk. apply Hs. set_solver.
  - bd H as (p1 & H1 & H). apply update_snaps_inv in H1 as (price & pp & Hpr & Hk & ->). simpl in HK, HK'.
    assert (pp_last_price pp = price) as Hl by (eapply Hp; eauto; set_solver).
    assert (forall j y, j ∉ K' ∖ {[pid]} -> real (put_snap p pid pp (resnap price pp)) !! j = Some y -> snap_ok y) as Hs1.
    { intros j y Hj. rewrite put_snap_real. destruct (decide (j = pid)) as [->|Hne]; [rewrite lookup_insert; intros [= <-]; apply snap_resnap; exact Hl|].
      rewrite lookup_insert_ne by congruence. apply Hs. set_solver. }
    assert (priced o K' (put_snap p pid pp (resnap price pp))) as Hp1.
    { intros j y pr Hj Hy Hpj. unfold put_snap, vp_set_position in Hy. simpl in Hy. destruct (decide (j = pid)) as [->|Hne].
      - rewrite lookup_insert in Hy. injection Hy as <-. simpl. congruence.
      - rewrite lookup_insert_ne in Hy by congruence. eapply Hp; eauto. }
    assert (snaps_but (K' ∖ list_to_set l) p') as Hr.
    { eapply (IH _ _ ({[pid]} ∪ K) K' H); [set_solver|set_solver| |exact Hp1]. intros j y Hj. apply Hs1. set_solver. }
    destruct (decide (pid ∈ (list_to_set l : gset pair_id))) as [Hin|Hin].
    + intros j y Hj. apply Hr. simpl in Hj. set_solver.
    + (* the remaining pairs do not touch [pid] *)
      assert (snaps_but ((K' ∖ {[pid]}) ∖ list_to_set l) p') as Hr2.
      { eapply (IH _ _ K (K' ∖ {[pid]}) H); [set_solver|set_solver|exact Hs1|]. intros j y pr Hj. apply Hp1. set_solver. }
      intros j y Hj. apply Hr2. simpl in Hj. set_solver.
Qed.
Lemma update_fold_PS now c o l : forall p p' K, rfold (fun p k => '(p, _) ← x_update_pair now c o p k; Ok p) p l = Ok p' -> PS o K p -> PS o (list_to_set l ∪ K) p'.
Proof.
  induction l as [|pid l IH]; intros p p' K H HP; cbn [rfold] in H.
  - apply Ok_inj in H. subst p'. simpl. destruct HP as [H1 H2]. split; [exact H1|]. intros k pp pr Hk. apply H2. set_solver.
  - bd H as (p1 & H1 & H). bd H1 as ([q b] & Hq & H1). apply Ok_inj in H1. subst q. pose proof (IH _ _ _ H (PS_update _ _ _ _ _ _ _ _ Hq HP)) as [A B]. split; [exact A|]. intros k pp pr Hk. apply B. simpl in Hk. set_solver.
Qed.
Lemma liq_snaps now c o p a p' a' rp : x_liquidate_positions now c o p a = Ok (p', a', rp) -> snaps_ok p -> snaps_ok p'.
Proof.
  intros H Hs. apply liquidate_positions_inv in H as (fr & p1 & p2 & tp & tm & tf & tfe & _ & H1 & H2 & H3 & _).
  set (K := list_to_set (map fst (map_to_list (va_positions a))) : gset pair_id) in *.
  destruct (update_fold_PS _ _ _ _ _ _ ∅ H1) as [S1 P1]. { split; [exact Hs|]. intros k pp pr Hk. set_solver. }
  destruct (liq1_fold_but _ _ _ _ _ _ _ _ K H2) as [S2 P2]; [reflexivity|intros k pp _; apply S1|intros k pp pr Hk; apply P1; set_solver|].
  assert (snaps_but (K ∖ K) p') as S3.
  { eapply (snaps_fold_but o _ _ _ ∅ K H3); [set_solver|reflexivity| |].
    - intros k pp Hk. rewrite (real_g p2) by reflexivity. apply S2. exact Hk.
    - intros k pp pr Hk Hy. eapply P2; eauto. }
  intros k pp. apply S3. set_solver.
Qed.

(** A position is opened or closed only after its pair was updated in the same call. *)
Fixpoint upd_first (K : gset pair_id) (l : list sact) : Prop :=
  match l with
  | [] => True
  | AUpdatePair k :: l => upd_first ({[k]} ∪ K) l
  | AOpen k _ :: l => k ∈ K /\ upd_first K l
  | AClose k _ :: l => k ∈ K /\ upd_first K l
  | ALiqPos :: l => upd_first ∅ l
  | _ :: l => upd_first K l
  end.
Lemma ssteps_PS E now c o s l s' : ssteps E now c o s l s' -> forall K, upd_first K l -> PS o K (s_pool s) -> snaps_ok (s_pool s').
Proof.
  induction 1 as [s|s x s1 l s2 H1 H2 IH]; intros K HK HP; [exact (proj1 HP)|].
  pose proof (sstep_frames _ _ _ _ _ _ _ H1) as (_ & _ & _ & _ & _ & Fpp & _). destruct (touches_ppos x) eqn:T.
  - clear Fpp. destruct H1; simpl in T; try discriminate T; cbn [s_pool] in *.
    + eapply IH; [exact HK|]. eapply PS_update; eauto.
    + destruct HK as [Hin HK]. apply (IH K HK). destruct q as [pnl fee]. apply close_inv in H as (pc & fr & price & pp & pos & cost & pp2 & _ & _ & Hpr & Hk & _ & _ & _ & _ & _ & _ & _ & Hp2 & -> & _).
      apply (PS_g _ _ (put_snap p pid pp (resnap price pp2))); [reflexivity|].
      assert (pp_last_price pp2 = price) as Hl by (subst pp2; rewrite traded_lp; eapply (proj2 HP); eauto).
      apply PS_put; [exact HP|apply snap_resnap; exact Hl|]. intros pr _ Hpr'. simpl. congruence.
    + destruct HK as [Hin HK]. apply (IH K HK). apply open_inv in H as (pc & fr & price & pp & cost & pp2 & _ & _ & Hpr & Hk & _ & _ & _ & Hp2 & _ & _ & -> & _).
      assert (pp_last_price pp2 = price) as Hl by (subst pp2; rewrite traded_lp; eapply (proj2 HP); eauto).
      apply PS_put; [exact HP|apply snap_resnap; exact Hl|]. intros pr _ Hpr'. simpl. congruence.
    + apply (IH ∅ HK). split; [eapply liq_snaps; [eauto|exact (proj1 HP)]|]. intros k pp pr Hk. set_solver.
  - destruct (Fpp eq_refl) as [G1 _]. eapply IH; [|eapply PS_g; [exact G1|exact HP]]. destruct x; simpl in *; try discriminate T; exact HK.
Qed.

Definition no_trade (x : sact) : Prop := match x with AUpdatePair _ | AOpen _ _ | AClose _ _ | ALiqPos => False | _ => True end.
Lemma upd_first_app K l k : Forall no_trade l -> upd_first K k -> upd_first K (l ++ k).
Proof. induction 1 as [|x l Hx _ IH]; simpl; [auto|]. destruct x; simpl in Hx; try contradiction; exact IH. Qed.
Lemma upd_first_none K l : Forall no_trade l -> upd_first K l.
Proof. intros H. rewrite <- (app_nil_r l). apply upd_first_app; [exact H|exact I]. Qed.
Lemma no_trade_oath oath : Forall no_trade (oath_acts oath).
Proof. destruct oath; repeat constructor. Qed.
Lemma no_trade_add ts : Forall no_trade (add_acts ts).
Proof. unfold add_acts. apply Forall_app. split; [|repeat constructor]. induction (List.filter is_base ts); constructor; simpl; auto. Qed.
Lemma upd_first_pair K k l : Forall (fun x => match x with AClose j _ | AOpen j _ => j = k | _ => no_trade x end) l -> k ∈ K -> upd_first K l.
Proof. intros H Hk. induction H as [|x l Hx _ IH]; simpl; [exact I|]. destruct x; simpl in Hx; try contradiction; try exact IH; subst; auto. Qed.
Ltac two := apply upd_first_none, Forall_app; split; [apply no_trade_oath|repeat constructor].
Lemma op_acts_first w o out l : op_acts w o out l -> upd_first ∅ l.
Proof.
  intros H. destruct o; simpl in H; try contradiction.
  - destruct H as (acc & _ & _ & ->). two.
  - destruct H as (acc & _ & _ & _ & ->). two.
  - destruct H as (_ & ->). two.
  - destruct H as (_ & ->). two.
  - destruct H as (_ & ->). two.
  - destruct H as (_ & ->). apply upd_first_none, Forall_app. split; [apply no_trade_add|apply no_trade_oath].
  - destruct H as (_ & ->). two.
  - destruct H as (_ & act & can & ->). two.
  - destruct H as (_ & l' & -> & Hl). apply upd_first_none, Forall_app. split; [apply no_trade_oath|]. eapply Forall_impl; [exact Hl|]. intros [] Hx; simpl in *; try contradiction; exact I.
  - destruct H as (_ & ->). two.
  - destruct H as (v0 & v1 & rq & ex & l' & _ & _ & Hx & -> & _). simpl. unfold exec_acts in Hx. destruct ex; [destruct Hx as [-> _]; exact I|]. destruct rq as [r|r].
    + destruct Hx as (k & bs & -> & _). apply upd_first_none, Forall_app. split; [|repeat constructor]. induction k; constructor; simpl; auto.
    + destruct Hx as (l0 & fee & -> & Hl & _). simpl. apply (upd_first_pair _ (ro_pair r)); [|set_solver]. apply Forall_app. split; [|repeat constructor].
      eapply Forall_impl; [exact Hl|]. intros [] Hx; simpl in *; try contradiction; exact Hx.
  - destruct H as (_ & paid & value & token & -> & _). exact I.
  - destruct H as (_ & paid & bs & st & lo & fee & -> & Hlo & _). simpl. destruct Hlo as [->|[x ->]]; exact I.
  - destruct H as (amt & fee & -> & _). simpl. split; [set_solver|exact I].
Qed.

Definition wsnaps (w : world) : Prop := forall k pp, po_positions (w_pool w) !! k = Some pp -> snap_ok pp.
Lemma call_wsnaps E w a l w' : acct_call E w a l w' -> upd_first ∅ l -> wsnaps w -> wsnaps w'.
Proof.
  intros [c o idsc ids v0 s1 acc1 refs' Hc Ho Hv Hs Hz Hw] Hf Hsn. assert (po_positions (w_pool w') = real (s_pool s1)) as Hp by (rewrite Hw; reflexivity).
  intros k pp. rewrite Hp. revert k pp. apply (ssteps_PS _ _ _ _ _ _ _ Hs ∅ Hf). split.
  - intros k pp. cbn [s_pool]. rewrite real_get_pool. apply Hsn.
  - intros k pp pr Hk. set_solver.
Qed.
Lemma upd_pairs_PS now c o l : forall p fls p' fls' K, rfold (upd_pair1 now c o) (p, fls) l = Ok (p', fls') -> PS o K p -> snaps_ok p'.
Proof.
  induction l as [|pid l IH]; intros p fls p' fls' K H HP; cbn [rfold] in H.
  - apply Ok_inj in H. injection H as <- <-. exact (proj1 HP).
  - bd H as ([p1 f1] & H1 & H). eapply IH; [exact H|]. unfold upd_pair1 in H1. cbn [fst snd] in H1. bd H1 as ([q b] & Hq & H1). apply Ok_inj in H1. injection H1 as <- <-. eapply PS_update; eauto.
Qed.
Lemma wsnaps_reachable E w : reachable E w -> wsnaps w.
Proof.
  induction 1 as [owner auth keys now w Ha Hn Hg|w cx o w' out Hr IH Hs].
  - apply genesis_inv in Hg as (c & _ & ->). intros k pp H. simpl in H. rewrite lookup_empty in H. discriminate.
  - apply step_gstep in Hs. destruct Hs; try exact IH.
    + destruct H0 as (l & H0 & Hl & _). eapply call_wsnaps; [exact H0|eapply op_acts_first; eauto|exact IH].
    + eapply call_wsnaps; [exact H1| |exact IH]. apply upd_first_none, Forall_app. split; [apply no_trade_add|apply no_trade_oath].
    + intros k pp. change (po_positions (w_pool _)) with (real p'). revert k pp. eapply (upd_pairs_PS _ _ _ _ _ _ _ _ ∅ H1). split.
      * intros k pp. rewrite real_get_pool. apply IH.
      * intros k pp pr Hk. set_solver.
Qed.
