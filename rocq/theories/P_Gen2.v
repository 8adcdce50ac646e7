(** * The referral generator over histories (for C35, C36). *)
From Verif Require Import Base DFloat Lists Types Config Oracle Pool Account Fees Referral ExInternal Exchange System Scenario Sums Trace Frames Calls Shape Spec SpecReferral P_Ledger P_Accounts Witness Frames2 P_Fees P_Tokens P_Requests2 P_Refs P_Whole P_Gen.

Record refinv (w : world) : Prop := {
  ri_gen : gen_ok (w_gen w);
  ri_count : forall id d, w_refs w !! id = Some d -> Z.of_N (rf_referrals d) = codes_of (w_gen w) id + slots_of (w_gen w) id;
  ri_none : forall id, w_refs w !! id = None -> gn_allocs (w_gen w) !! id = None;
  ri_used : forall id, referred_accounts w id = uses_of (w_gen w) id }.

Lemma refinv_same w w' : w_gen w' = w_gen w -> w_refs w' = w_refs w -> w_accounts w' = w_accounts w -> refinv w -> refinv w'.
Proof. intros Hg Hr Ha [A B C D]. constructor; rewrite ?Hg, ?Hr; auto. intros id. unfold referred_accounts. rewrite Ha. apply D. Qed.
Lemma codes_of_none w id : refs_ok w -> w_refs w !! id = None -> codes_of (w_gen w) id = 0.
Proof.
  intros [_ B] Hn. unfold codes_of. apply msum_zero. intros h c Hc. destruct (N.eqb_spec (rc_ref c) id) as [<-|]; [|reflexivity]. destruct (B _ _ Hc) as [d Hd]. congruence.
Qed.
Lemma acct_call_refinv E w a l w' : acct_call E w a l w' -> refinv w -> refinv w'.
Proof.
  intros H [A B C D]. pose proof (acct_call_config _ _ _ _ _ H) as (_ & _ & _ & Hg & _). pose proof (acct_call_self _ _ _ _ _ H) as ((acc & Ha) & (acc' & Ha') & Ho). pose proof (acct_call_ref _ _ _ _ _ _ _ H Ha Ha') as Hrf.
  constructor; rewrite ?Hg; auto.
  - intros id d Hd. apply acct_call_refs in H as [Hs|(acc0 & id0 & d0 & b & t & _ & _ & Hd0 & Hs)]; rewrite Hs in Hd; [auto|]. destruct (decide (id = id0)) as [->|Hne]; [|rewrite lookup_insert_ne in Hd by congruence; auto]. rewrite lookup_insert in Hd. injection Hd as <-. exact (B _ _ Hd0).
  - intros id Hd. apply C. destruct (w_refs w !! id) as [d|] eqn:Ed; [|reflexivity]. destruct (acct_call_dom _ _ _ _ _ H id ltac:(eauto)) as [d' Hd']. congruence.
  - intros id. rewrite <- D. unfold referred_accounts. assert (w_accounts w' = <[a := acc']> (w_accounts w)) as ->.
    { apply map_eq. intros b. destruct (decide (b = a)) as [->|Hne]; [rewrite lookup_insert; exact Ha'|rewrite lookup_insert_ne by congruence; apply Ho; exact Hne]. }
    rewrite (msum_insert_some _ _ _ _ _ Ha), Hrf. lia.
Qed.
Lemma gstep_refinv E cx w o out w' : gstep E cx w o out w' -> refs_ok w -> refinv w -> refinv w'.
Proof.
  intros H Hok Hi. destruct H; try exact Hi; try (apply (refinv_same w); [reflexivity|reflexivity|reflexivity|exact Hi]).
  - destruct H0 as (l & H0 & _). eapply acct_call_refinv; eauto.
  - apply (acct_call_refinv _ _ _ _ _ H1). destruct Hi as [A B C D]. unfold new_account_world. destruct code as [s|].
    + destruct H0 as (id & -> & Hcl). destruct (claim_ok _ _ _ _ _ _ Hcl A) as (A' & HA & HC & HU). constructor; cbn.
      * exact A'.
      * intros i d Hd. rewrite HC. unfold slots_of. rewrite HA. exact (B _ _ Hd).
      * intros i Hd. rewrite HA. exact (C _ Hd).
      * intros i. rewrite HU, <- D. unfold referred_accounts. cbn. rewrite msum_insert_new by exact H. cbn. destruct (N.eqb_spec id i) as [->|Hne]; [rewrite bool_decide_eq_true_2 by reflexivity; lia|rewrite bool_decide_eq_false_2 by congruence; lia].
    + destruct H0 as (-> & -> & _). constructor; cbn; auto. intros i. rewrite <- D. unfold referred_accounts. cbn. rewrite msum_insert_new by exact H. rewrite bool_decide_eq_false_2 by (cbn; discriminate). lia.
  - destruct Hi as [A B C D]. constructor; cbn; auto.
    + intros i d0 Hd. ins_cases Hd i; [|auto]. rewrite <- (B _ _ H1). reflexivity.
    + intros i Hd. apply C. destruct (decide (i = snd pr)) as [->|Hne]; [rewrite lookup_insert in Hd; discriminate|rewrite lookup_insert_ne in Hd by congruence; exact Hd].
  - destruct Hi as [A B C D]. constructor; cbn; auto.
    + intros i d0 Hd. ins_cases Hd i; [|auto]. rewrite (codes_of_none _ _ Hok H1). unfold slots_of. rewrite (C _ H1). reflexivity.
    + intros i Hd. apply C. destruct (decide (i = w_next w)) as [->|Hne]; [rewrite lookup_insert in Hd; discriminate|rewrite lookup_insert_ne in Hd by congruence; exact Hd].
  - destruct Hi as [A B C D]. destruct (add_allocation_ok _ _ _ _ _ _ _ _ _ H3 A) as (A' & HC & _ & HA). constructor; cbn.
    + exact A'.
    + intros i0 d0 Hd. unfold codes_of, slots_of. rewrite HC, HA. ins_cases Hd i0.
      * rewrite lookup_insert. pose proof (codes_of_none _ _ Hok H1) as Hz. unfold codes_of in Hz. rewrite Hz, (C _ H1). cbn. unfold slots_left. cbn. lia.
      * rewrite lookup_insert_ne by congruence. exact (B _ _ Hd).
    + intros i0 Hd. rewrite HA. destruct (decide (i0 = w_next w)) as [->|Hne]; [rewrite lookup_insert in Hd; discriminate|rewrite lookup_insert_ne in Hd by congruence]. rewrite lookup_insert_ne by congruence. exact (C _ Hd).
    + intros i0. unfold uses_of. rewrite HC. exact (D i0).
  - destruct Hi as [A B C D]. constructor; cbn; auto.
    + intros i d0 Hd. ins_cases Hd i; [|auto]. rewrite <- (B _ _ H). reflexivity.
    + intros i Hd. apply C. destruct (decide (i = id)) as [->|Hne]; [rewrite lookup_insert in Hd; discriminate|rewrite lookup_insert_ne in Hd by congruence; exact Hd].
  - destruct Hi as [A B C D]. destruct (add_allocation_ok _ _ _ _ _ _ _ _ _ H1 A) as (A' & HC & _ & HA). constructor; cbn.
    + exact A'.
    + intros i0 d0 Hd. unfold codes_of, slots_of. rewrite HC, HA. ins_cases Hd i0.
      * rewrite lookup_insert. pose proof (B _ _ H) as Hz. unfold codes_of, slots_of in Hz. match goal with |- context [default [] (Some ?l)] => change (default [] (Some l)) with l end. rewrite lsum_app, lsum_cons. cbn [lsum foldr]. unfold slots_left at 2. cbn [ra_max ra_count]. try (match goal with |- Z.of_N (rf_referrals ?x) = _ => change (rf_referrals x) with (rf_referrals d + n)%N end). lia.
      * rewrite lookup_insert_ne by congruence. exact (B _ _ Hd).
    + intros i0 Hd. rewrite HA. destruct (decide (i0 = id)) as [->|Hne]; [rewrite lookup_insert in Hd; discriminate|rewrite lookup_insert_ne in Hd by congruence]. rewrite lookup_insert_ne by congruence. exact (C _ Hd).
    + intros i0. unfold uses_of. rewrite HC. exact (D i0).
  - destruct Hi as [A B C D]. destruct (create_codes_ok _ _ _ _ _ _ _ _ H4 H2 A) as (A' & HA & _ & HC & HU). constructor; cbn.
    + exact A'.
    + intros i0 d0 Hd. unfold slots_of. rewrite HC, HA. ins_cases Hd i0.
      * rewrite N.eqb_refl. pose proof (B _ _ H1) as Hz. unfold slots_of in Hz. try (match goal with |- Z.of_N (rf_referrals ?x) = _ => change (rf_referrals x) with (rf_referrals d + n)%N end). lia.
      * replace (snd pr =? i0)%N with false by (symmetry; apply N.eqb_neq; congruence). rewrite Z.add_0_r. exact (B _ _ Hd).
    + intros i0 Hd. rewrite HA. apply C. destruct (decide (i0 = snd pr)) as [->|Hne]; [rewrite lookup_insert in Hd; discriminate|rewrite lookup_insert_ne in Hd by congruence; exact Hd].
    + intros i0. rewrite HU. exact (D i0).
  - destruct Hi as [A B C D]. destruct (from_alloc_ok _ _ _ _ _ H2 A) as (l & al & Hl & Hal & Hle & A' & HA & _ & HC & HU). constructor; cbn.
    + exact A'.
    + intros i0 d0 Hd. unfold slots_of. rewrite HC, HA. pose proof (B _ _ Hd) as Hz. unfold slots_of in Hz. destruct (N.eqb_spec (snd pr) i0) as [<-|Hne].
      * rewrite lookup_insert. rewrite Hl in Hz. match goal with |- context [default [] (Some ?l)] => change (default [] (Some l)) with l end. change (default [] (Some l)) with l in Hz. rewrite (lsum_replace _ _ _ _ _ Hal). rewrite Hz.
        match goal with |- context [slots_left (al <| ra_count := ?n |>)] => assert (slots_left (al <| ra_count := n |>) = slots_left al - Z.of_nat (size hs)) as -> by (unfold slots_left; cbn [ra_max ra_count set]; lia) end. lia.
      * rewrite lookup_insert_ne by congruence. lia.
    + intros i0 Hd. rewrite HA. rewrite lookup_insert_ne; [exact (C _ Hd)|]. intros <-. congruence.
    + intros i0. rewrite HU. exact (D i0).
Qed.
Lemma refinv_reachable E w : reachable E w -> refinv w.
Proof.
  induction 1 as [owner auth keys now w Ha Hn Hg|w cx o w' out Hr IH Hs].
  - apply genesis_inv in Hg as (c & _ & ->). constructor; cbn.
    + exact gen_ok_new.
    + intros id d Hd. rewrite lookup_empty in Hd. discriminate.
    + intros id _. apply lookup_empty.
    + intros id. unfold referred_accounts, uses_of. cbn. rewrite !msum_empty. reflexivity.
  - eapply gstep_refinv; [apply step_gstep; eauto|apply (refs_reachable _ _ Hr)|exact IH].
Qed.

(** A claim is served whenever the vaults cover it. *)
Lemma take_batch_serves E cs : forall v, pos_claims cs -> (forall r, amount_in r cs <= default 0 ((v : gmap resource Z) !! r)) -> (forall r x, (v : gmap resource Z) !! r = Some x -> x <= DMAX) ->
  exists v' , vts_take_adv_batch E v cs ToZero = Ok (v', map (fun c => (fst c, Z.quot (snd c) (unit_of E (fst c)) * unit_of E (fst c))) cs).
Proof.
  induction cs as [|[r0 x] cs IH]; intros v Hp Hc Hm; cbn [vts_take_adv_batch map]; [eexists; reflexivity|]. inversion Hp as [|? ? P1 P2]; subst. cbn in P1. cbn [fst snd].
  pose proof (unit_pos E r0) as Hu. set (a := Z.quot x (unit_of E r0) * unit_of E r0). assert (0 <= a <= x) as Ha. { unfold a. rewrite Z.quot_div_nonneg by lia. pose proof (Z.div_mod x (unit_of E r0) ltac:(lia)). pose proof (Z.mod_pos_bound x (unit_of E r0) Hu). pose proof (Z.div_pos x (unit_of E r0) ltac:(lia) Hu). nia. }
  assert (x + amount_in r0 cs <= default 0 ((v : gmap resource Z) !! r0)) as Hc0. { specialize (Hc r0). rewrite amount_cons in Hc. cbn [b_res b_amt fst snd] in Hc. rewrite N.eqb_refl in Hc. exact Hc. }
  pose proof (amount_pos r0 cs P2) as Hpos. assert (default 0 ((v : gmap resource Z) !! r0) <= DMAX) as Hmax by (destruct ((v : gmap resource Z) !! r0) as [z|] eqn:Ez; [exact (Hm _ _ Ez)|vm_compute; discriminate]).
  assert (take_adv E r0 ToZero (vts_amount v r0) x = Ok a) as Ht.
  { unfold take_adv, round_amount. cbv zeta. fold a. assert (chk a = Ok a) as ->. { apply chk_Ok. split; [reflexivity|]. split; [|lia]. apply Z.le_trans with 0; [vm_compute; discriminate|lia]. } cbn [mbind res_bind]. unfold guard_.
    replace (0 <=? a) with true by (symmetry; apply Z.leb_le; lia). replace (a <=? vts_amount v r0) with true by (symmetry; apply Z.leb_le; unfold vts_amount; change vaults with (gmap resource Z) in *; lia). reflexivity. }
  unfold vts_take_adv. rewrite Ht. cbn [mbind res_bind].
  destruct (IH (<[r0 := vts_amount v r0 - a]> v) P2) as [v' Hv'].
  - intros r. rewrite map_ins. specialize (Hc r). rewrite amount_cons in Hc. cbn [b_res b_amt fst snd] in Hc. change (vts_amount v r0) with (default 0 ((v : gmap resource Z) !! r0)). destruct (N.eqb_spec r0 r) as [->|Hn]; lia.
  - intros r y Hy. change vaults with (gmap resource Z) in *. destruct (decide (r = r0)) as [->|Hne]; [|rewrite lookup_insert_ne in Hy by congruence; exact (Hm _ _ Hy)]. rewrite lookup_insert in Hy. injection Hy as <-. change (vts_amount v r0) with (default 0 ((v : gmap resource Z) !! r0)). lia.
  - exists v'. match goal with |- context [vts_take_adv_batch ?a ?b ?c ?d] => match type of Hv' with _ = ?r => assert (vts_take_adv_batch a b c d = r) as -> by exact Hv' end end. reflexivity.
Qed.
Lemma owe_one g h c r : gen_ok g -> gn_codes g !! h = Some c -> (rc_count c < rc_max c)%N -> amount_in r (rc_claims c) <= held_by g r.
Proof.
  intros [K1 K2 K3 K4] Hc Hlt. specialize (K4 r). assert (amount_in r (rc_claims c) <= codes_owe g r).
  { unfold codes_owe. pose proof (msum_ge_one (fun _ c => uses_left c * amount_in r (rc_claims c)) (gn_codes g) h c) as Hg. cbv beta in Hg. destruct (K1 _ _ Hc) as (_ & _ & P & _). pose proof (amount_pos r _ P). assert (uses_left c * amount_in r (rc_claims c) <= msum (fun _ c => uses_left c * amount_in r (rc_claims c)) (gn_codes g)) as Hh.
    { apply Hg; [|exact Hc]. intros k y Hy. destruct (K1 _ _ Hy) as (Q1 & _ & Q & _). pose proof (amount_pos r _ Q). unfold uses_left. nia. }
    assert (1 <= uses_left c) by (unfold uses_left; lia). nia. }
  assert (0 <= allocs_owe g r); [|lia]. unfold allocs_owe. apply msum_nonneg. intros id l Hl. apply lsum_nonneg. intros al Hal. destruct (K2 _ _ _ Hl Hal) as [Q1 Q]. pose proof (amount_pos r _ Q). unfold slots_left. nia.
Qed.
