(** * Positions only exist in configured pairs, so reports about them can always be computed. *)
From Verif Require Import Base DFloat Lists Types Config Oracle Pool Account Fees Referral ExInternal Exchange System Sums Trace Frames Calls Shape Spec SpecOracle SpecTrading SpecLists SpecMargin P_Ledger P_Accounts Frames2 P_Fees Trading P_Positions P_Positions2 P_Oracle P_Lists Props_Lists.

Definition cfg_pos (P : pair_id -> Prop) (m : gmap pair_id account_position) : Prop := forall k x, m !! k = Some x -> ap_amount x <> 0 -> P k.
Lemma cfg_insert (P : pair_id -> Prop) m k x : cfg_pos P m -> (ap_amount x <> 0 -> P k) -> cfg_pos P (<[k := x]> m).
Proof. intros H Hk j y Hy Hn. destruct (decide (j = k)) as [->|Hne]; [rewrite lookup_insert in Hy; injection Hy as <-; auto|rewrite lookup_insert_ne in Hy by congruence; eapply H; eauto]. Qed.
Lemma sstep_cfg (P : pair_id -> Prop) E now c o s x s' : (forall k, is_Some (vc_pairs c !! k) -> P k) -> sstep E now c o s x s' -> cfg_pos P (va_positions (s_acc s)) -> cfg_pos P (va_positions (s_acc s')).
Proof.
  intros HP H Hc. pose proof (sstep_frames _ _ _ _ _ _ _ H) as (_ & _ & _ & Fp & _). destruct (touches_pos x) eqn:Tp.
  - clear Fp. destruct H; simpl in Tp; try discriminate Tp; cbn [s_acc] in *.
    + apply settle_funding_inv in H as (pp & f0 & _ & _ & _ & Hm). destruct (va_positions a !! pid) as [pos|] eqn:Hpos.
      * destruct Hm as [_ ->]. cbn [va_positions]. apply cfg_insert; [exact Hc|]. cbn. intros Hn. exact (Hc _ _ Hpos Hn).
      * destruct Hm as [_ ->]. exact Hc.
    + destruct q as [pnl fee]. apply close_inv in H as (pc & fr & price & pp & pos & cost & pp2 & Hpc & _ & _ & _ & _ & _ & _ & _ & _ & _ & _ & _ & _ & ->). cbn. apply cfg_insert; [exact Hc|]. intros _. apply HP. eauto.
    + apply open_inv in H as (pc & fr & price & pp & cost & pp2 & Hpc & _ & _ & _ & _ & _ & _ & _ & _ & _ & _ & -> & _). cbn. apply cfg_insert; [exact Hc|]. intros _. apply HP. eauto.
    + unfold va_position in H. destruct (va_positions a !! pid) as [y|] eqn:Hx; injection H as <- <-; [exact Hc|]. cbn. apply cfg_insert; [exact Hc|]. cbn. congruence.
    + apply liquidate_positions_inv in H as (fr & p1 & p2 & tp & tm & tf & tfe & _ & _ & _ & _ & -> & _). intros k y Hy. cbn in Hy. rewrite lookup_fmap in Hy. apply fmap_Some in Hy as (z & _ & ->). cbn. congruence.
  - specialize (Fp eq_refl). apply (f_equal fst) in Fp. apply (f_equal fst) in Fp. cbn in Fp. rewrite Fp. exact Hc.
Qed.
Lemma realized_cfg (P : pair_id -> Prop) v acc' : cfg_pos P (va_positions v) -> cfg_pos P (ac_positions (va_comp v)) -> acc_update (va_comp v) (va_updates v) = Ok acc' -> cfg_pos P (ac_positions acc').
Proof.
  intros Hv Hn H. unfold acc_update in H. bd H as (r1 & _ & H). bd H as (r2 & _ & H). apply Ok_inj in H. subst acc'. intros k x. cbn [ac_positions va_updates au_positions].
  change (ac_positions _) with (acc_merge_positions (filter (fun kv => fst kv ∈ va_pos_upd v) (va_positions v)) (ac_positions (va_comp v))).
  unfold acc_merge_positions. rewrite lookup_merge, map_filter_lookup. intros Hx Hnz. destruct (va_positions v !! k) as [y|] eqn:Hvk; simpl in Hx.
  - destruct (decide (k ∈ va_pos_upd v)) as [Hk|Hk].
    + eapply Hv; [exact Hvk|]. rewrite option_guard_True in Hx by exact Hk. simpl in Hx.
      destruct (ac_positions (va_comp v) !! k); simpl in Hx; (destruct (Z.eqb_spec (ap_amount y) 0); [discriminate|assumption]).
    + rewrite option_guard_False in Hx by exact Hk. simpl in Hx. destruct (ac_positions (va_comp v) !! k) eqn:Hy; simpl in Hx; [|discriminate]. injection Hx as <-. eapply Hn; eauto.
  - destruct (ac_positions (va_comp v) !! k) eqn:Hy; simpl in Hx; [|discriminate]. injection Hx as <-. eapply Hn; eauto.
Qed.
Definition has_cfg (w : world) (k : pair_id) : Prop := is_Some (hl_kvs (cf_pairs (w_config w)) !! k).
Lemma stand_has w kvs k : pairs_stand (w_config w) kvs -> has_cfg w k <-> k ∈ map fst kvs.
Proof.
  intros [(_ & _ & H) _]. unfold has_cfg. split.
  - intros [c Hc]. apply H in Hc. apply elem_of_list_fmap. exists (k, c). split; [reflexivity|exact Hc].
  - intros Hk. apply elem_of_list_fmap in Hk as ([k' c] & -> & Hk). apply H in Hk. exists c. exact Hk.
Qed.
Lemma has_cfg_step E cx w o w' out k : reachable E w -> step E cx w o = Ok (w', out) -> has_cfg w k -> has_cfg w' k.
Proof.
  intros Hr Hs Hk. destruct (pairs_stand_reachable _ _ Hr) as [kvs Hkv]. destruct (pairs_stand_step _ _ _ _ _ _ _ Hs Hkv) as (kvs' & A & B). apply (stand_has _ _ _ A). apply (stand_has _ _ _ Hkv) in Hk. destruct B as [r ->]. apply elem_of_app. left. exact Hk.
Qed.
Lemma call_cfg E w a l w' acc acc' : acct_call E w a l w' -> w_accounts w !! a = Some acc -> w_accounts w' !! a = Some acc' -> cfg_pos (has_cfg w) (ac_positions acc) -> cfg_pos (has_cfg w) (ac_positions acc').
Proof.
  intros Hl Ha Ha' Hn. destruct (acct_call_out _ _ _ _ _ _ _ Hl Ha Ha') as (c & o & idsc & ids & v0 & s1 & refs' & Hcf & _ & Hv & Hc & Hs & _ & Hu).
  assert (forall k, is_Some (vc_pairs c !! k) -> has_cfg w k) as HP. { unfold get_config in Hcf. apply vc_new_spec in Hcf as (_ & _ & C3 & C4). intros k Hk. destruct (decide (k ∈ idsc)) as [Hi|Hi]; [destruct (C3 _ Hi) as (pc & Hpc & _); exists pc; exact Hpc|rewrite (C4 _ Hi) in Hk; destruct Hk as [? Hk]; discriminate Hk]. }
  eapply realized_cfg; [| |exact Hu].
  - pose proof (get_acc_inv _ _ _ Hv) as (acc0 & Ha0 & _ & _ & Hp & _). rewrite Ha in Ha0. injection Ha0 as <-.
    eapply (ssteps_inv E (w_now w) c o (fun s => cfg_pos (has_cfg w) (va_positions (s_acc s)))); [|exact Hs|cbn [s_acc]; rewrite Hp; exact Hn]. intros s x s2 Hx. apply (sstep_cfg _ _ _ _ _ _ _ _ HP Hx).
  - apply ssteps_comp in Hs. destruct Hs as (_ & Hs & _). rewrite Hs. cbn [s_acc]. rewrite Hc. exact Hn.
Qed.
Lemma configured_reachable E w : reachable E w -> forall a acc, w_accounts w !! a = Some acc -> cfg_pos (has_cfg w) (ac_positions acc).
Proof.
  induction 1 as [owner auth keys now w Ha Hn Hg|w cx o w' out Hr IH Hs]; intros a acc Hacc.
  - apply genesis_inv in Hg as (c & Hc & ->). cbn in Hacc. rewrite lookup_empty in Hacc. discriminate Hacc.
  - assert (cfg_pos (has_cfg w) (ac_positions acc)) as H.
    { destruct (step_account _ _ _ _ _ _ a Hs) as [Heq|[[Ho (l & Hsp & _)]|Hcr]].
      - rewrite Heq in Hacc. exact (IH _ _ Hacc).
      - destruct (acct_call_self _ _ _ _ _ Hsp) as ((acc0 & Ha0) & _). eapply call_cfg; eauto.
      - destruct Hcr as (oath & rule & ts & code & ref & g & more & _ & _ & _ & Hcall). destruct (acct_call_self _ _ _ _ _ Hcall) as ((acc0 & Ha0) & _).
        assert (acc0 = acc_new rule rule rule ref) as ->. { unfold new_account_world in Ha0. cbn in Ha0. rewrite lookup_insert in Ha0. congruence. }
        eapply (call_cfg _ _ _ _ _ _ _ Hcall Ha0 Hacc). intros k x Hx. cbn in Hx. rewrite lookup_empty in Hx. discriminate Hx. }
    intros k x Hx Hnz. eapply has_cfg_step; eauto.
Qed.
