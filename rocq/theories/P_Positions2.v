(** * World-level: open interest and snapshots against the accounts (C17, C18). *)
From Verif Require Import Base DFloat Lists Types Config Oracle Pool Account Fees Referral ExInternal Exchange System Sums Trace Frames Calls Shape Spec P_Ledger P_Accounts Frames2 Trading P_Positions.

Lemma merge_pos_lookup v k : acc_si v -> default apos_zero (acc_merge_positions (filter (fun kv => fst kv ∈ va_pos_upd v) (va_positions v)) (ac_positions (va_comp v)) !! k) =
  if ap_amount (pos_of v k) =? 0 then (if decide (k ∈ va_pos_upd v) then apos_zero else pos_of v k) else pos_of v k.
Proof.
  intros [A1 A2 A3]. unfold acc_merge_positions, pos_of. rewrite lookup_merge, map_filter_lookup. destruct (decide (k ∈ va_pos_upd v)) as [Hk|Hk].
  - destruct (va_positions v !! k) as [x|] eqn:Hx; simpl.
    + rewrite option_guard_True by exact Hk. simpl. destruct (ac_positions (va_comp v) !! k); simpl; destruct (ap_amount x =? 0); reflexivity.
    + destruct (ac_positions (va_comp v) !! k) as [y|] eqn:Hy; simpl; [|reflexivity].
      exfalso. assert (k ∈ dom (va_positions v)) as Hd by (apply A2, elem_of_dom; eauto). apply elem_of_dom in Hd. rewrite Hx in Hd. destruct Hd; discriminate.
  - rewrite (A3 k Hk).
    destruct (va_positions v !! k) as [x|]; simpl; [rewrite option_guard_False by exact Hk; simpl|]; destruct (ac_positions (va_comp v) !! k) as [y|]; simpl; try (destruct (ap_amount y =? 0)); try reflexivity.
Qed.
Lemma realized_field v f k acc' : is_field f -> acc_si v -> acc_update (va_comp v) (va_updates v) = Ok acc' ->
  f_acc f (default apos_zero (ac_positions acc' !! k)) = f_acc f (pos_of v k).
Proof.
  intros Hf Hs H. unfold acc_update in H. bd H as (r1 & _ & H). bd H as (r2 & _ & H). apply Ok_inj in H. subst acc'. cbn [ac_positions va_updates au_positions].
  change (ac_positions _) with (acc_merge_positions (filter (fun kv => fst kv ∈ va_pos_upd v) (va_positions v)) (ac_positions (va_comp v))).
  rewrite (merge_pos_lookup v k Hs). destruct (Z.eqb_spec (ap_amount (pos_of v k)) 0) as [H0|H0]; [|reflexivity]. destruct (decide _); [|reflexivity].
  assert (ap_cost (pos_of v k) = 0) as Hc. { unfold pos_of in *. destruct (va_positions v !! k) as [x|] eqn:Hx; [|reflexivity]. simpl in *. eapply si_zero; eauto. }
  destruct (pos_of v k) as [am co fu]. simpl in *. subst. destruct Hf as [->|[->| ->]]; reflexivity.
Qed.
Definition nonzero (acc : account) : Prop := forall k x, ac_positions acc !! k = Some x -> ap_amount x <> 0.
Lemma realized_nonzero v acc' : nonzero (va_comp v) -> acc_update (va_comp v) (va_updates v) = Ok acc' -> nonzero acc'.
Proof.
  intros Hn H. unfold acc_update in H. bd H as (r1 & _ & H). bd H as (r2 & _ & H). apply Ok_inj in H. subst acc'. intros k x. cbn [ac_positions va_updates au_positions].
  change (ac_positions _) with (acc_merge_positions (filter (fun kv => fst kv ∈ va_pos_upd v) (va_positions v)) (ac_positions (va_comp v))).
  unfold acc_merge_positions. rewrite lookup_merge, map_filter_lookup. intros Hx. destruct (va_positions v !! k) as [y|]; simpl in Hx.
  - destruct (decide (k ∈ va_pos_upd v)) as [Hk|Hk].
    + rewrite option_guard_True in Hx by exact Hk. simpl in Hx.
      destruct (ac_positions (va_comp v) !! k); simpl in Hx; (destruct (Z.eqb_spec (ap_amount y) 0); [discriminate|injection Hx as <-; assumption]).
    + rewrite option_guard_False in Hx by exact Hk. simpl in Hx. destruct (ac_positions (va_comp v) !! k) eqn:Hy; simpl in Hx; [|discriminate]. injection Hx as <-. eapply Hn; eauto.
  - destruct (ac_positions (va_comp v) !! k) eqn:Hy; simpl in Hx; [|discriminate]. injection Hx as <-. eapply Hn; eauto.
Qed.
Lemma nonzero_reachable E w : reachable E w -> forall a acc, w_accounts w !! a = Some acc -> nonzero acc.
Proof.
  intros Hr. apply (accounts_inv' E nonzero); [|intros w0 a l w' acc acc' Hl Ha Ha' Hn|exact Hr].
  - intros rule ref k x Hx. simpl in Hx. rewrite lookup_empty in Hx. discriminate.
  - destruct (acct_call_out _ _ _ _ _ _ _ Hl Ha Ha') as (c & o & idsc & ids & v0 & s1 & refs' & _ & _ & Hv & Hc & Hs & _ & Hu).
    eapply realized_nonzero; [|exact Hu]. assert (ac_positions (va_comp (s_acc s1)) = ac_positions acc) as Hp.
    { apply ssteps_comp in Hs. destruct Hs as (_ & Hs & _). rewrite Hs. cbn [s_acc]. rewrite Hc. reflexivity. }
    intros k x. rewrite Hp. apply Hn.
Qed.

Definition acc_pos (acc : account) (k : pair_id) : account_position := default apos_zero (ac_positions acc !! k).
Record WI (w : world) : Prop := {
  wi_nz : forall a acc, w_accounts w !! a = Some acc -> nonzero acc;
  wi_fl : forall f k, is_field f -> fl (f_pool f) (po_positions (w_pool w)) k = msum (fun _ acc => f_acc f (acc_pos acc k)) (w_accounts w);
  wi_skew : po_skew (w_pool w) = msum (fun _ => pp_skew_abs_snap) (po_positions (w_pool w));
  wi_pnl : po_pnl (w_pool w) = msum (fun _ => pp_pnl_snap) (po_positions (w_pool w)) }.
Lemma WI_same w w' : w_accounts w' = w_accounts w -> po_positions (w_pool w') = po_positions (w_pool w) -> po_skew (w_pool w') = po_skew (w_pool w) -> po_pnl (w_pool w') = po_pnl (w_pool w) ->
  WI w -> WI w'.
Proof. intros H1 H2 H3 H4 [A1 A2 A3 A4]. split; rewrite ?H1, ?H2, ?H3, ?H4; assumption. Qed.
Lemma real_get_pool w ids : real (get_pool w ids) = po_positions (w_pool w).
Proof. unfold real. rewrite realize_get_pool. reflexivity. Qed.
Lemma si_start w a v0 ids : get_acc w a = Ok v0 -> (forall a acc, w_accounts w !! a = Some acc -> nonzero acc) -> SI (w_now w) (mkS (get_pool w ids) v0 (w_fd w)).
Proof.
  intros Hv Hn. apply get_acc_inv in Hv as (acc & Ha & Hc & _ & Hp & _ & _ & _ & _ & _ & Hu & _). split; cbn [s_pool s_acc].
  - apply cached_new.
  - split; rewrite ?Hp, ?Hc, ?Hu.
    + intros k x Hx H0. exfalso. exact (Hn _ _ Ha _ _ Hx H0).
    + reflexivity.
    + reflexivity.
Qed.
Lemma call_fields E w a l w' acc acc' : acct_call E w a l w' -> (forall a acc, w_accounts w !! a = Some acc -> nonzero acc) -> w_accounts w !! a = Some acc -> w_accounts w' !! a = Some acc' ->
  (forall f k, is_field f -> fl (f_pool f) (po_positions (w_pool w')) k = fl (f_pool f) (po_positions (w_pool w)) k + (f_acc f (acc_pos acc' k) - f_acc f (acc_pos acc k))) /\
  po_skew (w_pool w') - msum (fun _ => pp_skew_abs_snap) (po_positions (w_pool w')) = po_skew (w_pool w) - msum (fun _ => pp_skew_abs_snap) (po_positions (w_pool w)) /\
  po_pnl (w_pool w') - msum (fun _ => pp_pnl_snap) (po_positions (w_pool w')) = po_pnl (w_pool w) - msum (fun _ => pp_pnl_snap) (po_positions (w_pool w)).
Proof.
  intros [c o idsc ids v0 s1 acc1 refs' Hc Ho Hv Hs Hz Hw] Hn Ha Ha'. pose proof (si_start w a v0 ids Hv Hn) as HS. destruct (ssteps_si _ _ _ _ _ _ _ Hs HS) as [[C1 A1] (R1 & R2 & R3)].
  rewrite Hw in Ha'. unfold final_world in Ha'. simpl in Ha'. rewrite lookup_insert in Ha'. injection Ha' as ->.
  assert (w_pool w' = vp_realize (s_pool s1)) as Hp by (rewrite Hw; reflexivity). rewrite Hp.
  apply get_acc_inv in Hv as (acc0 & Ha0 & Hcm & _ & Hpo & _). rewrite Ha in Ha0. injection Ha0 as <-.
  split; [|split].
  - intros f k Hf. specialize (R1 f k Hf). unfold delta in R1. cbn [s_pool s_acc] in R1. rewrite real_get_pool in R1. fold (real (s_pool s1)).
    pose proof (realized_field (s_acc s1) f k acc' Hf A1 (proj1 (va_realize_inv _ _ _ _ Hz))) as Hr. unfold acc_pos. unfold pos_of in *. rewrite Hpo in R1. lia.
  - unfold skew_gap, fsum in R2. cbn [s_pool] in R2. rewrite real_get_pool in R2. fold (real (s_pool s1)). exact R2.
  - unfold pnl_gap, fsum in R3. cbn [s_pool] in R3. rewrite real_get_pool in R3. fold (real (s_pool s1)). exact R3.
Qed.
Lemma WI_call E w a l w' : acct_call E w a l w' -> WI w -> WI w'.
Proof.
  intros H [A1 A2 A3 A4]. pose proof (acct_call_self _ _ _ _ _ H) as ((acc & Ha) & (acc' & Ha') & Hoth).
  destruct (call_fields _ _ _ _ _ _ _ H A1 Ha Ha') as (F & S & N).
  assert (w_accounts w' = <[a := acc']> (w_accounts w)) as Hw.
  { apply map_eq. intros b. destruct (decide (b = a)) as [->|Hne]; [rewrite lookup_insert; exact Ha'|rewrite lookup_insert_ne by congruence; apply Hoth; exact Hne]. }
  split.
  - intros b acc1 Hb. destruct (decide (b = a)) as [->|Hne]; [|rewrite Hoth in Hb by exact Hne; eapply A1; eauto].
    rewrite Ha' in Hb. injection Hb as <-. destruct (acct_call_out _ _ _ _ _ _ _ H Ha Ha') as (c & o & idsc & ids & v0 & s1 & refs' & _ & _ & Hv & Hc & Hs & _ & Hu).
    eapply realized_nonzero; [|exact Hu]. apply ssteps_comp in Hs. destruct Hs as (_ & Hs & _). intros k x. rewrite Hs. cbn [s_acc]. rewrite Hc. apply (A1 _ _ Ha).
  - intros f k Hf. rewrite (F f k Hf), (A2 f k Hf), Hw, msum_insert. match goal with |- context [match ?t with Some _ => _ | None => _ end] => assert (t = Some acc) as -> by exact Ha end. lia.
  - lia.
  - lia.
Qed.
Lemma WI_new E w rule a ref g : w_accounts w !! a = None -> WI w -> WI (new_account_world E w rule a ref g).
Proof.
  intros Hn [A1 A2 A3 A4]. split; simpl.
  - intros b acc Hb. destruct (decide (b = a)) as [->|Hne]; [rewrite lookup_insert in Hb; injection Hb as <-; intros k x Hx; simpl in Hx; rewrite lookup_empty in Hx; discriminate|].
    rewrite lookup_insert_ne in Hb by congruence. eapply A1; eauto.
  - intros f k Hf. rewrite (A2 f k Hf), msum_insert. match goal with |- context [match ?t with Some _ => _ | None => _ end] => assert (t = None) as -> by exact Hn end.
    unfold acc_pos at 2. simpl. rewrite lookup_empty. simpl. rewrite (proj2 (field_default f 0 Hf)). lia.
  - exact A3.
  - exact A4.
Qed.
Lemma upd_pairs_rel now c o l : forall p fls p' fls', rfold (upd_pair1 now c o) (p, fls) l = Ok (p', fls') -> pool_rel now p p'.
Proof.
  induction l as [|pid l IH]; intros p fls p' fls' H; cbn [rfold] in H.
  - apply Ok_inj in H. injection H as <- <-. apply pool_rel_refl.
  - bd H as ([p1 f1] & H1 & H). eapply pool_rel_trans; [|eapply IH; exact H]. unfold upd_pair1 in H1. cbn [fst snd] in H1. bd H1 as ([q b] & Hq & H1). apply Ok_inj in H1. injection H1 as <- <-. eapply update_rel; eauto.
Qed.
Lemma WI_reachable E w : reachable E w -> WI w.
Proof.
  induction 1 as [owner auth keys now w Ha Hn Hg|w cx o w' out Hr IH Hs].
  - apply genesis_inv in Hg as (c & _ & ->). split; simpl.
    + intros a acc H. rewrite lookup_empty in H. discriminate.
    + intros f k Hf. rewrite msum_empty. reflexivity.
    + rewrite msum_empty. reflexivity.
    + rewrite msum_empty. reflexivity.
  - apply step_gstep in Hs. destruct Hs; try (eapply WI_same; [..|exact IH]; reflexivity).
    + destruct H0 as (l & H0 & _). eapply WI_call; eauto.
    + eapply WI_call; [exact H1|]. apply WI_new; assumption.
    + apply upd_pairs_rel in H1. destruct (H1 (cached_new _ _ _)) as (_ & F & S & N). destruct IH as [A1 A2 A3 A4].
      unfold skew_gap, pnl_gap, fsum in S, N. rewrite real_get_pool in S, N. simpl in S, N.
      assert (forall f k, is_field f -> P_Positions.fl (f_pool f) (real p') k = P_Positions.fl (f_pool f) (po_positions (w_pool w)) k) as F' by (intros f k Hf; rewrite (F f k Hf), real_get_pool; reflexivity).
      split.
      * exact A1.
      * intros f k Hf. change (po_positions (w_pool (_))) with (real p'). rewrite (F' f k Hf). apply A2. exact Hf.
      * change (vp_skew p' = msum (fun _ => pp_skew_abs_snap) (real p')). lia.
      * change (vp_pnl p' = msum (fun _ => pp_pnl_snap) (real p')). lia.
Qed.
