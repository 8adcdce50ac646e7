(** * A call reads no account but the one it names. *)
From Verif Require Import Base DFloat Lists Types Config Oracle Pool Account Fees Referral ExInternal Exchange System Spec.

(** Two outcomes agree: both succeed with related results, or both fail in the same way. *)
Definition agree {A} (R : A -> A -> Prop) (r1 r2 : res A) : Prop :=
  match r1, r2 with Ok x, Ok y => R x y | Err e, Err f => e = f | _, _ => False end.
Lemma agree_bind {A B} (R : A -> A -> Prop) (S : B -> B -> Prop) (m1 m2 : res A) k1 k2 : agree R m1 m2 -> (forall x y, R x y -> agree S (k1 x) (k2 y)) -> agree S (m1 ≫= k1) (m2 ≫= k2).
Proof. destruct m1, m2; cbn; intros H1 H2; try contradiction; [apply H2; exact H1|exact H1]. Qed.

Definition accs (w : world) (m : gmap addr account) : world := w <| w_accounts := m |>.
(** The same state but for the accounts other than [a]. *)
Definition so (a : addr) (w1 w2 : world) : Prop := exists m, w2 = accs w1 m /\ m !! a = w_accounts w1 !! a.
Definition so2 (a : addr) (x y : world * outp) : Prop := so a (fst x) (fst y) /\ snd x = snd y.
Definition so3 {T} (a : addr) (x y : world * T) : Prop := so a (fst x) (fst y) /\ snd x = snd y.

Section norm.
  Variables (w : world) (m : gmap addr account).
  Lemma n_config ids : get_config (accs w m) ids = get_config w ids. Proof. reflexivity. Qed.
  Lemma n_pool ids : get_pool (accs w m) ids = get_pool w ids. Proof. reflexivity. Qed.
  Lemma n_oracle E c f u : get_oracle E (accs w m) c f u = get_oracle E w c f u. Proof. reflexivity. Qed.
  Lemma n_now : w_now (accs w m) = w_now w. Proof. reflexivity. Qed.
  Lemma n_fd : w_fd (accs w m) = w_fd w. Proof. reflexivity. Qed.
  Lemma n_oath : w_oath (accs w m) = w_oath w. Proof. reflexivity. Qed.
  Lemma n_gen : w_gen (accs w m) = w_gen w. Proof. reflexivity. Qed.
  Lemma n_refs : w_refs (accs w m) = w_refs w. Proof. reflexivity. Qed.
  Lemma n_perms : w_perms (accs w m) = w_perms w. Proof. reflexivity. Qed.
  Lemma n_next : w_next (accs w m) = w_next w. Proof. reflexivity. Qed.
  Lemma n_rewards : w_rewards (accs w m) = w_rewards w. Proof. reflexivity. Qed.
  Lemma n_accounts : w_accounts (accs w m) = m. Proof. reflexivity. Qed.
  Lemma s_oath x : accs w m <| w_oath := x |> = accs (w <| w_oath := x |>) m. Proof. reflexivity. Qed.
  Lemma s_oracle x : accs w m <| w_oracle := x |> = accs (w <| w_oracle := x |>) m. Proof. reflexivity. Qed.
  Lemma s_fd x : accs w m <| w_fd := x |> = accs (w <| w_fd := x |>) m. Proof. reflexivity. Qed.
  Lemma s_gen x : accs w m <| w_gen := x |> = accs (w <| w_gen := x |>) m. Proof. reflexivity. Qed.
  Lemma s_refs x : accs w m <| w_refs := x |> = accs (w <| w_refs := x |>) m. Proof. reflexivity. Qed.
  Lemma s_perms x : accs w m <| w_perms := x |> = accs (w <| w_perms := x |>) m. Proof. reflexivity. Qed.
  Lemma s_next x : accs w m <| w_next := x |> = accs (w <| w_next := x |>) m. Proof. reflexivity. Qed.
  Lemma s_rewards x : accs w m <| w_rewards := x |> = accs (w <| w_rewards := x |>) m. Proof. reflexivity. Qed.
  Lemma s_accounts x : accs w m <| w_accounts := x |> = accs w x. Proof. reflexivity. Qed.
  Lemma sp_ p : realize_pool (accs w m) p = accs (realize_pool w p) m. Proof. reflexivity. Qed.
End norm.
Ltac nrm := rewrite ?s_oath, ?s_oracle, ?s_fd, ?s_gen, ?s_refs, ?s_perms, ?s_next, ?s_rewards, ?s_accounts, ?sp_, ?n_config, ?n_pool, ?n_oracle, ?n_now, ?n_fd, ?n_oath, ?n_gen, ?n_refs, ?n_perms, ?n_next, ?n_rewards, ?n_accounts.
(** The same first computation on both sides. *)
Ltac both :=
  lazymatch goal with
  | |- agree _ (?m ≫= _) (?m ≫= _) => let x := fresh "x" in destruct m as [x|]; [cbn [mbind res_bind]|reflexivity]
  | |- agree _ (match ?x with (_, _) => _ end) _ => destruct x
  end; cbv zeta; nrm.

Lemma acc_same w m a : m !! a = w_accounts w !! a -> get_acc (accs w m) a = get_acc w a.
Proof. intros H. unfold get_acc, va_new. nrm. rewrite H. reflexivity. Qed.
Lemma realize_same w m a v : m !! a = w_accounts w !! a -> agree (so a) (realize_acc w v) (realize_acc (accs w m) v).
Proof.
  intros H. unfold realize_acc. nrm. destruct (va_realize v (w_refs w)) as [[acc refs]|]; cbn [mbind res_bind agree]; [|reflexivity].
  exists (<[va_addr v := acc]> m). split; [reflexivity|]. cbn. destruct (decide (va_addr v = a)) as [->|Hn]; [rewrite !lookup_insert; reflexivity|rewrite !lookup_insert_ne by exact Hn; exact H].
Qed.
Lemma mint_same E w m a x : m !! a = w_accounts w !! a -> agree (so3 a) (mint_reward E w x) (mint_reward E (accs w m) x).
Proof. intros H. unfold mint_reward. nrm. both. both. cbn. split; [|reflexivity]. exists m. split; [reflexivity|exact H]. Qed.
Lemma settle_same E w m a v ex b : m !! a = w_accounts w !! a -> agree (fun x y => exists w1, fst (fst x) = w1 /\ fst (fst y) = accs w1 m /\ m !! a = w_accounts w1 !! a /\ snd (fst x) = snd (fst y) /\ snd x = snd y) (settle_oath E w v ex b) (settle_oath E (accs w m) v ex b).
Proof. intros H. unfold settle_oath. cbv zeta. nrm. both. both. both. both. both. cbn. eexists. split; [reflexivity|]. split; [reflexivity|]. split; [exact H|]. split; reflexivity. Qed.
Lemma settle_opt_same E w m a v ex b : m !! a = w_accounts w !! a -> agree (fun x y => exists w1, fst (fst x) = w1 /\ fst (fst y) = accs w1 m /\ m !! a = w_accounts w1 !! a /\ snd (fst x) = snd (fst y) /\ snd x = snd y) (settle_oath_opt E w v ex b) (settle_oath_opt E (accs w m) v ex b).
Proof. intros H. unfold settle_oath_opt. destruct b; [apply settle_same; exact H|]. nrm. both. cbn. exists w. auto. Qed.
Lemma settle_opt'_same E w m a v b : m !! a = w_accounts w !! a -> agree (fun x y => exists w1, fst x = w1 /\ fst y = accs w1 m /\ m !! a = w_accounts w1 !! a /\ snd x = snd y) (settle_oath_opt' E w v b) (settle_oath_opt' E (accs w m) v b).
Proof.
  intros H. unfold settle_oath_opt'. destruct b; [|cbn; exists w; auto]. eapply agree_bind; [apply settle_same; exact H|]. intros [[w1 v1] c1] [[w2 v2] c2] (w0 & H1 & H2 & H3 & H4 & H5). cbn in *. subst. exists w0. auto.
Qed.
Lemma add_oath_same E w m a v b ts : m !! a = w_accounts w !! a -> agree (fun x y => exists w1, fst (fst x) = w1 /\ fst (fst y) = accs w1 m /\ m !! a = w_accounts w1 !! a /\ snd (fst x) = snd (fst y) /\ snd x = snd y) (add_collateral_oath E w v b ts) (add_collateral_oath E (accs w m) v b ts).
Proof. intros H. unfold add_collateral_oath. destruct b; cbv zeta; nrm; repeat both; cbn; eexists; (split; [reflexivity|]); (split; [reflexivity|]); (split; [exact H|]); split; reflexivity. Qed.

(** After the account is written back: [k] builds the output from the new state. *)
Lemma finish a w m v (k : world -> res (world * outp)) (k' : world -> res (world * outp)) : m !! a = w_accounts w !! a ->
  (forall w1 m1, m1 !! a = w_accounts w1 !! a -> agree (so2 a) (k w1) (k' (accs w1 m1))) -> agree (so2 a) (realize_acc w v ≫= k) (realize_acc (accs w m) v ≫= k').
Proof. intros H Hk. eapply agree_bind; [apply realize_same; exact H|]. intros x y (m1 & -> & Hm). apply Hk. exact Hm. Qed.
Ltac done_ H := cbn [agree]; split; [eexists; split; [reflexivity|exact H]|reflexivity].
Ltac settled := let w1 := fresh "w" in let v1 := fresh "v" in let c1 := fresh "c" in let H1 := fresh "H" in
  lazymatch goal with
  | Hm : ?m !! ?a = _ |- agree _ (settle_oath_opt _ _ _ _ _ ≫= _) _ => eapply agree_bind; [apply settle_opt_same; exact Hm|]; intros [[w1 v1] c1] [[? ?] ?] (? & H1 & ? & ? & ? & ?); cbn [fst snd] in *; subst; clear Hm; cbv zeta; nrm
  | Hm : ?m !! ?a = _ |- agree _ (settle_oath_opt' _ _ _ _ ≫= _) _ => eapply agree_bind; [apply settle_opt'_same; exact Hm|]; intros [w1 v1] [? ?] (? & H1 & ? & ? & ?); cbn [fst snd] in *; subst; clear Hm; cbv zeta; nrm
  | Hm : ?m !! ?a = _ |- agree _ (add_collateral_oath _ _ _ _ _ ≫= _) _ => eapply agree_bind; [apply add_oath_same; exact Hm|]; intros [[w1 v1] c1] [[? ?] ?] (? & H1 & ? & ? & ? & ?); cbn [fst snd] in *; subst; clear Hm; cbv zeta; nrm
  | Hm : ?m !! ?a = _ |- agree _ (realize_acc _ _ ≫= _) _ => apply finish; [exact Hm|]; clear; intros ? ? ?; cbv beta zeta; nrm
  | Hm : ?m !! ?a = _ |- agree _ (mint_reward _ _ _ ≫= _) _ => eapply agree_bind; [apply mint_same; exact Hm|]; intros [? ?] [? ?] [(? & ? & ?) ?]; cbn [fst snd] in *; subst; clear Hm; cbv zeta; nrm
  | Hm : ?m !! ?a = _ |- agree _ (Ok _) (Ok _) => done_ Hm
  end.

Ltac go_ := repeat first [both|settled].
Lemma create_same E w m oath rule ts code a : m !! a = w_accounts w !! a -> agree (so2 a) (m_create_account E w oath rule ts code a) (m_create_account E (accs w m) oath rule ts code a).
Proof.
  intros Hm. unfold m_create_account. nrm. rewrite Hm. both.
  eapply (agree_bind (fun x y => exists w1, x = (w1, snd (fst x), snd x) /\ y = (accs w1 m, snd (fst x), snd x) /\ m !! a = w_accounts w1 !! a)).
  { destruct code; [|cbn; exists w; auto]. both. both. both. cbn. eexists. split; [reflexivity|]. split; [reflexivity|]. exact Hm. }
  clear Hm w. intros [[w ref] ts1] [[? ?] ?] (w1 & H1 & H2 & Hm). injection H1 as ->. injection H2 as -> -> ->. cbv zeta. nrm.
  match goal with |- agree _ (get_acc ?x _ ≫= _) (get_acc ?y _ ≫= _) => set (wx := x); assert (exists m', y = accs wx m' /\ m' !! a = w_accounts wx !! a) as (m' & Ey & Hm') end.
  { eexists. split; [reflexivity|]. cbn. rewrite !lookup_insert. reflexivity. }
  rewrite Ey. rewrite (acc_same wx m' a Hm'). clearbody wx. clear Ey Hm. go_.
Qed.
Lemma process_same E cx w m a i upd : m !! a = w_accounts w !! a -> agree (so2 a) (m_process_request E cx w a i upd) (m_process_request E cx (accs w m) a i upd).
Proof.
  intros Hm. unfold m_process_request. rewrite (acc_same w m a Hm). nrm. both. both. both. both. both.
  eapply (agree_bind (fun x y => exists w1, x = (w1, snd (fst (fst x)), snd (fst x), snd x) /\ y = (accs w1 m, snd (fst (fst x)), snd (fst x), snd x) /\ m !! a = w_accounts w1 !! a)).
  { destruct (negb _); [|cbn; exists w; auto]. both. both. both. destruct r as [r|r]; repeat both; cbn; (eexists; split; [reflexivity|]; split; [reflexivity|]; exact Hm). }
  clear Hm w. intros [[[w v1] pay] evs] [[[? ?] ?] ?] (w1 & H1 & H2 & Hm). injection H1 as ->. injection H2 as -> -> -> ->. go_.
Qed.
Lemma exec_same E cx w m o a : named_account o = Some a -> m !! a = w_accounts w !! a -> agree (so2 a) (exec E cx w o) (exec E cx (accs w m) o).
Proof.
  intros Hn Hm. destruct o; try discriminate Hn; cbn [named_account] in Hn; injection Hn as ->; cbn [exec];
    try (apply create_same; exact Hm); try (apply process_same; exact Hm);
    unfold m_create_recovery_key, m_add_auth_rule, m_set_level_auth, m_add_collateral, m_remove_collateral_request, m_margin_order_request, m_margin_order_tp_sl_request, m_cancel_requests, m_swap_debt, m_liquidate, m_auto_deleverage;
    rewrite ?(acc_same w m a Hm); cbv zeta; nrm; go_.
Qed.
(** The calls that name no account read none. *)
Definition son (x y : world * outp) : Prop := exists m, fst y = accs (fst x) m /\ snd x = snd y.
Section norm2.
  Variables (w : world) (m : gmap addr account).
  Lemma n2_auth : w_auth (accs w m) = w_auth w. Proof. reflexivity. Qed.
  Lemma n2_config : w_config (accs w m) = w_config w. Proof. reflexivity. Qed.
  Lemma n2_oracle : w_oracle (accs w m) = w_oracle w. Proof. reflexivity. Qed.
  Lemma n2_dl : w_dl (accs w m) = w_dl w. Proof. reflexivity. Qed.
  Lemma n2_lp : w_lp (accs w m) = w_lp w. Proof. reflexivity. Qed.
  Lemma n2_burnt : w_burnt (accs w m) = w_burnt w. Proof. reflexivity. Qed.
  Lemma s2_now x : accs w m <| w_now := x |> = accs (w <| w_now := x |>) m. Proof. reflexivity. Qed.
  Lemma s2_role r x : set_role (accs w m) r x = accs (set_role w r x) m. Proof. reflexivity. Qed.
  Lemma s2_auth x : accs w m <| w_auth := x |> = accs (w <| w_auth := x |>) m. Proof. reflexivity. Qed.
  Lemma s2_config x : accs w m <| w_config := x |> = accs (w <| w_config := x |>) m. Proof. reflexivity. Qed.
  Lemma s2_dl x : accs w m <| w_dl := x |> = accs (w <| w_dl := x |>) m. Proof. reflexivity. Qed.
  Lemma s2_lp x : accs w m <| w_lp := x |> = accs (w <| w_lp := x |>) m. Proof. reflexivity. Qed.
  Lemma s2_burnt x : accs w m <| w_burnt := x |> = accs (w <| w_burnt := x |>) m. Proof. reflexivity. Qed.
End norm2.
Ltac nrm2 := nrm; rewrite ?s2_now, ?s2_role, ?s2_auth, ?s2_config, ?s2_dl, ?s2_lp, ?s2_burnt, ?n2_auth, ?n2_config, ?n2_oracle, ?n2_dl, ?n2_lp, ?n2_burnt; nrm.
Ltac both2 := both; nrm2.
Ltac fin2 := lazymatch goal with |- agree _ (Ok _) (Ok (accs _ ?m, _)) => cbn [agree]; exists m; split; reflexivity end.
Lemma pay_same E w m x : agree (fun y z => fst z = accs (fst y) m /\ snd y = snd z) (pool_pay_out E w x) (pool_pay_out E (accs w m) x).
Proof. unfold pool_pay_out. cbv zeta. nrm. repeat both. cbn. split; reflexivity. Qed.
Lemma mint_ref_same w m a b n : agree (fun y z => fst z = accs (fst y) m /\ snd y = snd z) (mint_referral_nft w a b n) (mint_referral_nft (accs w m) a b n).
Proof. unfold mint_referral_nft. cbv zeta. nrm. repeat both. cbn. split; reflexivity. Qed.
Lemma add_alloc_same E w m id ts cs n : agree (fun y z => fst (fst z) = accs (fst (fst y)) m /\ snd (fst y) = snd (fst z) /\ snd y = snd z) (add_referral_allocation E w id ts cs n) (add_referral_allocation E (accs w m) id ts cs n).
Proof. unfold add_referral_allocation. cbv zeta. nrm. repeat both. cbn. split; [reflexivity|]. split; reflexivity. Qed.
Lemma mint_same0 E w m x : agree (fun y z => fst z = accs (fst y) m /\ snd y = snd z) (mint_reward E w x) (mint_reward E (accs w m) x).
Proof. unfold mint_reward. nrm. both. both. cbn. split; reflexivity. Qed.
Lemma upd_ref_same w m id fr fb mr : agree (fun y z => fst z = accs (fst y) m /\ snd y = snd z) (m_update_referral w id fr fb mr) (m_update_referral (accs w m) id fr fb mr).
Proof.
  unfold m_update_referral.
  eapply (agree_bind (fun y z => z = accs y m)). { destruct fr; nrm; repeat both; reflexivity. }
  clear w. intros w ? ->. eapply (agree_bind (fun y z => z = accs y m)). { destruct fb; nrm; repeat both; reflexivity. }
  clear w. intros w ? ->. eapply (agree_bind (fun y z => z = accs y m)). { destruct mr; nrm; repeat both; reflexivity. }
  clear w. intros w ? ->. cbn. split; reflexivity.
Qed.
Ltac sub2 := lazymatch goal with
  | |- agree _ (pool_pay_out _ _ _ ≫= _) _ => eapply agree_bind; [apply pay_same|]
  | |- agree _ (mint_referral_nft _ _ _ _ ≫= _) _ => eapply agree_bind; [apply mint_ref_same|]
  | |- agree _ (mint_reward _ _ _ ≫= _) _ => eapply agree_bind; [apply mint_same0|]
  end; intros [? ?] [? ?] [? ?]; cbn [fst snd] in *; subst; cbv zeta; nrm2.
Ltac sub3 := lazymatch goal with
  | |- agree _ (add_referral_allocation _ _ _ _ _ _ ≫= _) _ => eapply agree_bind; [apply add_alloc_same|]
  end; intros [[? ?] ?] [[? ?] ?] (? & ? & ?); cbn [fst snd] in *; subst; cbv zeta; nrm2.
Lemma exec_none E cx w m o : named_account o = None -> agree son (exec E cx w o) (exec E cx (accs w m) o).
Proof.
  intros Hn. destruct o; try discriminate Hn; cbn [exec];
    unfold m_deposit_authority, m_withdraw_authority, m_signal_upgrade, m_update_exchange_config, m_update_pair_configs, m_update_collateral_configs, m_remove_collateral_config, m_collect_treasury, m_collect_fee_delegator,
      m_mint_referral, m_mint_referral_with_allocation, m_add_referral_allocation, m_swap_protocol_fee, m_add_liquidity, m_remove_liquidity, m_create_referral_codes, m_create_referral_codes_from_allocation, m_collect_referral_rewards, check_ref_proof, m_update_pairs;
    cbv zeta; nrm2; repeat first [fin2|sub2|sub3|both2].
  pose proof (upd_ref_same w m id fr fb mr) as H. destruct (m_update_referral w id fr fb mr) as [x|], (m_update_referral (accs w m) id fr fb mr) as [y|]; cbn in H |- *; try exact H. exists m. exact H.
Qed.

(** ** Request calls without a fee oath read only the account, the time and the settings *)
Definition request_call (o : op) : option addr :=
  match o with
  | ORemoveCollateralRequest None _ a _ _ | OMarginOrderRequest None _ _ a _ _ _ _ _ _ _ _ | OMarginOrderTpSlRequest None _ _ a _ _ _ _ _ _ _ | OCancelRequests None a _ => Some a
  | _ => None
  end.
(** The referral record loaded with the account plays no part. *)
Definition wref (v : vacc) (r : option referral) : vacc := v <| va_ref := r |>.
Definition rv (r : option referral) (x y : vacc) : Prop := y = wref x r.
Definition samev (x y : vacc) : Prop := exists r, y = wref x r.
Lemma push_same now v r q d e s eff : agree (rv r) (va_push_request now v q d e s eff) (va_push_request now (wref v r) q d e s eff).
Proof.
  unfold va_push_request, va_add_active. change (va_rlen (wref v r)) with (va_rlen v). change (va_req_add (wref v r)) with (va_req_add v). change (va_alen (wref v r)) with (va_alen v). change (va_act_add (wref v r)) with (va_act_add v).
  both. both. both. both. destruct (uadd (va_alen v) 1); cbn; reflexivity.
Qed.
Lemma cancel1_same r x y z : rv r x y -> agree (rv r) (va_cancel1 x z) (va_cancel1 y z).
Proof.
  intros ->. unfold va_cancel1. destruct z as [i q]. both. both. unfold va_remove_active. destruct (is_pending _); [|reflexivity]. change (va_alen (wref x r)) with (va_alen x). destruct (usub (va_alen x) 1); reflexivity.
Qed.
Lemma rfold_same {A B} (R : A -> A -> Prop) (f : A -> B -> res A) : (forall x y z, R x y -> agree R (f x z) (f y z)) -> forall l x y, R x y -> agree R (rfold f x l) (rfold f y l).
Proof.
  intros Hf. induction l as [|z l IH]; intros x y H; [exact H|]. cbn [rfold]. eapply agree_bind; [apply Hf; exact H|]. intros x' y' H'. apply IH. exact H'.
Qed.
Lemma cancel_same v r l : agree (rv r) (va_cancel_requests v l) (va_cancel_requests (wref v r) l).
Proof.
  unfold va_cancel_requests. change (va_keeper_requests (wref v r) l) with (va_keeper_requests v l). both. apply rfold_same; [intros; apply cancel1_same; assumption|reflexivity].
Qed.
Lemma push_rewarded now v q d e s eff v' : va_push_request now v q d e s eff = Ok v' -> va_rewarded v' = va_rewarded v /\ va_addr v' = va_addr v.
Proof.
  unfold va_push_request. intros H. repeat match type of H with (?m ≫= _) = Ok _ => destruct m eqn:?; [cbn [mbind res_bind] in H|discriminate H] end. injection H as <-.
  match goal with H : va_add_active _ _ = Ok _ |- _ => unfold va_add_active in H; cbn in H; destruct (uadd _ 1) in H; [injection H as <-; split; reflexivity|discriminate H] end.
Qed.
Lemma cancel_rewarded v l v' : va_cancel_requests v l = Ok v' -> va_rewarded v' = va_rewarded v /\ va_addr v' = va_addr v.
Proof.
  unfold va_cancel_requests. destruct (va_keeper_requests v l) as [rs|]; [cbn [mbind res_bind]|discriminate]. revert v. induction (map_to_list rs) as [|z k IH]; intros v H; cbn [rfold] in H; [injection H as <-; split; reflexivity|].
  destruct (va_cancel1 v z) as [v1|] eqn:H1; [cbn [mbind res_bind] in H|discriminate H]. destruct (IH _ H) as [-> ->]. unfold va_cancel1, va_remove_active in H1. destruct z as [i q].
  repeat match type of H1 with (?m ≫= _) = Ok _ => destruct m eqn:?; [cbn [mbind res_bind] in H1|discriminate H1] | (if ?b then _ else _) = Ok _ => destruct b end; injection H1 as <-.
  match goal with H : (if ?b then _ else _) = Ok _ |- _ => destruct b; [destruct (usub (va_alen v) 1); [cbn [mbind res_bind] in H|discriminate H]|]; injection H as <-; split; reflexivity end.
Qed.

(** Two states a request call on [a] cannot tell apart. *)
Record alike (a : addr) (w1 w2 : world) : Prop := mkAlike {
  al_now : w_now w1 = w_now w2;
  al_config : w_config w1 = w_config w2;
  al_acc : w_accounts w1 !! a = w_accounts w2 !! a;
  al_refs : forall acc id, w_accounts w1 !! a = Some acc -> ac_ref acc = Some id -> is_Some (w_refs w1 !! id) <-> is_Some (w_refs w2 !! id)
}.
Definition v3 (a : addr) (x y : vacc) : Prop := (exists r, y = wref x r) /\ va_rewarded x = false /\ va_addr x = a.
(** Both states get the same new record for [a] and nothing else changes. *)
Definition eff (a : addr) (w1 w2 : world) (x y : world * outp) : Prop :=
  snd x = snd y /\ exists acc, fst x = accs w1 (<[a := acc]> (w_accounts w1)) /\ fst y = accs w2 (<[a := acc]> (w_accounts w2)).
Lemma acc_alike a w1 w2 : alike a w1 w2 -> agree (v3 a) (get_acc w1 a) (get_acc w2 a).
Proof.
  intros [_ _ Ha Hr]. unfold get_acc, va_new. rewrite <- Ha. destruct (w_accounts w1 !! a) as [acc|]; cbn [expect mbind res_bind]; [|reflexivity].
  specialize (Hr acc). destruct (ac_ref acc) as [id|] eqn:Er; cbn [mbind res_bind].
  - specialize (Hr id eq_refl eq_refl). destruct (w_refs w1 !! id) as [d1|], (w_refs w2 !! id) as [d2|]; cbn [expect mbind res_bind agree].
    + split; [exists (Some d2); reflexivity|split; reflexivity].
    + destruct Hr as [H _]. destruct H as [? H]; [eauto|discriminate H].
    + destruct Hr as [_ H]. destruct H as [? H]; [eauto|discriminate H].
    + reflexivity.
  - cbn [agree]. split; [exists None; reflexivity|split; reflexivity].
Qed.
Lemma push_v3 a now x y q d e s ef : v3 a x y -> agree (v3 a) (va_push_request now x q d e s ef) (va_push_request now y q d e s ef).
Proof.
  intros ([r ->] & H1 & H2). pose proof (push_same now x r q d e s ef) as H. destruct (va_push_request now x q d e s ef) as [v|] eqn:Ep, (va_push_request now (wref x r) q d e s ef); cbn in H |- *; try exact H.
  destruct (push_rewarded _ _ _ _ _ _ _ _ Ep) as [F1 F2]. split; [exists r; exact H|]. rewrite F1, F2. split; assumption.
Qed.
Lemma cancel_v3 a x y l : v3 a x y -> agree (v3 a) (va_cancel_requests x l) (va_cancel_requests y l).
Proof.
  intros ([r ->] & H1 & H2). pose proof (cancel_same x r l) as H. destruct (va_cancel_requests x l) as [v|] eqn:Ep, (va_cancel_requests (wref x r) l); cbn in H |- *; try exact H.
  destruct (cancel_rewarded _ _ _ Ep) as [F1 F2]. split; [exists r; exact H|]. rewrite F1, F2. split; assumption.
Qed.
Lemma w_eta w acc a : w <| w_accounts := <[a := acc]> (w_accounts w) |> <| w_refs := w_refs w |> = accs w (<[a := acc]> (w_accounts w)).
Proof. destruct w; reflexivity. Qed.
Lemma write_v3 a w1 w2 x y o1 o2 : v3 a x y -> o1 = o2 -> agree (eff a w1 w2) (w ← realize_acc w1 x; Ok (w, o1)) (w ← realize_acc w2 y; Ok (w, o2)).
Proof.
  intros ([r ->] & H1 & H2) ->. unfold realize_acc, va_realize. change (va_rewarded (wref x r)) with (va_rewarded x). rewrite H1. change (va_comp (wref x r)) with (va_comp x). change (va_updates (wref x r)) with (va_updates x). change (va_addr (wref x r)) with (va_addr x). cbn [mbind res_bind].
  destruct (acc_update (va_comp x) (va_updates x)) as [acc|]; cbn [mbind res_bind agree]; [|reflexivity]. split; [reflexivity|]. exists acc. cbn [fst]. rewrite H2. split; apply w_eta.
Qed.
Lemma levels a x y : v3 a x y -> va_rlen x = va_rlen y /\ va_comp x = va_comp y /\ va_alen x = va_alen y /\ acc_events x = acc_events y.
Proof. intros ([r ->] & _). repeat split. Qed.
Ltac v3rw H := let E1 := fresh in let E2 := fresh in let E3 := fresh in let E4 := fresh in destruct (levels _ _ _ H) as (E1 & E2 & E3 & E4); unfold level_auth, x_assert_active_requests_limit in *; rewrite ?E1, ?E2, ?E3, ?E4; clear E1 E2 E3 E4.
Ltac pushed := lazymatch goal with
  | H : v3 ?a ?x ?y |- agree _ (va_push_request _ ?x _ _ _ _ _ ≫= _) _ => eapply agree_bind; [apply push_v3; exact H|]; clear H; let x := fresh "x" in let y := fresh "y" in let H := fresh "H" in intros x y H; v3rw H
  | H : v3 ?a ?x ?y |- agree _ (va_cancel_requests ?x _ ≫= _) _ => eapply agree_bind; [apply cancel_v3; exact H|]; clear H; let x := fresh "x" in let y := fresh "y" in let H := fresh "H" in intros x y H; v3rw H
  | H : v3 ?a ?x ?y |- agree (eff _ _ _) (realize_acc _ ?x ≫= _) _ => apply write_v3; [exact H|reflexivity]
  end.
Ltac cfg_ := lazymatch goal with |- agree _ ((get_config ?w ?i ≫= _) ≫= _) _ => destruct (get_config w i) as [?|]; [cbn [mbind res_bind]|reflexivity] end.
Lemma cfg_alike a w1 w2 ids : alike a w1 w2 -> get_config w2 ids = get_config w1 ids.
Proof. intros [_ H _ _]. unfold get_config. rewrite H. reflexivity. Qed.
Lemma exec_alike E cx w1 w2 o a : request_call o = Some a -> alike a w1 w2 -> agree (eff a w1 w2) (exec E cx w1 o) (exec E cx w2 o).
Proof.
  intros Ho Hal. pose proof (acc_alike _ _ _ Hal) as Hacc. pose proof (fun ids => cfg_alike a w1 w2 ids Hal) as Hc. pose proof (al_now _ _ _ Hal) as Hn.
  destruct o; try discriminate Ho; cbn [request_call] in Ho; destruct oath; try discriminate Ho; injection Ho as ->; cbn [exec];
    unfold m_remove_collateral_request, m_margin_order_request, m_margin_order_tp_sl_request, m_cancel_requests, settle_oath_opt, settle_oath_opt';
    (eapply agree_bind; [exact Hacc|]); intros x y H; v3rw H; rewrite ?Hc, <- ?Hn; both.
  - cfg_. rewrite <- ?Hn. v3rw H. both. pushed. both. pushed.
  - cfg_. rewrite <- ?Hn. v3rw H. both. both. both. both. both. both. both. pushed. both. pushed.
  - cfg_. rewrite <- ?Hn. v3rw H. both. both. both. both. both. both. pushed.
    eapply (agree_bind (v3 a)). { destruct price_tp; [|exact H]. both. apply push_v3. exact H. }
    clear H. intros x6 y6 H.
    eapply (agree_bind (v3 a)). { destruct price_sl; [|exact H]. both. apply push_v3. exact H. }
    clear H. intros x7 y7 H. v3rw H. both. pushed.
  - cbn [mbind res_bind]. pushed. pushed.
Qed.
