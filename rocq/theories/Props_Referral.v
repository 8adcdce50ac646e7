(** * Referral generator: solvency and quotas (C35, C36). *)
From Verif Require Import Base DFloat Lists Types Config Oracle Pool Account Fees Referral ExInternal Exchange System Scenario Sums Trace Frames Calls Shape Spec SpecReferral P_Ledger P_Accounts Witness Frames2 P_Fees P_Tokens P_Requests2 P_Refs P_Whole P_Gen P_Gen2 Props_Auth.

(** ** C35 *)
(** The vault of each resource covers everything the codes and the allocations still promise. *)
Theorem C35_solvent E w r : reachable E w -> promised_by_codes w r + promised_by_allocations w r <= generator_vault w r.
Proof. intros Hr. exact (gk_solvent _ (ri_gen _ (refinv_reachable _ _ Hr)) r). Qed.
(** Nothing promised is negative: both sums really are obligations. *)
Theorem C35_promises_nonnegative E w h c r : reachable E w -> gn_codes (w_gen w) !! h = Some c ->
  0 <= uses_left c /\ 0 <= amount_in r (rc_claims c) /\ (uses_left c * amount_in r (rc_claims c) <= promised_by_codes w r).
Proof.
  intros Hr Hc. pose proof (ri_gen _ (refinv_reachable _ _ Hr)) as [K1 K2 K3 K4]. destruct (K1 _ _ Hc) as (A & B & P & D). split; [unfold uses_left; lia|]. split; [apply amount_pos; exact P|].
  apply (msum_ge_one (fun _ c => uses_left c * amount_in r (rc_claims c)) (gn_codes (w_gen w)) h c); [|exact Hc]. intros k y Hy. destruct (K1 _ _ Hy) as (Q1 & _ & Q & _). pose proof (amount_pos r _ Q). unfold uses_left. nia.
Qed.
(** A code with a use left can always be claimed: the generator pays each claimed amount, rounded down to the
    token's divisibility, and names the code's referral. *)
Theorem C35_claim_is_served E w h c : reachable E w -> gn_codes (w_gen w) !! h = Some c -> (rc_count c < rc_max c)%N ->
  exists g', gn_claim E (w_gen w) h = Ok (g', rc_ref c, map (fun x => (fst x, Z.quot (snd x) (unit_of E (fst x)) * unit_of E (fst x))) (rc_claims c)).
Proof.
  intros Hr Hc Hlt. pose proof (ri_gen _ (refinv_reachable _ _ Hr)) as K. pose proof (gk_code _ K _ _ Hc) as (A & B & P & D).
  destruct (take_batch_serves E (rc_claims c) (gn_vaults (w_gen w)) P) as [v' Hv']; [intros r; exact (owe_one _ _ _ r K Hc Hlt)|exact (gk_vault _ K)|].
  unfold gn_claim. rewrite Hc. cbn [expect mbind res_bind]. unfold guard_. replace (rc_count c <? rc_max c)%N with true by (symmetry; apply N.ltb_lt; exact Hlt). cbn [mbind res_bind].
  assert (uadd (rc_count c) 1 = Ok (rc_count c + 1)%N) as ->. { apply uadd_Ok. split; [reflexivity|]. assert (rc_count c + 1 <= U64)%N as Hu by lia. exact Hu. }
  cbn [mbind res_bind]. rewrite Hv'. cbn [mbind res_bind]. eexists. reflexivity.
Qed.
(** Only a code that pays tokens is single-use. *)
Theorem C35_paying_codes_are_single_use E w h c : reachable E w -> gn_codes (w_gen w) !! h = Some c -> rc_claims c = [] \/ rc_max c = 1%N.
Proof. intros Hr Hc. exact (proj2 (proj2 (proj2 (gk_code _ (ri_gen _ (refinv_reachable _ _ Hr)) _ _ Hc)))). Qed.

(** ** C36 *)
Definition code_step (E : env) (o : op) (w w' : world) (h : N) : Prop :=
  match gn_codes (w_gen w) !! h with
  | Some c => exists c', gn_codes (w_gen w') !! h = Some c' /\ rc_ref c' = rc_ref c /\ rc_claims c' = rc_claims c /\ rc_max c' = rc_max c /\ Z.of_N (rc_count c') = Z.of_N (rc_count c) + (if claims_code E h o then 1 else 0)
  | None => claims_code E h o = false /\ forall c', gn_codes (w_gen w') !! h = Some c' -> rc_count c' = 0%N
  end.
Lemma code_step_same E o w w' h : claims_code E h o = false -> gn_codes (w_gen w') = gn_codes (w_gen w) -> code_step E o w w' h.
Proof. intros Ho Hg. unfold code_step. rewrite Hg. destruct (gn_codes (w_gen w) !! h) as [c|] eqn:Ec; [exists c; rewrite Ho; split; [reflexivity|]; split; [reflexivity|split; [reflexivity|split; [reflexivity|lia]]]|]. split; [exact Ho|]. intros; discriminate. Qed.
Lemma gstep_code E cx w o out w' h : gstep E cx w o out w' -> refinv w -> code_step E o w w' h.
Proof.
  intros H Hi. remember o as o' eqn:Eo. destruct H; try (apply code_step_same; [reflexivity|reflexivity]).
  - subst o0. destruct H0 as (l & H0 & _). apply acct_call_config in H0 as (_ & _ & _ & Hg & _). apply code_step_same; [|rewrite Hg; reflexivity]. destruct o; try reflexivity; discriminate.
  - apply acct_call_config in H1 as (_ & _ & _ & Hg & _). cbn in Hg. unfold code_step. rewrite Hg. destruct code as [s|].
    + destruct H0 as (id & -> & Hcl). apply gn_claim_codes in Hcl as (c & Hc & _ & _ & Hcd & _). rewrite Hcd. cbn [claims_code]. destruct (N.eqb_spec (e_hash E s) h) as [<-|Hne].
      * rewrite Hc, lookup_insert. eexists. split; [reflexivity|]. split; [reflexivity|split; [reflexivity|split; [reflexivity|]]]. match goal with |- Z.of_N (rc_count ?x) = _ => change (rc_count x) with (rc_count c + 1)%N end. lia.
      * rewrite lookup_insert_ne by exact Hne. destruct (gn_codes (w_gen w) !! h) as [c0|]; [exists c0; do 4 (split; [reflexivity|]); lia|]. split; [reflexivity|]. intros; discriminate.
    + destruct H0 as (-> & -> & _). cbn [claims_code]. destruct (gn_codes (w_gen w) !! h) as [c0|]; [exists c0; do 4 (split; [reflexivity|]); lia|]. split; [reflexivity|]. intros; discriminate.
  - apply code_step_same; [reflexivity|]. exact (gn_add_allocation_codes _ _ _ _ _ _ _ _ _ H3).
  - apply code_step_same; [reflexivity|]. exact (gn_add_allocation_codes _ _ _ _ _ _ _ _ _ H1).
  - unfold code_step. cbn. destruct (create_codes_ok _ _ _ _ _ _ _ _ H4 H2 (ri_gen _ Hi)) as (_ & _ & Hk & _). destruct (gn_codes (w_gen w) !! h) as [c|] eqn:Ec; [exists c; split; [exact (Hk _ _ Ec)|]; do 3 (split; [reflexivity|]); lia|]. split; [reflexivity|]. intros c' Hc'. destruct (gn_create_codes_codes _ _ _ _ _ _ _ H4 _ _ Hc') as [Hx|(cs & k & _ & ->)]; [congruence|reflexivity].
  - unfold code_step. cbn. destruct (from_alloc_ok _ _ _ _ _ H2 (ri_gen _ Hi)) as (l & al & _ & _ & _ & _ & _ & Hk & _). destruct (gn_codes (w_gen w) !! h) as [c|] eqn:Ec; [exists c; split; [exact (Hk _ _ Ec)|]; do 3 (split; [reflexivity|]); lia|]. split; [reflexivity|]. intros c' Hc'. destruct (gn_create_from_alloc_codes _ _ _ _ _ H2 _ _ Hc') as [Hx|(_ & _ & Hz & _)]; [congruence|exact Hz].
  - apply code_step_same; [subst; destruct o; try reflexivity; discriminate|reflexivity].
  - apply code_step_same; [subst; destruct o; try reflexivity; discriminate|reflexivity].
Qed.
Lemma times_cons E h cx o out l : times_claimed E h ((cx, o, out) :: l) = (if claims_code E h o then 1 else 0) + times_claimed E h l.
Proof. unfold times_claimed. cbn [List.filter fst snd]. destruct (claims_code E h o); cbn [length]; lia. Qed.
(** Over any history a code keeps its referral, its claims and its maximum, and its counter grows by exactly one per
    account opened with it - hence at most as often as it had uses left. *)
Theorem C36_code_history E w l w' h c : reachable E w -> steps E w l w' -> gn_codes (w_gen w) !! h = Some c ->
  exists c', gn_codes (w_gen w') !! h = Some c' /\ rc_ref c' = rc_ref c /\ rc_claims c' = rc_claims c /\ rc_max c' = rc_max c /\
    Z.of_N (rc_count c') = Z.of_N (rc_count c) + times_claimed E h l /\ times_claimed E h l <= uses_left c.
Proof.
  intros Hr Hs. revert c Hr. induction Hs as [w|w cx o out w1 l w2 H1 H2 IH]; intros c Hr Hc.
  - exists c. split; [exact Hc|]. do 3 (split; [reflexivity|]). pose proof (gk_code _ (ri_gen _ (refinv_reachable _ _ Hr)) _ _ Hc) as (A & _). unfold times_claimed, uses_left. cbn. lia.
  - pose proof (gstep_code _ _ _ _ _ _ h (step_gstep _ _ _ _ _ _ H1) (refinv_reachable _ _ Hr)) as Hg. unfold code_step in Hg. rewrite Hc in Hg. destruct Hg as (c1 & Hc1 & A & B & C & D).
    destruct (IH _ (reach_step _ _ _ _ _ _ Hr H1) Hc1) as (c2 & Hc2 & A2 & B2 & C2 & D2 & F2). exists c2. split; [exact Hc2|]. rewrite times_cons. unfold uses_left in *. split; [congruence|]. split; [congruence|]. split; [congruence|]. rewrite C in F2. split; lia.
Qed.
(** A code that does not exist cannot be used: its uses in a history are counted by the code the history leaves. *)
Theorem C36_new_code_history E w l w' h : reachable E w -> steps E w l w' -> gn_codes (w_gen w) !! h = None ->
  match gn_codes (w_gen w') !! h with
  | Some c => Z.of_N (rc_count c) = times_claimed E h l /\ times_claimed E h l <= Z.of_N (rc_max c)
  | None => times_claimed E h l = 0
  end.
Proof.
  intros Hr Hs. revert Hr. induction Hs as [w|w cx o out w1 l w2 H1 H2 IH]; intros Hr Hc; [rewrite Hc; reflexivity|].
  pose proof (gstep_code _ _ _ _ _ _ h (step_gstep _ _ _ _ _ _ H1) (refinv_reachable _ _ Hr)) as Hg. unfold code_step in Hg. rewrite Hc in Hg. destruct Hg as [A B]. rewrite times_cons, A, Z.add_0_l. pose proof (reach_step _ _ _ _ _ _ Hr H1) as Hr1.
  destruct (gn_codes (w_gen w1) !! h) as [c1|] eqn:Ec1; [|exact (IH Hr1 eq_refl)]. specialize (B _ eq_refl). destruct (C36_code_history _ _ _ _ _ _ Hr1 H2 Ec1) as (c2 & Hc2 & _ & _ & C2 & D2 & F2). rewrite Hc2. unfold uses_left in F2. rewrite B in D2, F2. rewrite C2. lia.
Qed.
Definition alloc_step (o : op) (w w' : world) (id i : N) : Prop :=
  match default [] (gn_allocs (w_gen w) !! id) !! N.to_nat i with
  | Some a => exists a', default [] (gn_allocs (w_gen w') !! id) !! N.to_nat i = Some a' /\ ra_claims a' = ra_claims a /\ ra_max a' = ra_max a /\ Z.of_N (ra_count a') = Z.of_N (ra_count a) + issues_from id i o
  | None => issues_from id i o = 0 /\ forall a', default [] (gn_allocs (w_gen w') !! id) !! N.to_nat i = Some a' -> ra_count a' = 0%N
  end.
Lemma alloc_step_same o w w' id i : issues_from id i o = 0 -> gn_allocs (w_gen w') = gn_allocs (w_gen w) -> alloc_step o w w' id i.
Proof. intros Ho Hg. unfold alloc_step. rewrite Hg, Ho. destruct (default [] (gn_allocs (w_gen w) !! id) !! N.to_nat i) as [c|] eqn:Ec; [exists c; do 3 (split; [reflexivity|]); lia|]. split; [reflexivity|]. intros; discriminate. Qed.
Lemma alloc_step_add o w w' id0 cs n id i : issues_from id i o = 0 -> gn_allocs (w_gen w') = <[id0 := default [] (gn_allocs (w_gen w) !! id0) ++ [mkRA cs 0 n]]> (gn_allocs (w_gen w)) -> alloc_step o w w' id i.
Proof.
  intros Ho Hg. unfold alloc_step. rewrite Hg, Ho. destruct (decide (id0 = id)) as [->|Hne].
  - rewrite lookup_insert. match goal with |- context [default [] (Some ?l)] => change (default [] (Some l)) with l end. destruct (default [] (gn_allocs (w_gen w) !! id) !! N.to_nat i) as [a|] eqn:Ea.
    + exists a. split; [apply lookup_app_l_Some; exact Ea|]. do 2 (split; [reflexivity|]). lia.
    + split; [reflexivity|]. intros a' Ha'. apply lookup_app_Some in Ha' as [Ha'|[_ Ha']]; [congruence|]. apply elem_of_list_lookup_2, elem_of_list_singleton in Ha'. subst a'. reflexivity.
  - rewrite lookup_insert_ne by exact Hne. destruct (default [] (gn_allocs (w_gen w) !! id) !! N.to_nat i) as [c|] eqn:Ec; [exists c; do 3 (split; [reflexivity|]); lia|]. split; [reflexivity|]. intros; discriminate.
Qed.
Lemma gstep_alloc E cx w o out w' id i : gstep E cx w o out w' -> refinv w -> alloc_step o w w' id i.
Proof.
  intros H Hi. remember o as o' eqn:Eo. destruct H; try (apply alloc_step_same; [reflexivity|reflexivity]).
  - subst o0. destruct H0 as (l & H0 & _). apply acct_call_config in H0 as (_ & _ & _ & Hg & _). apply alloc_step_same; [|rewrite Hg; reflexivity]. destruct o; try reflexivity; discriminate.
  - apply acct_call_config in H1 as (_ & _ & _ & Hg & _). cbn in Hg. apply alloc_step_same; [reflexivity|]. rewrite Hg. destruct code as [s|].
    + destruct H0 as (j & -> & Hcl). apply gn_claim_codes in Hcl as (c & Hc & _ & _ & Hcd & Ha & _). exact Ha.
    + destruct H0 as (-> & -> & _). reflexivity.
  - eapply alloc_step_add; [reflexivity|]. destruct (add_allocation_ok _ _ _ _ _ _ _ _ _ H3 (ri_gen _ Hi)) as (_ & _ & _ & HA). exact HA.
  - eapply alloc_step_add; [reflexivity|]. destruct (add_allocation_ok _ _ _ _ _ _ _ _ _ H1 (ri_gen _ Hi)) as (_ & _ & _ & HA). exact HA.
  - apply alloc_step_same; [reflexivity|]. destruct (create_codes_ok _ _ _ _ _ _ _ _ H4 H2 (ri_gen _ Hi)) as (_ & HA & _). exact HA.
  - unfold alloc_step. cbn [w_gen set]. destruct (from_alloc_ok _ _ _ _ _ H2 (ri_gen _ Hi)) as (l & al & Hl & Hal & Hle & _ & HA & _). match goal with |- context [gn_allocs (w_gen ?x)] => idtac end. cbn. rewrite HA. destruct (N.eqb_spec (snd pr) id) as [<-|Hne].
    + rewrite lookup_insert, Hl. match goal with |- context [default [] (Some l)] => change (default [] (Some l)) with l end. match goal with |- context [default [] (Some ?l)] => change (default [] (Some l)) with l end. cbn [andb]. destruct (N.eqb_spec i0 i) as [->|Hj].
      * rewrite Hal. rewrite list_lookup_insert by (apply lookup_lt_Some in Hal; exact Hal). eexists. split; [reflexivity|]. do 2 (split; [reflexivity|]). match goal with |- Z.of_N (ra_count ?x) = _ => change (ra_count x) with (ra_count al + N.of_nat (size hs))%N end. lia.
      * rewrite list_lookup_insert_ne by (intros Hx; apply N2Nat.inj in Hx; congruence). destruct (l !! N.to_nat i) as [a|]; [exists a; do 3 (split; [reflexivity|]); lia|]. split; [reflexivity|]. intros; discriminate.
    + rewrite lookup_insert_ne by exact Hne. cbn [andb]. destruct (default [] (gn_allocs (w_gen w) !! id) !! N.to_nat i) as [c|] eqn:Ec; [exists c; do 3 (split; [reflexivity|]); lia|]. split; [reflexivity|]. intros; discriminate.
  - apply alloc_step_same; [subst; destruct o; try reflexivity; discriminate|reflexivity].
  - apply alloc_step_same; [subst; destruct o; try reflexivity; discriminate|reflexivity].
Qed.
(** Over any history an allocation keeps its claims and maximum, and its counter grows by the codes issued from it -
    hence no more of them than it had slots left. *)
Theorem C36_allocation_history E w l w' id i a : reachable E w -> steps E w l w' -> default [] (gn_allocs (w_gen w) !! id) !! N.to_nat i = Some a ->
  exists a', default [] (gn_allocs (w_gen w') !! id) !! N.to_nat i = Some a' /\ ra_claims a' = ra_claims a /\ ra_max a' = ra_max a /\
    Z.of_N (ra_count a') = Z.of_N (ra_count a) + issued_from id i l /\ issued_from id i l <= slots_left a.
Proof.
  intros Hr Hs. revert a Hr. induction Hs as [w|w cx o out w1 l w2 H1 H2 IH]; intros a Hr Ha.
  - exists a. split; [exact Ha|]. do 2 (split; [reflexivity|]). assert (ra_count a <= ra_max a)%N. { destruct (gn_allocs (w_gen w) !! id) as [al|] eqn:Eal; [|discriminate]. exact (proj1 (gk_alloc _ (ri_gen _ (refinv_reachable _ _ Hr)) _ _ _ Eal (elem_of_list_lookup_2 _ _ _ Ha))). } unfold issued_from, slots_left. cbn. lia.
  - pose proof (gstep_alloc _ _ _ _ _ _ id i (step_gstep _ _ _ _ _ _ H1) (refinv_reachable _ _ Hr)) as Hg. unfold alloc_step in Hg. rewrite Ha in Hg. destruct Hg as (a1 & Ha1 & A & B & C).
    destruct (IH _ (reach_step _ _ _ _ _ _ Hr H1) Ha1) as (a2 & Ha2 & A2 & B2 & C2 & D2). exists a2. split; [exact Ha2|]. unfold issued_from in *. rewrite lsum_cons. cbn [fst snd]. unfold slots_left in *. split; [congruence|]. split; [congruence|]. rewrite B in D2. split; lia.
Qed.
(** A referral's counter is exactly what has been handed out for it. *)
Theorem C36_counter_exact E w id d : reachable E w -> w_refs w !! id = Some d -> Z.of_N (rf_referrals d) = issued w id.
Proof. intros Hr Hd. exact (ri_count _ (refinv_reachable _ _ Hr) _ _ Hd). Qed.
(** The accounts that carry a referral are exactly the uses made of its codes, and no more than were handed out. *)
Theorem C36_referred_accounts E w id : reachable E w -> referred_accounts w id = used w id /\ used w id <= issued w id.
Proof.
  intros Hr. pose proof (refinv_reachable _ _ Hr) as [K B C D]. split; [exact (D id)|]. unfold used, issued.
  assert (msum (fun _ c => if (rc_ref c =? id)%N then Z.of_N (rc_count c) else 0) (gn_codes (w_gen w)) <= msum (fun _ c => if (rc_ref c =? id)%N then Z.of_N (rc_max c) else 0) (gn_codes (w_gen w))).
  { apply msum_le. intros h c Hc. destruct (gk_code _ K _ _ Hc) as (Q & _). destruct (rc_ref c =? id)%N; lia. }
  assert (0 <= lsum slots_left (default [] (gn_allocs (w_gen w) !! id))); [|lia]. apply lsum_nonneg. intros a Ha. destruct (gn_allocs (w_gen w) !! id) as [l|] eqn:El; [|inversion Ha]. destruct (gk_alloc _ K _ _ _ El Ha) as [Q _]. unfold slots_left. lia.
Qed.
(** A referral's counter never drops, and whatever raises it keeps it within the maximum; a new referral starts
    within its maximum; referrals are never removed. *)
Theorem C36_quota E cx w o w' out id d' : reachable E w -> step E cx w o = Ok (w', out) -> w_refs w' !! id = Some d' ->
  match w_refs w !! id with
  | Some d => rf_referrals d' = rf_referrals d \/ ((rf_referrals d < rf_referrals d' <= rf_max_referrals d')%N /\ rf_max_referrals d' = rf_max_referrals d)
  | None => (rf_referrals d' <= rf_max_referrals d')%N
  end.
Proof.
  intros Hr Hs Hd'. apply step_gstep in Hs. assert (forall v, w_refs v = w_refs w -> w_refs v !! id = Some d' -> match w_refs w !! id with Some d => rf_referrals d' = rf_referrals d \/ ((rf_referrals d < rf_referrals d' <= rf_max_referrals d')%N /\ rf_max_referrals d' = rf_max_referrals d) | None => (rf_referrals d' <= rf_max_referrals d')%N end) as Hsame by (intros v Hv Hx; rewrite Hv in Hx; rewrite Hx; left; reflexivity).
  destruct Hs; try (eapply Hsame; [|exact Hd']; reflexivity).
  - destruct H0 as (l & H0 & _). apply acct_call_refs in H0 as [Hx|(acc & id0 & d0 & b & t & _ & _ & Hd0 & Hx)]; rewrite Hx in Hd'; [rewrite Hd'; left; reflexivity|]. ins_cases Hd' id; [rewrite Hd0; left; reflexivity|rewrite Hd'; left; reflexivity].
  - apply acct_call_refs in H1 as [Hx|(acc & id0 & d0 & b & t & _ & _ & Hd0 & Hx)]; rewrite Hx in Hd'; cbn in Hd'; [rewrite Hd'; left; reflexivity|]. cbn in Hd0. ins_cases Hd' id; [rewrite Hd0; left; reflexivity|rewrite Hd'; left; reflexivity].
  - cbn in Hd'. ins_cases Hd' id; [rewrite H1; left; reflexivity|rewrite Hd'; left; reflexivity].
  - cbn in Hd'. ins_cases Hd' id; [rewrite H1; cbn; lia|rewrite Hd'; left; reflexivity].
  - cbn in Hd'. ins_cases Hd' id; [rewrite H1; cbn; lia|rewrite Hd'; left; reflexivity].
  - cbn in Hd'. ins_cases Hd' id; [rewrite H; left; reflexivity|rewrite Hd'; left; reflexivity].
  - cbn in Hd'. ins_cases Hd' id; [rewrite H; cbn; destruct n; [left; lia|right; lia]|rewrite Hd'; left; reflexivity].
  - cbn in Hd'. ins_cases Hd' id; [rewrite H1; cbn; destruct n; [left; lia|right; lia]|rewrite Hd'; left; reflexivity].
Qed.
Theorem C36_referrals_stay E cx w o w' out id d : step E cx w o = Ok (w', out) -> w_refs w !! id = Some d -> exists d', w_refs w' !! id = Some d'.
Proof.
  intros Hs Hd. apply step_gstep in Hs. destruct Hs; try (exists d; exact Hd); try (apply is_Some_insert; eauto).
  - destruct H0 as (l & H0 & _). exact (acct_call_dom _ _ _ _ _ H0 id ltac:(eauto)).
  - exact (acct_call_dom _ _ _ _ _ H1 id ltac:(eauto)).
Qed.
(** Both fee shares of every referral are between 0 and 10%. *)
Theorem C36_fee_shares E w id d : reachable E w -> w_refs w !! id = Some d -> 0 <= rf_fee_referral d <= E18 / 10 /\ 0 <= rf_fee_rebate d <= E18 / 10.
Proof. intros Hr Hd. exact (proj2 (fees_reachable _ _ Hr) _ _ Hd). Qed.
(** An account's referral is the one its creation code names - none without a code - and no call changes it. *)
Theorem C36_account_referral_fixed E cx w o w' out a acc acc' : step E cx w o = Ok (w', out) -> w_accounts w !! a = Some acc -> w_accounts w' !! a = Some acc' -> ac_ref acc' = ac_ref acc.
Proof.
  intros H Ha Ha'. destruct (step_account _ _ _ _ _ _ a H) as [Heq|[[Ho (l & Hc & _)]|(oath & rule & ts & code & ref & g & more & _ & Hnone & _)]]; [congruence| |congruence]. exact (acct_call_ref _ _ _ _ _ _ _ Hc Ha Ha').
Qed.
Theorem C36_account_referral_from_code E cx w oath rule ts code a w' out acc' : step E cx w (OCreateAccount oath rule ts code a) = Ok (w', out) -> w_accounts w' !! a = Some acc' ->
  match code with
  | Some s => exists c, gn_codes (w_gen w) !! e_hash E s = Some c /\ (rc_count c < rc_max c)%N /\ ac_ref acc' = Some (rc_ref c)
  | None => ac_ref acc' = None
  end.
Proof.
  intros H Ha'. destruct (step_inv _ _ _ _ _ _ H) as (_ & _ & _ & Hx). assert (w_accounts w !! a = None) as Hnone. { apply step_gstep in H. remember (OCreateAccount oath rule ts code a) as o eqn:Eo. destruct H; try discriminate Eo; try (subst; discriminate). injection Eo as _ _ _ _ ->. exact H. }
  destruct (step_account _ _ _ _ _ _ a H) as [Heq|[[Ho (l & Hc & _)]|(oath' & rule' & ts' & code' & ref & g & more & Heq & _ & Hcode & Hl)]]; [congruence|discriminate Ho|]. injection Heq as <- <- <- <-.
  assert (w_accounts (new_account_world E w rule a ref g) !! a = Some (acc_new rule rule rule ref)) as Ha by (apply lookup_insert). pose proof (acct_call_ref _ _ _ _ _ _ _ Hl Ha Ha') as Hrf. rewrite Hrf. destruct code as [s|].
  - destruct Hcode as (id & -> & Hcl). apply gn_claim_codes in Hcl as (c & Hc & <- & Hlt & _). exists c. split; [exact Hc|]. split; [exact Hlt|reflexivity].
  - destruct Hcode as (-> & _). reflexivity.
Qed.

(** ** A concrete case: in W5 referral 0 has an allocation of 3 with two codes issued, one more code bought directly,
    and one code claimed; the generator still owes 250 base tokens and holds them. *)
Theorem C35_ex : reachable sc_env W5 /\ promised_by_codes W5 BASE = dec 150 /\ promised_by_allocations W5 BASE = dec 100 /\ generator_vault W5 BASE = dec 250 /\ issued W5 0 = 4 /\ used W5 0 = 1.
Proof. split; [exact W5_reach|]. split; [vm_compute; reflexivity|]. split; [vm_compute; reflexivity|]. split; [vm_compute; reflexivity|]. split; vm_compute; reflexivity. Qed.
