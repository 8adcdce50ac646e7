(** * C65, completed: referral allocations and codes. *)
From Verif Require Import Base DFloat Lists Types Config Oracle Pool Account Fees Referral ExInternal Exchange System Getters Scenario Sums Trace Frames Calls Shape Spec SpecAuth SpecRequests SpecOracle SpecTrading SpecMargin SpecReferral SpecRefuse SpecRefuse3 P_Ledger P_Accounts P_Fees P_Refs P_Tokens P_Oracle P_Whole P_Gen P_Gen2 Props_RefAdmin Witness P_Refuse P_Refuse2 P_Refuse3 P_Refuse7 Props_Refuse Props_Refuse2 Props_Refuse3 Props_Refuse5 Props_Refuse6 Props_Refuse10 Props_Refuse12 Props_Refuse14.

Lemma no_refs_left d n e : uadd (rf_referrals d) n = Err e -> no_room d (Z.of_N n) e.
Proof.
  intros He. pose proof (f_uadd _ _ _ He) as ->. split; [auto|]. unfold uadd in He. destruct (_ <=? _)%N eqn:Hf in He; [discriminate He|]. apply N.leb_gt in Hf. change (2 ^ 64 - 1) with 18446744073709551615. lia.
Qed.
Lemma refs_limit d n k : uadd (rf_referrals d) n = Ok k -> (k <=? rf_max_referrals d)%N = false -> no_room d (Z.of_N n) EReferralLimitReached.
Proof. intros Hk Hf. apply uadd_Ok in Hk as [-> _]. apply N.leb_gt in Hf. split; [auto|]. lia. Qed.
(** The tokens handed over, merged, come in units and within range. *)
Lemma merged_range E ts m : forallb (bucket_ok E) ts = true -> map_tokens ts = Ok m -> forall r x, m !! r = Some x -> (unit_of E r | x) /\ 0 <= x <= DMAX.
Proof.
  intros Hb Hm r x Hx. split.
  - refine (map_tokens_units E ts _ ∅ m _ Hm r x Hx); [|intros ? ? H; rewrite lookup_empty in H; discriminate H]. apply Forall_forall. intros b Hin. rewrite forallb_forall in Hb. specialize (Hb b (proj1 (elem_of_list_In _ _) Hin)). unfold bucket_ok in Hb. apply andb_true_iff in Hb as [_ Hb]. apply Z.eqb_eq in Hb. apply Z.mod_divide; [|exact Hb]. pose proof (unit_pos E (b_res b)). lia.
  - pose proof (amounts_ok _ _ Hb) as Ha. clear Hb. revert Hm. unfold map_tokens. assert (forall (m0 : gmap resource Z), (forall r x, m0 !! r = Some x -> 0 <= x <= DMAX) -> rfold (fun (m : gmap resource Z) t => match m !! b_res t with Some x => y ← dadd x (b_amt t); Ok (<[b_res t := y]> m) | None => Ok (<[b_res t := b_amt t]> m) end) m0 ts = Ok m -> 0 <= x <= DMAX) as G.
    { induction Ha as [|b l Hb Hl IH]; intros m0 H0 H; cbn [rfold] in H; [apply Ok_inj in H; subst m0; exact (H0 _ _ Hx)|]. bd H as (m1 & H1 & H). apply (IH m1); [|exact H]. intros q y Hy.
      destruct (m0 !! b_res b) as [z|] eqn:Hz; [bd H1 as (s & Hs & H1); apply dadd_Ok in Hs as [-> Hs]|]; apply Ok_inj in H1; subst m1; (destruct (decide (q = b_res b)) as [->|Hne]; [rewrite lookup_insert in Hy; injection Hy as <-|rewrite lookup_insert_ne in Hy by congruence; exact (H0 _ _ Hy)]); [|exact Hb].
      specialize (H0 _ _ Hz). lia. }
    apply G. intros ? ? H. rewrite lookup_empty in H. discriminate H.
Qed.
Lemma nothing_yet : nonneg_map ∅. Proof. intros r. rewrite lookup_empty. cbn. lia. Qed.
(** What follows once it is known how much each claim adds up to. *)
Lemma f_cover E w ts (need : resource -> Z) m total {A} (k : gmap resource Z * list bucket -> res A) (P : error -> Prop) : gen_ok (w_gen w) -> forallb (bucket_ok E) ts = true -> map_tokens ts = Ok m -> (forall r, default 0 (total !! r) = need r) -> nonneg_map total ->
  (forall e, not_covered w ts need e -> P e) -> (forall rest taken, take_claims E m total = Ok (rest, taken) -> fails (fun e => e = EArithmetic /\ exists r, DMAX < default 0 (gn_vaults (w_gen w) !! r) + amount_in r ts) (vts_put_batch (gn_vaults (w_gen w)) taken) -> fails P (k (rest, taken))) ->
  fails P (x ← take_claims E m total; k x).
Proof.
  intros K Hb Hm Ht Hn HP Hk. assert (Forall (fun b => 0 <= b_amt b) ts) as Hts by (eapply Forall_impl; [exact (amounts_ok _ _ Hb)|]; cbn; lia). apply f_bind.
  - eapply f_mono; [apply (f_take_claims E m total); [exact (merged_range _ _ _ Hb Hm)|exact Hn]|]. intros e (-> & r & Hr). apply HP. right; left. split; [reflexivity|]. exists r. rewrite Ht, (map_tokens_amount r _ _ Hm) in Hr. exact Hr.
  - intros [rest taken] H. apply Hk; [exact H|]. exact (put_over E w ts m total rest taken K Hts Hm Hn H).
Qed.
Lemma f_merge E ts : forallb (bucket_ok E) ts = true -> fails (fun e => e = EArithmetic /\ exists r, DMAX < amount_in r ts) (map_tokens ts).
Proof.
  intros Hb. assert (Forall (fun b => 0 <= b_amt b) ts) as Hts by (eapply Forall_impl; [exact (amounts_ok _ _ Hb)|]; cbn; lia).
  eapply f_mono; [exact (f_map_tokens ts Hts ∅ nothing_yet)|]. intros e (-> & r & Hr). split; [reflexivity|]. exists r. rewrite lookup_empty in Hr. exact Hr.
Qed.
Lemma f_alloc E w d id ts cs n : gen_ok (w_gen w) -> w_refs w !! id = Some d -> forallb (bucket_ok E) ts = true -> fails (allocation_stopped w d ts cs n) (add_referral_allocation E w id ts cs n).
Proof.
  intros K Hd Hb. assert (forall e, not_covered w ts (fun r => Z.of_N n * asked r cs) e -> allocation_stopped w d ts cs n e) as HP by (intros e H; right; right; exact H).
  unfold add_referral_allocation. destruct (get_config w ∅) as [c|e] eqn:Hcf; [|destruct (f_config0 w e Hcf)]. rewrite Hd. cbn [expect mbind res_bind].
  apply f_bind; [eapply f_mono; [exact (f_tokens _ _ _ _ Hcf)|]; intros e H; apply HP; left; exact H|]. intros [] _.
  apply f_bind; [intros e He; left; exact (no_refs_left _ _ _ He)|]. intros k Hk. apply f_bind; [apply f_guard; intros Hf; left; exact (refs_limit _ _ _ Hk Hf)|]. intros [] _. apply f_bind; [|intros [[? ?] ?] _; apply f_Ok].
  unfold gn_add_allocation. apply f_bind; [eapply f_mono; [exact (f_merge _ _ Hb)|]; intros e (-> & r & Hr); apply HP; right; right; eauto|]. intros m Hm.
  apply f_bind.
  { eapply f_mono; [apply (f_add_claims (Some n)); [|exact nothing_yet]|].
    - cbn. apply uadd_Ok in Hk as [_ Hk]. change (2 ^ 64 - 1) with 18446744073709551615. lia.
    - intros e [H|(-> & r & Hr)]; [right; left; exact H|]. apply HP. right; right. split; [reflexivity|]. exists r. right; left. rewrite lookup_empty in Hr. exact Hr. }
  intros total Ht. apply add_claims_total in Ht as [Hpos Ht].
  assert (forall r, default 0 (total !! r) = Z.of_N n * asked r cs) as Ht2. { intros r. rewrite Ht, (asked_pos r cs Hpos), lookup_empty. reflexivity. }
  apply (f_cover E w ts (fun r => Z.of_N n * asked r cs) m total); [exact K|exact Hb|exact Hm|exact Ht2| |exact HP|].
  - intros r. rewrite Ht2. apply Z.mul_nonneg_nonneg; [lia|apply asked_nonneg].
  - intros rest taken _ Hput. cbv zeta. apply f_bind; [|intros; apply f_Ok]. eapply f_mono; [exact Hput|]. intros e (-> & r & Hr). apply HP. right; right. eauto.
Qed.
(** C65, adding an allocation to a referral. *)
Theorem C65_add_allocation E cx w id ts cs n e : reachable E w -> step E cx w (OAddReferralAllocation id ts cs n) = Err e ->
  at_the_gate E cx w RReferralAdmin ts e \/ e = EEngine /\ w_refs w !! id = None \/ exists d, w_refs w !! id = Some d /\ allocation_stopped w d ts cs n e.
Proof.
  intros Hr. pose proof (ri_gen _ (refinv_reachable _ _ Hr)) as K. revert e. match goal with |- forall e, _ -> _ \/ @?Q e => apply (f_gate E cx w _ RReferralAdmin ts Q) end; [reflexivity..|]. intros Hb _. cbn [exec]. unfold m_add_referral_allocation.
  apply f_bind; [|intros [[? ?] ?] _; apply f_Ok]. destruct (w_refs w !! id) as [d|] eqn:Ed.
  - eapply f_mono; [exact (f_alloc E w d id ts cs n K Ed Hb)|]. intros e H. right. exists d. auto.
  - unfold add_referral_allocation. destruct (get_config w ∅) as [c|e] eqn:Hcf; [|destruct (f_config0 w e Hcf)]. rewrite Ed. cbn [expect mbind res_bind]. apply f_Err. auto.
Qed.
(** C65, minting a referral together with its first allocation: the new referral has room for as many referrals as it is minted for. *)
Theorem C65_mint_with_allocation E cx w fr fb mr ts cs n e : reachable E w -> step E cx w (OMintReferralWithAllocation fr fb mr ts cs n) = Err e ->
  at_the_gate E cx w RReferralAdmin ts e \/ e = EInvalidReferralData /\ (no_share fr \/ no_share fb) \/ allocation_stopped w (mkRef fr fb 0 mr 0 0) ts cs n e.
Proof.
  intros Hr. pose proof (ri_gen _ (refinv_reachable _ _ Hr)) as K. revert e. match goal with |- forall e, _ -> _ \/ @?Q e => apply (f_gate E cx w _ RReferralAdmin ts Q) end; [reflexivity..|]. intros Hb _. cbn [exec]. unfold m_mint_referral_with_allocation, mint_referral_nft. cbv zeta.
  destruct (ref_fee_ok fr) eqn:F1; [|cbn; apply f_Err; left; split; [reflexivity|left; apply no_share_of; exact F1]]. destruct (ref_fee_ok fb) eqn:F2; [|cbn; apply f_Err; left; split; [reflexivity|right; apply no_share_of; exact F2]].
  assert (w_refs w !! w_next w = None) as Hn. { destruct (w_refs w !! w_next w) as [d|] eqn:Ed; [|reflexivity]. pose proof (next_fresh _ _ Hr (w_next w) ltac:(rewrite Ed; eauto)). lia. }
  unfold guard_ at 1 2. cbn [mbind res_bind]. rewrite Hn. rewrite bool_decide_eq_true_2 by reflexivity. cbn [guard_ mbind res_bind]. apply f_bind; [|intros [[? ?] ?] _; apply f_Ok].
  match goal with |- fails _ (add_referral_allocation E ?w1 _ _ _ _) => eapply f_mono; [apply (f_alloc E w1 (mkRef fr fb 0 mr 0 0)); [exact K|cbn; apply lookup_insert|exact Hb]|] end. intros e H. right. exact H.
Qed.

Lemma f_total hs : forall n, fails (fun e => e = EArithmetic /\ 2 ^ 64 - 1 < Z.of_N n + lsum (fun x : N * (claims * N) => Z.of_N (snd (snd x))) hs) (rfold (fun n x => uadd n (snd (snd x))) n hs) /\
  forall k, rfold (fun n x => uadd n (snd (snd x))) n hs = Ok k -> Z.of_N k = Z.of_N n + lsum (fun x : N * (claims * N) => Z.of_N (snd (snd x))) hs.
Proof.
  induction hs as [|x hs IH]; intros n; [split; [apply f_Ok|intros k H; apply Ok_inj in H; subst; unfold lsum; cbn; lia]|]. rewrite lsum_cons. cbn [rfold]. assert (0 <= lsum (fun x : N * (claims * N) => Z.of_N (snd (snd x))) hs) as H0 by (apply lsum_nonneg; intros; lia). split.
  - apply f_bind. { intros e He. pose proof (f_uadd _ _ _ He) as ->. split; [reflexivity|]. unfold uadd in He. destruct (_ <=? _)%N eqn:Hf in He; [discriminate He|]. apply N.leb_gt in Hf. change (2 ^ 64 - 1) with 18446744073709551615. lia. }
    intros m Hm. apply uadd_Ok in Hm as [-> _]. eapply f_mono; [apply (IH _)|]. intros e [-> H]. split; [reflexivity|]. lia.
  - intros k H. bd H as (m & Hm & H). apply uadd_Ok in Hm as [-> _]. apply IH in H. lia.
Qed.
Lemma f_codes_map {X} (f : N * X -> rcode) (l : list (N * X)) : NoDup (map fst l) -> forall m, fails (fun e => e = EReferralCodeExists /\ exists x, x ∈ l /\ is_Some (m !! fst x)) (rfold (fun cd x => insert_code cd (fst x) (f x)) m l).
Proof.
  induction l as [|x l IH]; intros Hnd m; [apply f_Ok|]. cbn [map] in Hnd. apply NoDup_cons in Hnd as [Hh Hnd]. cbn [rfold]. apply f_bind.
  - unfold insert_code. apply f_bind; [|intros; apply f_Ok]. apply f_guard. intros Hf. apply bool_decide_eq_false in Hf. split; [reflexivity|]. exists x. split; [left|]. destruct (m !! fst x); [eauto|congruence].
  - intros m1 H1. unfold insert_code in H1. bd H1 as (? & _ & H1). apply Ok_inj in H1. subst m1. eapply f_mono; [apply IH; exact Hnd|]. cbn. intros e (-> & y & H1 & H2). split; [reflexivity|]. exists y. split; [right; exact H1|].
    rewrite lookup_insert_ne in H2; [exact H2|]. intros Heq. apply Hh. rewrite Heq. apply elem_of_list_In, in_map, elem_of_list_In. exact H1.
Qed.
(** C65, creating codes. *)
Theorem C65_create_codes E cx w pr ts hs e : reachable E w -> step E cx w (OCreateReferralCodes pr ts hs) = Err e ->
  at_the_gate E cx w RReferralUser ts e \/ e = EEngine /\ (cx_proves cx (fst pr) (snd pr) = false \/ w_refs w !! snd pr = None) \/ e = EInvalidReferral /\ fst pr <> REFERRAL \/
  exists d, w_refs w !! snd pr = Some d /\ codes_stopped w d ts hs e.
Proof.
  intros Hr. pose proof (ri_gen _ (refinv_reachable _ _ Hr)) as K. revert e. match goal with |- forall e, _ -> _ \/ @?Q e => apply (f_gate E cx w _ RReferralUser ts Q) end; [reflexivity..|]. intros Hb _. cbn [exec].
  unfold m_create_referral_codes, check_ref_proof. apply f_bind.
  { apply f_bind; [apply f_guard; auto|]. intros [] _. apply f_bind; [apply f_guard; intros Hf; apply N.eqb_neq in Hf; auto|]. intros [] _. intros e He. unfold expect in He. destruct (w_refs w !! snd pr) eqn:Ed; [discriminate He|]. injection He as <-. left. auto. }
  intros d Hd. bd Hd as (? & _ & Hd). bd Hd as (? & _ & Hd). unfold expect in Hd. destruct (w_refs w !! snd pr) as [d0|]; [|discriminate Hd]. apply Ok_inj in Hd. subst d0. cbv zeta.
  match goal with |- fails ?P _ => assert (forall e, codes_stopped w d ts hs e -> P e) as HQ by (intros e H; right; right; exists d; auto) end.
  assert (forall e, not_covered w ts (fun r => asked_by_codes r hs) e -> codes_stopped w d ts hs e) as HP by (intros e H; right; right; right; right; right; exact H).
  eapply f_mono; [|exact HQ]. clear HQ. destruct (get_config w ∅) as [c|e] eqn:Hcf; [|destruct (f_config0 w e Hcf)]. cbn [mbind res_bind].
  change (msum (fun _ x => Z.of_N (snd x)) hs) with (lsum (fun x : N * (claims * N) => Z.of_N (snd (snd x))) (map_to_list hs)) in *.
  destruct (f_total (map_to_list hs) 0%N) as [T1 T2]. apply f_bind; [eapply f_mono; [exact T1|]; intros e [-> H]; left; split; [reflexivity|exact H]|]. intros n Hn. apply T2 in Hn. clear T1 T2. cbn [Z.of_N] in Hn. rewrite Z.add_0_l in Hn.
  apply f_bind; [eapply f_mono; [exact (f_tokens _ _ _ _ Hcf)|]; intros e H; apply HP; left; exact H|]. intros [] _.
  apply f_bind; [intros e He; right; left; unfold msum; change (foldr _ 0 (map_to_list hs)) with (lsum (fun x : N * (claims * N) => Z.of_N (snd (snd x))) (map_to_list hs)); rewrite <- Hn; exact (no_refs_left _ _ _ He)|]. intros k Hk. apply f_bind; [apply f_guard; intros Hf; right; left; unfold msum; change (foldr _ 0 (map_to_list hs)) with (lsum (fun x : N * (claims * N) => Z.of_N (snd (snd x))) (map_to_list hs)); rewrite <- Hn; exact (refs_limit _ _ _ Hk Hf)|]. intros [] _. apply f_bind; [|intros [? ?] _; apply f_Ok].
  unfold gn_create_codes. apply f_bind; [eapply f_mono; [exact (f_merge _ _ Hb)|]; intros e (-> & r & Hrr); apply HP; right; right; eauto|]. intros m Hm.
  assert (forall h cs n0, ((h, (cs, n0)) : N * (claims * N)) ∈ map_to_list hs -> hs !! h = Some (cs, n0)) as Hin by (intros h cs n0 H; apply elem_of_map_to_list in H; exact H).
  apply f_bind.
  { eapply f_mono; [exact (f_code_claims (map_to_list hs) ∅ nothing_yet)|]. intros e [(-> & [h [cs n0]] & cl & H1 & H2 & H3)|[(-> & [h [cs n0]] & H1 & H2 & H3)|(-> & r & Hrr)]].
    - right; right; left. split; [reflexivity|]. exists h, cs, n0, cl. auto.
    - right; right; right; left. split; [reflexivity|]. exists h, cs, n0. auto.
    - apply HP. right; right. split; [reflexivity|]. exists r. right; left. rewrite lookup_empty in Hrr. exact Hrr. }
  intros total Ht. apply add_code_claims_total in Ht as [Hpos Ht].
  assert (forall r, default 0 (total !! r) = asked_by_codes r hs) as Ht2.
  { intros r. rewrite Ht, lookup_empty. change (lsum (fun x : N * (claims * N) => Z.of_N (snd (snd x)) * amount_in r (fst (snd x))) (map_to_list hs) = lsum (fun x : N * (claims * N) => asked r (fst (snd x))) (map_to_list hs)). clear - Hpos. induction Hpos as [|[h [cs n0]] l [H1 H2] Hl IH]; [reflexivity|]. rewrite !lsum_cons, IH. cbn [fst snd] in *. rewrite (asked_pos r cs H1). destruct H2 as [-> | ->]; [change (amount_in r []) with 0|]; lia. }
  apply (f_cover E w ts (fun r => asked_by_codes r hs) m total); [exact K|exact Hb|exact Hm|exact Ht2| |exact HP|].
  - intros r. rewrite Ht2. unfold asked_by_codes. apply msum_nonneg. intros. apply asked_nonneg.
  - intros rest taken _ Hput. apply f_bind.
    + eapply f_mono; [apply (f_codes_map (fun x : N * (claims * N) => mkRC (snd pr) (fst (snd x)) 0 (snd (snd x)))); exact (NoDup_fst_map_to_list hs)|]. intros e (-> & [h [cs n0]] & H1 & H2). right; right; right; right; left. split; [reflexivity|]. exists h. split; [rewrite (Hin _ _ _ H1); eauto|exact H2].
    + intros codes _. apply f_bind; [|intros; apply f_Ok]. eapply f_mono; [exact Hput|]. intros e (-> & r & Hrr). apply HP. right; right. eauto.
Qed.
Example C65_ex_referrals :
  refused W5 (cx_owner, OAddReferralAllocation 9%N [(BASE, dec 300)] [(BASE, dec 100)] 3%N) EEngine && refused W5 (cx_owner, OAddReferralAllocation 0%N [(BASE, dec 900)] [(BASE, dec 100)] 9%N) EReferralLimitReached && refused W5 (cx_owner, OAddReferralAllocation 0%N [(BASE, dec 299)] [(BASE, dec 100)] 3%N) EInsufficientToken &&
  refused W5 (cx_owner, OAddReferralAllocation 0%N [(BASE, dec 300)] [(BASE, 0)] 3%N) EInvalidClaimAmount && refused W5 (cx_owner, OAddReferralAllocation 0%N [(99%N, dec 300)] [(99%N, dec 100)] 3%N) EInvalidCollateral && okb (step sc_env cx_owner W5 (OAddReferralAllocation 0%N [(BASE, dec 300)] [(BASE, dec 100)] 3%N)) &&
  refused W5 (cx_owner, OMintReferralWithAllocation 0 0 2%N [(BASE, dec 300)] [(BASE, dec 100)] 3%N) EReferralLimitReached && refused W5 (cx_owner, OMintReferralWithAllocation (-1) 0 3%N [(BASE, dec 300)] [(BASE, dec 100)] 3%N) EInvalidReferralData &&
  refused W5 (cx_u5, OCreateReferralCodes (REFERRAL, 0%N) [(BASE, dec 60)] {[1009%N := ([(BASE, dec 50)], 1%N)]}) EReferralCodeExists && refused W5 (cx_u5, OCreateReferralCodes (REFERRAL, 0%N) [(BASE, dec 60)] {[1019%N := ([(BASE, dec 50)], 2%N)]}) EMultiUseWithClaims && okb (step sc_env cx_u5 W5 (OCreateReferralCodes (REFERRAL, 0%N) [(BASE, dec 60)] {[1019%N := ([(BASE, dec 50)], 1%N)]})) &&
  refused W5 (cx_u5, OCreateReferralCodes (BASE, 0%N) [] ∅) EInvalidReferral && refused W5 (cx_u5, OCreateReferralCodes (REFERRAL, 9%N) [] ∅) EEngine = true.
Proof. vm_compute. reflexivity. Qed.
(** The owner's calls. *)
Definition some_config (pm : N) (treasury fee_max : Z) : exchange_config := mkEC pm 5%N 100%N 150000000000000000 200000000000000000 70000000000000000 70000000000000000 1000000000000000 1000000000000000 220000000000000000 treasury (10 ^ 18) fee_max (10 ^ 22) (10 ^ 18).
Example C65_ex_owner :
  okb (step sc_env cx_owner W2 (OUpdateExchangeConfig (some_config 30 (8 * 10 ^ 16) (10 ^ 16)))) && refused W2 (cx_u2, OUpdateExchangeConfig (some_config 30 (8 * 10 ^ 16) (10 ^ 16))) EAuth && refused W2 (cx_owner, OUpdateExchangeConfig (some_config 0 (8 * 10 ^ 16) (10 ^ 16))) EInvalidConfig &&
  refused W2 (cx_owner, OUpdateExchangeConfig (some_config 30 (15 * 10 ^ 16 + 1) (10 ^ 16))) EInvalidConfig && negb (okb (step sc_env cx_owner W2 (OUpdateExchangeConfig (some_config 30 (8 * 10 ^ 16) (1025 * 10 ^ 31))))) && okb (step sc_env cx_owner W2 (OUpdateExchangeConfig (some_config 30 (15 * 10 ^ 16) (10 ^ 34)))) &&
  refused W2 (cx_owner, OAdvance 5) EEngine && refused W2 (cx_u2, OSetRole RReferralUser AllowAll) EAuth && okb (step sc_env cx_owner W2 (OSetRole RReferralUser AllowAll)) && refused W2 (cx_u2, ORemoveCollateralConfig 20%N) EAuth = true.
Proof. vm_compute. reflexivity. Qed.
