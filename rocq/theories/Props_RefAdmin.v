(** * Referral administration has exactly the stated effect (C62). *)
From Verif Require Import Base DFloat Lists Types Config Oracle Pool Account Fees Referral ExInternal Exchange System Scenario Sums Trace Frames Calls Shape Spec SpecReferral P_Ledger P_Accounts Witness Frames2 P_Fees P_Tokens P_Refs P_Whole P_Gen P_Gen2 Props_Referral.

(** What the generator keeps of a resource when [x] of it is promised: the least multiple of the token's smallest
    unit that covers [x]. *)
Definition kept (E : env) (r : resource) (x k : Z) : Prop := k mod unit_of E r = 0 /\ x <= k < x + unit_of E r.
(** Everything except the referrals' data and the generator is as before. *)
Definition only_referrals_change (w w' : world) : Prop := w' = w <| w_refs := w_refs w' |> <| w_gen := w_gen w' |> <| w_next := w_next w' |>.
(** The uses the codes of a batch have together. *)
Definition batch_uses (hs : gmap N (claims * N)) : Z := msum (fun _ x => Z.of_N (snd x)) hs.
(** What a batch of codes promises of a resource. *)
Definition batch_promise (hs : gmap N (claims * N)) (r : resource) : Z := msum (fun _ x => Z.of_N (snd x) * amount_in r (fst x)) hs.

Definition ceil_to (u x : Z) : Z := - ((- x) / u) * u.
Lemma ceil_kept E r x : kept E r x (ceil_to (unit_of E r) x).
Proof.
  unfold kept, ceil_to. pose proof (unit_pos E r) as Hu. split; [apply Z.mod_mul; lia|]. pose proof (Z.div_mod (- x) (unit_of E r) ltac:(lia)). pose proof (Z.mod_pos_bound (- x) (unit_of E r) Hu). lia.
Qed.
Lemma take_claims_exact E m total rest taken : take_claims E m total = Ok (rest, taken) -> forall r, amount_in r taken = ceil_to (unit_of E r) (default 0 (total !! r)).
Proof.
  unfold take_claims. assert (forall l s s', rfold (take_claim E) s l = Ok s' -> forall r, amount_in r (snd s') = amount_in r (snd s) + amount_in r (prod_map id (ceil_to (unit_of E r)) <$> l)) as Hg.
  { induction l as [|[r0 x] l IH]; intros [m0 o0] s' H r; cbn [rfold] in H; [apply Ok_inj in H; subst; cbn [fmap list_fmap]; change (amount_in r []) with 0; lia|]. bd H as ([m1 o1] & H1 & H). specialize (IH _ _ H r). cbn [snd] in *. rewrite fmap_cons, amount_cons. cbn [b_res b_amt fst snd prod_map id] in IH |- *.
    unfold take_claim in H1. cbn [fst snd] in H1. destruct (m0 !! r0) as [have|].
    - bd H1 as (u & _ & H1). bd H1 as (a & Ha & H1). apply Ok_inj in H1. injection H1 as <- <-. rewrite amount_app, amount_cons in IH. cbn [b_res b_amt fst snd] in IH. change (amount_in r []) with 0 in IH. apply take_adv_inv in Ha as [Ha _]. unfold round_amount in Ha. cbv zeta in Ha. apply chk_Ok in Ha as [-> _].
      destruct (N.eqb_spec r0 r) as [->|Hn]; (etransitivity; [exact IH|]); [change (ceil_to (unit_of E r) x) with (- ((- x) / unit_of E r) * unit_of E r)|]; match goal with |- _ + _ + ?c = _ => generalize c end; intros; [generalize (- ((- x) / unit_of E r) * unit_of E r); intros|]; lia.
    - bd H1 as (u & Hu & H1). apply Ok_inj in H1. injection H1 as <- <-. apply guard_Ok, Z.eqb_eq in Hu. subst x. destruct (r0 =? r)%N; [|lia]. unfold ceil_to at 1. change (- 0) with 0. rewrite Z.div_0_l by (pose proof (unit_pos E r); lia). lia. }
  intros H r. specialize (Hg _ _ _ H r). cbn [snd] in Hg. rewrite Hg. change (amount_in r []) with 0.
  assert (amount_in r (prod_map id (ceil_to (unit_of E r)) <$> map_to_list total) = amount_in r (map_to_list (ceil_to (unit_of E r) <$> total))) as ->.
  { unfold amount_in. apply lsum_perm. symmetry. apply (map_to_list_fmap (ceil_to (unit_of E r)) total). }
  rewrite amount_map, lookup_fmap. destruct (total !! r); cbn [fmap option_fmap option_map default from_option id]; [lia|]. unfold ceil_to. change (- 0) with 0. rewrite Z.div_0_l by (pose proof (unit_pos E r); lia). reflexivity.
Qed.
Lemma insert_codes_at {A} (f : A -> N * rcode) (l : list A) : forall m m', rfold (fun cd x => insert_code cd (fst (f x)) (snd (f x))) m l = Ok m' ->
  (forall x, x ∈ l -> m !! fst (f x) = None /\ m' !! fst (f x) = Some (snd (f x))) /\
  (forall h, (forall x, x ∈ l -> fst (f x) <> h) -> m' !! h = m !! h).
Proof.
  induction l as [|x l IH]; intros m m' H; cbn [rfold] in H; [apply Ok_inj in H; subst; split; [intros x Hx; inversion Hx|reflexivity]|].
  bd H as (m1 & H1 & H). pose proof H as Hk. unfold insert_code in H1. bd H1 as (u & Hg & H1). apply guard_Ok, bool_decide_eq_true in Hg. apply Ok_inj in H1. subst m1. destruct (IH _ _ H) as [I1 I2]. split.
  - intros y Hy. apply elem_of_cons in Hy as [->|Hy].
    + split; [exact Hg|]. apply (insert_codes_keep f l _ _ _ _ Hk). apply lookup_insert.
    + destruct (I1 y Hy) as [J1 J2]. split; [|exact J2]. apply lookup_insert_None in J1 as [J1 _]. exact J1.
  - intros h Hh. rewrite I2 by (intros y Hy; apply Hh; right; exact Hy). apply lookup_insert_ne. apply Hh. left.
Qed.

(** A new referral: the id in the badge handed out was unused, the stored data are the ones asked for with nothing
    referred or earned yet, and nothing else changes. *)
Theorem C62_mint_referral E cx w fr fb mr w' out : step E cx w (OMintReferral fr fb mr) = Ok (w', out) ->
  exists id, o_nfts out = [(REFERRAL, id)] /\ o_tokens out = [] /\ w_refs w !! id = None /\ 0 <= fr <= E18 / 10 /\ 0 <= fb <= E18 / 10 /\
    w_refs w' = <[id := mkRef fr fb 0 mr 0 0]> (w_refs w) /\ w_gen w' = w_gen w /\ only_referrals_change w w'.
Proof.
  intros H. apply step_gstep in H. match type of H with gstep _ _ _ ?o _ _ => remember o as oo eqn:Eo end. destruct H; try discriminate Eo; try (subst; discriminate). injection Eo as -> -> ->.
  exists (w_next w). unfold only_referrals_change. cbn. change FEE_REF_MAX with (E18 / 10) in *. do 7 (split; [first [assumption|reflexivity]|]). destruct w; reflexivity.
Qed.
(** An update of a referral replaces exactly the fields given. *)
Theorem C62_update_referral E cx w id fr fb mr w' out : step E cx w (OUpdateReferral id fr fb mr) = Ok (w', out) ->
  o_tokens out = [] /\ w_gen w' = w_gen w /\ w_next w' = w_next w /\ only_referrals_change w w' /\ (forall i, i <> id -> w_refs w' !! i = w_refs w !! i) /\
  match w_refs w !! id with
  | Some d => (forall x, fr = Some x -> 0 <= x <= E18 / 10) /\ (forall x, fb = Some x -> 0 <= x <= E18 / 10) /\
      w_refs w' !! id = Some (mkRef (default (rf_fee_referral d) fr) (default (rf_fee_rebate d) fb) (rf_referrals d) (default (rf_max_referrals d) mr) (rf_balance d) (rf_total_rewarded d))
  | None => fr = None /\ fb = None /\ mr = None /\ w_refs w' !! id = None
  end.
Proof.
  intros H. apply step_gstep in H. match type of H with gstep _ _ _ ?o _ _ => remember o as oo eqn:Eo end. destruct H; try discriminate Eo; try (subst; discriminate); [injection Eo as -> <- <- <-|injection Eo as -> -> -> ->].
  - split; [assumption|]. do 2 (split; [reflexivity|]). split; [unfold only_referrals_change; destruct w; reflexivity|]. split; [reflexivity|].
    destruct (w_refs w !! id) as [d|] eqn:Hd; [|auto]. split; [discriminate|]. split; [discriminate|]. destruct d; reflexivity.
  - split; [assumption|]. do 2 (split; [reflexivity|]). split; [unfold only_referrals_change; destruct w; reflexivity|]. split.
    { intros i Hi. cbn. apply lookup_insert_ne. congruence. }
    rewrite H. change FEE_REF_MAX with (E18 / 10) in *. split; [intros x ->; assumption|]. split; [intros x ->; assumption|]. cbn. rewrite lookup_insert. destruct d, fr, fb, mr; reflexivity.
Qed.

Lemma claim_kept E w w' ts cs n rest taken v m tot (r : resource) :
  map_tokens ts = Ok m -> take_claims E m tot = Ok (rest, taken) -> vts_put_batch (gn_vaults (w_gen w)) taken = Ok v -> gn_vaults (w_gen w') = v ->
  default 0 (tot !! r) = n * amount_in r cs ->
  exists k, kept E r (n * amount_in r cs) k /\ generator_vault w' r = generator_vault w r + k /\ amount_in r ts = k + amount_in r (map_to_list rest).
Proof.
  intros H1 H3 H4 Hv Ht. exists (amount_in r taken). rewrite (take_claims_exact _ _ _ _ _ H3 r), Ht. split; [apply ceil_kept|]. rewrite <- Ht, <- (take_claims_exact _ _ _ _ _ H3 r).
  unfold generator_vault. rewrite Hv. split; [exact (vts_put_batch_amount r _ _ _ H4)|]. rewrite amount_map. pose proof (take_claims_amount _ r _ _ _ _ H3). pose proof (map_tokens_amount r _ _ H1). lia.
Qed.
(** A new allocation: stored at the end of the referral's list under the index returned, unused; the referral's counter
    grows by its size and stays within the maximum; of each resource the generator keeps what the allocation
    promises, and the rest of the tokens handed over comes back. *)
Theorem C62_add_allocation E cx w id ts cs n w' out : step E cx w (OAddReferralAllocation id ts cs n) = Ok (w', out) ->
  exists d, w_refs w !! id = Some d /\ (rf_referrals d + n <= rf_max_referrals d)%N /\
    w_refs w' = <[id := d <| rf_referrals := (rf_referrals d + n)%N |>]> (w_refs w) /\
    gn_codes (w_gen w') = gn_codes (w_gen w) /\ gn_allocs (w_gen w') = <[id := default [] (gn_allocs (w_gen w) !! id) ++ [mkRA cs 0 n]]> (gn_allocs (w_gen w)) /\
    o_indexes out = [Some (N.of_nat (length (default [] (gn_allocs (w_gen w) !! id))))] /\ Forall (fun c => 0 < snd c) cs /\
    only_referrals_change w w' /\ w_next w' = w_next w /\
    forall r, exists k, kept E r (Z.of_N n * amount_in r cs) k /\ generator_vault w' r = generator_vault w r + k /\ amount_in r ts = k + amount_in r (o_tokens out).
Proof.
  intros H. apply step_exec in H as [H _]. cbn [exec] in H. unfold m_add_referral_allocation in H. bd H as ([[w2 rest] i] & H2 & H). apply Ok_inj in H. injection H as <- <-.
  apply add_referral_allocation_inv in H2. destruct H2 as (d & g & Hd & Hn & Hg & ->). unfold gn_add_allocation in Hg. bd Hg as (m & H1 & Hg). bd Hg as (tot & H2 & Hg). bd Hg as ([rm taken] & H3 & Hg). bd Hg as (v & H4 & Hg). apply Ok_inj in Hg. injection Hg as <- <- <-. destruct (add_claims_total _ _ _ _ H2) as [Hp Ht].
  exists d. cbn [w_refs w_gen gn_codes gn_allocs o_indexes o_tokens]. split; [exact Hd|]. split; [exact Hn|]. do 4 (split; [reflexivity|]). split; [exact Hp|]. split; [unfold only_referrals_change; destruct w; reflexivity|]. split; [reflexivity|].
  intros r. eapply claim_kept; [exact H1|exact H3|exact H4|reflexivity|]. rewrite Ht, lookup_empty. reflexivity.
Qed.
(** The same together with a new referral. *)
Theorem C62_mint_with_allocation E cx w fr fb mr ts cs n w' out : step E cx w (OMintReferralWithAllocation fr fb mr ts cs n) = Ok (w', out) ->
  exists id, o_nfts out = [(REFERRAL, id)] /\ w_refs w !! id = None /\ 0 <= fr <= E18 / 10 /\ 0 <= fb <= E18 / 10 /\ (n <= mr)%N /\
    w_refs w' = <[id := mkRef fr fb n mr 0 0]> (w_refs w) /\
    gn_codes (w_gen w') = gn_codes (w_gen w) /\ gn_allocs (w_gen w') = <[id := default [] (gn_allocs (w_gen w) !! id) ++ [mkRA cs 0 n]]> (gn_allocs (w_gen w)) /\
    Forall (fun c => 0 < snd c) cs /\ only_referrals_change w w' /\
    forall r, exists k, kept E r (Z.of_N n * amount_in r cs) k /\ generator_vault w' r = generator_vault w r + k /\ amount_in r ts = k + amount_in r (o_tokens out).
Proof.
  intros H. apply step_exec in H as [H _]. cbn [exec] in H. unfold m_mint_referral_with_allocation in H. bd H as ([w1 id] & H1 & H). bd H as ([[w2 rest] i] & H2 & H). apply Ok_inj in H. injection H as <- <-.
  apply mint_referral_nft_inv in H1. destruct H1 as (A1 & A2 & -> & A3 & ->). apply add_referral_allocation_inv in H2. destruct H2 as (d & g & Hd & Hn & Hg & ->). cbn in Hd. rewrite lookup_insert in Hd. injection Hd as <-. cbn in Hn. change (w_gen (w <| w_refs := _ |> <| w_next := _ |>)) with (w_gen w) in Hg.
  unfold gn_add_allocation in Hg. bd Hg as (m & H1 & Hg). bd Hg as (tot & H2 & Hg). bd Hg as ([rm taken] & H3 & Hg). bd Hg as (v & H4 & Hg). apply Ok_inj in Hg. injection Hg as <- <- <-. destruct (add_claims_total _ _ _ _ H2) as [Hp Ht].
  exists (w_next w). cbn [w_refs w_gen gn_codes gn_allocs o_indexes o_tokens]. change FEE_REF_MAX with (E18 / 10) in *. split; [reflexivity|]. split; [exact A3|]. split; [exact A1|]. split; [exact A2|]. split; [lia|]. split; [cbn; rewrite insert_insert; reflexivity|]. do 2 (split; [reflexivity|]). split; [exact Hp|]. split; [unfold only_referrals_change; destruct w; reflexivity|].
  intros r. eapply claim_kept; [exact H1|exact H3|exact H4|reflexivity|]. rewrite Ht, lookup_empty. reflexivity.
Qed.
(** New codes, bought by the holder of the referral's badge: every hash was free and now names exactly the claims and
    uses asked for, no other code changes; the referral's counter grows by the uses of the batch and stays within the maximum;
    codes with claims are single-use; of each resource the generator keeps what the batch promises, and the rest
    comes back. *)
Theorem C62_create_codes E cx w pr ts hs w' out : step E cx w (OCreateReferralCodes pr ts hs) = Ok (w', out) ->
  exists d, fst pr = REFERRAL /\ cx_proves cx REFERRAL (snd pr) = true /\ w_refs w !! snd pr = Some d /\
    (exists n, Z.of_N n = batch_uses hs /\ (rf_referrals d + n <= rf_max_referrals d)%N /\ w_refs w' = <[snd pr := d <| rf_referrals := (rf_referrals d + n)%N |>]> (w_refs w)) /\
    (forall h cs m, hs !! h = Some (cs, m) -> gn_codes (w_gen w) !! h = None /\ gn_codes (w_gen w') !! h = Some (mkRC (snd pr) cs 0 m) /\ Forall (fun c => 0 < snd c) cs /\ (cs = [] \/ m = 1%N)) /\
    (forall h, hs !! h = None -> gn_codes (w_gen w') !! h = gn_codes (w_gen w) !! h) /\
    gn_allocs (w_gen w') = gn_allocs (w_gen w) /\ only_referrals_change w w' /\ w_next w' = w_next w /\
    forall r, exists k, kept E r (batch_promise hs r) k /\ generator_vault w' r = generator_vault w r + k /\ amount_in r ts = k + amount_in r (o_tokens out).
Proof.
  intros H. apply step_gstep in H. match type of H with gstep _ _ _ ?o _ _ => remember o as oo eqn:Eo end. destruct H; try discriminate Eo; try (subst; discriminate). injection Eo as -> -> ->.
  match goal with H : gn_create_codes _ _ _ _ _ = _ |- _ => rename H into Hg end. unfold gn_create_codes in Hg. bd Hg as (m & G5 & Hg). bd Hg as (tot & G6 & Hg). bd Hg as ([rm taken] & G7 & Hg). bd Hg as (codes & G8 & Hg). bd Hg as (v & G9 & Hg). apply Ok_inj in Hg. injection Hg as <- <-.
  destruct (add_code_claims_total _ _ _ G6) as [Hp Ht]. rewrite Forall_forall in Hp. destruct (insert_codes_at (fun x : N * (claims * N) => (fst x, mkRC (snd pr) (fst (snd x)) 0 (snd (snd x)))) _ _ _ G8) as [I1 I2].
  exists d. rewrite <- H0. split; [reflexivity|]. split; [exact H|]. split; [exact H1|]. split.
  { exists n. split; [|split; [exact H3|reflexivity]]. unfold batch_uses. rewrite msum_lsum. clear - H2.
    assert (forall l a b, rfold (fun n (x : N * (claims * N)) => uadd n (snd (snd x))) a l = Ok b -> Z.of_N b = Z.of_N a + lsum (fun x => Z.of_N (snd (snd x))) l) as Hs; [|rewrite (Hs _ _ _ H2); reflexivity].
    induction l as [|x l IH]; intros a b Hf; cbn [rfold] in Hf; [apply Ok_inj in Hf; subst; cbn; lia|]. bd Hf as (a1 & Ha & Hf). apply uadd_Ok in Ha as [-> _]. rewrite (IH _ _ Hf), lsum_cons. lia. }
  split. { intros h cs k Hh. apply elem_of_map_to_list in Hh. destruct (I1 _ Hh) as [J1 J2]. destruct (Hp _ Hh) as [P1 P2]. cbn in J1, J2, P1, P2. auto. }
  split. { intros h Hh. cbn. apply I2. intros [h0 x] Hx. apply elem_of_map_to_list in Hx. cbn. congruence. }
  split; [reflexivity|]. split; [unfold only_referrals_change; destruct w; reflexivity|]. split; [reflexivity|].
  intros r. match goal with H : o_tokens out = _ |- _ => rewrite H end. specialize (Ht r). rewrite lookup_empty in Ht. cbn [default from_option] in Ht. exists (amount_in r taken). rewrite (take_claims_exact _ _ _ _ _ G7 r), Ht. unfold batch_promise. rewrite msum_lsum. split; [apply ceil_kept|]. unfold generator_vault. cbn.
  rewrite (vts_put_batch_amount r _ _ _ G9), (take_claims_exact _ _ _ _ _ G7 r), Ht. split; [reflexivity|]. rewrite amount_map. pose proof (take_claims_amount _ r _ _ _ _ G7) as Q1. rewrite (take_claims_exact _ _ _ _ _ G7 r), Ht in Q1. pose proof (map_tokens_amount r _ _ G5) as Q2. rewrite <- Q2. symmetry. rewrite Z.add_comm. exact Q1.
Qed.
(** Codes drawn from an allocation by the badge holder: every hash was free and is now a single-use code with the
    allocation's claims; the allocation counts them and does not exceed its size; no token moves. *)
Theorem C62_codes_from_allocation E cx w pr i hs w' out : step E cx w (OCreateReferralCodesFromAllocation pr i hs) = Ok (w', out) ->
  exists l a, fst pr = REFERRAL /\ cx_proves cx REFERRAL (snd pr) = true /\ gn_allocs (w_gen w) !! snd pr = Some l /\ l !! N.to_nat i = Some a /\
    (ra_count a + N.of_nat (size hs) <= ra_max a)%N /\
    (forall h, h ∈ hs -> gn_codes (w_gen w) !! h = None /\ gn_codes (w_gen w') !! h = Some (mkRC (snd pr) (ra_claims a) 0 1)) /\
    (forall h, h ∉ hs -> gn_codes (w_gen w') !! h = gn_codes (w_gen w) !! h) /\
    gn_allocs (w_gen w') = <[snd pr := <[N.to_nat i := a <| ra_count := (ra_count a + N.of_nat (size hs))%N |>]> l]> (gn_allocs (w_gen w)) /\
    gn_vaults (w_gen w') = gn_vaults (w_gen w) /\ w_refs w' = w_refs w /\ only_referrals_change w w' /\ w_next w' = w_next w /\ o_tokens out = [].
Proof.
  intros H. apply step_gstep in H. match type of H with gstep _ _ _ ?o _ _ => remember o as oo eqn:Eo end. destruct H; try discriminate Eo; try (subst; discriminate). injection Eo as -> -> ->.
  match goal with H : gn_create_from_alloc _ _ _ _ = _ |- _ => rename H into Hg end. unfold gn_create_from_alloc in Hg. bd Hg as (l & Hl & Hg). bd Hg as (a & Ha & Hg). bd Hg as (k & Hk & Hg). bd Hg as (u & Hu & Hg). bd Hg as (codes & G5 & Hg). apply Ok_inj in Hg. subst g. apply expect_Ok in Hl, Ha. apply uadd_Ok in Hk as [-> _]. apply guard_Ok, N.leb_le in Hu.
  destruct (insert_codes_at (fun x : N => (x, mkRC (snd pr) (ra_claims a) 0 1)) _ _ _ G5) as [I1 I2]. exists l, a. rewrite <- H0. split; [reflexivity|]. split; [exact H|]. split; [exact Hl|]. split; [exact Ha|]. split; [exact Hu|].
  split. { intros h Hh. apply elem_of_elements in Hh. exact (I1 _ Hh). }
  split. { intros h Hh. cbn. apply I2. intros x Hx. apply elem_of_elements in Hx. cbn. congruence. }
  do 3 (split; [reflexivity|]). split; [unfold only_referrals_change; destruct w; reflexivity|]. split; [reflexivity|assumption].
Qed.

(** ** Concrete case: in W5 the owner lowers the rebate of referral 0 and mints another referral; the badge holder draws
    the third code of the allocation and buys a code promising 7 base tokens with a bucket of 10. *)
Example C62_ex : exists w1 o1 w2 o2 w3 o3 w4 o4 w5 o5,
  step sc_env cx_owner W5 (OUpdateReferral 0 None (Some 0) (Some 20%N)) = Ok (w1, o1) /\
  step sc_env cx_owner w1 (OMintReferral 0 0 5) = Ok (w2, o2) /\
  step sc_env cx_u5 w2 (OCreateReferralCodesFromAllocation (REFERRAL, 0%N) 0 {[1010%N]}) = Ok (w3, o3) /\
  step sc_env cx_u5 w3 (OCreateReferralCodes (REFERRAL, 0%N) [(BASE, dec 10)] {[1011%N := ([(BASE, dec 7)], 1%N)]}) = Ok (w4, o4) /\
  step sc_env cx_owner w4 (OAddReferralAllocation 0 [(BASE, dec 10)] [(BASE, dec 2)] 4) = Ok (w5, o5) /\
  o_tokens o4 = [(BASE, dec 3)] /\ o_tokens o5 = [(BASE, dec 2)] /\ o_indexes o5 = [Some 1%N] /\ generator_vault w5 BASE = generator_vault W5 BASE + dec 15.
Proof.
  destruct (try_true W5 (cx_owner, OUpdateReferral 0 None (Some 0) (Some 20%N)) (fun w1 _ => try_ w1 (cx_owner, OMintReferral 0 0 5) (fun w2 _ =>
     try_ w2 (cx_u5, OCreateReferralCodesFromAllocation (REFERRAL, 0%N) 0 {[1010%N]}) (fun w3 _ =>
     try_ w3 (cx_u5, OCreateReferralCodes (REFERRAL, 0%N) [(BASE, dec 10)] {[1011%N := ([(BASE, dec 7)], 1%N)]}) (fun w4 o4 =>
     try_ w4 (cx_owner, OAddReferralAllocation 0 [(BASE, dec 10)] [(BASE, dec 2)] 4) (fun w5 o5 => bool_decide (o_tokens o4 = [(BASE, dec 3)]) && bool_decide (o_tokens o5 = [(BASE, dec 2)]) && bool_decide (o_indexes o5 = [Some 1%N]) && (generator_vault w5 BASE =? generator_vault W5 BASE + dec 15))))))) as (w1 & o1 & H1 & Hf); [vm_compute; reflexivity|].
  apply try_true in Hf as (w2 & o2 & H2 & Hf). apply try_true in Hf as (w3 & o3 & H3 & Hf). apply try_true in Hf as (w4 & o4 & H4 & Hf). apply try_true in Hf as (w5 & o5 & H5 & Hf).
  rewrite !andb_true_iff in Hf. destruct Hf as [[[F1 F2] F3] F4]. apply bool_decide_eq_true in F1, F2, F3. apply Z.eqb_eq in F4. exists w1, o1, w2, o2, w3, o3, w4, o4, w5, o5. auto 12.
Qed.

(** Locking a network fee: the delegator pays exactly the amount of XRD, and hands out oaths worth that amount at the
    engine's price times the delegator's multiplier, rounded down twice; its claim on the pool and the oath supply grow by the
    same value, which stays within the limit, and nothing else changes. *)
Theorem C46_lock_fee_exact E cx w amt w' out : step E cx w (OLockFee amt) = Ok (w', out) ->
  exists value, value = Z.quot (Z.quot (cx_usd_price cx * dl_mult (w_dl w)) E18 * amt) E18 /\ 0 <= amt <= dl_vault (w_dl w) /\ 0 <= value /\
    w_oath w + value <= dl_max_lock (w_dl w) /\ o_tokens out = [(FEE_OATH, value)] /\
    w' = w <| w_oath := w_oath w + value |> <| w_dl := w_dl w <| dl_vault := dl_vault (w_dl w) - amt |> <| dl_vb := dl_vb (w_dl w) + value |> |>.
Proof.
  intros H. apply step_exec in H as [H _]. cbn [exec] in H. bd H as ([[d s] b] & H1 & H). apply Ok_inj in H. injection H as <- <-. apply lock_fee_inv in H1.
  destruct H1 as (v & H1 & H2 & H3 & -> & -> & Hv & ->). exists v. do 4 (split; [assumption|]). split; [reflexivity|]. destruct w; reflexivity.
Qed.
Example C46_lock_fee_exact_ex : exists w' out, step sc_env cx_any W5 (OLockFee (dec 1)) = Ok (w', out) /\ exists v, o_tokens out = [(FEE_OATH, v)] /\ 0 < v /\ w_oath w' = w_oath W5 + v.
Proof.
  destruct (try_true W5 (cx_any, OLockFee (dec 1)) (fun w' o => match o_tokens o with [(r, v)] => 0 <? v | _ => false end)) as (w' & out & H & Hf); [vm_compute; reflexivity|]. exists w', out. split; [exact H|].
  destruct (C46_lock_fee_exact _ _ _ _ _ _ H) as (v & _ & _ & _ & _ & Ho & ->). exists v. split; [exact Ho|]. rewrite Ho in Hf. apply Z.ltb_lt in Hf. split; [exact Hf|reflexivity].
Qed.
