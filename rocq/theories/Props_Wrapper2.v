(** * The token wrapper, call by call and as an exact account of every history (C37, C38). *)
From Verif Require Import Base DFloat Lists Types Wrapper Sums Scenario Trace Shape SpecWrapper P_Whole P_Gen Props_Wrapper.

(** Tokens other than the base token handed to unwrap. *)
Definition foreign1 (x : tw_op * list bucket) : Z := match fst x with TUnwrap b _ => if (b_res b =? BASE)%N then 0 else b_amt b | _ => 0 end.
(** What unwrap keeps back because the child token has fewer decimals. *)
Definition kept1 (x : tw_op * list bucket) : Z := match fst x with TUnwrap b _ => b_amt b - lsum b_amt (snd x) | _ => 0 end.

Lemma unwrap_inv E burnable t b r t' out : tw_step E burnable t (TUnwrap b r) = Ok (t', out) ->
  exists i a, tw_inputs t !! r = Some i /\ out = [(r, a)] /\ a = Z.quot (b_amt b) (unit_of E r) * unit_of E r /\ a <= ti_vault i /\ 0 <= b_amt b /\
    tw_inputs t' = <[r := mkTI (ti_vault i - a) (ti_wrappable i)]> (tw_inputs t) /\ tw_auth t' = tw_auth t /\ tw_list t' = tw_list t /\
    tw_base t' = tw_base t - (if (b_res b =? BASE)%N then b_amt b else 0) /\
    tw_flash t' = tw_flash t - (if (b_res b =? FLASH_OATH)%N then b_amt b else 0) /\
    (b_res b = BASE \/ b_res b = FLASH_OATH \/ burnable (b_res b) = true).
Proof.
  intros H. cbn [tw_step] in H. bd H as (? & Hb & H). apply guard_Ok in Hb. destruct (tw_bucket_inv _ _ _ Hb) as (Hp & _). bd H as ([t1 xb] & H1 & H). apply Ok_inj in H. injection H as <- <-. unfold tw_unwrap in H1. bd H1 as (i & Hi & H1). apply expect_Ok in Hi. bd H1 as (a & Ha & H1). bd H1 as (t2 & H2 & H1). apply Ok_inj in H1. injection H1 as <- <-.
  apply take_adv_inv in Ha as [Hr Ha]. unfold round_amount in Hr. cbv zeta in Hr. apply chk_Ok in Hr as [-> _].
  eexists i, _. split; [exact Hi|]. split; [reflexivity|]. split; [reflexivity|]. split; [lia|]. split; [exact Hp|].
  unfold tw_burn in H2. destruct (N.eqb_spec (b_res b) BASE) as [Hr|Hn].
  - bd H2 as (? & _ & H2). apply Ok_inj in H2. subst t2. rewrite Hr. cbn. repeat (split; [reflexivity|]). split; [lia|]. left; reflexivity.
  - destruct (N.eqb_spec (b_res b) FLASH_OATH) as [Hf|Hnf]; bd H2 as (? & Hg & H2); apply Ok_inj in H2; subst t2; cbn.
    + do 3 (split; [reflexivity|]). split; [lia|]. split; [reflexivity|]. right; left; exact Hf.
    + do 3 (split; [reflexivity|]). split; [lia|]. split; [lia|]. right; right. exact (proj1 (guard_Ok _ _ _) Hg).
Qed.

(** ** Wrapping: an accepted child token is put into its vault, exactly as many base tokens are minted and handed out,
    and nothing else changes. *)
Theorem C37_wrap_exact E burnable t b t' out : tw_step E burnable t (TWrap b) = Ok (t', out) ->
  exists i, tw_inputs t !! b_res b = Some i /\ ti_wrappable i = true /\ 1 <= tw_auth t /\
    out = [(BASE, b_amt b)] /\ tw_base t' = tw_base t + b_amt b /\ tw_flash t' = tw_flash t /\ tw_auth t' = tw_auth t /\ tw_list t' = tw_list t /\
    tw_inputs t' = <[b_res b := mkTI (ti_vault i + b_amt b) true]> (tw_inputs t).
Proof.
  intros H. cbn [tw_step] in H. bd H as (? & _ & H). bd H as ([t1 xb] & H1 & H). apply Ok_inj in H. injection H as <- <-. unfold tw_wrap in H1. bd H1 as (i & Hi & H1). apply expect_Ok in Hi. bd H1 as (? & Hw & H1). apply guard_Ok in Hw. bd H1 as (? & Ha & H1). apply guard_Ok, Z.leb_le in Ha. bd H1 as (? & _ & H1). bd H1 as (s & Hs & H1). bd H1 as (? & _ & H1). bd H1 as (v & Hv & H1). apply Ok_inj in H1. injection H1 as <- <-. apply dadd_Ok in Hs as [-> _]. apply dadd_Ok in Hv as [-> _].
  exists i. split; [exact Hi|]. split; [exact Hw|]. split; [exact Ha|]. do 5 (split; [reflexivity|]). cbn. destruct i as [v0 w0]. cbn in Hw. subst w0. reflexivity.
Qed.
(** ** Unwrapping: the child tokens paid out are the amount handed in, less than one unit of the child token less,
    out of that child's vault; the tokens handed in are burnt; nothing else changes. *)
Theorem C37_unwrap_exact E burnable t b r t' out : tw_step E burnable t (TUnwrap b r) = Ok (t', out) ->
  exists i a, tw_inputs t !! r = Some i /\ out = [(r, a)] /\ 0 <= a <= ti_vault i /\ 0 <= b_amt b - a < unit_of E r /\ a mod unit_of E r = 0 /\
    tw_inputs t' = <[r := mkTI (ti_vault i - a) (ti_wrappable i)]> (tw_inputs t) /\ tw_auth t' = tw_auth t /\ tw_list t' = tw_list t /\
    tw_base t' = tw_base t - (if (b_res b =? BASE)%N then b_amt b else 0) /\
    tw_flash t' = tw_flash t - (if (b_res b =? FLASH_OATH)%N then b_amt b else 0).
Proof.
  intros H. apply unwrap_inv in H as (i & a & Hi & -> & Ha & Hle & Hp & R1 & R2 & R3 & R4 & R5 & _). exists i, a. pose proof (unit_pos E r) as Hu.
  assert (a = b_amt b / unit_of E r * unit_of E r) as Hq by (rewrite Ha, Z.quot_div_nonneg by lia; reflexivity). pose proof (Z.div_mod (b_amt b) (unit_of E r) ltac:(lia)) as Hd. pose proof (Z.mod_pos_bound (b_amt b) (unit_of E r) Hu) as Hm. pose proof (Z.div_pos (b_amt b) (unit_of E r) Hp Hu) as Hdp.
  split; [exact Hi|]. split; [reflexivity|]. split; [nia|]. split; [nia|]. split; [rewrite Hq; apply Z.mod_mul; lia|]. repeat (split; [assumption|]). exact R5.
Qed.
(** A round trip through the wrapper returns exactly what was wrapped, and leaves the wrapper as it was. *)
Theorem C37_round_trip E burnable t b t1 o1 t2 o2 : tw_step E burnable t (TWrap b) = Ok (t1, o1) -> tw_step E burnable t1 (TUnwrap (BASE, b_amt b) (b_res b)) = Ok (t2, o2) ->
  b_res b <> BASE -> o2 = [b] /\ tw_base t2 = tw_base t /\ tw_flash t2 = tw_flash t /\ (forall r, tw_inputs t2 !! r = tw_inputs t !! r).
Proof.
  intros H1 H2 Hn. assert (b_amt b mod unit_of E (b_res b) = 0 /\ 0 <= b_amt b) as [Hm Hp].
  { cbn [tw_step] in H1. bd H1 as (? & Hb & _). apply guard_Ok in Hb. unfold tw_bucket_ok, bucket_ok in Hb. rewrite !andb_true_iff in Hb. destruct Hb as [[[A B] C] _]. apply Z.eqb_eq in C. lia. }
  apply C37_wrap_exact in H1 as (i & Hi & Hw & _ & -> & B1 & F1 & _ & _ & I1). apply unwrap_inv in H2 as (j & a & Hj & -> & Ha & _ & _ & I2 & _ & _ & B2 & F2 & _). cbn [b_amt b_res fst snd] in *. rewrite I1, lookup_insert in Hj. injection Hj as <-. pose proof (unit_pos E (b_res b)) as Hu.
  assert (a = b_amt b) as ->. { rewrite Ha, Z.quot_div_nonneg by lia. pose proof (Z.div_mod (b_amt b) (unit_of E (b_res b)) ltac:(lia)) as Hd. nia. }
  change (BASE =? BASE)%N with true in B2. change (BASE =? FLASH_OATH)%N with false in F2. cbv iota in B2, F2. split; [destruct b as [rb ab]; reflexivity|]. split; [lia|]. split; [lia|].
  intros r. rewrite I2, I1. destruct (decide (b_res b = r)) as [<-|Hne]; [|rewrite !lookup_insert_ne by exact Hne; reflexivity]. rewrite lookup_insert, Hi. cbn. replace (ti_vault i + b_amt b - b_amt b) with (ti_vault i) by lia. destruct i as [v0 w0]. cbn in *. subst w0. reflexivity.
Qed.

Lemma unwrap_parts E burnable t o t' out : tw_step E burnable t o = Ok (t', out) -> paid1 (o, out) = unwrapped1 BASE (o, out) + foreign1 (o, out) - kept1 (o, out) /\ 0 <= kept1 (o, out) /\ 0 <= foreign1 (o, out) /\ 0 <= unwrapped1 FLASH_OATH (o, out) <= foreign1 (o, out) /\ 0 <= burnt1 (o, out).
Proof.
  intros H. pose proof (tw_amounts _ _ _ _ _ _ H) as (_ & _ & _ & Hbn & Hu & _ & Ho). pose proof (Hu FLASH_OATH) as Hu'. revert Hbn Hu'. unfold paid1, unwrapped1, foreign1, kept1. cbn [fst snd]. destruct o; intros Hbn Hu'; try (split; [lia|]; repeat split; lia).
  destruct Ho as (a & -> & Ha). change (lsum b_amt [(r, a)]) with (a + 0). destruct (N.eqb_spec (b_res b) BASE) as [Hb|Hb].
  - rewrite Hb. change (BASE =? FLASH_OATH)%N with false. cbv iota. lia.
  - revert Hu'. destruct (b_res b =? FLASH_OATH)%N; lia.
Qed.
(** ** C37 as the code has it. At any moment after deployment the vaults hold the base supply less the flash loans
    outstanding, plus the base tokens burnt by their holders, plus what unwrap kept back for rounding, less every token
    other than the base token that unwrap was given, less the flash loans whose oath was burnt that way. *)
Theorem C37_backing_exact E burnable auth l t : tw_steps E burnable (tw_new auth) l t ->
  vaults_total t = tw_base t - tw_flash t + lsum burnt1 l + lsum kept1 l - lsum foreign1 l - lsum (unwrapped1 FLASH_OATH) l.
Proof.
  intros H. destruct (C38_supplies _ _ _ _ _ H) as (A & B & C). cbn in A, B. change (vaults_total (tw_new auth)) with (msum (fun _ i => ti_vault i) (∅ : gmap resource tw_input)) in C. rewrite msum_empty in C.
  assert (lsum paid1 l = lsum (unwrapped1 BASE) l + lsum foreign1 l - lsum kept1 l); [|lia]. clear - H. induction H as [t|t o out t1 l t2 H1 H2 IH]; [reflexivity|]. rewrite !lsum_cons. pose proof (unwrap_parts _ _ _ _ _ _ H1). lia.
Qed.
(** So the base supply outside flash loans is backed exactly when no more foreign tokens were burnt in unwrap than base
    tokens were burnt or kept back elsewhere ... *)
Theorem C37_backed_iff E burnable auth l t : tw_steps E burnable (tw_new auth) l t ->
  (tw_base t - tw_flash t <= vaults_total t <-> lsum foreign1 l + lsum (unwrapped1 FLASH_OATH) l <= lsum burnt1 l + lsum kept1 l).
Proof. intros H. rewrite (C37_backing_exact _ _ _ _ _ H). lia. Qed.
(** ... and every loss of backing is a call of unwrap with a token that is not the base token: any other call keeps the
    backing or improves it. *)
Theorem C37_only_foreign_unwraps_lose E burnable t o t' out : tw_step E burnable t o = Ok (t', out) ->
  vaults_total t' - (tw_base t' - tw_flash t') < vaults_total t - (tw_base t - tw_flash t) ->
  exists b r, o = TUnwrap b r /\ b_res b <> BASE.
Proof.
  intros H Hlt. destruct (tw_effect _ _ _ _ _ _ H) as (A & B & C). destruct (unwrap_parts _ _ _ _ _ _ H) as (P & K & F & U & Bn). assert (0 < foreign1 (o, out)) as Hf by lia. unfold foreign1 in Hf. cbn [fst] in Hf. destruct o; try lia. exists b, r. split; [reflexivity|]. destruct (N.eqb_spec (b_res b) BASE); [lia|assumption].
Qed.
(** ** C38 as the code has it: every flash-loaned amount has been repaid, or its oath is still outstanding, or its oath
    was burnt in unwrap. *)
Theorem C38_loans_accounted E burnable auth l t : tw_steps E burnable (tw_new auth) l t ->
  lsum loaned1 l = lsum repaid1 l + tw_flash t + lsum (unwrapped1 FLASH_OATH) l.
Proof. intros H. destruct (C38_supplies _ _ _ _ _ H) as (_ & B & _). cbn in B. lia. Qed.
(** When no oath is left, the loans of the history were repaid in full exactly when no oath was given to unwrap. *)
Theorem C38_repaid_iff E burnable t l t' : tw_steps E burnable t l t' -> tw_flash t = 0 -> tw_flash t' = 0 ->
  (lsum repaid1 l = lsum loaned1 l <-> lsum (unwrapped1 FLASH_OATH) l = 0).
Proof. intros H H0 H1. destruct (C38_supplies _ _ _ _ _ H) as (_ & B & _). lia. Qed.
(** An oath leaves existence in two ways only: repaid, with as many base tokens burnt, or burnt by unwrap. *)
Theorem C38_oath_leaves E burnable t o t' out : tw_step E burnable t o = Ok (t', out) -> tw_flash t' < tw_flash t ->
  (exists oath token, o = TRepay oath token /\ tw_base t' - tw_base t = tw_flash t' - tw_flash t) \/ (exists b r, o = TUnwrap b r /\ b_res b = FLASH_OATH).
Proof.
  intros H Hlt. destruct (tw_effect _ _ _ _ _ _ H) as (A & B & _). destruct (tw_amounts _ _ _ _ _ _ H) as (_ & L & _). unfold wrapped1, loaned1, repaid1, unwrapped1, burnt1 in *. cbn [fst] in *. destruct o; try lia.
  - right. exists b, r. split; [reflexivity|]. destruct (N.eqb_spec (b_res b) FLASH_OATH); [assumption|lia].
  - left. eexists _, _. split; [reflexivity|]. lia.
Qed.
(** A history with a wrap, a loan repaid, a base unwrap with rounding and a foreign unwrap. *)
Example C37_exact_ex : exists l t, tw_steps sc_env (fun r => (r =? 30)%N) (tw_new 1) l t /\ lsum foreign1 l = dec 5 /\ lsum kept1 l = 1 /\ lsum loaned1 l = dec 50 /\ vaults_total t = tw_base t - dec 5 + 1.
Proof.
  eexists [(TAddInput 20%N, []); (TAddInput 21%N, []); (TWrap (20%N, dec 60), [(BASE, dec 60)]); (TWrap (21%N, dec 40), [(BASE, dec 40)]); (TFlashLoan (dec 50), [(BASE, dec 50); (FLASH_OATH, dec 50)]); (TRepay (FLASH_OATH, dec 50) (BASE, dec 70), [(BASE, dec 20)]); (TUnwrap (BASE, dec 10 + 1) 21%N, [(21%N, dec 10)]); (TUnwrap (30%N, dec 5) 20%N, [(20%N, dec 5)])], _.
  split; [repeat (eapply tws_cons; [vm_compute; reflexivity|]); apply tws_nil|]. split; [vm_compute; reflexivity|]. split; [vm_compute; reflexivity|]. split; vm_compute; reflexivity.
Qed.
