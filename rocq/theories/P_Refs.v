(** * Referral references never dangle: an account's or code's referral exists. *)
From Verif Require Import Base DFloat Lists Types Config Oracle Pool Account Fees Referral ExInternal Exchange System Sums Trace Frames Calls Shape Spec P_Ledger P_Accounts Frames2 P_Fees.

Definition refs_ok (w : world) : Prop :=
  (forall a acc id, w_accounts w !! a = Some acc -> ac_ref acc = Some id -> is_Some (w_refs w !! id)) /\
  (forall h c, gn_codes (w_gen w) !! h = Some c -> is_Some (w_refs w !! rc_ref c)).

Lemma acct_call_ref E w a l w' acc acc' : acct_call E w a l w' -> w_accounts w !! a = Some acc -> w_accounts w' !! a = Some acc' -> ac_ref acc' = ac_ref acc.
Proof.
  intros H Ha Ha'. destruct (acct_call_out _ _ _ _ _ _ _ H Ha Ha') as (c & o & idsc & ids & v0 & s1 & refs' & _ & _ & _ & Hcomp & Hs & _ & Hu).
  apply ssteps_comp in Hs. cbn [s_acc] in Hs. destruct Hs as (_ & _ & _ & _ & _ & Hr & _). unfold acc_update in Hu. bd Hu as (l1 & _ & Hu). bd Hu as (l2 & _ & Hu).
  apply Ok_inj in Hu. subst acc'. simpl. congruence.
Qed.
Lemma acct_call_dom E w a l w' : acct_call E w a l w' -> forall id, is_Some (w_refs w !! id) -> is_Some (w_refs w' !! id).
Proof.
  intros H id Hi. apply acct_call_refs in H as [->|(acc & id0 & d0 & b & t & _ & _ & _ & ->)]; [exact Hi|].
  destruct (decide (id = id0)) as [->|Hn]; [rewrite lookup_insert; eauto|rewrite lookup_insert_ne by congruence; exact Hi].
Qed.
Lemma acct_call_refs_ok E w a l w' : acct_call E w a l w' -> refs_ok w -> refs_ok w'.
Proof.
  intros H [A B]. pose proof (acct_call_dom _ _ _ _ _ H) as Hd. pose proof (acct_call_self _ _ _ _ _ H) as ((acc & Ha) & (acc' & Ha') & Ho). split.
  - intros b accb id Hb Hid. apply Hd. destruct (decide (b = a)) as [->|Hn].
    + rewrite Ha' in Hb. injection Hb as <-. rewrite (acct_call_ref _ _ _ _ _ _ _ H Ha Ha') in Hid. eauto.
    + rewrite Ho in Hb by exact Hn. eauto.
  - intros h c Hc. apply Hd. apply acct_call_config in H. destruct H as (_ & _ & _ & Hg & _). rewrite Hg in Hc. eauto.
Qed.
Lemma is_Some_insert {A} (m : gmap N A) k x j : is_Some (m !! j) -> is_Some (<[k := x]> m !! j).
Proof. intros H. destruct (decide (j = k)) as [->|Hn]; [rewrite lookup_insert; eauto|rewrite lookup_insert_ne by congruence; exact H]. Qed.
Lemma insert_codes {A} (f : A -> N * rcode) (l : list A) (m m' : gmap N rcode) :
  rfold (fun cd x => insert_code cd (fst (f x)) (snd (f x))) m l = Ok m' ->
  forall h c, m' !! h = Some c -> m !! h = Some c \/ exists x, x ∈ l /\ f x = (h, c).
Proof.
  revert m. induction l as [|x l IH]; intros m H h c Hh; simpl in H.
  - apply Ok_inj in H. subst. auto.
  - bd H as (m1 & H1 & H). unfold insert_code in H1. bd H1 as (? & _ & H1). apply Ok_inj in H1. subst m1. destruct (IH _ H h c Hh) as [Hl|(y & Hy & Hf)].
    + destruct (decide (h = fst (f x))) as [->|Hn].
      * rewrite lookup_insert in Hl. injection Hl as <-. right. exists x. split; [left|destruct (f x); reflexivity].
      * rewrite lookup_insert_ne in Hl by congruence. auto.
    + right. exists y. split; [right; exact Hy|exact Hf].
Qed.
Lemma gn_add_allocation_codes E g ts id cs n g' rest i : gn_add_allocation E g ts id cs n = Ok (g', rest, i) -> gn_codes g' = gn_codes g.
Proof. unfold gn_add_allocation. intros H. bd H as (? & _ & H). bd H as (? & _ & H). bd H as ([? ?] & _ & H). bd H as (? & _ & H). apply Ok_inj in H. injection H as <- _ _. reflexivity. Qed.
Lemma gn_create_codes_codes E g ts id hs g' rest : gn_create_codes E g ts id hs = Ok (g', rest) ->
  forall h c, gn_codes g' !! h = Some c -> gn_codes g !! h = Some c \/ exists cs n, hs !! h = Some (cs, n) /\ c = mkRC id cs 0 n.
Proof.
  unfold gn_create_codes. intros H. bd H as (? & _ & H). bd H as (? & _ & H). bd H as ([? ?] & _ & H). bd H as (codes & Hc & H). bd H as (? & _ & H). apply Ok_inj in H. injection H as <- _. simpl.
  intros h c Hh. apply (insert_codes (fun x => (fst x, mkRC id (fst (snd x)) 0 (snd (snd x))))) with (h := h) (c := c) in Hc; [|exact Hh].
  destruct Hc as [Hc|([k [cs n]] & Hk & Hf)]; [auto|]. right. injection Hf as -> <-. apply elem_of_map_to_list in Hk. eauto.
Qed.
Lemma gn_create_from_alloc_codes g id i hs g' : gn_create_from_alloc g id i hs = Ok g' ->
  forall h c, gn_codes g' !! h = Some c -> gn_codes g !! h = Some c \/ (h ∈ hs /\ rc_ref c = id /\ rc_count c = 0%N /\ rc_max c = 1%N).
Proof.
  unfold gn_create_from_alloc. intros H. bd H as (? & _ & H). bd H as (al & _ & H). bd H as (? & _ & H). bd H as (? & _ & H). bd H as (codes & Hc & H). apply Ok_inj in H. subst g'. simpl.
  intros h c Hh. apply (insert_codes (fun x => (x, mkRC id (ra_claims al) 0 1))) with (h := h) (c := c) in Hc; [|exact Hh].
  destruct Hc as [Hc|(k & Hk & Hf)]; [auto|]. right. injection Hf as -> <-. apply elem_of_elements in Hk. auto.
Qed.
Lemma gn_claim_codes E g h g' id bs : gn_claim E g h = Ok (g', id, bs) ->
  exists c, gn_codes g !! h = Some c /\ rc_ref c = id /\ (rc_count c < rc_max c)%N /\
    gn_codes g' = <[h := c <| rc_count := (rc_count c + 1)%N |>]> (gn_codes g) /\ gn_allocs g' = gn_allocs g /\
    vts_take_adv_batch E (gn_vaults g) (rc_claims c) ToZero = Ok (gn_vaults g', bs).
Proof.
  unfold gn_claim. intros H. bd H as (c & Hc & H). bd H as (? & Hg & H). bd H as (n & Hn & H). bd H as ([v b] & Ht & H). apply Ok_inj in H. injection H as <- <- <-.
  apply expect_Ok in Hc. apply guard_Ok, N.ltb_lt in Hg. inv_step Hn. exists c. simpl. subst n. auto 10.
Qed.
Lemma gstep_refs_ok E cx w o out w' : gstep E cx w o out w' -> refs_ok w -> refs_ok w'.
Proof.
  intros H Hok. pose proof Hok as [A B]. destruct H; try exact Hok.
  - destruct H0 as (l & H0 & _). eapply acct_call_refs_ok; eauto.
  - apply (acct_call_refs_ok _ _ _ _ _ H1). assert (match ref with Some id => is_Some (w_refs w !! id) | None => True end /\ (forall h c, gn_codes g !! h = Some c -> is_Some (w_refs w !! rc_ref c))) as [Hr Hg].
    { destruct code as [s|].
      - destruct H0 as (id & -> & Hcl). apply gn_claim_codes in Hcl as (c & Hc & <- & _ & Hcd & _). split; [eauto|]. intros h c' Hh. rewrite Hcd in Hh. ins_cases Hh h; eauto.
      - destruct H0 as (-> & -> & _). auto. }
    split; simpl; [|exact Hg]. intros b acc id Hb Hid. ins_cases Hb b; [|eauto]. rewrite Hid in Hr. exact Hr.
  - split; simpl; [intros; apply is_Some_insert; eauto|intros; apply is_Some_insert; eauto].
  - split; simpl; [intros; apply is_Some_insert; eauto|intros; apply is_Some_insert; eauto].
  - split; simpl; [intros; apply is_Some_insert; eauto|]. rewrite (gn_add_allocation_codes _ _ _ _ _ _ _ _ _ H3). intros; apply is_Some_insert; eauto.
  - split; simpl; intros; apply is_Some_insert; eauto.
  - split; simpl; [intros; apply is_Some_insert; eauto|]. rewrite (gn_add_allocation_codes _ _ _ _ _ _ _ _ _ H1). intros; apply is_Some_insert; eauto.
  - split; simpl; [intros; apply is_Some_insert; eauto|]. intros h c Hh. apply is_Some_insert. destruct (gn_create_codes_codes _ _ _ _ _ _ _ H4 _ _ Hh) as [Hc|(cs & k & _ & ->)]; [eauto|]. simpl. eauto.
  - split; simpl; [exact A|]. intros h c Hh. destruct (gn_create_from_alloc_codes _ _ _ _ _ H2 _ _ Hh) as [Hc|(_ & -> & _)]; eauto.
Qed.
Theorem refs_reachable E w : reachable E w -> refs_ok w.
Proof.
  induction 1 as [owner auth keys now w Ha Hn Hg|w cx o w' out Hr IH Hs].
  - apply genesis_inv in Hg as (c & _ & ->). split; intros; simpl in *; rewrite lookup_empty in *; discriminate.
  - eapply gstep_refs_ok; [apply step_gstep; eauto|exact IH].
Qed.
Lemma get_acc_reachable E w a acc : reachable E w -> w_accounts w !! a = Some acc -> exists v, get_acc w a = Ok v /\ va_comp v = acc.
Proof.
  intros Hr Ha. apply refs_reachable in Hr as [A _]. unfold get_acc, va_new. rewrite Ha. simpl. destruct (ac_ref acc) as [id|] eqn:Hid.
  - destruct (A _ _ _ Ha Hid) as [d Hd]. rewrite Hd. simpl. eexists. split; reflexivity.
  - simpl. eexists. split; reflexivity.
Qed.
