(** * Token conservation. *)
From Verif Require Import Base DFloat Lists Types Config Oracle Pool Account Fees Referral ExInternal Exchange System Sums Trace Frames Calls Shape Spec P_Ledger P_Accounts Frames2 P_Fees.

Lemma amount_app r l k : amount_in r (l ++ k) = amount_in r l + amount_in r k.
Proof. apply lsum_app. Qed.
Lemma amount_cons r b l : amount_in r (b :: l) = (if (b_res b =? r)%N then b_amt b else 0) + amount_in r l.
Proof. reflexivity. Qed.
Lemma vt_ins (v : vaults) (k r : resource) (x : Z) : default 0 ((<[k := x]> v : vaults) !! r) = if (k =? r)%N then x else default 0 (v !! r).
Proof.
  unfold vaults, resource in *. destruct (N.eqb_spec k r) as [<-|Hn]; [rewrite lookup_insert; reflexivity|rewrite lookup_insert_ne by exact Hn; reflexivity].
Qed.
Lemma vts_put_amount v b v' (r : resource) : vts_put v b = Ok v' -> default 0 (v' !! r) = default 0 (v !! r) + (if (b_res b =? r)%N then b_amt b else 0).
Proof.
  unfold vts_put, vts_amount. intros H. bd H as (x & Hx & H). apply Ok_inj in H. subst v'. inv_step Hx. subst x.
  rewrite vt_ins. destruct (N.eqb_spec (b_res b) r) as [<-|Hn]; [reflexivity|rewrite Z.add_0_r; reflexivity].
Qed.
Lemma vts_put_batch_amount (r : resource) bs v v' : vts_put_batch v bs = Ok v' -> default 0 (v' !! r) = default 0 (v !! r) + amount_in r bs.
Proof.
  unfold vts_put_batch. revert v. induction bs as [|b bs IH]; intros v H; simpl in H.
  - apply Ok_inj in H. subst. unfold amount_in. simpl. lia.
  - bd H as (v1 & H1 & H). apply (vts_put_amount _ _ _ r) in H1. apply IH in H. rewrite H, H1, amount_cons. lia.
Qed.
Lemma vts_take_adv_amount E v (r0 : resource) amt s v' b (r : resource) : vts_take_adv E v r0 amt s = Ok (v', b) ->
  b_res b = r0 /\ 0 <= b_amt b <= default 0 (v !! r0) /\ default 0 (v' !! r) = default 0 (v !! r) - (if (b_res b =? r)%N then b_amt b else 0).
Proof.
  unfold vts_take_adv, vts_amount. intros H. bd H as (x & Hx & H). apply Ok_inj in H. injection H as <- <-. apply take_adv_inv in Hx as [_ Hx].
  split; [reflexivity|]. split; [exact Hx|].
  cbn [b_res b_amt fst snd]. rewrite vt_ins. destruct (N.eqb_spec r0 r) as [<-|Hn]; [reflexivity|rewrite Z.sub_0_r; reflexivity].
Qed.
Lemma vts_take_batch_amount E (r : resource) s cs v v' bs : vts_take_adv_batch E v cs s = Ok (v', bs) -> default 0 (v' !! r) = default 0 (v !! r) - amount_in r bs.
Proof.
  revert v v' bs. induction cs as [|[r0 amt] cs IH]; intros v v' bs H; simpl in H.
  - apply Ok_inj in H. injection H as <- <-. unfold amount_in. simpl. lia.
  - bd H as ([v1 b] & H1 & H). bd H as ([v2 bs2] & H2 & H). apply Ok_inj in H. injection H as <- <-.
    apply (vts_take_adv_amount _ _ _ _ _ _ _ r) in H1 as (_ & _ & H1). apply IH in H2. rewrite H2, H1, amount_cons. lia.
Qed.
Lemma map_tokens_amount (r : resource) ts m : map_tokens ts = Ok m -> default 0 (m !! r) = amount_in r ts.
Proof.
  unfold map_tokens.
  match goal with |- rfold ?f _ _ = _ -> _ => assert (forall l m0 m1, rfold f m0 l = Ok m1 ->
    default 0 (m1 !! r) = default 0 (m0 !! r) + amount_in r l) as Hg end.
  { induction l as [|b l IH]; intros m0 m1 H; simpl in H.
    - apply Ok_inj in H. subst. unfold amount_in. simpl. lia.
    - bd H as (m2 & H1 & H). apply IH in H. rewrite H, amount_cons.
      assert (default 0 (m2 !! r) = default 0 (m0 !! r) + (if (b_res b =? r)%N then b_amt b else 0)) as ->; [|lia].
      destruct (m0 !! b_res b) as [x|] eqn:Hx.
      + bd H1 as (y & Hy & H1). apply Ok_inj in H1. subst m2. inv_step Hy. subst y.
        destruct (N.eqb_spec (b_res b) r) as [<-|Hn]; [rewrite lookup_insert, Hx; reflexivity|rewrite lookup_insert_ne by exact Hn; lia].
      + apply Ok_inj in H1. subst m2.
        destruct (N.eqb_spec (b_res b) r) as [<-|Hn]; [rewrite lookup_insert, Hx; reflexivity|rewrite lookup_insert_ne by exact Hn; lia]. }
  intros H. apply Hg in H. rewrite H, lookup_empty. reflexivity.
Qed.
Lemma take_claims_amount E (r : resource) m total rest taken : take_claims E m total = Ok (rest, taken) ->
  default 0 (rest !! r) + amount_in r taken = default 0 (m !! r).
Proof.
  unfold take_claims.
  assert (forall l s s', rfold (take_claim E) s l = Ok s' -> default 0 (fst s' !! r) + amount_in r (snd s') = default 0 (fst s !! r) + amount_in r (snd s)) as Hg.
  { apply (rfold_ind _ (fun s s' => default 0 (fst s' !! r) + amount_in r (snd s') = default 0 (fst s !! r) + amount_in r (snd s))); [reflexivity|].
    intros [m0 o0] [r0 x] [m1 o1] s2 H Hs. simpl in *. rewrite Hs. clear Hs. destruct (m0 !! r0) as [have|] eqn:Hh.
    - bd H as (? & _ & H). bd H as (a & _ & H). apply Ok_inj in H. injection H as <- <-. rewrite amount_app, amount_cons. simpl.
      change (amount_in r []) with 0.
      destruct (N.eqb_spec r0 r) as [<-|Hn]; [rewrite lookup_insert, Hh; simpl; lia|rewrite lookup_insert_ne by exact Hn; lia].
    - bd H as (? & _ & H). apply Ok_inj in H. injection H as <- <-. reflexivity. }
  intros H. apply Hg in H. simpl in H. change (amount_in r []) with 0 in H. lia.
Qed.
Lemma amount_map (r : resource) (m : gmap resource Z) : amount_in r (map_to_list m) = default 0 (m !! r).
Proof.
  induction m as [|k x m Hk IH] using map_ind; [reflexivity|].
  transitivity (amount_in r ((k, x) :: map_to_list m)).
  { unfold amount_in. apply lsum_perm. apply map_to_list_insert. exact Hk. }
  rewrite amount_cons, IH. cbn [b_res b_amt fst snd].
  destruct (N.eqb_spec k r) as [<-|Hn]; [rewrite lookup_insert, Hk; simpl; lia|rewrite lookup_insert_ne by exact Hn; lia].
Qed.
Lemma gn_add_allocation_amount E g ts ref cs n g' rest i (r : resource) : gn_add_allocation E g ts ref cs n = Ok (g', rest, i) ->
  default 0 (gn_vaults g' !! r) + amount_in r rest = default 0 (gn_vaults g !! r) + amount_in r ts.
Proof.
  unfold gn_add_allocation. intros H. bd H as (m & H1 & H). bd H as (tot & H2 & H). bd H as ([rm taken] & H3 & H). bd H as (v & H4 & H).
  apply Ok_inj in H. injection H as <- <- <-. simpl. rewrite amount_map. apply (vts_put_batch_amount r) in H4. apply (take_claims_amount _ r) in H3.
  apply (map_tokens_amount r) in H1. lia.
Qed.
Lemma gn_create_codes_amount E g ts ref hs g' rest (r : resource) : gn_create_codes E g ts ref hs = Ok (g', rest) ->
  default 0 (gn_vaults g' !! r) + amount_in r rest = default 0 (gn_vaults g !! r) + amount_in r ts.
Proof.
  unfold gn_create_codes. intros H. bd H as (m & H1 & H). bd H as (tot & H2 & H). bd H as ([rm taken] & H3 & H). bd H as (cd & H3' & H). bd H as (v & H4 & H).
  apply Ok_inj in H. injection H as <- <-. simpl. rewrite amount_map. apply (vts_put_batch_amount r) in H4. apply (take_claims_amount _ r) in H3.
  apply (map_tokens_amount r) in H1. lia.
Qed.
Lemma gn_create_from_alloc_vaults g ref i hs g' : gn_create_from_alloc g ref i hs = Ok g' -> gn_vaults g' = gn_vaults g.
Proof. unfold gn_create_from_alloc. intros H. bd H as (l & H1 & H). bd H as (a & H2 & H). bd H as (n & H3 & H). bd H as (? & H4 & H). bd H as (cd & H5 & H). apply Ok_inj in H. subst. reflexivity. Qed.
Lemma gn_claim_amount E g h g' id bs (r : resource) : gn_claim E g h = Ok (g', id, bs) -> default 0 (gn_vaults g' !! r) + amount_in r bs = default 0 (gn_vaults g !! r).
Proof.
  unfold gn_claim. intros H. bd H as (cd & H1 & H). bd H as (? & H2 & H). bd H as (n & H3 & H). bd H as ([v b] & H4 & H). apply Ok_inj in H. injection H as <- _ <-.
  apply (vts_take_batch_amount _ r) in H4. simpl. lia.
Qed.

(** Sessions. *)
Definition s_holds (r : resource) (s : sess) : Z :=
  (if (r =? BASE)%N then po_base (vp_comp (s_pool s)) else 0) + default 0 (ac_vaults (va_comp (s_acc s)) !! r).
Definition act_in (r : resource) (x : sact) : Z :=
  match x with
  | AAddBase v | ADepositBase v => if (r =? BASE)%N then v else 0
  | ATakeBase v => if (r =? BASE)%N then - v else 0
  | ADeposit bs => amount_in r bs
  | AWithdraw bs => - amount_in r bs
  | _ => 0
  end.
Lemma sstep_holds E now c o s x s' (r : resource) : sstep E now c o s x s' -> s_holds r s' = s_holds r s + act_in r x.
Proof.
  intros H. destruct (touches_coll x) eqn:Tc; [|destruct (touches_base x) eqn:Tb].
  - assert (touches_base x = false) as Tb by (destruct x; simpl in *; congruence).
    pose proof (sstep_frames _ _ _ _ _ _ _ H) as (_ & _ & _ & _ & _ & _ & Fb & _). specialize (Fb Tb).
    unfold g_base in Fb. injection Fb as _ Fb. unfold s_holds. rewrite Fb. destruct H; try discriminate Tc; cbn [s_pool s_acc act_in].
    + unfold va_deposit, acc_deposit in H. bd H as (c1 & _ & H). bd H as (a1 & Ha & H). bd Ha as (c2 & _ & Ha). bd Ha as (v & Hv & Ha).
      apply Ok_inj in Ha, H. subst. simpl. apply (vts_put_batch_amount r) in Hv. lia.
    + unfold va_withdraw, acc_withdraw in H. bd H as ([a1 bs1] & Ha & H). bd H as (c1 & _ & H). bd Ha as ([v bs2] & Hv & Ha). bd Ha as (c2 & _ & Ha).
      apply Ok_inj in Ha, H. injection Ha as <- <-. injection H as <- <-. simpl. apply (vts_take_batch_amount _ r) in Hv. lia.
  - pose proof (sstep_frames _ _ _ _ _ _ _ H) as (_ & _ & Fc & _). specialize (Fc Tc). unfold g_coll in Fc. injection Fc as _ _ Fc.
    unfold s_holds. rewrite Fc. destruct H; try discriminate Tb; cbn [s_pool s_acc act_in].
    + apply x_add_base_inv in H as [-> _]. simpl. destruct (r =? BASE)%N; lia.
    + apply vp_withdraw_inv in H as [_ ->]. apply x_settle_account_inv in H1 as [-> _]. simpl. destruct (r =? BASE)%N; lia.
    + apply vp_deposit_inv in H as ->. simpl. destruct (r =? BASE)%N; lia.
  - pose proof (sstep_frames _ _ _ _ _ _ _ H) as (_ & _ & Fc & _ & _ & _ & Fb & _). specialize (Fc Tc). specialize (Fb Tb).
    unfold g_coll in Fc. injection Fc as _ _ Fc. unfold g_base in Fb. injection Fb as _ Fb. unfold s_holds. rewrite Fc, Fb.
    destruct x; simpl in *; try discriminate; lia.
Qed.
Lemma ssteps_holds E now c o s l s' (r : resource) : ssteps E now c o s l s' -> s_holds r s' = s_holds r s + lsum (act_in r) l.
Proof. induction 1 as [|s x s1 l s2 H1 H2 IH]; [simpl; lia|]. rewrite IH, (sstep_holds _ _ _ _ _ _ _ r H1), lsum_cons. lia. Qed.

Lemma acct_call_holds E w a l w' (r : resource) : acct_call E w a l w' -> holdings w' r = holdings w r + lsum (act_in r) l.
Proof.
  intros [c o idsc ids v0 s1 acc' refs' Hc Ho Hv Hs Hz Hw]. rewrite Hw. apply (ssteps_holds _ _ _ _ _ _ _ r) in Hs.
  unfold holdings, final_world. simpl. pose proof (get_acc_comp _ _ _ Hv) as Ha. rewrite (msum_insert_some _ _ _ _ _ Ha).
  apply va_realize_inv in Hz as [Hu _]. unfold acc_update in Hu. bd Hu as (r1 & _ & Hu). bd Hu as (r2 & _ & Hu). apply Ok_inj in Hu. subst acc'. simpl.
  unfold s_holds in Hs. cbn [s_pool s_acc] in Hs. unfold get_pool in Hs. rewrite vp_new_comp in Hs. destruct (r =? BASE)%N; lia.
Qed.
Lemma lsum_act_adds (r : resource) ts : lsum (act_in r) (add_acts ts) = amount_in r ts.
Proof.
  unfold add_acts. rewrite lsum_app, lsum_map. rewrite lsum_cons. simpl (lsum _ []). cbn [act_in]. rewrite Z.add_0_r.
  induction ts as [|b ts IH]; [reflexivity|]. rewrite (amount_cons r b ts). cbn [List.filter].
  destruct (is_base b) eqn:Hb; cbn [negb].
  - rewrite lsum_cons. cbn [act_in]. apply N.eqb_eq in Hb. rewrite Hb, (N.eqb_sym BASE r). destruct (r =? BASE)%N; lia.
  - rewrite amount_cons. lia.
Qed.
Lemma lsum_act_oath r o : lsum (act_in r) (oath_acts o) = 0.
Proof. destruct o; reflexivity. Qed.
Lemma lsum_act_push r l : Forall is_push l -> lsum (act_in r) l = 0.
Proof. induction 1 as [|x l Hx _ IH]; [reflexivity|]. rewrite lsum_cons, IH. destruct x; simpl in *; tauto. Qed.
Lemma amount_base_list r k : amount_in r (map (fun v => (BASE, v)) k) = - lsum (act_in r) (map ATakeBase k).
Proof. induction k as [|v k IH]; [reflexivity|]. simpl map. rewrite amount_cons, lsum_cons, IH. cbn [b_res b_amt fst snd act_in]. rewrite (N.eqb_sym r BASE). destruct (BASE =? r)%N; lia. Qed.
