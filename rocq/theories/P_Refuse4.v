(** * Why the prices a keeper's call needs cannot be read (for C65). *)
From Verif Require Import Base DFloat Lists Types Config Oracle Pool Account Fees Referral ExInternal Exchange System Sums Trace Frames Calls Spec SpecOracle SpecTrading SpecRequests SpecMargin SpecRefuse P_Ledger P_Accounts P_Fees P_Refs Frames2 P_Requests P_Requests2 Trading P_Oracle P_Keeper P_Refuse P_Refuse2 P_Refuse3.

Lemma feed1_origin m f k a : vo_feed1 m f !! k = Some a -> m !! k = Some a \/ f = (fst f, (k, a)).
Proof.
  unfold vo_feed1. destruct f as [r [p age]]. cbn [fst]. destruct (m !! p) as [x|] eqn:Hx; [destruct (age <? x)|].
  - destruct (decide (p = k)) as [->|Hn]; [rewrite lookup_insert; intros [= ->]; auto|rewrite lookup_insert_ne by exact Hn; auto].
  - auto.
  - destruct (decide (p = k)) as [->|Hn]; [rewrite lookup_insert; intros [= ->]; auto|rewrite lookup_insert_ne by exact Hn; auto].
Qed.
Lemma merge_origin (feeds : gmap resource (pair_id * Z)) pairs k a : vo_merge_feeds feeds pairs !! k = Some a -> pairs !! k = Some a \/ exists r, feeds !! r = Some (k, a).
Proof.
  unfold vo_merge_feeds. assert (forall l m, foldl vo_feed1 m l !! k = Some a -> m !! k = Some a \/ exists r, (r, (k, a)) ∈ l) as G.
  { induction l as [|f l IH]; intros m H; [auto|]. cbn [foldl] in H. apply IH in H as [H|[r H]]; [|right; exists r; right; exact H].
    apply feed1_origin in H as [H|H]; [auto|]. right. exists (fst f). rewrite <- H. left. }
  intros H. apply G in H as [H|[r H]]; [auto|]. right. exists r. apply elem_of_map_to_list. exact H.
Qed.
Lemma push_told (m : gmap pair_id (Z * Z)) ps k : foldl oracle_push1 m ps !! k = foldl (newer k) (m !! k) ps.
Proof.
  revert m. induction ps as [|p ps IH]; intros m; [reflexivity|]. cbn [foldl]. rewrite IH. f_equal. unfold oracle_push1, newer.
  destruct (N.eqb_spec (pr_pair p) k) as [<-|Hn].
  - destruct (m !! pr_pair p) as [[q t]|] eqn:Hm; [destruct (t <? pr_time p)|]; [apply lookup_insert|exact Hm|apply lookup_insert].
  - destruct (m !! pr_pair p) as [[q t]|]; [destruct (t <? pr_time p)|]; try reflexivity; apply lookup_insert_ne; exact Hn.
Qed.
Lemma f_push_msg E w msg : fails (bad_message E w (Some msg)) (oracle_push E (w_oracle w) msg).
Proof.
  destruct msg as [[data sg] key]. unfold oracle_push. assert (forall e, (e = EInvalidData /\ e_decode E data = None \/ e = EInvalidKeyId /\ or_keys (w_oracle w) !! key = None \/
    e = EInvalidSignature /\ exists pk, or_keys (w_oracle w) !! key = Some pk /\ e_verify E pk data sg = false) -> bad_message E w (Some (data, sg, key)) e) as Hb by (intros e He; exists data, sg, key; auto).
  apply f_bind. { intros e He. apply Hb. destruct (e_decode E data); [discriminate He|]. injection He as <-. auto. }
  intros ps _. apply f_bind. { intros e He. apply Hb. destruct (or_keys (w_oracle w) !! key); [discriminate He|]. injection He as <-. auto. }
  intros pk Hpk. apply expect_Ok in Hpk. apply f_bind; [|intros; apply f_Ok]. apply f_guard. intros Hv. apply Hb. right; right. eauto.
Qed.
Lemma told_push E w upd o1 : match upd with Some msg => oracle_push E (w_oracle w) msg | None => Ok (w_oracle w) end = Ok o1 -> forall k, or_prices o1 !! k = told E w upd k.
Proof.
  destruct upd as [[[data sg] key]|]; cbn [told]; intros H k; [|apply Ok_inj in H; subst; reflexivity].
  unfold oracle_push in H. bd H as (ps & Hps & H). bd H as (pk & Hpk & H). bd H as ([] & _ & H). apply Ok_inj in H. subst o1. apply expect_Ok in Hps. rewrite Hps. cbn [default or_prices]. apply push_told.
Qed.
Lemma f_oracle_get (o : oracle) ids : fails (fun e => e = EMissingPair /\ exists k, k ∈ ids /\ or_prices o !! k = None) (oracle_get o ids).
Proof.
  unfold oracle_get. apply (f_rfold _ (fun _ => True)); [|auto|exact I]. intros m k Hk _. apply f_bind; [|intros; apply f_Ok]. intros e He. destruct (or_prices o !! k) eqn:Hp; [discriminate He|]. injection He as <-. split; [reflexivity|]. exists k. split; [apply elem_of_elements; exact Hk|exact Hp].
Qed.
Lemma f_ineg x : fails ar (ineg x). Proof. unfold ineg. destruct (in_i64 (- x)); [apply f_Ok|apply f_Err; reflexivity]. Qed.
(** Any reader of prices. *)
Lemma f_vo E w feeds pairs upd : fails (fun e => bad_message E w upd e \/ (exists k age, (pairs !! k = Some age \/ exists r, feeds !! r = Some (k, age)) /\ bad_price E w upd k age e) \/ e = EArithmetic) (vo_new E (w_now w) (w_oracle w) feeds pairs upd).
Proof.
  unfold vo_new. cbv zeta. apply f_bind. { eapply f_mono; [|intros e He; left; exact He]. destruct upd; [apply f_push_msg|apply f_Ok]. }
  intros o1 Ho1. pose proof (told_push _ _ _ _ Ho1) as Ht. apply f_bind.
  { eapply f_mono; [apply f_oracle_get|]. intros e (-> & k & Hk & Hn). apply elem_of_dom in Hk as [age Hk]. right; left. exists k, age. split; [apply merge_origin; exact Hk|]. left. split; [reflexivity|]. rewrite <- Ht. exact Hn. }
  intros got Hgot. pose proof (oracle_get_spec _ _ _ Hgot) as Hg. apply f_bind; [|intros; apply f_Ok].
  apply (f_rfold _ (fun _ => True)); [|auto|exact I]. intros m [k [p t]] Hk _. apply elem_of_map_to_list in Hk. rewrite Hg in Hk. destruct (bool_decide_reflect (k ∈ dom (vo_merge_feeds feeds pairs))) as [Hd|Hd]; [|discriminate Hk].
  rewrite Ht in Hk. apply elem_of_dom in Hd as [age Hage]. unfold vo_price1. match goal with |- context [expect ?x _] => assert (x = Some age) as -> by exact Hage end. cbn [expect mbind res_bind].
  apply f_bind; [apply (f_arP _ _ (or_intror (or_intror eq_refl))); apply f_ineg|]. intros n Hn. assert (n = - age) as ->. { unfold ineg in Hn. destruct (in_i64 (- age)); [apply Ok_inj in Hn; auto|discriminate Hn]. }
  apply f_bind; [apply (f_arP _ _ (or_intror (or_intror eq_refl))); apply f_iadd|]. intros mt Hmt. apply iadd_Ok in Hmt as [-> _].
  apply f_bind. { apply f_guard. intros H. apply Z.ltb_ge in H. right; left. exists k, age. split; [apply merge_origin; exact Hage|]. right; left. split; [reflexivity|]. exists p, t. split; [exact Hk|lia]. }
  intros [] _. apply f_bind; [|intros; apply f_Ok]. apply f_guard. intros H. apply Z.ltb_ge in H. right; left. exists k, age. split; [apply merge_origin; exact Hage|]. right; right. split; [reflexivity|]. exists p, t. auto.
Qed.
Lemma f_oracle E w ids c feeds upd (Q : pair_id -> Prop) : get_config w ids = Ok c -> (forall k age, feeds !! k = Some age -> Q k /\ pair_max_age w k = Some age) ->
  fails (fun e => bad_message E w upd e \/ (exists k age, (feed_max_age w k age \/ Q k /\ pair_max_age w k = Some age) /\ bad_price E w upd k age e) \/ e = EArithmetic) (get_oracle E w c feeds upd).
Proof.
  intros Hc Hf. unfold get_oracle. eapply f_mono; [apply f_vo|]. intros e [H|[(k & age & Ho & Hb)|H]]; [auto| |auto]. right; left. exists k, age. split; [|exact Hb].
  destruct Ho as [Ho|[r Ho]]; [right; apply Hf; exact Ho|]. left. apply vc_new_spec in Hc as (_ & C2 & _). unfold vc_feeds in Ho. rewrite C2, !lookup_fmap in Ho.
  match type of Ho with context [?t] => match t with lookup r (cf_collaterals (w_config w)) => destruct t as [cc|] eqn:Hcc end end; [|discriminate Ho]. cbn in Ho. injection Ho as <- <-. exists r, cc. auto.
Qed.
Lemma f_feeds w ids c : get_config w ids = Ok c -> fails none (x_pair_feeds c ids).
Proof.
  intros Hc. destruct (vc_new_spec _ _ _ Hc) as (_ & _ & C3 & _). unfold x_pair_feeds. apply (f_rfold _ (fun _ => True)); [|auto|exact I]. intros m k Hk _. apply f_bind; [|intros; apply f_Ok]. unfold vc_pair. apply f_some. apply elem_of_elements in Hk. destruct (C3 k Hk) as (pc & _ & Hp). eauto.
Qed.
Lemma feeds_age w ids c feeds : get_config w ids = Ok c -> x_pair_feeds c ids = Ok feeds -> forall k age, feeds !! k = Some age -> k ∈ ids /\ pair_max_age w k = Some age.
Proof.
  intros Hc Hf. destruct (vc_new_spec _ _ _ Hc) as (_ & _ & C3 & _).
  assert (forall l (m0 m : gmap pair_id Z), rfold (fun (m : gmap pair_id Z) p => pc ← vc_pair c p; Ok (<[p := pc_price_age_max pc]> m)) m0 l = Ok m -> forall k age, m !! k = Some age -> m0 !! k = Some age \/ k ∈ l /\ exists pc, vc_pairs c !! k = Some pc /\ age = pc_price_age_max pc) as G.
  { induction l as [|p l IH]; intros m0 m H k age Hk; cbn [rfold] in H; [apply Ok_inj in H; subst; auto|]. bd H as (m1 & H1 & H). bd H1 as (pc & Hpc & H1). apply Ok_inj in H1. subst m1. apply expect_Ok in Hpc.
    destruct (IH _ _ H _ _ Hk) as [Hk'|(Hl & Hx)]; [|right; split; [right; exact Hl|exact Hx]]. destruct (decide (p = k)) as [->|Hn]; [rewrite lookup_insert in Hk'; injection Hk' as <-; right; split; [left|eauto]|rewrite lookup_insert_ne in Hk' by exact Hn; auto]. }
  intros k age Hk. unfold x_pair_feeds in Hf. destruct (G _ _ _ Hf _ _ Hk) as [H|(Hl & pc & Hpc & ->)]; [rewrite lookup_empty in H; discriminate H|]. apply elem_of_elements in Hl. split; [exact Hl|].
  destruct (C3 k Hl) as (pc0 & P1 & P2). rewrite P2 in Hpc. injection Hpc as <-. unfold pair_max_age. match goal with |- _ <$> ?t = _ => assert (t = Some pc0) as -> by exact P1 end. reflexivity.
Qed.
