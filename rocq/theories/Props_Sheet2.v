(** * C73, with funding: what the pool is still to receive is what the positions owe. *)
From Verif Require Import Base DFloat Lists Types Config Oracle Pool Account Fees Referral ExInternal Exchange System Scenario Sums Trace Frames Calls Shape Spec SpecAuth SpecOracle SpecRequests SpecTrading SpecMargin SpecFunding P_Ledger P_Accounts Witness Frames2 P_Requests2 P_Snaps P_Adl Props_Ledger Props_Positions Props_Orders Props_Liq Props_Adl Props_Funding Props_Funding2 Props_Accrual P_Access Props_Access Props_Deposits Props_Provenance Props_Sheet.

(** What all open positions owe in funding. *)
Definition total_owed (w : world) : Z := sum_accounts (fun acc => msum (fun k x => funding_owed (pool_pair w k) x) (ac_positions acc)) w.
(** Rounding allowed to a call, in units of 10^-36: for each pair it updates, 2 for each unit of open interest and 2 * 10^18 for each holder. *)
Definition allowance (w : world) (o : op) : Z := lsum (fun k => 2 * (open_interest_long w k + open_interest_short w k) + 2 * 10 ^ 18 * holders w k) (elements (updated_pairs w o)).

(** ** Sums over a common index *)
Lemma msum_lin {A} (f g c : N -> A -> Z) (e : Z) m : (forall k x, m !! k = Some x -> Z.abs (e * f k x + g k x) <= c k x) -> Z.abs (e * msum f m + msum g m) <= msum c m.
Proof.
  induction m as [|k x m Hk IH] using map_ind; intros H; [rewrite !msum_empty; lia|]. rewrite !(msum_insert_new _ _ _ _ Hk). pose proof (H k x (lookup_insert _ _ _)) as H1.
  assert (Z.abs (e * msum f m + msum g m) <= msum c m). { apply IH. intros j y Hj. apply H. rewrite lookup_insert_ne; [exact Hj|]. intros <-. rewrite Hk in Hj. discriminate Hj. } lia.
Qed.
Lemma lsum_elements {B} (f : pair_id -> Z) (U : gset pair_id) (M : gmap pair_id B) : (forall k, k ∈ U -> is_Some (M !! k)) ->
  lsum f (elements U) = msum (fun k _ => if decide (k ∈ U) then f k else 0) M.
Proof.
  intros HU. rewrite <- (msum_sub (fun k => if decide (k ∈ U) then f k else 0) M (gset_to_gmap tt U)).
  - rewrite msum_lsum. assert (elements U = elements (dom (gset_to_gmap tt U : gmap pair_id unit))) as -> by (rewrite dom_gset_to_gmap; reflexivity).
    rewrite (lsum_perm _ _ _ (dom_perm (gset_to_gmap tt U))). rewrite lsum_map. apply lsum_ext. intros [k []] Hk. apply elem_of_map_to_list in Hk. apply lookup_gset_to_gmap_Some in Hk as [Hk _]. cbn. rewrite decide_True by exact Hk. reflexivity.
  - intros k [[] Hk]. apply lookup_gset_to_gmap_Some in Hk as [Hk _]. apply HU. exact Hk.
  - intros k _ Hn. apply lookup_gset_to_gmap_None in Hn. rewrite decide_False by exact Hn. reflexivity.
Qed.
Section Over.
Context {B : Type} (E : env) (w : world) (A : gmap addr account) (M : gmap pair_id B).
Hypothesis Hr : reachable E w.
Hypothesis HA : forall a, is_Some (w_accounts w !! a) -> is_Some (A !! a).
Hypothesis HM : forall k, is_Some (po_positions (w_pool w) !! k) -> is_Some (M !! k).
Lemma over_accounts (f : account -> Z) (h : addr -> Z) : (forall a acc, w_accounts w !! a = Some acc -> f acc = h a) -> (forall a, w_accounts w !! a = None -> h a = 0) ->
  sum_accounts f w = msum (fun a _ => h a) A.
Proof.
  intros H1 H2. rewrite <- (msum_sub h A (w_accounts w)); [|exact HA|intros a _ Hn; exact (H2 a Hn)]. unfold sum_accounts. apply msum_ext. exact H1.
Qed.
Lemma position_some a acc k : w_accounts w !! a = Some acc -> position w a k = held acc k.
Proof. intros Ha. unfold position. rewrite Ha. reflexivity. Qed.
Lemma position_none a k : w_accounts w !! a = None -> position w a k = mkAP 0 0 0.
Proof. intros Ha. unfold position. rewrite Ha. reflexivity. Qed.
Lemma owed_over : total_owed w = msum (fun k _ => msum (fun a _ => funding_owed (pool_pair w k) (position w a k)) A) M.
Proof.
  rewrite (msum_swap (fun k _ a _ => funding_owed (pool_pair w k) (position w a k)) M A). unfold total_owed.
  apply (over_accounts _ (fun a => msum (fun k _ => funding_owed (pool_pair w k) (position w a k)) M)).
  - intros a acc Ha. transitivity (msum (fun k _ => funding_owed (pool_pair w k) (held acc k)) M).
    + rewrite <- (msum_sub (fun k => funding_owed (pool_pair w k) (held acc k)) M (ac_positions acc)).
      * apply msum_ext. intros k x Hx. unfold held. match goal with |- context[match ?t with Some _ => _ | None => _ end] => assert (t = Some x) as Ht by exact Hx; rewrite Ht end. reflexivity.
      * intros k Hk. apply HM. eapply held_known; eassumption.
      * intros k _ Hn. unfold held. match goal with |- context[match ?t with Some _ => _ | None => _ end] => assert (t = None) as Ht by exact Hn; rewrite Ht end. reflexivity.
    + apply msum_ext. intros k x _. rewrite (position_some _ _ _ Ha). reflexivity.
  - intros a Ha. apply msum_zero. intros k x _. rewrite (position_none _ _ Ha). reflexivity.
Qed.
Definition holds (k : pair_id) (a : addr) : Z := match w_accounts w !! a with Some acc => if ac_positions acc !! k then 1 else 0 | None => 0 end.
Lemma holders_over k : holders w k = msum (fun a _ => holds k a) A.
Proof.
  unfold holders. apply over_accounts; unfold holds.
  - intros a acc Ha. rewrite Ha. reflexivity.
  - intros a Ha. rewrite Ha. reflexivity.
Qed.
Lemma interest_over k : open_interest_long w k = msum (fun a _ => Z.max (ap_amount (position w a k)) 0) A /\ open_interest_short w k = msum (fun a _ => Z.max (- ap_amount (position w a k)) 0) A.
Proof.
  destruct (C17_open_interest E w k Hr) as (-> & -> & _). split.
  - apply (over_accounts _ (fun a => Z.max (ap_amount (position w a k)) 0)); intros a; [intros acc Ha; rewrite (position_some _ _ _ Ha); reflexivity|intros Ha; rewrite (position_none _ _ Ha); reflexivity].
  - apply (over_accounts _ (fun a => Z.max (- ap_amount (position w a k)) 0)); intros a; [intros acc Ha; rewrite (position_some _ _ _ Ha); reflexivity|intros Ha; rewrite (position_none _ _ Ha); reflexivity].
Qed.
Lemma holds_spec k a : holds k a = 1 \/ holds k a = 0 /\ ap_amount (position w a k) = 0.
Proof.
  unfold holds. destruct (w_accounts w !! a) as [acc|] eqn:Ha; [|right; rewrite (position_none _ _ Ha); auto].
  rewrite (position_some _ _ _ Ha). unfold held. destruct (ac_positions acc !! k); auto.
Qed.
End Over.

(** ** One position, one pair *)
Lemma owed_growth pp pp' x lg sg : pp_funding_long_index pp' - pp_funding_long_index pp = lg -> pp_funding_short_index pp' - pp_funding_short_index pp = sg ->
  Z.abs (10 ^ 18 * (funding_owed pp' x - funding_owed pp x) - (lg * Z.max (ap_amount x) 0 + sg * Z.max (- ap_amount x) 0)) <= 2 * (10 ^ 18 - 1) /\
  (ap_amount x = 0 -> funding_owed pp' x = 0 /\ funding_owed pp x = 0).
Proof.
  intros Hl Hs. unfold funding_owed, side_index, mul. split.
  - destruct (quot_rem_bound (Z.abs (ap_amount x) * ((if 0 <? ap_amount x then pp_funding_long_index pp' else pp_funding_short_index pp') - ap_funding x)) (10 ^ 18) ltac:(reflexivity)) as (r1 & H1 & B1).
    destruct (quot_rem_bound (Z.abs (ap_amount x) * ((if 0 <? ap_amount x then pp_funding_long_index pp else pp_funding_short_index pp) - ap_funding x)) (10 ^ 18) ltac:(reflexivity)) as (r2 & H2 & B2).
    set (q1 := Z.quot _ _) in *. match goal with |- context[q1 - ?t] => set (q2 := t) in * end. clearbody q1 q2. destruct (Z.ltb_spec 0 (ap_amount x)) as [Hx|Hx].
    + rewrite (Z.max_l (ap_amount x) 0), (Z.max_r (- ap_amount x) 0), (Z.abs_eq (ap_amount x)) in * by lia. assert (10 ^ 18 * (q1 - q2) = ap_amount x * lg - r1 + r2) as -> by (rewrite <- Hl; lia). lia.
    + rewrite (Z.max_r (ap_amount x) 0), (Z.max_l (- ap_amount x) 0), (Z.abs_neq (ap_amount x)) in * by lia. assert (10 ^ 18 * (q1 - q2) = - ap_amount x * sg - r1 + r2) as -> by (rewrite <- Hs; lia). lia.
  - intros ->. split; reflexivity.
Qed.
(** What the pool is to receive for an update is what the holders are charged. *)
Lemma income_charged E w w' k pc : reachable E w -> pair_cfg w k = Some pc -> accrual w w' k pc -> Z.abs (pool_income w w' k * 10 ^ 18 - charged w w' k) <= 2 * (open_interest_long w k + open_interest_short w k).
Proof.
  intros Hr Hc Ha. destruct (C17_open_interest_nonneg _ _ k Hr) as [HL HS]. unfold pool_income, charged. rewrite Hc, (fd_long _ _ _ _ Ha), (fd_short _ _ _ _ Ha). destruct (accrues w k) eqn:Hac; [|cbn; lia].
  assert (0 < open_interest_long w k /\ 0 < open_interest_short w k) as [PL PS].
  { unfold accrues in Hac. apply andb_true_iff in Hac as [Hac H3]. apply andb_true_iff in Hac as [_ H2]. apply negb_true_iff, Z.eqb_neq in H2, H3. lia. }
  generalize dependent (open_interest_long w k). intros L _ PL. generalize dependent (open_interest_short w k). intros S _ PS. generalize (paid pc w w' k) (pool_share pc w w' k) (pool_charge pc w w' k). intros P s q. unfold over. clear - PL PS.
  destruct (quot_rem_bound (q * 10 ^ 18) (L + S) ltac:(lia)) as (r3 & H3 & B3). set (q3 := Z.quot (q * 10 ^ 18) (L + S)) in *.
  destruct (0 <? funding_rate pc w w' k).
  - destruct (quot_rem_bound (P * 10 ^ 18) L PL) as (r1 & H1 & B1). destruct (quot_rem_bound (- (P - s) * 10 ^ 18) S PS) as (r2 & H2 & B2).
    set (q1 := Z.quot (P * 10 ^ 18) L) in *. set (q2 := Z.quot (- (P - s) * 10 ^ 18) S) in *. clearbody q1 q2 q3. lia.
  - destruct (quot_rem_bound (P * 10 ^ 18) S PS) as (r1 & H1 & B1). destruct (quot_rem_bound (- (P - s) * 10 ^ 18) L PL) as (r2 & H2 & B2).
    set (q1 := Z.quot (P * 10 ^ 18) S) in *. set (q2 := Z.quot (- (P - s) * 10 ^ 18) L) in *. clearbody q1 q2 q3. lia.
Qed.

(** ** Positions *)
Definition funded_as (w w' : world) (k : pair_id) : Prop := forall x, funding_owed (pool_pair w' k) x = funding_owed (pool_pair w k) x.
Lemma not_updated E cx w o w' out k : reachable E w -> step E cx w o = Ok (w', out) -> k ∉ updated_pairs w o -> funded_as w w' k.
Proof.
  intros Hr H Hk x. destruct (C19_every_call _ _ _ _ _ _ Hr H) as (_ & _ & Hno). specialize (Hno k Hk). unfold funding_owed, side_index, pool_pair.
  match type of Hno with ?t = ?u => destruct u as [pp|] eqn:E2 end; rewrite Hno; reflexivity.
Qed.
(** An account's position changes only if the account settles that pair; and then it owes nothing afterwards. *)
Lemma position_kept E cx w o w' out b k : reachable E w -> step E cx w o = Ok (w', out) ->
  position w' b k = position w b k /\ (settles o <> Some b \/ k ∉ updated_pairs w o) \/
  settles o = Some b /\ k ∈ updated_pairs w o /\ funding_owed (pool_pair w' k) (position w' b k) = 0 /\ settled w w' o k = funding_owed (pool_pair w' k) (position w b k).
Proof.
  intros Hr H. assert (settles o = Some b -> settled w w' o k = funding_owed (pool_pair w' k) (position w b k)) as Hst by (intros Hs; unfold settled; rewrite Hs; reflexivity).
  destruct (step_account _ _ _ _ _ _ b H) as [Heq|[[Ho (l0 & Hc & Hac & _)]|(oath & rule & ts & code & ref & g & more & -> & _)]].
  - destruct (decide (settles o = Some b)) as [Hs|Hs]; [|left; split; [unfold position; rewrite Heq; reflexivity|left; exact Hs]].
    destruct (decide (k ∈ updated_pairs w o)) as [Hk|Hk]; [|left; split; [unfold position; rewrite Heq; reflexivity|right; exact Hk]].
    right. split; [exact Hs|]. split; [exact Hk|]. split; [|exact (Hst Hs)].
    destruct o; try discriminate Hs; cbn [settles] in Hs; injection Hs as ->; cbn [updated_pairs] in Hk.
    + destruct (request_at w b i) as [r|] eqn:Hri; [|set_solver]. destruct (Z.leb_spec (kr_expiry r) (w_now w)) as [Hx|Hx]; [set_solver|]. destruct (kr_request r) as [q|q] eqn:Hq; [set_solver|]. apply elem_of_singleton in Hk. subst k.
      assert (executes_order w (OProcessRequest b i upd) b q) as Hex. { unfold request_at in Hri. match type of Hri with match ?t with _ => _ end = _ => destruct t as [acc|] eqn:Ha; [|discriminate Hri] end. exists i, upd, acc, r. auto. }
      destruct (C49_order_settles_funding _ _ _ _ _ _ _ _ Hr H Hex) as (e & rest & _ & _ & _ & _ & Hz). exact Hz.
    + destruct (w_accounts w !! b) as [acc|] eqn:Ha; [|set_solver]. destruct (C16_clean_account _ _ _ _ _ _ _ _ _ Hr H Ha) as (acc' & paid & Ha' & Hp & _). unfold position. rewrite Ha'. unfold held. rewrite Hp, lookup_empty. reflexivity.
    + apply elem_of_singleton in Hk. subst k. destruct (C49_adl_settles_funding _ _ _ _ _ _ _ _ Hr H) as (e & rest & _ & _ & _ & Hz). exact Hz.
  - destruct (acct_call_self _ _ _ _ _ Hc) as ((acc & Ha) & (acc' & Ha') & _).
    assert (forall P : Prop, Forall (fun x => touches_pos x = false) l0 -> (position w' b k = position w b k -> P) -> P) as Hno.
    { intros P Hf HP. apply HP. unfold position, held. rewrite Ha, Ha', (acct_positions_same _ _ _ _ _ _ _ Hc Ha Ha' Hf). reflexivity. }
    destruct (can_positions o) eqn:Hp.
    2: { apply Hno; [exact (op_free_pos _ _ _ _ Hac Hp)|]. intros He. left. split; [exact He|]. left. destruct o; try discriminate Hp; discriminate. }
    destruct o; try discriminate Hp; cbn [op_account] in Ho; injection Ho as ->; cbn [settles updated_pairs].
    + destruct (executing _ _ _ _ _ _ _ _ _ Hr Hc Hac Ha) as (r & Hri & Hcs). rewrite Hri. destruct Hcs as [(Hx & ->)|(Hx & pay & l' & -> & He)].
      * apply Hno; [noact|]. intros Heq. left. split; [exact Heq|]. right. apply Z.leb_le in Hx. rewrite Hx. set_solver.
      * destruct (Z.leb_spec (kr_expiry r) (w_now w)) as [Hx'|_]; [lia|]. destruct (kr_request r) as [q|q] eqn:Hq.
        -- cbn in He. destruct He as (k0 & bs & -> & _). apply Hno; [noact|]. intros Heq. left. split; [exact Heq|]. right. set_solver.
        -- assert (executes_order w (OProcessRequest b i upd) b q) as Hex. { exists i, upd, acc, r. unfold request_at in Hri. rewrite Ha in Hri. auto. }
           destruct (N.eq_dec (ro_pair q) k) as [<-|Hne].
           ++ right. split; [reflexivity|]. split; [apply elem_of_singleton; reflexivity|]. split; [|apply Hst; reflexivity]. destruct (C49_order_settles_funding _ _ _ _ _ _ _ _ Hr H Hex) as (e & rest & _ & _ & _ & _ & Hz). exact Hz.
           ++ left. split; [|right; intros Hi; apply elem_of_singleton in Hi; congruence]. apply (proj2 (C26_order_changes_position_as_asked _ _ _ _ _ _ _ _ Hr H Hex)). right. congruence.
    + rewrite Ha. destruct (C16_clean_account _ _ _ _ _ _ _ _ _ Hr H Ha) as (acc2 & paid & Ha2 & Hp2 & _). destruct (ac_positions acc !! k) as [x|] eqn:Hk.
      * right. split; [reflexivity|]. split; [apply elem_of_dom; rewrite Hk; eauto|]. split; [|apply Hst; reflexivity]. unfold position. rewrite Ha2. unfold held. rewrite Hp2, lookup_empty. reflexivity.
      * left. split; [|right; intros Hi; apply elem_of_dom in Hi; rewrite Hk in Hi; destruct Hi as [? Hi]; discriminate Hi]. unfold position. rewrite Ha2, Ha. unfold held. rewrite Hp2, lookup_empty, Hk. reflexivity.
    + destruct (N.eq_dec pid k) as [<-|Hne].
      * right. split; [reflexivity|]. split; [apply elem_of_singleton; reflexivity|]. split; [|apply Hst; reflexivity]. destruct (C49_adl_settles_funding _ _ _ _ _ _ _ _ Hr H) as (e & rest & _ & _ & _ & Hz). exact Hz.
      * left. split; [|right; intros Hi; apply elem_of_singleton in Hi; congruence]. destruct (adl_call_intro _ _ _ _ _ _ _ _ Hr H) as (acc1 & acc2 & fee & e & D). exact (ad_oth _ _ _ _ _ _ _ _ _ _ D k ltac:(congruence)).
  - left. split; [|left; discriminate]. destruct (C59_create_account _ _ _ _ _ _ _ _ _ _ Hr H) as (Hnone & _ & _ & Hpos & _). rewrite Hpos. unfold position. rewrite Hnone. reflexivity.
Qed.

(** ** One call *)
Lemma msum_sub_f {A} (f g : N -> A -> Z) m : msum (fun k x => f k x - g k x) m = msum f m - msum g m.
Proof. rewrite !msum_lsum. apply lsum_sub. Qed.
Lemma msum_scale {A} (c : Z) (f : N -> A -> Z) m : msum (fun k x => c * f k x) m = c * msum f m.
Proof. rewrite !msum_lsum. apply lsum_scale. Qed.
Lemma msum_add {A} (f g : N -> A -> Z) m : msum (fun k x => f k x + g k x) m = msum f m + msum g m.
Proof. rewrite !msum_lsum. apply lsum_add. Qed.
Lemma upf_alg u t n n' : u + t - n' - (u - n) = t - (n' - n).
Proof. lia. Qed.
Lemma plus_minus x y s a b : x = y - s -> a = b -> x + a = y + b - s.
Proof. lia. Qed.
Lemma pair_owed E cx w o w' out k (A : gmap addr account) : reachable E w -> step E cx w o = Ok (w', out) -> (forall a, is_Some (w_accounts w !! a) -> is_Some (A !! a)) ->
  k ∈ updated_pairs w o ->
  let new := fun a => funding_owed (pool_pair w' k) (position w' a k) in let old := fun a => funding_owed (pool_pair w k) (position w a k) in
  Z.abs ((pool_income w w' k - settled w w' o k - msum (fun a _ => new a - old a) A) * 10 ^ 18) <= 2 * (open_interest_long w k + open_interest_short w k) + 2 * 10 ^ 18 * holders w k.
Proof.
  intros Hr H HA Hk new old. destruct (C19_every_call _ _ _ _ _ _ Hr H) as (_ & Hin & _). destruct (Hin k Hk) as (pc & Hpc & Hacc). clear Hin. pose proof (income_charged _ _ _ _ _ Hr Hpc Hacc) as H1.
  set (mid := fun a => funding_owed (pool_pair w' k) (position w a k)).
  assert (msum (fun a _ => new a - old a) A = msum (fun a _ => mid a - old a) A - settled w w' o k) as ->.
  { assert (msum (fun a _ => new a) A = msum (fun a _ => mid a) A - settled w w' o k) as Hs.
    { destruct (settles o) as [b|] eqn:Hst.
      - assert (forall a, a <> b -> new a = mid a) as Hoth. { intros a Hne. unfold new, mid. destruct (position_kept _ _ _ _ _ _ a k Hr H) as [[-> _]|(Hs & _)]; [reflexivity|congruence]. }
        assert (new b = mid b - settled w w' o k) as Hb. { unfold new, mid. destruct (position_kept _ _ _ _ _ _ b k Hr H) as [[_ [Hn|Hn]]|(_ & _ & -> & ->)]; [congruence|contradiction|lia]. }
        destruct (A !! b) as [x|] eqn:HAb.
        + rewrite !(msum_delete _ A b x HAb). apply (plus_minus _ _ _ _ _ Hb).
          apply msum_ext. intros a y Hy. apply Hoth. intros ->. rewrite lookup_delete in Hy. discriminate Hy.
        + assert (settled w w' o k = 0) as ->.
          { unfold settled. rewrite Hst. destruct (w_accounts w !! b) as [acc|] eqn:Hb2; [destruct (HA b (mk_is_Some _ _ Hb2)) as [? HAx]; congruence|]. rewrite (position_none _ _ _ Hb2). reflexivity. }
          rewrite Z.sub_0_r. apply msum_ext. intros a y Hy. apply Hoth. intros ->. pose proof (eq_trans (eq_sym HAb) Hy) as X. discriminate X.
      - unfold settled. rewrite Hst, Z.sub_0_r. apply msum_ext. intros a y _. unfold new, mid. destruct (position_kept _ _ _ _ _ _ a k Hr H) as [[-> _]|(Hs & _)]; [reflexivity|congruence]. }
    rewrite !msum_sub_f, Hs. lia. }
  pose proof (msum_lin (fun a (_ : account) => mid a - old a) (fun a _ => - (long_growth w w' k * Z.max (ap_amount (position w a k)) 0 + short_growth w w' k * Z.max (- ap_amount (position w a k)) 0)) (fun a _ => 2 * 10 ^ 18 * holds w k a) (10 ^ 18) A) as H2.
  match type of H2 with ?P -> _ => assert P as HP end.
  { intros a y _. destruct (owed_growth (pool_pair w k) (pool_pair w' k) (position w a k) (long_growth w w' k) (short_growth w w' k) eq_refl eq_refl) as [B1 B2]. fold (mid a) (old a) in B1, B2.
    destruct (holds_spec w k a) as [-> |[-> Hz]]; [clear - B1; lia|]. destruct (B2 Hz) as [-> ->]. rewrite Hz. cbn. lia. }
  specialize (H2 HP). clear HP. rewrite msum_scale in H2. rewrite <- (holders_over w A HA) in H2.
  assert (msum (fun a _ => - (long_growth w w' k * Z.max (ap_amount (position w a k)) 0 + short_growth w w' k * Z.max (- ap_amount (position w a k)) 0)) A = - charged w w' k) as Hch.
  { destruct (interest_over E w A Hr HA k) as [I1 I2]. unfold charged. rewrite I1, I2.
    transitivity (msum (fun a (_ : account) => (- long_growth w w' k) * Z.max (ap_amount (position w a k)) 0 + (- short_growth w w' k) * Z.max (- ap_amount (position w a k)) 0) A); [apply msum_ext; intros; lia|].
    rewrite msum_add, !msum_scale. lia. }
  rewrite Hch in H2. clear - H1 H2. generalize dependent (msum (fun a (_ : account) => mid a - old a) A). intros D H2. lia.
Qed.

(** *** What the pool is still to receive in funding, less what all positions owe, changes in a call by no more than the rounding: twice the open
    interest in units of 10^-18 and two units for each holder, for the pairs the call updates; and not at all if it updates none. *)
Theorem C73_funding_mirrors_the_traders E cx w o w' out : reachable E w -> step E cx w o = Ok (w', out) ->
  Z.abs ((po_upf (w_pool w') - total_owed w') - (po_upf (w_pool w) - total_owed w)) * 10 ^ 18 <= allowance w o.
Proof.
  intros Hr H. pose proof (reach_step _ _ _ _ _ _ Hr H) as Hr'. destruct (C19_every_call _ _ _ _ _ _ Hr H) as (Hupf & _ & _). set (U := updated_pairs w o) in *.
  set (A := w_accounts w ∪ w_accounts w'). set (M := (po_positions (w_pool w) ∪ po_positions (w_pool w')) ∪ gset_to_gmap (pool_pair w 0%N) U : gmap pair_id pool_position).
  assert (forall a, is_Some (w_accounts w !! a) -> is_Some (A !! a)) as HA by (intros a Ha; apply lookup_union_is_Some; left; exact Ha).
  assert (forall a, is_Some (w_accounts w' !! a) -> is_Some (A !! a)) as HA' by (intros a Ha; apply lookup_union_is_Some; right; exact Ha).
  assert (forall k, is_Some (po_positions (w_pool w) !! k) -> is_Some (M !! k)) as HM by (intros k Hk; apply lookup_union_is_Some; left; apply lookup_union_is_Some; left; exact Hk).
  assert (forall k, is_Some (po_positions (w_pool w') !! k) -> is_Some (M !! k)) as HM' by (intros k Hk; apply lookup_union_is_Some; left; apply lookup_union_is_Some; right; exact Hk).
  assert (forall k, k ∈ U -> is_Some (M !! k)) as HU. { intros k Hk. apply lookup_union_is_Some. right. exists (pool_pair w 0%N). apply lookup_gset_to_gmap_Some. auto. }
  rewrite (owed_over E w A M Hr HA HM), (owed_over E w' A M Hr' HA' HM'). rewrite Hupf. rewrite (lsum_elements _ U M HU). unfold allowance. fold U. rewrite (lsum_elements _ U M HU).
  set (T := fun k : pair_id => if decide (k ∈ U) then pool_income w w' k - settled w w' o k else 0). set (D := fun k : pair_id => msum (fun a (_ : account) => funding_owed (pool_pair w' k) (position w' a k) - funding_owed (pool_pair w k) (position w a k)) A).
  match goal with |- Z.abs ?x * _ <= ?r => assert (x = msum (fun k (_ : pool_position) => T k) M - msum (fun k _ => D k) M) as Hx end.
  { assert (msum (fun k (_ : pool_position) => D k) M = msum (fun k _ => msum (fun a _ => funding_owed (pool_pair w' k) (position w' a k)) A) M - msum (fun k _ => msum (fun a _ => funding_owed (pool_pair w k) (position w a k)) A) M) as ->.
    { rewrite <- msum_sub_f. apply msum_ext. intros k x _. unfold D. apply msum_sub_f. }
    exact (upf_alg _ _ _ _). }
  rewrite Hx. clear Hx. rewrite <- msum_sub_f.
  rewrite <- (Z.abs_eq (10 ^ 18)) at 1 by (cbv; discriminate). rewrite <- Z.abs_mul, Z.mul_comm.
  match goal with |- Z.abs (?e * msum ?f M) <= msum ?c M => pose proof (msum_lin f (fun _ _ => 0) c e M) as HL end.
  rewrite (msum_zero (fun _ _ => 0) M) in HL by reflexivity. rewrite Z.add_0_r in HL. apply HL. clear HL. intros k x _. subst T. cbv beta. destruct (decide (k ∈ U)) as [Hk|Hk].
  - rewrite Z.add_0_r, Z.mul_comm. rewrite ?decide_True by exact Hk. exact (pair_owed E cx w o w' out k A Hr H HA Hk).
  - rewrite ?decide_False by exact Hk. assert (D k = 0) as ->; [|cbn; lia]. unfold D. apply msum_zero. intros a y _. destruct (position_kept _ _ _ _ _ _ a k Hr H) as [[-> _]|(_ & Hk2 & _)]; [|contradiction]. rewrite (not_updated _ _ _ _ _ _ _ Hr H Hk). lia.
Qed.
(** Calls that update no pair leave it exactly as it is. *)
Theorem C73_funding_unchanged E cx w o w' out : reachable E w -> step E cx w o = Ok (w', out) -> updated_pairs w o = ∅ ->
  po_upf (w_pool w') - total_owed w' = po_upf (w_pool w) - total_owed w.
Proof.
  intros Hr H He. pose proof (C73_funding_mirrors_the_traders _ _ _ _ _ _ Hr H) as X. unfold allowance in X. rewrite He, elements_empty in X. cbn [lsum foldr] in X. lia.
Qed.

(** ** Histories *)
(** [w'] is reached from [w] by successful calls whose allowances for rounding add up to [d]. *)
Inductive follows (E : env) : world -> Z -> world -> Prop :=
  | fo_none w : follows E w 0 w
  | fo_call w d w1 cx o w2 out : follows E w d w1 -> step E cx w1 o = Ok (w2, out) -> follows E w (d + allowance w1 o) w2.
Lemma follows_reachable E w d w' : follows E w d w' -> reachable E w -> reachable E w'.
Proof. induction 1 as [w|w d w1 cx o w2 out Hf IH Hs]; intros Hr; [exact Hr|]. exact (reach_step _ _ _ _ _ _ (IH Hr) Hs). Qed.
Lemma follows_gap E w d w' : follows E w d w' -> reachable E w -> Z.abs ((po_upf (w_pool w') - total_owed w') - (po_upf (w_pool w) - total_owed w)) * 10 ^ 18 <= d.
Proof.
  induction 1 as [w|w d w1 cx o w2 out Hf IH Hs]; intros Hr; [rewrite Z.sub_diag; reflexivity|]. specialize (IH Hr). pose proof (C73_funding_mirrors_the_traders _ _ _ _ _ _ (follows_reachable _ _ _ _ Hf Hr) Hs) as X.
  generalize dependent (po_upf (w_pool w2) - total_owed w2). generalize dependent (po_upf (w_pool w1) - total_owed w1). generalize (po_upf (w_pool w) - total_owed w). clear. intros a b IH c X. lia.
Qed.
(** An account's worth at the prices its pairs were last marked at: base balance, value of the positions, less their cost and the funding they owe. *)
Definition net_worth (w : world) (acc : account) : Z := ac_vb acc + msum (fun k x => marked_profit w k x - funding_owed (pool_pair w k) x) (ac_positions acc).

(** *** At any time after deployment the base tokens in the pool are exactly what is owed: the pool's value (which the liquidity tokens
    share), the net worth of all accounts, the collected fees and the rewards add up to them (less oaths outstanding within a transaction), up to
    one unit of 10^-18 for each open position and the rounding of the funding updates so far. *)
Theorem C73_net_balance_sheet E owner auth keys now w0 d w : 0 <= auth <= DMAX -> I64MIN <= now <= I64MAX -> genesis owner auth keys now = Ok w0 -> follows E w0 d w ->
  Z.abs (pool_value w + sum_accounts (net_worth w) w + fd_protocol (w_fd w) + fd_treasury (w_fd w) + dl_vb (w_dl w) + total_referral_balance w
         - (po_base (w_pool w) + w_oath w)) * 10 ^ 18 <= d + open_positions w * 10 ^ 18.
Proof.
  intros Hau Hn Hg Hf. pose proof (reach_init E _ _ _ _ _ Hau Hn Hg) as Hr0. pose proof (follows_reachable _ _ _ _ Hf Hr0) as Hr. pose proof (follows_gap _ _ _ _ Hf Hr0) as Hgap.
  assert (po_upf (w_pool w0) - total_owed w0 = 0) as H0. { apply genesis_inv in Hg as (c & _ & ->). reflexivity. }
  rewrite H0, Z.sub_0_r in Hgap. pose proof (C73_balance_sheet E w Hr) as Hb.
  assert (sum_accounts (net_worth w) w = sum_accounts (marked_value w) w - total_owed w) as ->.
  { unfold total_owed, sum_accounts. rewrite <- msum_sub_f. apply msum_ext. intros a acc _. unfold net_worth, marked_value. rewrite msum_sub_f. lia. }
  generalize dependent (total_owed w). generalize dependent (sum_accounts (marked_value w) w). generalize dependent (open_positions w). clear. intros n m Hb t Ht. lia.
Qed.

(** *** Example: the whole history up to a day of trading; funding has been charged and part of it settled. *)
Fixpoint run_sheet (w : world) (l : list (ctx * op)) (d : Z) (f : world -> Z -> bool) : bool :=
  match l with
  | [] => f w d
  | (cx, o) :: l => match step sc_env cx w o with Ok (w1, _) => run_sheet w1 l (d + allowance w o) f | Err _ => false end
  end.
Lemma run_sheet_ok w0 f l : forall w d, follows sc_env w0 d w -> run_sheet w l d f = true -> exists d' w', follows sc_env w0 d' w' /\ f w' d' = true.
Proof.
  induction l as [|[cx o] l IH]; intros w d Hf H; cbn [run_sheet] in H; [eauto|].
  destruct (step sc_env cx w o) as [[w1 out]|] eqn:Hs; [|discriminate H]. eapply IH; [|exact H]. eapply fo_call; eassumption.
Qed.
Definition sheet_gap (w : world) : Z := pool_value w + sum_accounts (net_worth w) w + fd_protocol (w_fd w) + fd_treasury (w_fd w) + dl_vb (w_dl w) + total_referral_balance w - (po_base (w_pool w) + w_oath w).
Example C73_net_check : okb sc_genesis && run_sheet (get sc_genesis) (sc_setup ++ sc_trades ++ sc_later) 0 (fun w d =>
  (total_owed w <? - dec 76) && (Z.abs (po_upf (w_pool w) - total_owed w) <=? 26) && negb (po_upf (w_pool w) =? total_owed w) && (d =? 26 * 10 ^ 18) && (open_positions w =? 2) && (dec 1000000 <? po_base (w_pool w))) = true.
Proof. vm_compute. reflexivity. Qed.
Example C73_net_ex : exists w0 w, sc_genesis = Ok w0 /\ follows sc_env w0 (26 * 10 ^ 18) w /\ total_owed w < - dec 76 /\ open_positions w = 2 /\ dec 1000000 < po_base (w_pool w) /\ Z.abs (sheet_gap w) <= 28.
Proof.
  pose proof C73_net_check as H. apply andb_true_iff in H as [Hg H]. pose proof (okb_get _ Hg) as Hg2. clear Hg. revert H Hg2. generalize (get sc_genesis). intros w0 H Hg2.
  destruct (run_sheet_ok w0 _ _ _ _ (fo_none _ _) H) as (d & w & Hf & Hw). clear H.
  rewrite !andb_true_iff in Hw. destruct Hw as [[[[[W1 _] _] W2] W3] W4]. apply Z.ltb_lt in W1, W4. apply Z.eqb_eq in W2, W3. subst d. exists w0, w. split; [exact Hg2|]. split; [exact Hf|]. split; [exact W1|]. split; [exact W3|]. split; [exact W4|].
  assert (0 <= dec 1 <= DMAX) as H1 by (vm_compute; split; discriminate). assert (I64MIN <= 1000 <= I64MAX) as H2 by (vm_compute; split; discriminate). unfold sc_genesis in Hg2.
  pose proof (C73_net_balance_sheet sc_env own_rule (dec 1) {[1%N := 77%N]} 1000 w0 _ _ H1 H2 Hg2 Hf) as X. rewrite W3 in X. unfold sheet_gap. revert X. match goal with |- Z.abs ?t * _ <= _ -> _ => generalize t end. clear. intros x X. lia.
Qed.
