(** * C68. Depositing never hurts: an account is worth at least as much more as the base tokens added, and its margin slack does not shrink. *)
From Verif Require Import Base DFloat Lists Types Config Oracle Pool Account Fees Referral ExInternal Exchange System Scenario Sums Trace Frames Calls Shape Spec SpecOracle SpecTrading SpecMargin P_Ledger P_Accounts P_Fees P_Refs Frames2 P_Requests P_Requests2 P_Requests3 P_Tokens P_Coll P_Access Trading P_Positions P_Positions2 P_Keeper P_Final P_OrderCall P_Margin Props_Collateral Props_Deposits Props_Rates Props_Orders Props_Margin Witness.

(** Sums over maps in which an absent entry counts like a zero one. *)
Lemma lsum_point (g h : N -> Z) i l : NoDup l -> i ∈ l -> (forall k, k <> i -> g k = h k) -> lsum g l = lsum h l + g i - h i.
Proof.
  intros Hn Hi He. induction l as [|k l IH]; [inversion Hi|]. apply NoDup_cons in Hn as [Hk Hn]. rewrite !lsum_cons. apply elem_of_cons in Hi as [->|Hi].
  - rewrite (lsum_ext g h l); [lia|]. intros x Hx. apply He. intros ->. contradiction.
  - rewrite (IH Hn Hi), (He k); [lia|]. intros ->. contradiction.
Qed.
Lemma msum_over (f : N -> Z -> Z) (m : gmap N Z) (U : gset N) : (forall k, f k 0 = 0) -> dom m ⊆ U -> msum f m = lsum (fun k => f k (default 0 (m !! k))) (elements U).
Proof.
  intros H0. induction m as [|k x m Hk IH] using map_ind; intros Hd.
  - rewrite msum_empty. symmetry. apply lsum_zero. intros j _. rewrite lookup_empty. apply H0.
  - rewrite dom_insert in Hd. rewrite msum_insert_new by exact Hk. rewrite IH by set_solver.
    rewrite (lsum_point (fun j => f j (default 0 (<[k:=x]> m !! j))) (fun j => f j (default 0 (m !! j))) k); [|apply NoDup_elements|apply elem_of_elements; set_solver|].
    + rewrite lookup_insert, Hk. cbn. rewrite H0. lia.
    + intros j Hj. rewrite lookup_insert_ne by congruence. reflexivity.
Qed.
Lemma lsum_in (K : gset N) (l : list N) : NoDup l -> lsum (fun k => if bool_decide (k ∈ K) then 1 else 0) l <= Z.of_nat (size K).
Proof.
  revert K. induction l as [|k l IH]; intros K Hn; [cbn; lia|]. apply NoDup_cons in Hn as [Hk Hn]. rewrite lsum_cons. destruct (bool_decide_reflect (k ∈ K)) as [Hi|Hi].
  - pose proof (IH (K ∖ {[k]}) Hn) as H. rewrite size_difference in H by set_solver. rewrite size_singleton in H.
    rewrite (lsum_ext _ (fun j => if bool_decide (j ∈ K ∖ {[k]}) then 1 else 0)) by (intros j Hj; apply f_equal with (f := fun b : bool => if b then 1 else 0); apply bool_decide_ext; assert (j <> k) by (intros ->; contradiction); set_solver).
    assert (1 <= size K)%nat; [|lia]. destruct (size K) eqn:Hs; [apply size_empty_inv in Hs; set_solver|lia].
  - pose proof (IH K Hn). lia.
Qed.
Lemma msum_compare (f : N -> Z -> Z) (m m' : gmap N Z) (K : gset N) : (forall k, f k 0 = 0) -> (forall k, f k (default 0 (m !! k)) - (if bool_decide (k ∈ K) then 1 else 0) <= f k (default 0 (m' !! k))) ->
  msum f m - Z.of_nat (size K) <= msum f m'.
Proof.
  intros H0 Hle. set (U := dom m ∪ dom m' : gset N). rewrite (msum_over f m U), (msum_over f m' U) by (exact H0 || set_solver).
  pose proof (lsum_in K (elements U) (NoDup_elements U)) as Hk.
  pose proof (lsum_le (fun k => f k (default 0 (m !! k)) + (-1) * (if bool_decide (k ∈ K) then 1 else 0)) (fun k => f k (default 0 (m' !! k))) (elements U)) as H.
  rewrite lsum_add, lsum_scale in H. assert (forall x, x ∈ elements U -> f x (default 0 (m !! x)) + -1 * (if bool_decide (x ∈ K) then 1 else 0) <= f x (default 0 (m' !! x))) as Hx by (intros k _; specialize (Hle k); lia). specialize (H Hx). lia.
Qed.
(** The tokens other than base tokens among those deposited. *)
Definition kinds (ts : list bucket) : gset N := list_to_set (map fst ts) ∖ {[BASE]}.
(** One kind of collateral: with a discount of at least 0.8 and a margin of at most 0.1, more of it is worth more, and adds more value than margin, up to one atto. *)
Lemma mul_mono x y d : 0 <= x <= y -> 0 <= d -> mul x d <= mul y d.
Proof. intros Hx Hd. unfold mul. apply Z.quot_le_mono; [reflexivity|]. nia. Qed.
Lemma mul_nonneg x d : 0 <= x -> 0 <= d -> 0 <= mul x d.
Proof. intros Hx Hd. unfold mul. apply Z.quot_pos; [nia|reflexivity]. Qed.
Lemma net_mono d m v v' : 8 * 10 ^ 17 <= d -> 0 <= m <= 10 ^ 17 -> 0 <= v <= v' -> mul v d - mul v m - 1 <= mul v' d - mul v' m.
Proof.
  intros Hd Hm Hv. unfold mul. rewrite !Z.quot_div_nonneg by (try reflexivity; nia).
  pose proof (Z.div_mod (v * d) (10 ^ 18) ltac:(discriminate)). pose proof (Z.mod_pos_bound (v * d) (10 ^ 18) ltac:(reflexivity)).
  pose proof (Z.div_mod (v * m) (10 ^ 18) ltac:(discriminate)). pose proof (Z.mod_pos_bound (v * m) (10 ^ 18) ltac:(reflexivity)).
  pose proof (Z.div_mod (v' * d) (10 ^ 18) ltac:(discriminate)). pose proof (Z.mod_pos_bound (v' * d) (10 ^ 18) ltac:(reflexivity)).
  pose proof (Z.div_mod (v' * m) (10 ^ 18) ltac:(discriminate)). pose proof (Z.mod_pos_bound (v' * m) (10 ^ 18) ltac:(reflexivity)).
  change (10 ^ 18) with 1000000000000000000 in *. change (8 * 10 ^ 17) with 800000000000000000 in *. change (10 ^ 17) with 100000000000000000 in *.
  assert (0 <= (v' - v) * (d - m)) by nia.
  set (a := v * d / _) in *. set (b := v * m / _) in *. set (a' := v' * d / _) in *. set (b' := v' * m / _) in *.
  assert ((v' - v) * (d - m) = v' * d - v' * m - v * d + v * m) by ring.
  assert (-2 * 1000000000000000000 < (a' - b' - a + b) * 1000000000000000000) by lia. lia.
Qed.
Lemma amount_nonneg ts r : bs_nonneg ts -> 0 <= amount_in r ts.
Proof. intros H. unfold amount_in. apply lsum_nonneg. intros b Hb. unfold bs_nonneg in H. rewrite Forall_forall in H. specialize (H b Hb). cbn in H. destruct (b_res b =? r)%N; lia. Qed.
Lemma amount_absent ts r : r ∉ map fst ts -> amount_in r ts = 0.
Proof. intros H. unfold amount_in. apply lsum_zero. intros b Hb. destruct (N.eqb_spec (b_res b) r) as [<-|]; [|reflexivity]. exfalso. apply H. apply elem_of_list_In. change (b_res b) with (fst b). apply in_map. apply elem_of_list_In. exact Hb. Qed.
Record deposited (E : env) (w : world) (a : addr) (ts : list bucket) (oath : Z) (w' : world) (acc acc' : account) : Prop := {
  dp_acc : w_accounts w !! a = Some acc; dp_acc' : w_accounts w' !! a = Some acc';
  dp_vb : ac_vb acc' = ac_vb acc + amount_in BASE ts - oath; dp_coll : forall r, recorded acc' r = recorded acc r + (if (r =? BASE)%N then 0 else amount_in r ts);
  dp_pos : ac_positions acc' = ac_positions acc; dp_share : fee_share w' acc' = fee_share w acc;
  dp_pool : forall k, pool_pair w' k = pool_pair w k; dp_price : forall k, price_of w' k = price_of w k; dp_cfg : w_config w' = w_config w }.
Lemma deposited_intro E cx w oath a ts w' out : reachable E w -> step E cx w (OAddCollateral oath a ts) = Ok (w', out) -> bs_nonneg ts /\
  exists acc acc', deposited E w a ts (oath_value (OAddCollateral oath a ts)) w' acc acc'.
Proof.
  intros Hr Hs. pose proof (step_acct _ _ _ _ _ _ a Hs eq_refl) as (l & Hc & Hac & Hsd). pose proof Hac as Hac0. cbn in Hac. destruct Hac as [[Ho1 Ho2] ->]. cbn in Hsd. destruct Hsd as (_ & Hor & _).
  destruct (acct_call_self _ _ _ _ _ Hc) as ((acc & Ha) & _). destruct (deposit_call _ _ _ _ _ _ _ Hc Ha) as (acc' & Ha' & Hvb & Hcoll & Hpos & Hvst & Href & Hb & Hpp).
  split. { apply step_exec in Hs as (_ & Hbk & _). apply Forall_forall. intros b Hin. rewrite forallb_forall in Hbk. apply (bucket_ok_nonneg E). apply Hbk. cbn. destruct oath; [right|]; apply elem_of_list_In; exact Hin. }
  exists acc, acc'. pose proof (acct_call_share _ _ _ _ _ _ _ Hc Ha Ha') as [Hsh _].
  assert (w_now w' = w_now w /\ w_config w' = w_config w) as [Hno Hcf]. { destruct Hc as [c o idsc ids v0 s1 acc1 refs' _ _ _ _ _ Hw]. rewrite Hw. split; reflexivity. }
  constructor; try assumption.
  - intros r. destruct (N.eqb_spec r BASE) as [->|Hne]; [|exact (Hcoll r Hne)].
    destruct (acct_call_out _ _ _ _ _ _ _ Hc Ha Ha') as (c & o & idsc & ids & v0 & s1 & refs' & _ & _ & Hv & Hcomp & Hst & _ & Hu). apply acc_update_coll in Hu as [Hu _].
    transitivity (held_coll (va_comp (s_acc s1)) BASE); [unfold recorded, held_coll; rewrite Hu; reflexivity|]. pose proof (ssteps_coll_exact _ _ _ _ _ _ _ BASE Hst ltac:(noact)) as Hx. cbn [s_acc] in Hx. rewrite Hcomp in Hx. rewrite Hx. change (held_coll acc BASE) with (recorded acc BASE). f_equal.
    unfold add_acts. rewrite !lsum_app, lsum_map. assert (forall k : list bucket, lsum (fun b => act_coll BASE (AAddBase (b_amt b))) k = 0) as -> by (intros k; induction k as [|b0 k IH]; [reflexivity|rewrite lsum_cons, IH; reflexivity]).
    assert (lsum (act_coll BASE) (oath_acts oath) = 0) as -> by (destruct oath; reflexivity). cbn. rewrite ?Z.add_0_r, ?Z.add_0_l. clear. induction ts as [|b ts IH]; [reflexivity|]. cbn [List.filter]. unfold is_base at 1. destruct (N.eqb_spec (b_res b) BASE) as [E0|E0]; cbn [negb]; [exact IH|]. rewrite amount_cons, IH. apply N.eqb_neq in E0. rewrite E0. reflexivity.
  - intros k. unfold pool_pair. rewrite Hpp, Hno. reflexivity.
  - intros k. unfold price_of, stored_price. rewrite Hor. reflexivity.
Qed.
Lemma dp_values E w a ts x w' acc acc' : deposited E w a ts x w' acc acc' ->
  positions_profit (pool_pair w') w' acc' = positions_profit (pool_pair w) w acc /\ (forall rate, positions_margin rate w' acc' = positions_margin rate w acc) /\
  (forall rate, collateral_total rate w' acc' = msum (fun r y => match coll_cfg w r with Some cc => mul (mul y (price_of w (cc_pair_id cc))) (rate cc) | None => 0 end) (ac_coll acc')).
Proof.
  intros [D1 D2 D3 D4 D5 D6 D7 D8 D9]. unfold positions_profit, positions_margin, collateral_total, pair_cfg, coll_cfg, g_collateral_configs, g_exchange_config. rewrite D5, D6, D9. split; [|split; intros rate]; apply msum_ext; intros k y _; rewrite ?D7; repeat case_match; rewrite ?D8; reflexivity.
Qed.
Section Net.
  Context (E : env) (w : world) (Hr : reachable E w) (Hp : forall r cc, coll_cfg w r = Some cc -> 0 <= price_of w (cc_pair_id cc)).
  Let worth (rate : collateral_config -> Z) (r : resource) (y : Z) : Z := match coll_cfg w r with Some cc => mul (mul y (price_of w (cc_pair_id cc))) (rate cc) | None => 0 end.
  Lemma worth_up r x y : 0 <= x <= y -> worth cc_discount r x <= worth cc_discount r y.
  Proof.
    intros Hx. unfold worth. destruct (coll_cfg w r) as [cc|] eqn:Hc; [|lia]. pose proof (Hp _ _ Hc). pose proof (C40_collateral_rates _ _ _ _ Hr Hc) as [_ [R _] _]. apply mul_mono; [|lia]. split; [apply mul_nonneg; lia|apply mul_mono; lia].
  Qed.
  Lemma net_up r x y : 0 <= x <= y -> worth cc_discount r x - worth cc_margin r x - 1 <= worth cc_discount r y - worth cc_margin r y.
  Proof.
    intros Hx. unfold worth. destruct (coll_cfg w r) as [cc|] eqn:Hc; [|lia]. pose proof (Hp _ _ Hc). pose proof (C40_collateral_rates _ _ _ _ Hr Hc) as [_ [R _] M]. apply net_mono; [exact R|exact M|]. split; [apply mul_nonneg; lia|apply mul_mono; lia].
  Qed.
End Net.
Lemma msum_sub (f g : N -> Z -> Z) m : msum (fun k x => f k x - g k x) m = msum f m - msum g m.
Proof. rewrite !msum_lsum. induction (map_to_list m) as [|x l IH]; [reflexivity|]. rewrite !lsum_cons, IH. lia. Qed.
(** C68. A deposit adds at least its base tokens to the account's value, less the fee oath it carries; other tokens never lower it. *)
Theorem C68_deposit_adds_value E cx w oath a ts w' out acc acc' : reachable E w -> step E cx w (OAddCollateral oath a ts) = Ok (w', out) -> w_accounts w !! a = Some acc -> w_accounts w' !! a = Some acc' ->
  (forall r cc, coll_cfg w r = Some cc -> 0 <= price_of w (cc_pair_id cc)) ->
  account_value w acc + amount_in BASE ts - oath_value (OAddCollateral oath a ts) <= account_value w' acc'.
Proof.
  intros Hr Hs Ha Ha' Hp. destruct (deposited_intro _ _ _ _ _ _ _ _ Hr Hs) as (Hnn & acc0 & acc1 & D). pose proof (dp_acc _ _ _ _ _ _ _ _ D) as D1. pose proof (dp_acc' _ _ _ _ _ _ _ _ D) as D2. rewrite Ha in D1. injection D1 as <-. rewrite Ha' in D2. injection D2 as <-.
  destruct (dp_values _ _ _ _ _ _ _ _ D) as (V1 & _ & V3). unfold account_value, account_value_at. rewrite V1, V3, (dp_vb _ _ _ _ _ _ _ _ D). unfold collateral_total at 1.
  match goal with |- ?x + msum ?f ?m + _ + _ - _ <= _ + msum _ ?m' + _ => pose proof (msum_compare f m m' ∅) as H end. rewrite size_empty in H.
  rewrite Z.sub_0_r in H. enough (msum (fun r x => match coll_cfg w r with Some cc => mul (mul x (price_of w (cc_pair_id cc))) (cc_discount cc) | None => 0 end) (ac_coll acc) <= msum (fun r x => match coll_cfg w r with Some cc => mul (mul x (price_of w (cc_pair_id cc))) (cc_discount cc) | None => 0 end) (ac_coll acc')) by lia.
  apply H; [intros k; destruct (coll_cfg w k); reflexivity|]. intros k. rewrite bool_decide_eq_false_2 by set_solver. rewrite Z.sub_0_r. apply (worth_up E w Hr Hp).
  destruct (C03_recorded_collateral_is_in_the_vault _ _ _ _ k Hr Ha) as [_ Hk]. pose proof (dp_coll _ _ _ _ _ _ _ _ D k) as Hd. pose proof (amount_nonneg ts k Hnn). assert (0 <= recorded acc k <= recorded acc' k) as Hg by (destruct (k =? BASE)%N; lia). exact Hg.
Qed.
(** C68. Neither margin requirement eats up a deposit: value less margin grows by the base tokens (less the fee oath), up to one atto of rounding for each
    other kind of token deposited. *)
Theorem C68_deposit_keeps_margin E cx w oath a ts w' out acc acc' rate : reachable E w -> step E cx w (OAddCollateral oath a ts) = Ok (w', out) -> w_accounts w !! a = Some acc -> w_accounts w' !! a = Some acc' ->
  (forall r cc, coll_cfg w r = Some cc -> 0 <= price_of w (cc_pair_id cc)) ->
  (account_value w acc - margin_required rate w acc) + amount_in BASE ts - oath_value (OAddCollateral oath a ts) - Z.of_nat (size (kinds ts)) <= account_value w' acc' - margin_required rate w' acc'.
Proof.
  intros Hr Hs Ha Ha' Hp. destruct (deposited_intro _ _ _ _ _ _ _ _ Hr Hs) as (Hnn & acc0 & acc1 & D). pose proof (dp_acc _ _ _ _ _ _ _ _ D) as D1. pose proof (dp_acc' _ _ _ _ _ _ _ _ D) as D2. rewrite Ha in D1. injection D1 as <-. rewrite Ha' in D2. injection D2 as <-.
  destruct (dp_values _ _ _ _ _ _ _ _ D) as (V1 & V2 & V3). unfold account_value, account_value_at, margin_required. rewrite V1, V2, !V3, (dp_vb _ _ _ _ _ _ _ _ D). unfold collateral_total.
  match goal with |- ?x + msum ?f ?m + _ - (_ + msum ?g ?m) + _ - _ - _ <= _ + msum _ ?m' + _ - _ => pose proof (msum_compare (fun k y => f k y - g k y) m m' (kinds ts)) as H; rewrite !msum_sub in H; set (F := f) in *; set (G := g) in * end.
  enough (msum F (ac_coll acc) - msum G (ac_coll acc) - Z.of_nat (size (kinds ts)) <= msum F (ac_coll acc') - msum G (ac_coll acc')) by lia.
  apply H; [intros k; unfold F, G; destruct (coll_cfg w k); reflexivity|]. intros k. destruct (C03_recorded_collateral_is_in_the_vault _ _ _ _ k Hr Ha) as [_ Hk]. pose proof (dp_coll _ _ _ _ _ _ _ _ D k) as Hd. pose proof (amount_nonneg ts k Hnn) as Hnk. assert (0 <= recorded acc k <= recorded acc' k) as Hg by (destruct (k =? BASE)%N; lia).
  destruct (bool_decide_reflect (k ∈ kinds ts)) as [Hi|Hi]; [exact (net_up E w Hr Hp _ _ _ Hg)|].
  assert ((if (k =? BASE)%N then 0 else amount_in k ts) = 0) as E0. { destruct (N.eqb_spec k BASE); [reflexivity|]. apply amount_absent. intros Hin. apply Hi. unfold kinds. apply elem_of_difference. split; [apply elem_of_list_to_set; exact Hin|apply not_elem_of_singleton; assumption]. }
  rewrite E0, Z.add_0_r in Hd. assert (forall f : N -> Z -> Z, f k (recorded acc' k) = f k (recorded acc k)) as Hfk by (intros f; rewrite Hd; reflexivity). pose proof (Hfk F) as HF. pose proof (Hfk G) as HG. assert (F k (recorded acc k) - G k (recorded acc k) - 0 <= F k (recorded acc' k) - G k (recorded acc' k)) as Hfin by lia. exact Hfin.
Qed.

(** In the state W5, A5 (short 3, with other collateral and a fee oath to pay) adds base tokens and one other kind of token. *)
Definition sees_deposit (w : world) (a : addr) (ts : list bucket) (oath : option bucket) : bool :=
  match step sc_env cx_u5 w (OAddCollateral oath a ts) with
  | Ok (w', _) =>
      match w_accounts w !! a, w_accounts w' !! a with
      | Some acc, Some acc' =>
          (account_value w acc + amount_in BASE ts - oath_value (OAddCollateral oath a ts) <? account_value w' acc') && negb (bool_decide (size (ac_positions acc) = 0%nat)) && (0 <? maintenance_margin w acc) &&
          bool_decide (map_Forall (fun _ cc => 0 <= price_of w (cc_pair_id cc)) (g_collateral_configs w))
      | _, _ => false end
  | Err _ => false end.
Example C68_ex : reachable sc_env W5 /\ sees_deposit W5 A5 [(BASE, dec 2); (20%N, dec 1)] (Some (FEE_OATH, dec 1)) = true.
Proof. split; [exact W5_reach|vm_compute; reflexivity]. Qed.
