(** * C72 over several pairs: spreading the orders over pairs makes no money either. *)
From Verif Require Import Base DFloat Lists Types Config Oracle Pool Account Fees Referral ExInternal Exchange System Scenario Sums Trace Frames Calls Shape Spec SpecAuth SpecOracle SpecRequests SpecTrading SpecMargin SpecFunding P_Ledger P_Accounts Witness Props_Oracle Props_Orders Props_Positions Props_Deposits2 Props_Accrual Props_OnePrice.

(** [n] orders, of whatever accounts, on whichever of the pairs [K], executed one after the other, each at the price [P] gives its pair. *)
Inductive orders_across (E : env) (K : list pair_id) (P : pair_id -> Z) : world -> nat -> world -> Prop :=
  | ox_none w : orders_across E K P w 0 w
  | ox_more w cx o a r w1 out n w2 : step E cx w o = Ok (w1, out) -> executes_order w o a r -> ro_pair r ∈ K -> price_of w1 (ro_pair r) = P (ro_pair r) -> orders_across E K P w1 n w2 -> orders_across E K P w (S n) w2.
(** What an account is worth with its positions in the pairs [K], each at the price of its pair: its balance, and for each position
    its value, less its cost and the funding it owes. *)
Definition worth (w : world) (K : list pair_id) (P : pair_id -> Z) (a : addr) : Z :=
  balance w a + lsum (fun k => mul (size_of w a k) (P k) - cost_of w a k - funding_owed (pool_pair w k) (position w a k)) K.

Lemma order_updates w o a r : executes_order w o a r -> updated_pairs w o = {[ro_pair r]}.
Proof.
  intros (i & upd & acc & kr & -> & Ha & Hk & Hq & Hl). cbn [updated_pairs]. unfold request_at. rewrite Ha, Hk.
  destruct (kr_expiry kr <=? w_now w) eqn:Hb; [apply Z.leb_le in Hb; lia|]. rewrite Hq. reflexivity.
Qed.
Lemma order_leaves E cx w o w' out a r : reachable E w -> step E cx w o = Ok (w', out) -> executes_order w o a r -> last_updated w (ro_pair r) = Some (w_now w) ->
  forall k, k <> ro_pair r -> pool_pair w' k = pool_pair w k /\ last_updated w' k = last_updated w k /\ forall b, position w' b k = position w b k.
Proof.
  intros Hr H Hx Hlu k Hk. destruct (C19_every_call _ _ _ _ _ _ Hr H) as (_ & _ & Hn). rewrite (order_updates _ _ _ _ Hx) in Hn.
  assert (po_positions (w_pool w') !! k = po_positions (w_pool w) !! k) as He by (apply Hn; rewrite elem_of_singleton; exact Hk).
  destruct (order_keeps _ _ _ _ _ _ _ _ Hr H Hx Hlu) as (Hnow & _). destruct (C26_order_changes_position_as_asked _ _ _ _ _ _ _ _ Hr H Hx) as [_ Hoth].
  split; [unfold pool_pair; rewrite He, Hnow; reflexivity|]. split; [unfold last_updated; rewrite He; reflexivity|]. intros b. apply Hoth. right. exact Hk.
Qed.
Lemma worth_at w K P a k : NoDup K -> k ∈ K -> exists rest, worth w K P a = trader_value w a k (P k) + rest /\
  forall w', (forall j, j <> k -> pool_pair w' j = pool_pair w j /\ position w' a j = position w a j) -> worth w' K P a = trader_value w' a k (P k) + rest.
Proof.
  intros Hn Hk. set (f := fun w j => mul (size_of w a j) (P j) - cost_of w a j - funding_owed (pool_pair w j) (position w a j)).
  exists (lsum (f w) K - f w k). split.
  - unfold worth, trader_value. fold (f w). unfold f at 3. lia.
  - intros w' Hw. unfold worth, trader_value. fold (f w').
    assert (lsum (f w') K = lsum (f w) K + f w' k - f w k) as ->.
    { apply (lsum_point (f w') (f w) k K Hn Hk). intros j Hj. destruct (Hw j Hj) as [H1 H2]. unfold f, size_of, cost_of. rewrite H1, H2. reflexivity. }
    unfold f at 2. lia.
Qed.
Lemma across_step E cx w o w' out a r K P : reachable E w -> step E cx w o = Ok (w', out) -> executes_order w o a r -> NoDup K -> ro_pair r ∈ K -> (forall k, k ∈ K -> last_updated w k = Some (w_now w)) ->
  price_of w' (ro_pair r) = P (ro_pair r) ->
  worth w' K P a <= worth w K P a + 2 /\ (forall b, b <> a -> worth w' K P b = worth w K P b) /\ (forall k, k ∈ K -> last_updated w' k = Some (w_now w')) /\
  ((forall k, k ∈ K -> pp_last_price (pool_pair w k) = P k) -> pool_value w - 5 <= pool_value w' /\ forall k, k ∈ K -> pp_last_price (pool_pair w' k) = P k).
Proof.
  intros Hr H Hx Hn Hk Hlu Hp. pose proof (Hlu _ Hk) as Hlk. pose proof (order_leaves _ _ _ _ _ _ _ _ Hr H Hx Hlk) as Hlv.
  destruct (order_step _ _ _ _ _ _ _ _ _ Hr H Hx Hlk Hp) as (Ha & Hb & Hpl). destruct (order_keeps _ _ _ _ _ _ _ _ Hr H Hx Hlk) as (Hnow & Hlk' & Hlp & _).
  assert (forall b j, j <> ro_pair r -> pool_pair w' j = pool_pair w j /\ position w' b j = position w b j) as Hlw by (intros b j Hj; destruct (Hlv j Hj) as (H1 & _ & H2); split; [exact H1|apply H2]).
  split; [|split; [|split]].
  - destruct (worth_at w K P a _ Hn Hk) as (rest & -> & Hw). rewrite (Hw w' (Hlw a)). clear - Ha. lia.
  - intros b Hne. destruct (worth_at w K P b _ Hn Hk) as (rest & -> & Hw). rewrite (Hw w' (Hlw b)), (Hb b Hne). reflexivity.
  - intros k Hin. destruct (decide (k = ro_pair r)) as [->|Hne]; [exact Hlk'|]. destruct (Hlv k Hne) as (_ & -> & _). rewrite Hnow. exact (Hlu k Hin).
  - intros Hm. split; [exact (Hpl (Hm _ Hk))|]. intros k Hin. destruct (decide (k = ro_pair r)) as [->|Hne]; [congruence|]. destruct (Hlv k Hne) as (-> & _). exact (Hm k Hin).
Qed.
Lemma group_step (f g : addr -> Z) l a : NoDup l -> g a <= f a + 2 -> (forall b, b <> a -> g b = f b) -> lsum g l <= lsum f l + 2.
Proof.
  intros Hn Ha Hb. assert (forall l, a ∉ l -> lsum g l = lsum f l) as Hz by (intros l0 Hni; apply lsum_ext; intros b Hin; apply Hb; intros ->; exact (Hni Hin)).
  induction Hn as [|b l Hni Hnd IH]; [cbn; lia|]. rewrite !lsum_cons. destruct (decide (b = a)) as [->|Hne]; [rewrite (Hz l Hni); clear - Ha; lia|rewrite (Hb b Hne); clear - IH; lia].
Qed.

(** *** However many orders are executed one after the other, on whichever of several pairs, at one price for each pair and in one
    instant, by whatever accounts: no account, and no group of accounts together, ends up worth more than it was, up to 2 units of 10^-18 an order. *)
Theorem C72_no_profit_across_pairs E K P w n w' : reachable E w -> NoDup K -> (forall k, k ∈ K -> last_updated w k = Some (w_now w)) -> orders_across E K P w n w' ->
  forall l, NoDup l -> lsum (worth w' K P) l <= lsum (worth w K P) l + 2 * Z.of_nat n.
Proof.
  intros Hr Hn Hlu Ho. revert Hr Hlu. induction Ho as [w|w cx o a r w1 out n w2 H Hx Hk Hp Ho IH]; intros Hr Hlu l Hl; [lia|].
  destruct (across_step _ _ _ _ _ _ _ _ _ _ Hr H Hx Hn Hk Hlu Hp) as (Ha & Hb & Hlu' & _).
  pose proof (IH (reach_step _ _ _ _ _ _ Hr H) Hlu' l Hl) as I. pose proof (group_step _ _ _ _ Hl Ha Hb) as S1. clear - I S1. lia.
Qed.
(** *** Nor does the pool lose by it: its value falls by no more than 5 units of 10^-18 an order, when the pairs were last marked at these prices. *)
Theorem C72_pool_does_not_lose_across_pairs E K P w n w' : reachable E w -> NoDup K -> (forall k, k ∈ K -> last_updated w k = Some (w_now w) /\ pp_last_price (pool_pair w k) = P k) ->
  orders_across E K P w n w' -> pool_value w - 5 * Z.of_nat n <= pool_value w'.
Proof.
  intros Hr Hn Hm Ho. revert Hr Hm. induction Ho as [w|w cx o a r w1 out n w2 H Hx Hk Hp Ho IH]; intros Hr Hm; [lia|].
  destruct (across_step _ _ _ _ _ _ _ _ _ _ Hr H Hx Hn Hk (fun k Hk => proj1 (Hm k Hk)) Hp) as (_ & _ & Hlu' & Hpl). destruct (Hpl (fun k Hk => proj2 (Hm k Hk))) as [Hv Hm'].
  pose proof (IH (reach_step _ _ _ _ _ _ Hr H) (fun k Hk => conj (Hlu' k Hk) (Hm' k Hk))) as I. clear - I Hv. lia.
Qed.

(** *** Example: at one instant an account buys 2 of one pair, another sells 1 of it, and the first sells 3 of a second pair. *)
Definition sc_across : res world := go sc_env sc_w1 [ order cx_u2 A2 1%N (dec 2) false; order cx_u3 A3 1%N (- dec 1) false; order cx_u2 A2 2%N (- dec 3) false; (cx_any, OAdvance 1010); (cx_any, OUpdatePairs [1%N; 2%N] (msg 30000%N 2000%N 1009%N)) ].
Definition WX2 := get sc_across.
Lemma WX2_ok : sc_across = Ok WX2. Proof. apply okb_get. vm_compute. reflexivity. Qed.
Lemma WX2_reach : reachable sc_env WX2. Proof. apply go_reachable; [vm_compute; reflexivity|]. intros w H. rewrite W1_ok in H. apply Ok_inj in H. subst w. exact W1_reach. Qed.
Definition prices2 (k : pair_id) : Z := if (k =? 1)%N then dec 30000 else dec 2000.
Definition both : list pair_id := [1%N; 2%N].
Fixpoint across (w : world) (l : list (addr * N * pair_id)) (f : world -> bool) : bool :=
  match l with
  | [] => f w
  | (a, i, k) :: l => is_order w a i k && bool_decide (k ∈ both) && match step sc_env cx_any w (OProcessRequest a i None) with Ok (w1, _) => (price_of w1 k =? prices2 k) && across w1 l f | Err _ => false end
  end.
Lemma across_ok l f : forall w, across w l f = true -> exists w', orders_across sc_env both prices2 w (length l) w' /\ f w' = true.
Proof.
  induction l as [|[[a i] k] l IH]; intros w H; cbn [across] in H.
  - exists w. split; [constructor|exact H].
  - apply andb_true_iff in H as [H1 H]. apply andb_true_iff in H1 as [H1 Hin]. apply bool_decide_eq_true in Hin. destruct (is_order_ok _ _ _ _ None H1) as (r & Hx & Hk). destruct (step sc_env cx_any w (OProcessRequest a i None)) as [[w1 out]|] eqn:Hs; [|discriminate H].
    apply andb_true_iff in H as [Hp H]. apply Z.eqb_eq in Hp. destruct (IH _ H) as (w' & Ho & Hf). exists w'. split; [|exact Hf]. cbn [length]. subst k. eapply ox_more; eassumption.
Qed.
Lemma both_nodup : NoDup both. Proof. apply (bool_decide_eq_true_1 (NoDup both)). vm_compute. reflexivity. Qed.
Definition marked_now (w : world) (k : pair_id) : bool := match last_updated w k with Some t => t =? w_now w | None => false end && (pp_last_price (pool_pair w k) =? prices2 k).
Example C72_across_check : forallb (marked_now WX2) both &&
  across WX2 [(A2, 0%N, 1%N); (A3, 0%N, 1%N); (A2, 1%N, 2%N)] (fun w => (size_of w A2 1%N =? dec 2) && (size_of w A3 1%N =? - dec 1) && (size_of w A2 2%N =? - dec 3) && (lsum (worth w both prices2) [A2; A3] <? lsum (worth WX2 both prices2) [A2; A3]) && (pool_value WX2 <? pool_value w)) = true.
Proof. vm_compute. reflexivity. Qed.
Global Opaque WX2.
Example C72_across_ex : NoDup both /\ (forall k, k ∈ both -> last_updated WX2 k = Some (w_now WX2) /\ pp_last_price (pool_pair WX2 k) = prices2 k) /\ exists w', orders_across sc_env both prices2 WX2 3 w' /\
  size_of w' A2 1%N = dec 2 /\ size_of w' A3 1%N = - dec 1 /\ size_of w' A2 2%N = - dec 3 /\ lsum (worth w' both prices2) [A2; A3] < lsum (worth WX2 both prices2) [A2; A3] /\ pool_value WX2 < pool_value w' /\
  lsum (worth w' both prices2) [A2] <= lsum (worth WX2 both prices2) [A2] + 6.
Proof.
  pose proof C72_across_check as H. apply andb_true_iff in H as [H H3]. rewrite forallb_forall in H.
  pose proof both_nodup as Hn.
  assert (forall k, k ∈ both -> last_updated WX2 k = Some (w_now WX2) /\ pp_last_price (pool_pair WX2 k) = prices2 k) as Hm.
  { intros k Hk. apply elem_of_list_In in Hk. specialize (H k Hk). unfold marked_now in H. apply andb_true_iff in H as [H1 H2]. apply Z.eqb_eq in H2. destruct (last_updated WX2 k) as [t|]; [|discriminate H1]. apply Z.eqb_eq in H1. subst t. auto. }
  destruct (across_ok _ _ _ H3) as (w' & Ho & Hf). cbn [length] in Ho. split; [exact Hn|]. split; [exact Hm|]. exists w'. split; [exact Ho|].
  apply andb_true_iff in Hf as [Hf F5]. apply andb_true_iff in Hf as [Hf F4]. apply andb_true_iff in Hf as [Hf F3]. apply andb_true_iff in Hf as [F1 F2]. apply Z.eqb_eq in F1, F2, F3. apply Z.ltb_lt in F4, F5.
  split; [exact F1|]. split; [exact F2|]. split; [exact F3|]. split; [exact F4|]. split; [exact F5|].
  assert (NoDup [A2]) as Hnd by (apply NoDup_singleton).
  pose proof (C72_no_profit_across_pairs _ _ _ _ _ _ WX2_reach Hn (fun k Hk => proj1 (Hm k Hk)) Ho [A2] Hnd) as X. change (Z.of_nat 3) with 3 in X. change (2 * 3) with 6 in X. exact X.
Qed.
