(** * C72: trading back and forth at one price makes no money. *)
From Verif Require Import Base DFloat Lists Types Config Oracle Pool Account Fees Referral ExInternal Exchange System Scenario Sums Trace Frames Calls Shape Spec SpecAuth SpecOracle SpecTrading SpecMargin P_Ledger P_Accounts P_DFloat Witness Frames2 Trading P_Positions P_Positions2 P_Oracle P_Keeper P_Orders P_Final P_OrderCall P_Snaps P_Requests2 Props_Oracle Props_Orders Props_Positions Props_Ledger Props_Split.

(** [n] orders on pair [k], of whatever accounts, executed one after the other at the price [p]. *)
Inductive orders_at (E : env) (k : pair_id) (p : Z) : world -> nat -> world -> Prop :=
  | oa_none w : orders_at E k p w 0 w
  | oa_more w cx o a r w1 out n w2 : step E cx w o = Ok (w1, out) -> executes_order w o a r -> ro_pair r = k -> price_of w1 k = p -> orders_at E k p w1 n w2 -> orders_at E k p w (S n) w2.
(** What the trader's sides of the accounts [l] are worth together. *)
Definition together (w : world) (l : list addr) (k : pair_id) (p : Z) : Z := foldr (fun a t => trader_value w a k p + t) 0 l.

Lemma order_keeps E cx w o w' out a r : reachable E w -> step E cx w o = Ok (w', out) -> executes_order w o a r -> let k := ro_pair r in last_updated w k = Some (w_now w) ->
  w_now w' = w_now w /\ last_updated w' k = Some (w_now w') /\ pp_last_price (pool_pair w' k) = price_of w' k /\ (forall x, funding_owed (pool_pair w' k) x = funding_owed (pool_pair w k) x).
Proof.
  intros Hr H Hx k Hlu. destruct (step_last _ _ _ _ _ _ _ _ Hr H Hlu) as (t' & Hk' & Hl1).
  assert (t' <= w_now w') as Hl2. { unfold last_updated in Hk'. match type of Hk' with _ <$> ?t = _ => destruct t as [pp|] eqn:Hp end; [|discriminate Hk']. cbn in Hk'. injection Hk' as <-. exact (lu_reachable _ _ (reach_step _ _ _ _ _ _ Hr H) _ _ Hp). }
  occ Hr H Hx. pose proof (oc_facts _ _ _ _ _ _ _ _ _ _ _ _ _ _ _ _ Hoc) as F. pose proof (oc_now _ _ _ _ _ _ _ _ _ _ _ _ _ _ _ _ Hoc) as Hnow. rewrite Hnow in Hl2 |- *. assert (t' = w_now w) as -> by lia.
  split; [reflexivity|]. split; [exact Hk'|].
  pose proof (oc_pp _ _ _ _ _ _ _ _ _ _ _ _ _ _ _ _ Hoc) as Hpp0. pose proof (oc_pp' _ _ _ _ _ _ _ _ _ _ _ _ _ _ _ _ Hoc) as HppF. fold k in Hpp0, HppF.
  assert (pp_last_update (od_pp0 d) = w_now w) as Hupd.
  { rewrite <- Hpp0. unfold pool_pair. unfold last_updated in Hlu. match goal with |- context[match ?t with Some _ => _ | None => _ end] => destruct t as [pp|] eqn:Hk end; [injection Hlu as Hlu'; exact Hlu'|discriminate Hlu]. }
  destruct (of_period _ _ _ _ _ _ _ _ F) as [_ Hpp1]. { rewrite Hupd. unfold period_of. rewrite Z.sub_diag. reflexivity. }
  destruct (of_ppF _ _ _ _ _ _ _ _ F) as (_ & _ & _ & _ & O4 & O5 & _ & O6 & _). split.
  - rewrite HppF, O6. symmetry. exact (oc_price _ _ _ _ _ _ _ _ _ _ _ _ _ _ _ _ Hoc).
  - intros x. unfold funding_owed, side_index. rewrite HppF, Hpp0. rewrite Hpp1 in O4, O5. cbn in O4, O5. first [rewrite O4, O5|rewrite O5, O4]. reflexivity.
Qed.

Lemma order_step E cx w o w' out a r p : reachable E w -> step E cx w o = Ok (w', out) -> executes_order w o a r -> let k := ro_pair r in last_updated w k = Some (w_now w) -> price_of w' k = p ->
  trader_value w' a k p <= trader_value w a k p + 2 /\ (forall b, b <> a -> trader_value w' b k p = trader_value w b k p) /\
  (pp_last_price (pool_pair w k) = p -> pool_value w - 5 <= pool_value w').
Proof.
  intros Hr H Hx k Hlu Hp. destruct (C48_trader_pays_only_the_fee _ _ _ _ _ _ _ _ Hr H Hx Hlu) as (e & rest & He & Ht). fold k in Ht. rewrite Hp in Ht.
  destruct (C20_order_fee_bounds _ _ _ _ _ _ _ _ Hr H Hx) as (e2 & rest2 & He2 & _ & [Hf _]). rewrite He in He2. injection He2 as <- <-.
  destruct (C26_order_changes_position_as_asked _ _ _ _ _ _ _ _ Hr H Hx) as [_ Hoth].
  destruct (order_keeps _ _ _ _ _ _ _ _ Hr H Hx Hlu) as (_ & _ & _ & Hfo). fold k in Hfo.
  split; [clear - Ht Hf; lia|]. split.
  - intros b Hb. unfold trader_value, size_of, cost_of. rewrite (Hoth b k (or_introl Hb)), Hfo. unfold balance.
    destruct Hx as (i & upd & acc & kr & -> & _). rewrite (C50_other_accounts_untouched _ _ _ _ _ _ b H); [reflexivity|]. cbn. intros [=]; congruence.
  - intros Hlp. destruct (C48_trade_moves_only_fees _ _ _ _ _ _ _ _ Hr H Hx Hlu) as (e3 & rest3 & He3 & Hv); [fold k; congruence|]. rewrite He in He3. injection He3 as <- <-. fold k in Hv. rewrite Hp in Hv.
    destruct (C21_order_fee_split_exact _ _ _ _ _ _ _ _ Hr H Hx) as (e4 & rest4 & He4 & X). rewrite He in He4. injection He4 as <- <-. cbv zeta in X. destruct X as (_ & _ & _ & _ & _ & Hpool & _).
    unfold order_fee in Ht. clear - Ht Hv Hpool. lia.
Qed.

Lemma together_cons w b l k p : together w (b :: l) k p = trader_value w b k p + together w l k p.
Proof. reflexivity. Qed.
Lemma together_step w w' l k p a : NoDup l -> trader_value w' a k p <= trader_value w a k p + 2 -> (forall b, b <> a -> trader_value w' b k p = trader_value w b k p) ->
  together w' l k p <= together w l k p + 2.
Proof.
  intros Hn Ha Hb. assert (forall l, a ∉ l -> together w' l k p = together w l k p) as Hz.
  { intros l0. induction l0 as [|b l0 IH]; intros Hni; [reflexivity|]. apply not_elem_of_cons in Hni as [Hba Hni]. rewrite !together_cons, (Hb b) by congruence. rewrite (IH Hni). reflexivity. }
  induction Hn as [|b l Hni Hnd IH]; [cbn; lia|]. rewrite !together_cons. destruct (decide (b = a)) as [->|Hne].
  - rewrite (Hz l Hni). clear - Ha. lia.
  - rewrite (Hb b Hne). clear - IH. lia.
Qed.

(** *** However many orders are executed one after the other on a pair at one price, in one instant, by whatever
    accounts: no account, and no group of accounts together, ends up worth more than it was, up to 2 units of 10^-18 an order. *)
Theorem C72_no_profit_at_one_price E k p w n w' : reachable E w -> last_updated w k = Some (w_now w) -> orders_at E k p w n w' ->
  forall l, NoDup l -> together w' l k p <= together w l k p + 2 * Z.of_nat n.
Proof.
  intros Hr Hlu Ho. revert Hr Hlu. induction Ho as [w|w cx o a r w1 out n w2 H Hx Hk Hp Ho IH]; intros Hr Hlu l Hl; [lia|].
  subst k. destruct (order_step _ _ _ _ _ _ _ _ _ Hr H Hx Hlu Hp) as (Ha & Hb & _). destruct (order_keeps _ _ _ _ _ _ _ _ Hr H Hx Hlu) as (_ & Hlu' & _).
  pose proof (IH (reach_step _ _ _ _ _ _ Hr H) Hlu' l Hl) as I. pose proof (together_step _ _ l _ _ _ Hl Ha Hb) as S1. clear - I S1. lia.
Qed.

(** *** Nor does the pool lose by it: its value, as the exchange computes it for the price of its tokens, falls by no more than
    5 units of 10^-18 an order, when the pair was last marked at this price. *)
Theorem C72_pool_does_not_lose E k p w n w' : reachable E w -> last_updated w k = Some (w_now w) -> pp_last_price (pool_pair w k) = p -> orders_at E k p w n w' ->
  pool_value w - 5 * Z.of_nat n <= pool_value w'.
Proof.
  intros Hr Hlu Hlp Ho. revert Hr Hlu Hlp. induction Ho as [w|w cx o a r w1 out n w2 H Hx Hk Hp Ho IH]; intros Hr Hlu Hlp; [lia|].
  subst k. destruct (order_step _ _ _ _ _ _ _ _ _ Hr H Hx Hlu Hp) as (_ & _ & Hpool). destruct (order_keeps _ _ _ _ _ _ _ _ Hr H Hx Hlu) as (_ & Hlu' & Hlp' & _).
  pose proof (IH (reach_step _ _ _ _ _ _ Hr H) Hlu' (eq_trans Hlp' Hp)) as I. pose proof (Hpool Hlp) as S1. clear - I S1. lia.
Qed.

(** *** Example: at one instant and one price one account buys 2 and sells them again, while another sells 1. *)
Definition sc_back : res world := go sc_env sc_w1 [ order cx_u2 A2 1%N (dec 2) false; order cx_u3 A3 1%N (- dec 1) false; order cx_u2 A2 1%N (- dec 2) false; (cx_any, OAdvance 1010); (cx_any, OUpdatePairs [1%N] (msg 30000%N 2000%N 1009%N)) ].
Definition WY := get sc_back.
Lemma WY_ok : sc_back = Ok WY. Proof. apply okb_get. vm_compute. reflexivity. Qed.
Lemma WY_reach : reachable sc_env WY. Proof. apply go_reachable; [vm_compute; reflexivity|]. intros w H. rewrite W1_ok in H. apply Ok_inj in H. subst w. exact W1_reach. Qed.
Definition is_order (w : world) (a : addr) (i : N) (k : pair_id) : bool :=
  match w_accounts w !! a with
  | Some acc => match kl_kvs (ac_requests acc) !! i with Some kr => match kr_request kr with ROrder r => (ro_pair r =? k)%N && (w_now w <? kr_expiry kr) | RRemove _ => false end | None => false end
  | None => false end.
Lemma is_order_ok w a i k upd : is_order w a i k = true -> exists r, executes_order w (OProcessRequest a i upd) a r /\ ro_pair r = k.
Proof.
  unfold is_order, executes_order. destruct (w_accounts w !! a) as [acc|] eqn:Ha; [|discriminate]. destruct (kl_kvs (ac_requests acc) !! i) as [kr|] eqn:Hk; [|discriminate]. destruct (kr_request kr) as [r|r] eqn:Hr; [discriminate|].
  intros H. apply andb_true_iff in H as [H1 H2]. apply N.eqb_eq in H1. apply Z.ltb_lt in H2. exists r. split; [|exact H1]. exists i, upd, acc, kr. auto.
Qed.
(** Executes the orders [l] (account, number) with the stored prices, checking each; the final world. *)
Fixpoint one_price (w : world) (l : list (addr * N)) (k : pair_id) (p : Z) (f : world -> bool) : bool :=
  match l with
  | [] => f w
  | (a, i) :: l => is_order w a i k && match step sc_env cx_any w (OProcessRequest a i None) with Ok (w1, _) => (price_of w1 k =? p) && one_price w1 l k p f | Err _ => false end
  end.
Lemma one_price_ok l k p f : forall w, one_price w l k p f = true -> exists w', orders_at sc_env k p w (length l) w' /\ f w' = true.
Proof.
  induction l as [|[a i] l IH]; intros w H; cbn [one_price] in H.
  - exists w. split; [constructor|exact H].
  - apply andb_true_iff in H as [H1 H]. destruct (is_order_ok _ _ _ _ None H1) as (r & Hx & Hk). destruct (step sc_env cx_any w (OProcessRequest a i None)) as [[w1 out]|] eqn:Hs; [|discriminate H].
    apply andb_true_iff in H as [Hp H]. apply Z.eqb_eq in Hp. destruct (IH _ H) as (w' & Ho & Hf). exists w'. split; [|exact Hf]. cbn [length]. eapply oa_more; eassumption.
Qed.
Example C72_check : match last_updated WY 1%N with Some t => t =? w_now WY | None => false end && (pp_last_price (pool_pair WY 1%N) =? dec 30000) &&
  one_price WY [(A2, 0%N); (A3, 0%N); (A2, 1%N)] 1%N (dec 30000) (fun w => (size_of w A2 1%N =? 0) && (size_of w A3 1%N =? - dec 1) && (together w [A2; A3] 1%N (dec 30000) <? together WY [A2; A3] 1%N (dec 30000)) && (pool_value WY <? pool_value w)) = true.
Proof. vm_compute. reflexivity. Qed.
Global Opaque WY.
Example C72_ex : last_updated WY 1%N = Some (w_now WY) /\ pp_last_price (pool_pair WY 1%N) = dec 30000 /\ exists w', orders_at sc_env 1%N (dec 30000) WY 3 w' /\
  size_of w' A2 1%N = 0 /\ size_of w' A3 1%N = - dec 1 /\ together w' [A2; A3] 1%N (dec 30000) < together WY [A2; A3] 1%N (dec 30000) /\ pool_value WY < pool_value w' /\
  trader_value w' A2 1%N (dec 30000) <= trader_value WY A2 1%N (dec 30000) + 6.
Proof.
  pose proof C72_check as H. apply andb_true_iff in H as [H H3]. apply andb_true_iff in H as [H1 H2]. apply Z.eqb_eq in H2. destruct (last_updated WY 1%N) as [t|] eqn:Hl; [|discriminate H1]. apply Z.eqb_eq in H1. subst t.
  destruct (one_price_ok _ _ _ _ _ H3) as (w' & Ho & Hf). cbn [length] in Ho. split; [reflexivity|]. split; [exact H2|]. exists w'. split; [exact Ho|].
  apply andb_true_iff in Hf as [Hf F4]. apply andb_true_iff in Hf as [Hf F3]. apply andb_true_iff in Hf as [F1 F2]. apply Z.eqb_eq in F1, F2. apply Z.ltb_lt in F3, F4.
  split; [exact F1|]. split; [exact F2|]. split; [exact F3|]. split; [exact F4|].
  assert (NoDup [A2]) as Hnd by (apply NoDup_singleton).
  pose proof (C72_no_profit_at_one_price _ _ _ _ _ _ WY_reach Hl Ho [A2] Hnd) as X. cbn [together foldr] in X. revert X. generalize (trader_value w' A2 1%N (dec 30000)) (trader_value WY A2 1%N (dec 30000)). clear. intros x y X. change (Z.of_nat 3) with 3 in X. lia.
Qed.
