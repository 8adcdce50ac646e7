(** * Only executing an order can enlarge a position. *)
From Verif Require Import Base DFloat Lists Types Config Oracle Pool Account Fees Referral ExInternal Exchange System Sums Trace Frames Calls Shape Spec SpecOracle SpecTrading SpecMargin P_Ledger P_Accounts Frames2 Trading P_Positions P_Positions2 P_Oracle P_Keeper P_Orders P_Final P_OrderCall.

(** [y] is [x] or closer to zero on the same side. *)
Definition shrinks (x y : Z) : Prop := (0 <= y <= x) \/ (x <= y <= 0).
Lemma shrinks_refl x : shrinks x x. Proof. unfold shrinks. lia. Qed.
Lemma shrinks_trans x y z : shrinks x y -> shrinks y z -> shrinks x z. Proof. unfold shrinks. lia. Qed.
Definition no_open (x : sact) : Prop := match x with AOpen _ _ => False | _ => True end.
Lemma sstep_shrinks E now c o s x s' : sstep E now c o s x s' -> no_open x -> forall k, shrinks (ap_amount (pos_of (s_acc s) k)) (ap_amount (pos_of (s_acc s') k)).
Proof.
  intros H Hn k. pose proof (sstep_frames _ _ _ _ _ _ _ H) as (_ & _ & _ & Hf & _). destruct (touches_pos x) eqn:Ht.
  - clear Hf. destruct x; try discriminate Ht; try contradiction; inversion H; subst; cbn [s_acc] in *.
    + match goal with H : x_settle_funding _ _ _ = Ok _ |- _ => apply funding_moved in H as (pp & _ & _ & _ & F1 & _ & _ & F4 & _) end.
      destruct (decide (k = p)) as [->|Hne]; [rewrite F1|rewrite (F4 _ Hne)]; apply shrinks_refl.
    + destruct q as [pnl fee]. match goal with H : x_close_position _ _ _ _ _ _ = Ok _ |- _ => apply close_inv in H as (? & ? & ? & ? & pos & ? & ? & _ & _ & _ & _ & -> & Hnz & Hsg & Hab & _ & _ & _ & _ & _ & ->) end.
      rewrite pos_of_vb, pos_of_set. destruct (decide (k = p)) as [->|Hne]; [|apply shrinks_refl]. cbn. unfold shrinks. nia.
    + match goal with H : va_position _ _ = _ |- _ => unfold va_position in H; destruct (va_positions a !! p) eqn:Hp; injection H as <- <- end; [apply shrinks_refl|].
      unfold pos_of. cbn. destruct (decide (k = p)) as [->|Hne]; [rewrite lookup_insert, Hp|rewrite lookup_insert_ne by congruence]; apply shrinks_refl.
    + match goal with H : x_liquidate_positions _ _ _ _ _ = Ok _ |- _ => apply liquidate_positions_inv in H as (? & ? & ? & ? & ? & ? & ? & _ & _ & _ & _ & -> & _) end.
      unfold pos_of, liq_rebalance. cbn. rewrite lookup_fmap. destruct (va_positions a !! k) as [ps|]; cbn; [|apply shrinks_refl]. unfold shrinks. destruct (Z.le_ge_cases 0 (ap_amount ps)); lia.
  - rewrite (pos_of_g _ _ k (Hf eq_refl)). apply shrinks_refl.
Qed.
Lemma ssteps_shrinks E now c o s l s' : ssteps E now c o s l s' -> Forall no_open l -> forall k, shrinks (ap_amount (pos_of (s_acc s) k)) (ap_amount (pos_of (s_acc s') k)).
Proof.
  induction 1 as [|s x s1 l s2 H1 H2 IH]; intros Hf k; [apply shrinks_refl|]. inversion Hf; subst. eapply shrinks_trans; [eapply sstep_shrinks; eauto|]. apply IH; assumption.
Qed.
Lemma no_open_oath oath : Forall no_open (oath_acts oath). Proof. destruct oath; repeat constructor. Qed.
Lemma no_open_add ts : Forall no_open (add_acts ts).
Proof. unfold add_acts. apply Forall_app. split; [|repeat constructor]. induction (List.filter is_base ts); constructor; simpl; auto. Qed.
Ltac nop := left; apply Forall_app; split; [apply no_open_oath|repeat constructor].
Lemma op_acts_no_open w o out l : op_acts w o out l -> Forall no_open l \/ exists a r, executes_order w o a r.
Proof.
  intros H. destruct o; simpl in H; try contradiction.
  - destruct H as (acc & _ & _ & ->). nop.
  - destruct H as (acc & _ & _ & _ & ->). nop.
  - destruct H as (_ & ->). nop.
  - destruct H as (_ & ->). nop.
  - destruct H as (_ & ->). nop.
  - destruct H as (_ & ->). left. apply Forall_app. split; [apply no_open_add|apply no_open_oath].
  - destruct H as (_ & ->). nop.
  - destruct H as (_ & act & can & ->). nop.
  - destruct H as (_ & l' & -> & Hl). left. apply Forall_app. split; [apply no_open_oath|]. eapply Forall_impl; [exact Hl|]. intros [] Hx; simpl in *; try contradiction; exact I.
  - destruct H as (_ & ->). nop.
  - destruct H as (v0 & v1 & rq & ex & l' & Hv & Hp & Hx & -> & _). unfold exec_acts in Hx. destruct ex; [destruct Hx as [-> _]; left; repeat constructor|]. destruct rq as [r|r].
    + destruct Hx as (k & bs & -> & _). left. constructor; [exact I|]. apply Forall_app. split; [|repeat constructor]. induction k; constructor; simpl; auto.
    + right. match goal with |- exists a0 r0, executes_order _ (OProcessRequest ?a ?i ?u) a0 r0 => exists a, r, i, u end.
      apply get_acc_inv in Hv as (acc & Ha & Hcomp & _ & _ & _ & _ & _ & _ & _ & _ & _ & Hru & _). apply process_request_inv in Hp as (q & n & _ & Hr & Hq & _ & _ & _ & He). unfold va_keeper_request in Hr. rewrite Hru, lookup_empty, Hcomp in Hr. apply expect_Ok in Hr. unfold kl_get in Hr.
      exists acc, q. split; [reflexivity|]. split; [exact Ha|]. split; [exact Hr|]. split; [congruence|]. destruct He as [[He _]|[_ He]]; [discriminate|]. lia.
  - destruct H as (_ & paid & value & token & -> & _). left. repeat constructor.
  - destruct H as (_ & paid & bs & st & lo & fee & -> & Hlo & _). left. simpl. destruct Hlo as [->|[x ->]]; repeat constructor.
  - destruct H as (amt & fee & -> & _). left. repeat constructor.
Qed.
Lemma size_acc w a acc k : w_accounts w !! a = Some acc -> size_of w a k = ap_amount (acc_pos acc k).
Proof. intros Ha. unfold size_of, position, held, acc_pos. rewrite Ha. destruct (ac_positions acc !! k); reflexivity. Qed.
Lemma call_shrinks E w a l w' : acct_call E w a l w' -> Forall no_open l -> (forall a acc, w_accounts w !! a = Some acc -> nonzero acc) ->
  (forall b k, shrinks (size_of w b k) (size_of w' b k)) /\ forall k, open_interest_long w' k <= open_interest_long w k /\ open_interest_short w' k <= open_interest_short w k.
Proof.
  intros H Hl Hn. pose proof (acct_call_self _ _ _ _ _ H) as ((acc & Ha) & (acc' & Ha') & Hoth).
  destruct (call_fields _ _ _ _ _ _ _ H Hn Ha Ha') as (F & _).
  destruct (acct_call_out _ _ _ _ _ _ _ H Ha Ha') as (c & o & idsc & ids & v0 & s1 & refs' & _ & _ & Hv & Hc & Hs & _ & Hu).
  pose proof (ssteps_shrinks _ _ _ _ _ _ _ Hs Hl) as Hsh. cbn [s_acc] in Hsh.
  assert (forall k, ap_amount (pos_of v0 k) = ap_amount (acc_pos acc k)) as Hp0. { intros k. rewrite (get_acc_held _ _ _ _ k Hv Ha). unfold held, acc_pos. destruct (ac_positions acc !! k); reflexivity. }
  pose proof (si_start w a v0 ids Hv Hn) as HS. destruct (ssteps_si _ _ _ _ _ _ _ Hs HS) as [[C1 A1] _].
  assert (forall k, ap_amount (pos_of (s_acc s1) k) = ap_amount (acc_pos acc' k)) as Hp1.
  { intros k. pose proof (realized_field (s_acc s1) F_long k acc' (or_introl eq_refl) A1 Hu) as H1. pose proof (realized_field (s_acc s1) F_short k acc' (or_intror (or_introl eq_refl)) A1 Hu) as H2. simpl in H1, H2. unfold acc_pos. lia. }
  split.
  - intros b k. destruct (decide (b = a)) as [->|Hne]; [|unfold size_of, position; rewrite (Hoth _ Hne); apply shrinks_refl]. rewrite (size_acc _ _ _ _ Ha), (size_acc _ _ _ _ Ha'), <- Hp0, <- Hp1. apply Hsh.
  - intros k. specialize (Hsh k). rewrite Hp0, Hp1 in Hsh. pose proof (F F_long k (or_introl eq_refl)) as H1. pose proof (F F_short k (or_intror (or_introl eq_refl))) as H2. simpl in H1, H2.
    change (open_interest_long w' k) with (fl pp_oi_long (po_positions (w_pool w')) k). change (open_interest_long w k) with (fl pp_oi_long (po_positions (w_pool w)) k).
    change (open_interest_short w' k) with (fl pp_oi_short (po_positions (w_pool w')) k). change (open_interest_short w k) with (fl pp_oi_short (po_positions (w_pool w)) k). unfold shrinks in Hsh. lia.
Qed.
(** Only an order can open: every other call moves every position toward zero (or leaves it) and
    lowers the open interest (or leaves it). *)
Lemma step_shrinks E cx w o w' out : reachable E w -> step E cx w o = Ok (w', out) -> (exists a r, executes_order w o a r) \/
  ((forall b k, shrinks (size_of w b k) (size_of w' b k)) /\ forall k, open_interest_long w' k <= open_interest_long w k /\ open_interest_short w' k <= open_interest_short w k).
Proof.
  intros Hr H. pose proof (wi_nz _ (WI_reachable _ _ Hr)) as Hn. apply step_gstep in H. destruct H;
    try (right; split; [intros b1 k1; apply shrinks_refl|intros k1; split; apply Z.le_refl]).
  - destruct H0 as (l & H0 & Hl & _). destruct (op_acts_no_open _ _ _ _ Hl) as [Hf|Hx]; [right|left; exact Hx]. eapply call_shrinks; eauto.
  - right. assert (forall a0 acc0, w_accounts (new_account_world E w rule a ref g) !! a0 = Some acc0 -> nonzero acc0) as Hn'.
    { exact (wi_nz _ (WI_new E w rule a ref g H (WI_reachable _ _ Hr))). }
    destruct (call_shrinks _ _ _ _ _ H1 (proj2 (Forall_app _ _ _) (conj (no_open_add _) (no_open_oath _))) Hn') as [S1 S2]. split; [|exact S2].
    intros b k. specialize (S1 b k). revert S1. unfold size_of, position. simpl. destruct (decide (b = a)) as [->|Hne]; [|rewrite lookup_insert_ne by congruence; auto].
    rewrite lookup_insert, H. simpl. unfold held at 1. simpl. rewrite lookup_empty. auto.
  - right. split; [intros b1 k1; apply shrinks_refl|]. intros k. pose proof (upd_pairs_rel _ _ _ _ _ _ _ _ H1 (cached_new _ _ _)) as (_ & Hf & _).
    pose proof (Hf F_long k (or_introl eq_refl)) as F1. pose proof (Hf F_short k (or_intror (or_introl eq_refl))) as F2. rewrite real_get_pool in F1, F2. simpl in F1, F2.
    split; [change (P_Positions.fl pp_oi_long (real p') k <= P_Positions.fl pp_oi_long (po_positions (w_pool w)) k)|change (P_Positions.fl pp_oi_short (real p') k <= P_Positions.fl pp_oi_short (po_positions (w_pool w)) k)]; lia.
Qed.
