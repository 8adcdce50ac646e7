(** * Open interest, cost and snapshots: the pool's records against the accounts'. *)
From Verif Require Import Base DFloat Lists Types Config Oracle Pool Account Fees Referral ExInternal Exchange System Sums Trace Frames Calls Shape Spec P_Ledger P_Accounts Frames2 Trading.

(** The pool positions as they would be written back. *)
Definition real (p : vpool) : gmap pair_id pool_position := po_positions (vp_realize p).
Lemma real_lookup p k : real p !! k = match vp_positions p !! k with Some x => if decide (k ∈ vp_updates p) then Some x else po_positions (vp_comp p) !! k | None => po_positions (vp_comp p) !! k end.
Proof.
  unfold real, vp_realize, pool_update. cbn [po_positions]. rewrite lookup_union, map_filter_lookup.
  destruct (vp_positions p !! k) as [x|]; simpl; [|destruct (po_positions (vp_comp p) !! k); reflexivity].
  destruct (decide (k ∈ vp_updates p)) as [Hd|Hd].
  - rewrite option_guard_True by exact Hd. destruct (po_positions (vp_comp p) !! k); reflexivity.
  - rewrite option_guard_False by exact Hd. destruct (po_positions (vp_comp p) !! k); reflexivity.
Qed.
Lemma real_g p p' : g_ppos p' = g_ppos p -> real p' = real p.
Proof. unfold g_ppos. intros H. injection H as H1 H2 H3. apply map_eq. intros k. rewrite !real_lookup, H1, H2, H3. reflexivity. Qed.
Lemma real_set p k x : real (vp_set_position p k x) = <[k := x]> (real p).
Proof.
  apply map_eq. intros j. rewrite real_lookup. unfold vp_set_position. simpl. destruct (decide (j = k)) as [->|Hne].
  - rewrite !lookup_insert. rewrite decide_True by set_solver. reflexivity.
  - rewrite !lookup_insert_ne by congruence. rewrite real_lookup. destruct (vp_positions p !! j); [|reflexivity].
    destruct (decide (j ∈ vp_updates p)); [rewrite decide_True by set_solver|rewrite decide_False by set_solver]; reflexivity.
Qed.
Definition cached_ok (now : Z) (p : vpool) : Prop :=
  forall k pp, vp_positions p !! k = Some pp -> real p !! k = Some pp \/ (real p !! k = None /\ pp = pp_default now).
Lemma cached_new now p ids : cached_ok now (vp_new now p ids).
Proof.
  intros k pp H. rewrite real_lookup, H. rewrite decide_False by (simpl; set_solver). simpl in *. unfold pool_get_positions in H.
  assert (pp = pool_get_position now p k) as ->.
  { apply lookup_set_to_map in H; [|intros; simpl in *; congruence]. destruct H as (j & _ & H). injection H as -> <-. reflexivity. }
  unfold pool_get_position. destruct (po_positions p !! k); simpl; auto.
Qed.
Lemma cached_g now p p' : g_ppos p' = g_ppos p -> cached_ok now p -> cached_ok now p'.
Proof. intros H Hc k pp Hk. rewrite (real_g _ _ H). apply Hc. unfold g_ppos in H. injection H as H1 H2 H3. congruence. Qed.
Lemma cached_set now p k x : cached_ok now p -> cached_ok now (vp_set_position p k x).
Proof.
  intros Hc j pp Hj. rewrite real_set. unfold vp_set_position in Hj. simpl in Hj. destruct (decide (j = k)) as [->|Hne].
  - rewrite lookup_insert in *. left. exact Hj.
  - rewrite lookup_insert_ne in * by congruence. apply Hc. exact Hj.
Qed.
(** A field of a pool position; pairs without a record count as zero. *)
Definition fl (f : pool_position -> Z) (m : gmap pair_id pool_position) (k : pair_id) : Z := match m !! k with Some pp => f pp | None => 0 end.
Lemma cached_fl now p f k pp : cached_ok now p -> f (pp_default now) = 0 -> vp_positions p !! k = Some pp -> fl f (real p) k = f pp.
Proof. intros Hc Hf Hk. unfold fl. destruct (Hc _ _ Hk) as [->|[-> ->]]; auto. Qed.
Lemma fl_insert f m k x j : fl f (<[k := x]> m) j = if decide (j = k) then f x else fl f m j.
Proof. unfold fl. destruct (decide (j = k)) as [->|Hne]; [rewrite lookup_insert; reflexivity|rewrite lookup_insert_ne by congruence; reflexivity]. Qed.
(** Totals against the sum of a field. *)
Definition fsum (f : pool_position -> Z) (p : vpool) : Z := msum (fun _ => f) (real p).
Lemma fsum_set now p k pp x f : cached_ok now p -> f (pp_default now) = 0 -> vp_positions p !! k = Some pp ->
  fsum f (vp_set_position p k x) = fsum f p + (f x - f pp).
Proof.
  intros Hc Hf Hk. unfold fsum. rewrite real_set, msum_insert. match goal with |- context [match ?t with Some _ => _ | None => _ end] => assert (t = Some pp \/ (t = None /\ pp = pp_default now)) as [Hx|[Hx ->]] by exact (Hc _ _ Hk); rewrite Hx end; simpl; lia.
Qed.

(** What an account adds to a field of the pool position of its pairs. *)
Record field := mkField { f_pool : pool_position -> Z; f_acc : account_position -> Z }.
Definition F_long : field := mkField pp_oi_long (fun x => Z.max (ap_amount x) 0).
Definition F_short : field := mkField pp_oi_short (fun x => Z.max (- ap_amount x) 0).
Definition F_cost : field := mkField pp_cost ap_cost.
Definition is_field (f : field) : Prop := f = F_long \/ f = F_short \/ f = F_cost.
Lemma field_default f now : is_field f -> f_pool f (pp_default now) = 0 /\ f_acc f apos_zero = 0.
Proof. intros [->|[->| ->]]; split; reflexivity. Qed.
Lemma field_same f pp pp' : is_field f -> same_trade pp pp' -> f_pool f pp' = f_pool f pp.
Proof. intros [->|[->| ->]] (H1 & H2 & H3 & _); assumption. Qed.
Lemma field_resnap f price pp : is_field f -> f_pool f (resnap price pp) = f_pool f pp.
Proof. intros [->|[->| ->]]; reflexivity. Qed.

(** Positions with no amount have no cost; cached positions not marked for update are
    those of the component. *)
Definition zero_ok (m : gmap pair_id account_position) : Prop := forall k x, m !! k = Some x -> ap_amount x = 0 -> ap_cost x = 0.
Record acc_si (a : vacc) : Prop := {
  si_zero : zero_ok (va_positions a);
  si_dom : dom (ac_positions (va_comp a)) ⊆ dom (va_positions a);
  si_upd : forall k, k ∉ va_pos_upd a -> default apos_zero (va_positions a !! k) = default apos_zero (ac_positions (va_comp a) !! k) }.
Definition SI (now : Z) (s : sess) : Prop := cached_ok now (s_pool s) /\ acc_si (s_acc s).
Definition delta (f : field) (s : sess) (k : pair_id) : Z := fl (f_pool f) (real (s_pool s)) k - f_acc f (pos_of (s_acc s) k).
Definition skew_gap (p : vpool) : Z := vp_skew p - fsum pp_skew_abs_snap p.
Definition pnl_gap (p : vpool) : Z := vp_pnl p - fsum pp_pnl_snap p.
Definition Rel (s s' : sess) : Prop :=
  (forall f k, is_field f -> delta f s' k = delta f s k) /\ skew_gap (s_pool s') = skew_gap (s_pool s) /\ pnl_gap (s_pool s') = pnl_gap (s_pool s).

(** Snapshot updates keep the gaps. *)
Lemma put_snap_g p k pp x : g_ppos (put_snap p k pp x) = g_ppos (vp_set_position p k x).
Proof. reflexivity. Qed.
Lemma put_snap_real p k pp x : real (put_snap p k pp x) = <[k := x]> (real p).
Proof. rewrite (real_g (vp_set_position p k x)) by reflexivity. apply real_set. Qed.
Lemma put_snap_cached now p k pp x : cached_ok now p -> cached_ok now (put_snap p k pp x).
Proof. intros H. apply (cached_g _ (vp_set_position p k x)); [reflexivity|]. apply cached_set. exact H. Qed.
Lemma fsum_g f p p' : g_ppos p' = g_ppos p -> fsum f p' = fsum f p.
Proof. intros H. unfold fsum. rewrite (real_g _ _ H). reflexivity. Qed.
Lemma put_snap_gaps now p k pp x : cached_ok now p -> vp_positions p !! k = Some pp ->
  skew_gap (put_snap p k pp x) = skew_gap p /\ pnl_gap (put_snap p k pp x) = pnl_gap p.
Proof.
  intros Hc Hk. unfold skew_gap, pnl_gap. rewrite (fsum_g pp_skew_abs_snap (vp_set_position p k x)), (fsum_g pp_pnl_snap (vp_set_position p k x)) by reflexivity.
  rewrite (fsum_set now _ _ pp _ pp_skew_abs_snap), (fsum_set now _ _ pp _ pp_pnl_snap) by (auto; reflexivity).
  unfold put_snap. simpl. lia.
Qed.
Lemma gaps_g p p' : g_ppos p' = g_ppos p -> g_snap p' = g_snap p -> skew_gap p' = skew_gap p /\ pnl_gap p' = pnl_gap p.
Proof. intros H H2. unfold skew_gap, pnl_gap. rewrite (fsum_g pp_skew_abs_snap _ _ H), (fsum_g pp_pnl_snap _ _ H). unfold g_snap in H2. injection H2 as -> ->. auto. Qed.

(** Pool-only actions. *)
Definition pool_rel (now : Z) (p p' : vpool) : Prop :=
  cached_ok now p -> cached_ok now p' /\ (forall f k, is_field f -> fl (f_pool f) (real p') k = fl (f_pool f) (real p) k) /\ skew_gap p' = skew_gap p /\ pnl_gap p' = pnl_gap p.
Lemma pool_rel_refl now p : pool_rel now p p. Proof. intros H. auto. Qed.
Lemma pool_rel_trans now p1 p2 p3 : pool_rel now p1 p2 -> pool_rel now p2 p3 -> pool_rel now p1 p3.
Proof. intros H1 H2 Hc. destruct (H1 Hc) as (C1 & F1 & S1 & N1). destruct (H2 C1) as (C2 & F2 & S2 & N2). split; [exact C2|]. split; [intros f k Hf; rewrite F2, F1; auto|]. split; congruence. Qed.
Lemma pool_rel_put now p k pp x : vp_positions p !! k = Some pp -> same_trade pp x \/ (exists price, x = resnap price pp) \/ (forall f, is_field f -> f_pool f x = f_pool f pp) ->
  pool_rel now p (put_snap p k pp x).
Proof.
  intros Hk Hx Hc. split; [apply put_snap_cached; exact Hc|]. split.
  - intros f j Hf. rewrite put_snap_real, fl_insert. case_decide as Hd; [subst j|reflexivity]. rewrite (cached_fl now p _ _ pp Hc (proj1 (field_default f now Hf)) Hk).
    destruct Hx as [Hx|[[price ->]|Hx]]; [apply field_same; auto|apply field_resnap; auto|auto].
  - eapply put_snap_gaps; eauto.
Qed.
Lemma snaps_rel now o p k p' : x_update_pair_snaps o p k = Ok p' -> pool_rel now p p'.
Proof. intros H. apply update_snaps_inv in H as (price & pp & _ & Hk & ->). eapply pool_rel_put; eauto. Qed.
Lemma pool_rel_upf now p v : pool_rel now p (p <| vp_upf := v |>).
Proof. intros Hc. split; [apply (cached_g _ p); [reflexivity|exact Hc]|]. split; [intros; rewrite (real_g p) by reflexivity; reflexivity|]. apply gaps_g; reflexivity. Qed.
Lemma update_pair_fields now c o p pid p' b : x_update_pair now c o p pid = Ok (p', b) ->
  exists pp pp2 fpd, vp_positions p !! pid = Some pp /\ p' = put_snap p pid pp pp2 <| vp_upf := vp_upf p + fpd |> /\ (forall f, is_field f -> f_pool f pp2 = f_pool f pp) /\ pp_last_update pp2 = now.
Proof.
  intros H. apply update_pair_inv in H as (pc & price & pp & pp1 & pp2 & fpd & _ & _ & Hk & Hp1 & Hf & -> & _). exists pp, pp2, fpd. split; [exact Hk|]. split; [reflexivity|].
  destruct Hf as [(_ & -> & _)|(_ & Hf)].
  - subst pp1. split; [|reflexivity]. intros f Hf. destruct Hf as [->|[->| ->]]; reflexivity.
  - apply funding_step_inv in Hf as [Hst _]. split; [|destruct Hst as (_ & _ & _ & _ & _ & E6 & _); rewrite E6, Hp1; reflexivity].
    intros f Hf. rewrite (field_same _ _ _ Hf Hst). subst pp1. destruct Hf as [->|[->| ->]]; reflexivity.
Qed.
Lemma update_rel now c o p pid p' b : x_update_pair now c o p pid = Ok (p', b) -> pool_rel now p p'.
Proof.
  intros H. apply update_pair_fields in H as (pp & pp2 & fpd & Hk & -> & Hf & _).
  eapply pool_rel_trans; [eapply (pool_rel_put now p pid pp pp2); eauto|]. apply pool_rel_upf.
Qed.

Lemma pos_of_insert a a' pid x k : va_positions a' = <[pid := x]> (va_positions a) -> pos_of a' k = if decide (k = pid) then x else pos_of a k.
Proof. intros H. unfold pos_of. rewrite H. case_decide as Hd; [subst k; rewrite lookup_insert; reflexivity|rewrite lookup_insert_ne by congruence; reflexivity]. Qed.
Lemma trade_rel now p a fd p' a' fd' pid pp y x : cached_ok now p -> vp_positions p !! pid = Some pp ->
  (forall f, is_field f -> f_pool f y - f_pool f pp = f_acc f x - f_acc f (pos_of a pid)) ->
  g_ppos p' = g_ppos (put_snap p pid pp y) -> g_snap p' = g_snap (put_snap p pid pp y) -> va_positions a' = <[pid := x]> (va_positions a) ->
  Rel (mkS p a fd) (mkS p' a' fd').
Proof.
  intros Hc Hk Hf Hg Hs Ha. split.
  - intros f k Hfi. unfold delta. cbn [s_pool s_acc]. rewrite (real_g _ _ Hg), put_snap_real, fl_insert, (pos_of_insert _ _ _ _ _ Ha). case_decide as Hd; [subst k|reflexivity].
    rewrite (cached_fl now p _ _ pp Hc (proj1 (field_default f now Hfi)) Hk). specialize (Hf f Hfi). lia.
  - cbn [s_pool]. destruct (gaps_g _ _ Hg Hs) as [-> ->]. eapply put_snap_gaps; eauto.
Qed.
Lemma acc_si_set a pid x : acc_si a -> (ap_amount x = 0 -> ap_cost x = 0) -> acc_si (va_set_position a pid x).
Proof.
  intros [H1 H2 H3] Hx. unfold va_set_position. split; simpl.
  - intros k y Hy. destruct (decide (k = pid)) as [->|Hne]; [rewrite lookup_insert in Hy; injection Hy as <-; exact Hx|rewrite lookup_insert_ne in Hy by congruence; eapply H1; eauto].
  - rewrite dom_insert. set_solver.
  - intros k Hk. rewrite lookup_insert_ne by set_solver. apply H3. set_solver.
Qed.
Lemma acc_si_g a a' : g_pos a' = g_pos a -> acc_si a -> acc_si a'.
Proof. unfold g_pos. intros H [H1 H2 H3]. injection H as E1 E2 E3. split; rewrite ?E1, ?E2, ?E3; assumption. Qed.
Lemma pos_of_g a a' k : g_pos a' = g_pos a -> pos_of a' k = pos_of a k.
Proof. unfold g_pos, pos_of. intros H. injection H as E1 E2 E3. rewrite E1. reflexivity. Qed.
Lemma rel_pool now p a fd p' a' fd' : cached_ok now p -> pool_rel now p p' -> (forall f k, is_field f -> f_acc f (pos_of a' k) = f_acc f (pos_of a k)) -> Rel (mkS p a fd) (mkS p' a' fd').
Proof. intros Hc Hp Ha. destruct (Hp Hc) as (_ & F & G). split; [|exact G]. intros f k Hf. unfold delta. cbn [s_pool s_acc]. rewrite (F f k Hf), (Ha f k Hf). reflexivity. Qed.
Lemma Rel_refl s : Rel s s. Proof. split; auto. Qed.
Lemma Rel_trans s1 s2 s3 : Rel s1 s2 -> Rel s2 s3 -> Rel s1 s3.
Proof. intros (A1 & A2 & A3) (B1 & B2 & B3). split; [intros f k Hf; rewrite B1, A1; auto|]. split; congruence. Qed.

Lemma open_fields pp amount cost x idx : amount <> 0 -> 0 <= Z.sgn (ap_amount x) * Z.sgn amount ->
  forall f, is_field f -> f_pool f (traded pp (0 <? amount) amount cost) - f_pool f pp = f_acc f (mkAP (ap_amount x + amount) (ap_cost x + cost) idx) - f_acc f x.
Proof.
  intros Hnz Hs f Hf. unfold traded. destruct (Z.ltb_spec 0 amount), Hf as [->|[->| ->]]; simpl; try lia.
Qed.
Lemma close_fields pp amount cost x fu : amount <> 0 -> Z.sgn (ap_amount x) * Z.sgn amount <= 0 -> Z.abs amount <= Z.abs (ap_amount x) ->
  forall f, is_field f -> f_pool f (traded pp (amount <? 0) amount (- cost)) - f_pool f pp = f_acc f (mkAP (ap_amount x + amount) (ap_cost x - cost) fu) - f_acc f x.
Proof.
  intros Hnz Hs Ha f Hf. unfold traded. destruct (Z.ltb_spec amount 0), Hf as [->|[->| ->]]; simpl; try lia.
Qed.
Lemma full_close_ratio a : a <> 0 -> Z.quot (- - a * E18) a = E18.
Proof. intros H. rewrite Z.opp_involutive, Z.mul_comm. apply Z.quot_mul. exact H. Qed.
Lemma mulq_one x : mulq E18 x = x.
Proof. unfold mulq. rewrite Z.mul_comm. apply Z.quot_mul. discriminate. Qed.
Lemma fields_resnap (f : field) price y pp (d : Z) : is_field f -> f_pool f y - f_pool f pp = d -> f_pool f (resnap price y) - f_pool f pp = d.
Proof. intros Hf H. rewrite field_resnap by exact Hf. exact H. Qed.
Lemma open_si now c o p a fd pid amt p' a' fee : x_open_position c o p a pid amt = Ok (p', a', fee) -> amt <> 0 -> cached_ok now p -> acc_si a ->
  cached_ok now p' /\ acc_si a' /\ Rel (mkS p a fd) (mkS p' a' fd).
Proof.
  intros H Hnz Hc Ha. apply open_inv in H as (pc & fr & price & pp & cost & pp2 & _ & _ & _ & Hk & Hsg & _ & _ & Hp2 & _ & _ & -> & -> & _ & _). split; [apply put_snap_cached; exact Hc|]. split.
  - apply acc_si_set; [exact Ha|]. simpl. intros H0. exfalso. lia.
  - eapply trade_rel; try exact Hk; try exact Hc; try reflexivity. intros f Hf. apply fields_resnap; [exact Hf|]. subst pp2. apply open_fields; auto.
Qed.
Lemma close_si now c o p a fd pid amt p' a' q : x_close_position c o p a pid amt = Ok (p', a', q) -> amt <> 0 -> cached_ok now p -> acc_si a ->
  cached_ok now p' /\ acc_si a' /\ Rel (mkS p a fd) (mkS p' a' fd).
Proof.
  intros H Hnz Hc Ha. destruct q as [pnl fee]. apply close_inv in H as (pc & fr & price & pp & pos & cost & pp2 & _ & _ & _ & Hk & Hpos & Hp0 & Hsg & Hab & _ & Hco & Hpnl & Hp2 & -> & ->). split.
  { apply (cached_g _ (put_snap p pid pp (resnap price pp2))); [reflexivity|]. apply put_snap_cached. exact Hc. }
  split.
  - apply (acc_si_g (va_set_position a pid (pos <| ap_amount := ap_amount pos + amt |> <| ap_cost := ap_cost pos - cost |>))); [reflexivity|].
    apply acc_si_set; [exact Ha|]. simpl. intros H0. assert (amt = - ap_amount pos) as E1 by lia. rewrite E1, full_close_ratio, mulq_one in Hco by exact Hp0. lia.
  - eapply (trade_rel now _ _ _ _ _ _ pid pp (resnap price pp2)); try exact Hk; try exact Hc; try reflexivity. intros f Hf. apply fields_resnap; [exact Hf|]. subst pp2 pos.
    pose proof (close_fields pp amt cost (pos_of a pid) (ap_funding (pos_of a pid)) Hnz Hsg Hab f Hf) as Hcf. rewrite Hcf. destruct Hf as [->|[->| ->]]; reflexivity.
Qed.

(** Liquidation. *)
Definition at_ (k : pair_id) (f : account_position -> Z) (x : pair_id * account_position) : Z := if decide (fst x = k) then f (snd x) else 0.
Lemma lsum_at (m : gmap pair_id account_position) k f : f apos_zero = 0 -> lsum (at_ k f) (map_to_list m) = f (default apos_zero (m !! k)).
Proof.
  intros H0. induction m as [|j x m Hj IH] using map_ind.
  - rewrite map_to_list_empty, lookup_empty. simpl. lia.
  - rewrite (lsum_perm _ _ _ (map_to_list_insert m j x Hj)), lsum_cons, IH. unfold at_. simpl. case_decide as Hd.
    + subst k. rewrite lookup_insert, Hj. simpl. lia.
    + rewrite lookup_insert_ne by congruence. lia.
Qed.
Lemma liq_fields pp x : forall f, is_field f -> f_pool f (traded pp (0 <? ap_amount x) (- ap_amount x) (- ap_cost x)) = f_pool f pp - f_acc f x.
Proof. intros f Hf. unfold traded. destruct (Z.ltb_spec 0 (ap_amount x)), Hf as [->|[->| ->]]; simpl; lia. Qed.
Lemma liq_fold now c fr o l : forall p t p' t', rfold (x_liq_position1 c fr o) (p, t) l = Ok (p', t') -> cached_ok now p ->
  cached_ok now p' /\ (forall f k, is_field f -> fl (f_pool f) (real p') k = fl (f_pool f) (real p) k - lsum (at_ k (f_acc f)) l) /\ skew_gap p' = skew_gap p /\ pnl_gap p' = pnl_gap p.
Proof.
  induction l as [|[pid pos] l IH]; intros p t p' t' H Hc; cbn [rfold] in H.
  - apply Ok_inj in H. injection H as <- <-. split; [exact Hc|]. split; [intros; simpl; lia|auto].
  - bd H as ([p1 t1] & H1 & H). destruct t as [[[tp tm] tf] tfe]. apply liq1_inv in H1 as (pc & price & pp & fee & fu & _ & _ & Hk & _ & _ & -> & _).
    destruct (IH _ _ _ _ H (cached_set _ _ _ _ Hc)) as (C & F & S & N). split; [exact C|]. split.
    + intros f k Hf. rewrite F by exact Hf. rewrite real_set, fl_insert, lsum_cons. replace (at_ k (f_acc f) (pid, pos)) with (if decide (k = pid) then f_acc f pos else 0) by (unfold at_; simpl; repeat case_decide; congruence).
      case_decide as Hd.
      * subst k. rewrite (liq_fields _ _ _ Hf). rewrite (cached_fl now p _ _ pp Hc (proj1 (field_default f now Hf)) Hk). lia.
      * lia.
    + destruct (traded_snaps pp (0 <? ap_amount pos) (- ap_amount pos) (- ap_cost pos)) as [T1 T2].
      rewrite S, N. unfold skew_gap, pnl_gap. rewrite (fsum_set now _ _ pp _ pp_skew_abs_snap), (fsum_set now _ _ pp _ pp_pnl_snap) by (auto; reflexivity). rewrite T1, T2. simpl. lia.
Qed.
Lemma rfold_pool_rel {A} now (g : vpool -> A -> res vpool) l : (forall p x p', g p x = Ok p' -> pool_rel now p p') -> forall p p', rfold g p l = Ok p' -> pool_rel now p p'.
Proof.
  intros Hg. apply (rfold_ind g (pool_rel now)); [apply pool_rel_refl|]. intros s x s1 s2 H1 H2. eapply pool_rel_trans; [eapply Hg; exact H1|exact H2].
Qed.
Lemma liq_si now c o p a fd p' a' rp : x_liquidate_positions now c o p a = Ok (p', a', rp) -> cached_ok now p -> acc_si a ->
  cached_ok now p' /\ acc_si a' /\ Rel (mkS p a fd) (mkS p' a' fd).
Proof.
  intros H Hc Ha. apply liquidate_positions_inv in H as (fr & p1 & p2 & tp & tm & tf & tfe & _ & H1 & H2 & H3 & -> & _).
  assert (pool_rel now p p1) as R1.
  { eapply rfold_pool_rel; [|exact H1]. intros q k q' Hq. bd Hq as ([q1 b] & Hq1 & Hq). apply Ok_inj in Hq. subst q1. eapply update_rel; eauto. }
  assert (pool_rel now p2 p') as R3.
  { eapply pool_rel_trans; [apply pool_rel_upf|]. eapply rfold_pool_rel; [|exact H3]. intros. eapply snaps_rel; eauto. }
  destruct (R1 Hc) as (C1 & F1 & S1 & N1). destruct (liq_fold now _ _ _ _ _ _ _ _ H2 C1) as (C2 & F2 & S2 & N2). destruct (R3 C2) as (C3 & F3 & S3 & N3).
  split; [exact C3|]. split.
  - destruct Ha as [A1 A2 A3]. unfold liq_rebalance, va_set_positions. split; simpl.
    + intros k x Hx. rewrite lookup_fmap in Hx. destruct (va_positions a !! k); simpl in Hx; [|discriminate]. injection Hx as <-. reflexivity.
    + rewrite dom_fmap. exact A2.
    + intros k Hk. rewrite lookup_fmap. destruct (va_positions a !! k) as [x|] eqn:Hx; [exfalso; apply Hk; apply elem_of_union_r; apply elem_of_dom; eauto|]. simpl.
      rewrite <- (A3 k) by set_solver. rewrite Hx. reflexivity.
  - split; [|split; cbn [s_pool]; congruence]. intros f k Hf. unfold delta. cbn [s_pool s_acc]. rewrite (F3 f k Hf), (F2 f k Hf), (F1 f k Hf).
    destruct (field_default f now Hf) as [_ Hz]. rewrite (lsum_at (va_positions a) k (f_acc f) Hz). fold (pos_of a k).
    assert (pos_of (liq_rebalance a) k = apos_zero) as ->. { unfold pos_of, liq_rebalance, va_set_positions. simpl. rewrite lookup_fmap. destruct (va_positions a !! k); reflexivity. }
    rewrite Hz. lia.
Qed.
Lemma funding_si now p a fd pid p' a' nf : x_settle_funding p a pid = Ok (p', a', nf) -> cached_ok now p -> acc_si a ->
  cached_ok now p' /\ acc_si a' /\ Rel (mkS p a fd) (mkS p' a' fd).
Proof.
  intros H Hc Ha. apply settle_funding_inv in H as (pp & f & _ & _ & -> & Hm). split; [apply (cached_g _ p); [reflexivity|exact Hc]|].
  assert (pool_rel now p (p <| vp_upf := vp_upf p - f |> <| vp_vb := vp_vb p + f |>)) as Hrel.
  { intros _. split; [apply (cached_g _ p); [reflexivity|exact Hc]|]. split; [intros; rewrite (real_g p) by reflexivity; reflexivity|]. apply gaps_g; reflexivity. }
  destruct Ha as [A1 A2 A3]. destruct (va_positions a !! pid) as [pos|] eqn:Hpos.
  - destruct Hm as [_ ->]. split.
    + split; simpl.
      * intros k x Hx. destruct (decide (k = pid)) as [->|Hne]; [rewrite lookup_insert in Hx; injection Hx as <-; simpl; exact (A1 _ _ Hpos)|rewrite lookup_insert_ne in Hx by congruence; eapply A1; eauto].
      * rewrite dom_insert. set_solver.
      * intros k Hk. rewrite lookup_insert_ne; [apply A3; set_solver|]. intros <-. apply Hk. apply elem_of_union_r, elem_of_dom. eauto.
    + apply (rel_pool now); [exact Hc|exact Hrel|]. intros fi k Hf. unfold pos_of. simpl. destruct (decide (k = pid)) as [->|Hne].
      * rewrite lookup_insert, Hpos. simpl. destruct Hf as [->|[->| ->]]; reflexivity.
      * rewrite lookup_insert_ne by congruence. reflexivity.
  - destruct Hm as [_ ->]. split.
    + split; simpl; [exact A1|exact A2|]. intros k Hk. apply A3. set_solver.
    + apply (rel_pool now); [exact Hc|exact Hrel|]. intros. reflexivity.
Qed.
Lemma posread_si now p a fd pid a' pos : va_position a pid = (a', pos) -> cached_ok now p -> acc_si a -> acc_si a' /\ Rel (mkS p a fd) (mkS p a' fd).
Proof.
  intros H Hc [A1 A2 A3]. unfold va_position in H. destruct (va_positions a !! pid) as [x|] eqn:Hx.
  - injection H as <- <-. split; [split; assumption|]. apply Rel_refl.
  - injection H as <- <-. split.
    + split; simpl.
      * intros k y Hy. destruct (decide (k = pid)) as [->|Hne]; [rewrite lookup_insert in Hy; injection Hy as <-; reflexivity|rewrite lookup_insert_ne in Hy by congruence; eapply A1; eauto].
      * rewrite dom_insert. set_solver.
      * intros k Hk. rewrite <- (A3 k Hk). destruct (decide (k = pid)) as [->|Hne]; [rewrite lookup_insert, Hx; reflexivity|rewrite lookup_insert_ne by congruence; reflexivity].
    + apply (rel_pool now); [exact Hc|apply pool_rel_refl|]. intros f k Hf. unfold pos_of. simpl.
      destruct (decide (k = pid)) as [->|Hne]; [rewrite lookup_insert, Hx; reflexivity|rewrite lookup_insert_ne by congruence; reflexivity].
Qed.
Lemma sstep_si E now c o s x s' : sstep E now c o s x s' -> SI now s -> SI now s' /\ Rel s s'.
Proof.
  intros H [Hc Ha]. pose proof (sstep_frames _ _ _ _ _ _ _ H) as (_ & _ & _ & Fp & _ & Fpp & _). destruct (touches_pos x) eqn:Tp; [|destruct (touches_ppos x) eqn:Tpp].
  - clear Fp Fpp. destruct H; simpl in Tp; try discriminate Tp; cbn [s_pool s_acc] in *.
    + destruct (funding_si now _ _ fd _ _ _ _ H Hc Ha) as (C & A & R). split; [split; assumption|exact R].
    + destruct (close_si now _ _ _ _ fd _ _ _ _ _ H H0 Hc Ha) as (C & A & R). split; [split; assumption|exact R].
    + destruct (open_si now _ _ _ _ fd _ _ _ _ _ H H0 Hc Ha) as (C & A & R). split; [split; assumption|exact R].
    + destruct (posread_si now p _ fd _ _ _ H Hc Ha) as (A & R). split; [split; assumption|exact R].
    + destruct (liq_si now _ _ _ _ fd _ _ _ H Hc Ha) as (C & A & R). split; [split; assumption|exact R].
  - specialize (Fp eq_refl). destruct x; simpl in Tpp; try discriminate Tpp; simpl in Tp; try discriminate Tp. inversion H as [| | | | |p0 a0 fd0 pid0 p1 b0 Hup| | | | | | | | | | | | | |]; subst. cbn [s_pool s_acc] in *.
    pose proof (update_rel _ _ _ _ _ _ _ Hup) as R. destruct (R Hc) as (C & _). split; [split; assumption|]. apply (rel_pool now); [exact Hc|exact R|auto].
  - specialize (Fp eq_refl). destruct (Fpp eq_refl) as [G1 G2]. split; [split; [eapply cached_g; eauto|eapply acc_si_g; eauto]|]. split.
    + intros f k Hf. unfold delta. rewrite (real_g _ _ G1), (pos_of_g _ _ k Fp). reflexivity.
    + apply gaps_g; assumption.
Qed.
Lemma ssteps_si E now c o s l s' : ssteps E now c o s l s' -> SI now s -> SI now s' /\ Rel s s'.
Proof.
  induction 1 as [s|s x s1 l s2 H1 H2 IH]; intros Hs; [split; [exact Hs|apply Rel_refl]|]. destruct (sstep_si _ _ _ _ _ _ _ H1 Hs) as [S1 R1]. destruct (IH S1) as [S2 R2].
  split; [exact S2|]. eapply Rel_trans; eauto.
Qed.
