(** * C73: the balance sheet balances. *)
From Verif Require Import Base DFloat Lists Types Config Oracle Pool Account Fees Referral ExInternal Exchange System Scenario Sums Trace Spec SpecAuth SpecOracle SpecTrading SpecMargin P_Ledger Witness P_Snaps Props_Ledger Props_Positions.

(** The price a pair was last marked at. *)
Definition mark (w : world) (k : pair_id) : Z := pp_last_price (pool_pair w k).
(** What a position is worth at the price its pair was last marked at, less what it cost. *)
Definition marked_profit (w : world) (k : pair_id) (x : account_position) : Z := Z.quot (ap_amount x * mark w k) (10 ^ 18) - ap_cost x.
(** What an account's base balance and positions are worth at these prices, before funding and closing fees. *)
Definition marked_value (w : world) (acc : account) : Z := ac_vb acc + msum (marked_profit w) (ac_positions acc).
(** How many accounts hold the pair; how many positions are open. *)
Definition holders (w : world) (k : pair_id) : Z := sum_accounts (fun acc => if ac_positions acc !! k then 1 else 0) w.
Definition open_positions (w : world) : Z := sum_accounts (fun acc => Z.of_nat (size (ac_positions acc))) w.

(** ** Sums *)
Lemma lsum_swap {A B} (f : A -> B -> Z) l1 l2 : lsum (fun x => lsum (f x) l2) l1 = lsum (fun y => lsum (fun x => f x y) l1) l2.
Proof.
  induction l1 as [|x l1 IH]; cbn.
  - symmetry. apply lsum_zero. reflexivity.
  - transitivity (lsum (f x) l2 + lsum (fun y => lsum (fun x0 => f x0 y) l1) l2); [rewrite <- IH; reflexivity|]. rewrite <- lsum_add. apply lsum_ext. reflexivity.
Qed.
Lemma msum_swap {A B} (f : N -> A -> N -> B -> Z) (m1 : gmap N A) (m2 : gmap N B) :
  msum (fun i x => msum (f i x) m2) m1 = msum (fun j y => msum (fun i x => f i x j y) m1) m2.
Proof. exact (lsum_swap (fun a b => f (fst a) (snd a) (fst b) (snd b)) (map_to_list m1) (map_to_list m2)). Qed.
Lemma msum_sub {A B} (h : N -> Z) : forall (K : gmap N B) (m : gmap N A), (forall k, is_Some (m !! k) -> is_Some (K !! k)) -> (forall k, is_Some (K !! k) -> m !! k = None -> h k = 0) ->
  msum (fun k _ => h k) m = msum (fun k _ => h k) K.
Proof.
  intros K. induction K as [|k y K Hk IH] using map_ind; intros m H1 H2.
  - rewrite msum_empty. apply msum_zero. intros k x Hx. destruct (H1 k (mk_is_Some _ _ Hx)) as [z Hz]. rewrite lookup_empty in Hz. discriminate Hz.
  - rewrite (msum_insert_new _ _ _ _ Hk). destruct (m !! k) as [x|] eqn:Hm.
    + pose proof (msum_delete (fun k _ => h k) m k x Hm) as Hd. rewrite <- (IH (delete k m)).
      * rewrite Hd. reflexivity.
      * intros j Hj. destruct (decide (j = k)) as [->|Hne]; [rewrite lookup_delete in Hj; destruct Hj as [? Hj]; discriminate Hj|]. rewrite lookup_delete_ne in Hj by congruence. specialize (H1 j Hj). rewrite lookup_insert_ne in H1 by congruence. exact H1.
      * intros j Hj Hn. destruct (decide (j = k)) as [->|Hne]; [destruct Hj as [? Hj]; congruence|]. rewrite lookup_delete_ne in Hn by congruence. apply H2; [rewrite lookup_insert_ne by congruence; exact Hj|exact Hn].
    + rewrite (H2 k); [|rewrite lookup_insert; eauto|exact Hm]. rewrite (IH m); [lia| |].
      * intros j Hj. specialize (H1 j Hj). destruct (decide (j = k)) as [->|Hne]; [rewrite Hm in Hj; destruct Hj as [? Hj]; discriminate Hj|]. rewrite lookup_insert_ne in H1 by congruence. exact H1.
      * intros j Hj Hn. apply H2; [|exact Hn]. destruct (decide (j = k)) as [->|Hne]; [rewrite lookup_insert; eauto|rewrite lookup_insert_ne by congruence; exact Hj].
Qed.
Lemma msum_size {A} (m : gmap N A) : msum (fun _ _ => 1) m = Z.of_nat (size m).
Proof. induction m as [|k x m Hk IH] using map_ind; [reflexivity|]. rewrite (msum_insert_new _ _ _ _ Hk), map_size_insert_None, IH by exact Hk. lia. Qed.

(** Rounding each of the products toward zero differs from rounding their sum by at most the number of factors that are not 0. *)
Lemma quot_rem_bound x d : 0 < d -> exists r, x = d * Z.quot x d + r /\ Z.abs r <= d - 1.
Proof. intros Hd. exists (Z.rem x d). split; [apply Z.quot_rem'|]. pose proof (Z.rem_bound_abs x d ltac:(lia)). lia. Qed.
Lemma round_sum {A} (f : A -> Z) (c : A -> Z) (p d : Z) l : 0 < d -> (forall x, x ∈ l -> f x = 0 /\ c x = 0 \/ c x = 1) ->
  Z.abs (lsum (fun x => Z.quot (f x * p) d) l - Z.quot (lsum f l * p) d) <= lsum c l.
Proof.
  intros Hd Hc. assert (exists R, lsum f l * p = d * lsum (fun x => Z.quot (f x * p) d) l + R /\ Z.abs R <= (d - 1) * lsum c l /\ 0 <= lsum c l) as (R & HR & HB & Hpos).
  { induction l as [|x l IH]; [exists 0; cbn; lia|]. destruct IH as (R & HR & HB & Hp). { intros y Hy. apply Hc. right. exact Hy. }
    rewrite !lsum_cons. destruct (Hc x ltac:(left)) as [[-> ->]| ->].
    - exists R. rewrite Z.mul_0_l, Z.quot_0_l by lia. lia.
    - destruct (quot_rem_bound (f x * p) d Hd) as (r & Hr & Hrb). exists (R + r). split; [nia|]. split; [|lia]. nia. }
  destruct (quot_rem_bound (lsum f l * p) d Hd) as (r & Hr & Hrb). set (S := lsum (fun x => Z.quot (f x * p) d) l) in *. set (Q := Z.quot (lsum f l * p) d) in *. set (n := lsum c l) in *. clearbody S Q n.
  assert (d * (S - Q) = r - R) as He by nia. assert (Z.abs (S - Q) < n + 1); [|lia]. apply Z.abs_lt. split; nia.
Qed.

(** ** Per pair *)
Lemma net_interest E w k : reachable E w -> open_interest_long w k - open_interest_short w k = sum_accounts (fun acc => ap_amount (held acc k)) w.
Proof.
  intros Hr. destruct (C17_open_interest E w k Hr) as (-> & -> & _). unfold sum_accounts. rewrite !msum_lsum.
  assert (forall l : list (N * account), lsum (fun kx => Z.max (ap_amount (held (snd kx) k)) 0) l - lsum (fun kx => Z.max (- ap_amount (held (snd kx) k)) 0) l = lsum (fun kx => ap_amount (held (snd kx) k)) l) as H; [|apply H].
  induction l as [|x l IH]; [reflexivity|]. rewrite !lsum_cons. lia.
Qed.
Lemma both_zero x A B : 0 = Z.max x 0 + A -> 0 = Z.max (- x) 0 + B -> 0 <= A -> 0 <= B -> x = 0.
Proof. lia. Qed.
Lemma held_known E w a acc k : reachable E w -> w_accounts w !! a = Some acc -> is_Some (ac_positions acc !! k) -> is_Some (po_positions (w_pool w) !! k).
Proof.
  intros Hr Ha [x Hx]. destruct (po_positions (w_pool w) !! k) as [pp|] eqn:Hk; [eauto|exfalso]. pose proof (C17_no_empty_position _ _ _ _ _ _ Hr Ha Hx) as Hne.
  destruct (C17_open_interest E w k Hr) as (HL & HS & _). unfold open_interest_long, open_interest_short, pair_field in HL, HS.
  match type of HL with match ?t with _ => _ end = _ => assert (t = None) as Ht by exact Hk; rewrite Ht in HL, HS end. clear Ht. unfold sum_accounts in HL, HS.
  assert (ap_amount (held acc k) = ap_amount x) as He. { unfold held. match goal with |- context[match ?t with Some _ => _ | None => _ end] => assert (t = Some x) as Ht by exact Hx; rewrite Ht end. reflexivity. }
  assert (0 <= msum (fun _ acc => Z.max (- ap_amount (held acc k)) 0) (delete a (w_accounts w)) /\ 0 <= msum (fun _ acc => Z.max (ap_amount (held acc k)) 0) (delete a (w_accounts w))) as [N1 N2] by (split; apply msum_nonneg; intros; lia).
  rewrite (msum_delete _ _ _ _ Ha) in HL. rewrite (msum_delete _ _ _ _ Ha) in HS. rewrite He in HL. rewrite He in HS.
  exact (Hne (both_zero _ _ _ HL HS N2 N1)).
Qed.

Lemma mirror k p (l : list (N * account)) : let f := fun kx : N * account => ap_amount (held (snd kx) k) in let c := fun kx : N * account => if ac_positions (snd kx) !! k then 1 else 0 in
  Z.abs (lsum (fun x => Z.quot (f x * p) (10 ^ 18)) l - Z.quot (lsum f l * p) (10 ^ 18)) <= lsum c l ->
  Z.abs (lsum (fun kx => ap_cost (held (snd kx) k)) l - Z.quot (lsum f l * p) (10 ^ 18) + lsum (fun kx => Z.quot (f kx * p) (10 ^ 18) - ap_cost (held (snd kx) k)) l) <= lsum c l.
Proof.
  intros f c. assert (lsum (fun kx => Z.quot (f kx * p) (10 ^ 18) - ap_cost (held (snd kx) k)) l = lsum (fun x => Z.quot (f x * p) (10 ^ 18)) l - lsum (fun kx => ap_cost (held (snd kx) k)) l) as ->.
  { clear. induction l as [|x l IH]; [reflexivity|]. rewrite !lsum_cons, IH. lia. }
  generalize (lsum c l) (Z.quot (lsum f l * p) (10 ^ 18)) (lsum (fun x => Z.quot (f x * p) (10 ^ 18)) l) (lsum (fun kx => ap_cost (held (snd kx) k)) l). clear. intros a b d e. lia.
Qed.
(** *** The pool's profit on a pair is what the holders lose on it, marked at the pair's last price: together they are 0,
    up to one unit of 10^-18 for each account that holds the pair. *)
Theorem C73_profit_mirrors_the_traders E w k pp : reachable E w -> po_positions (w_pool w) !! k = Some pp ->
  Z.abs (pp_pnl_snap pp + sum_accounts (fun acc => marked_profit w k (held acc k)) w) <= holders w k.
Proof.
  intros Hr Hk. destruct (C18_snapshots _ _ _ _ Hr Hk) as [_ ->]. pose proof (net_interest E w k Hr) as Hn. destruct (C17_open_interest E w k Hr) as (_ & _ & Hc).
  assert (open_interest_long w k = pp_oi_long pp /\ open_interest_short w k = pp_oi_short pp /\ pool_cost w k = pp_cost pp) as (O1 & O2 & O3).
  { unfold open_interest_long, open_interest_short, pool_cost, pair_field. match goal with |- context[match ?t with Some _ => _ | None => _ end] => assert (t = Some pp) as Ht by exact Hk; rewrite Ht end. auto. }
  assert (mark w k = pp_last_price pp) as Hm. { unfold mark, pool_pair. match goal with |- context[match ?t with Some _ => _ | None => _ end] => assert (t = Some pp) as Ht by exact Hk; rewrite Ht end. reflexivity. }
  rewrite O1, O2 in Hn. rewrite O3 in Hc. unfold net_value. rewrite Hn, Hc, <- Hm. clear O1 O2 O3 Hn Hc Hm. unfold sum_accounts, holders, sum_accounts, marked_profit. rewrite !msum_lsum. generalize (mark w k) as p. intros p.
  pose proof (round_sum (fun kx : N * account => ap_amount (held (snd kx) k)) (fun kx => if ac_positions (snd kx) !! k then 1 else 0) p (10 ^ 18) (map_to_list (w_accounts w)) ltac:(reflexivity)) as X.
  match type of X with ?A -> _ => assert A as HA end.
  { intros [a acc] _. cbn [snd]. unfold held. destruct (ac_positions acc !! k); [right; reflexivity|left; split; reflexivity]. }
  exact (mirror k p _ (X HA)).
Qed.

(** ** All pairs *)
Lemma sum_by_pairs E w a acc (g : N -> account_position -> Z) : reachable E w -> w_accounts w !! a = Some acc -> (forall k, g k (mkAP 0 0 0) = 0) ->
  msum g (ac_positions acc) = msum (fun k _ => g k (held acc k)) (po_positions (w_pool w)).
Proof.
  intros Hr Ha Hg. rewrite <- (msum_sub (fun k => g k (held acc k)) (po_positions (w_pool w)) (ac_positions acc)).
  - apply msum_ext. intros k x Hx. unfold held. match goal with |- context[match ?t with Some _ => _ | None => _ end] => assert (t = Some x) as Ht by exact Hx; rewrite Ht end. reflexivity.
  - intros k. eapply held_known; eassumption.
  - intros k _ Hn. unfold held. match goal with |- context[match ?t with Some _ => _ | None => _ end] => assert (t = None) as Ht by exact Hn; rewrite Ht end. apply Hg.
Qed.
Lemma abs_sum {A} (f g c : N -> A -> Z) m : (forall k x, m !! k = Some x -> Z.abs (f k x + g k x) <= c k x) -> Z.abs (msum f m + msum g m) <= msum c m.
Proof.
  induction m as [|k x m Hk IH] using map_ind; intros H; [reflexivity|]. rewrite !(msum_insert_new _ _ _ _ Hk). pose proof (H k x (lookup_insert _ _ _)) as H1.
  assert (Z.abs (msum f m + msum g m) <= msum c m). { apply IH. intros j y Hj. apply H. rewrite lookup_insert_ne; [exact Hj|]. intros <-. rewrite Hk in Hj. discriminate Hj. } lia.
Qed.
Lemma all_pairs E w : reachable E w -> Z.abs (po_pnl (w_pool w) + sum_accounts (fun acc => msum (marked_profit w) (ac_positions acc)) w) <= open_positions w.
Proof.
  intros Hr. destruct (C18_totals _ _ Hr) as [_ ->]. set (K := po_positions (w_pool w)).
  assert (sum_accounts (fun acc => msum (marked_profit w) (ac_positions acc)) w = msum (fun k _ => sum_accounts (fun acc => marked_profit w k (held acc k)) w) K) as ->.
  { unfold sum_accounts. rewrite <- (msum_swap (fun _ acc k _ => marked_profit w k (held acc k)) (w_accounts w) K). apply msum_ext. intros a acc Ha. eapply sum_by_pairs; [exact Hr|exact Ha|reflexivity]. }
  assert (open_positions w = msum (fun k _ => holders w k) K) as ->.
  { unfold open_positions, holders, sum_accounts. rewrite <- (msum_swap (fun _ acc k _ => if ac_positions acc !! k then 1 else 0) (w_accounts w) K). apply msum_ext. intros a acc Ha.
    rewrite <- msum_size. rewrite <- (msum_sub (fun k => if ac_positions acc !! k then 1 else 0) K (ac_positions acc)).
    - apply msum_ext. intros k x Hx. match goal with |- context[if ?t then _ else _] => assert (t = Some x) as Ht by exact Hx; rewrite Ht end. reflexivity.
    - intros k. eapply held_known; eassumption.
    - intros k _ Hn. match goal with |- context[if ?t then _ else _] => assert (t = None) as Ht by exact Hn; rewrite Ht end. reflexivity. }
  unfold sum_pairs. apply abs_sum. intros k pp Hk. apply (C73_profit_mirrors_the_traders E); [exact Hr|exact Hk].
Qed.

(** *** Every base token the pool holds, and the funding it is still to receive, is somebody's: the value of the pool, which the
    liquidity tokens share, the values of the accounts, the collected fees and the referral rewards add up to exactly that,
    less outstanding fee oaths (there are none between transactions), up to one unit of 10^-18 for each open position. *)
Theorem C73_balance_sheet E w : reachable E w ->
  Z.abs (pool_value w + sum_accounts (marked_value w) w + fd_protocol (w_fd w) + fd_treasury (w_fd w) + dl_vb (w_dl w) + total_referral_balance w
         - (po_base (w_pool w) + po_upf (w_pool w) + w_oath w)) <= open_positions w.
Proof.
  intros Hr. pose proof (all_pairs E w Hr) as H. pose proof (C01_ledger_equals_oaths E w Hr) as HL. unfold ledger, total_account_vb in HL. unfold pool_value, marked_value.
  assert (sum_accounts (fun acc => ac_vb acc + msum (marked_profit w) (ac_positions acc)) w = msum (fun _ a => ac_vb a) (w_accounts w) + sum_accounts (fun acc => msum (marked_profit w) (ac_positions acc)) w) as ->.
  { unfold sum_accounts. rewrite !msum_lsum. rewrite <- lsum_add. reflexivity. }
  apply Z.abs_le. apply Z.abs_le in H. lia.
Qed.
Theorem C73_balance_sheet_between_transactions E w : tx_reachable E w ->
  Z.abs (pool_value w + sum_accounts (marked_value w) w + fd_protocol (w_fd w) + fd_treasury (w_fd w) + dl_vb (w_dl w) + total_referral_balance w
         - (po_base (w_pool w) + po_upf (w_pool w))) <= open_positions w.
Proof.
  intros Ht. pose proof (C01_zero_after_transactions E w Ht) as HL0. assert (reachable E w) as Hr by (exact (proj1 (tx_reachable_reachable _ _ Ht))). pose proof (C73_balance_sheet E w Hr) as H. pose proof (C01_ledger_equals_oaths E w Hr) as HL.
  rewrite <- HL, HL0 in H. rewrite Z.add_0_r in H. exact H.
Qed.

(** *** Example: a day of trading by two accounts, one long, one short. *)
Example C73_check : (open_positions W3 =? 2) && negb (po_pnl (w_pool W3) =? 0) && (holders W3 1%N =? 2) && negb (po_upf (w_pool W3) =? 0) && (w_oath W3 =? 0) && (0 <? fd_protocol (w_fd W3)) &&
  (Z.abs (pool_value W3 + sum_accounts (marked_value W3) W3 + fd_protocol (w_fd W3) + fd_treasury (w_fd W3) + dl_vb (w_dl W3) + total_referral_balance W3 - (po_base (w_pool W3) + po_upf (w_pool W3))) <=? 2) &&
  negb (sum_accounts (fun acc => msum (marked_profit W3) (ac_positions acc)) W3 =? 0) = true.
Proof. vm_compute. reflexivity. Qed.
Example C73_ex : reachable sc_env W3 /\ open_positions W3 = 2 /\ po_pnl (w_pool W3) <> 0 /\
  Z.abs (pool_value W3 + sum_accounts (marked_value W3) W3 + fd_protocol (w_fd W3) + fd_treasury (w_fd W3) + dl_vb (w_dl W3) + total_referral_balance W3 - (po_base (w_pool W3) + po_upf (w_pool W3) + w_oath W3)) <= 2.
Proof.
  pose proof C73_check as H. repeat match type of H with (_ && _) = true => let H2 := fresh "K" in apply andb_true_iff in H as [H H2] end. apply Z.eqb_eq in H. apply negb_true_iff, Z.eqb_neq in K5.
  split; [exact W3_reach|]. split; [exact H|]. split; [exact K5|]. rewrite <- H at 1. exact (C73_balance_sheet _ _ W3_reach).
Qed.
