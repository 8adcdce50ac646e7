(** * Specification vocabulary for the reasons a fee oath is refused (C65). *)
From Verif Require Import Base DFloat Types Config Oracle Pool Account Referral Exchange System SpecMargin SpecAuth SpecRequests SpecOracle Spec SpecTrading SpecRefuse.

(** Prices read without a limit on their age: the limit is the largest number of seconds there is. *)
Definition any_age : Z := 2 ^ 63 - 1.
(** A fee oath of [amount] is charged to an account: it must keep its initial margin, at the stored prices, without that amount. *)
Definition cannot_afford (w : world) (acc : account) (amount : Z) : Prop := account_value w acc - amount < initial_margin w acc.
(** What stops a fee oath [b] charged to the account [acc] by a call about the pairs [extra]: it is no fee oath, or more than was ever locked;
    the price of a pair the account is in, or of one the call is about, is missing or not positive; the price of some collateral
    is missing, stale or not positive; the account cannot afford it. *)
Definition oath_refused (E : env) (w : world) (acc : account) (extra : gset pair_id) (b : bucket) (e : error) : Prop :=
  e = EInvalidFeeOath /\ b_res b <> FEE_OATH \/
  e = EEngine /\ w_oath w < b_amt b \/
  (exists k, (is_Some (ac_positions acc !! k) \/ k ∈ extra) /\ bad_price E w None k any_age e) \/
  (exists k age, feed_max_age w k age /\ bad_price E w None k age e) \/
  e = EInsufficientMargin /\ cannot_afford w acc (b_amt b) \/
  e = EArithmetic.
(** The same for a call that may come without one. *)
Definition oath_stopped (E : env) (w : world) (a : addr) (extra : gset pair_id) (oath : option bucket) (e : error) : Prop :=
  exists b acc, oath = Some b /\ w_accounts w !! a = Some acc /\ oath_refused E w acc extra b e.
Definition handed (oath : option bucket) : list bucket := match oath with Some b => [b] | None => [] end.
(** The account once the tokens [ts] are in it. *)
Definition credited (acc : account) (ts : list bucket) (acc1 : account) : Prop :=
  ac_positions acc1 = ac_positions acc /\ ac_ref acc1 = ac_ref acc /\ ac_vb acc1 = ac_vb acc + amount_in BASE ts /\
  forall r, r <> BASE -> default 0 (ac_coll acc1 !! r) = default 0 (ac_coll acc !! r) + amount_in r ts.
(** What stops the tokens [ts] from entering the account [acc]: a token that is no collateral; more kinds of collateral than allowed;
    a balance that leaves the range of decimals. *)
Definition deposit_stopped (w : world) (acc : account) (ts : list bucket) (e : error) : Prop :=
  e = EInvalidCollateral /\ (exists b, b ∈ ts /\ b_res b <> BASE /\ coll_cfg w (b_res b) = None) \/
  e = ECollateralsTooMany /\ (ec_collaterals_max (g_exchange_config w) < N.of_nat (size (dom (ac_coll acc) ∪ kinds ts)))%N \/
  e = EArithmetic /\ (exists ts', ts' `prefix_of` ts /\
    (overflows (po_base (w_pool w)) (amount_in BASE ts') \/ overflows (po_vb (w_pool w)) (- amount_in BASE ts') \/ overflows (ac_vb acc) (amount_in BASE ts') \/
     exists b, b ∈ ts' /\ b_res b <> BASE /\ overflows (default 0 (ac_coll acc !! b_res b)) (amount_in (b_res b) ts'))).
(** The oath is charged once the tokens are in. *)
Definition oath_stopped_after (E : env) (w : world) (acc : account) (ts : list bucket) (oath : option bucket) (e : error) : Prop :=
  exists b acc1, oath = Some b /\ credited acc ts acc1 /\ oath_refused E w acc1 ∅ b e.
(** What the generator pays whoever claims the code [c]: each promised amount, rounded down to the token's divisibility. *)
Definition code_pays (E : env) (c : rcode) : list bucket := map (fun x => (fst x, Z.quot (snd x) (unit_of E (fst x)) * unit_of E (fst x))) (rc_claims c).
