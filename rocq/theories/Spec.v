(** * Specification vocabulary.
    Definitions used in the statements of the properties, written against the
    observable state of Exchange.v (component fields) and nothing of the proofs. *)
From Verif Require Import Base DFloat Lists Types Config Oracle Pool Account Fees Referral ExInternal Exchange System Sums.

(** ** Ledger (C01) *)
(** The sum of the virtual balances of all margin accounts. *)
Definition total_account_vb (w : world) : Z := msum (fun _ a => ac_vb a) (w_accounts w).
(** The sum of the reward balances of all referrals. *)
Definition total_referral_balance (w : world) : Z := msum (fun _ r => rf_balance r) (w_refs w).
(** All claims on the pool, the pool's own virtual balance included. *)
Definition ledger (w : world) : Z :=
  po_vb (w_pool w) + total_account_vb w + fd_protocol (w_fd w) + fd_treasury (w_fd w)
  + dl_vb (w_dl w) + total_referral_balance w.

(** ** Accounts named by a call (C50) *)
(** The margin account a call names: the one it works on, or the one it creates. *)
Definition named_account (o : op) : option addr :=
  match o with
  | OCreateAccount _ _ _ _ a => Some a
  | OCreateRecoveryKey _ a | OAddAuthRule _ a _ _ | OSetLevel1Auth _ a _ | OSetLevel2Auth _ a _ | OSetLevel3Auth _ a _
  | OAddCollateral _ a _ | ORemoveCollateralRequest _ _ a _ _ | OMarginOrderRequest _ _ _ a _ _ _ _ _ _ _ _
  | OMarginOrderTpSlRequest _ _ _ a _ _ _ _ _ _ _ | OCancelRequests _ a _ | OProcessRequest a _ _
  | OSwapDebt a _ _ _ | OLiquidate a _ _ | OAutoDeleverage a _ _ => Some a
  | _ => None
  end.

(** ** Fee oaths (C46) *)
(** The fee oath a call takes. *)
Definition oath_of (o : op) : option bucket :=
  match o with
  | OCreateAccount oath _ _ _ _ | OAddCollateral oath _ _
  | OCreateRecoveryKey oath _ | OAddAuthRule oath _ _ _ | OSetLevel1Auth oath _ _
  | OSetLevel2Auth oath _ _ | OSetLevel3Auth oath _ _ | ORemoveCollateralRequest oath _ _ _ _
  | OMarginOrderRequest oath _ _ _ _ _ _ _ _ _ _ _ | OMarginOrderTpSlRequest oath _ _ _ _ _ _ _ _ _ _
  | OCancelRequests oath _ _ => oath
  | _ => None
  end.
(** The amount of resource [r] in a list of buckets. *)
Definition amount_in (r : resource) (bs : list bucket) : Z :=
  lsum (fun b => if (b_res b =? r)%N then b_amt b else 0) bs.
(** No fee balance is negative. *)
Definition fees_nonneg (w : world) : Prop :=
  0 <= fd_protocol (w_fd w) /\ 0 <= fd_treasury (w_fd w) /\ 0 <= dl_vb (w_dl w) /\
  forall id d, w_refs w !! id = Some d -> 0 <= rf_balance d.
(** The two shares of every referral are within 0..10%. *)
Definition ref_shares_ok (w : world) : Prop :=
  forall id d, w_refs w !! id = Some d -> 0 <= rf_fee_referral d <= 100000000000000000 /\ 0 <= rf_fee_rebate d <= 100000000000000000.

(** ** Tokens (C02) *)
(** What the pool, the accounts, the referral generator, the fee delegator and the exchange
    itself hold of a resource. *)
Definition holdings (w : world) (r : resource) : Z :=
  (if (r =? BASE)%N then po_base (w_pool w) else 0)
  + msum (fun _ a => default 0 (ac_vaults a !! r)) (w_accounts w)
  + default 0 (gn_vaults (w_gen w) !! r)
  + (if (r =? XRD)%N then dl_vault (w_dl w) else 0)
  + (if (r =? AUTHORITY)%N then w_auth w else 0).
(** What the exchange has created of a resource so far (its supply, for those it mints). *)
Definition created_so_far (w : world) (r : resource) : Z :=
  (if (r =? LP)%N then w_lp w else 0) + (if (r =? KEEPER_REWARD)%N then w_rewards w else 0)
  + (if (r =? FEE_OATH)%N then w_oath w else 0) - (if (r =? PROTOCOL)%N then w_burnt w else 0).
(** Everything a call hands out: to the caller and to outside accounts. *)
Definition handed_out (out : outp) : list bucket := o_tokens out ++ concat (map snd (o_payouts out)).
