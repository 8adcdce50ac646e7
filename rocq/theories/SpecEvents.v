(** * Specification vocabulary for C63: what an observer who sees only the events can rebuild. *)
From Verif Require Import Base DFloat Lists Types Config Oracle Pool Account Fees Referral ExInternal Exchange System Sums Spec SpecRequests SpecMargin.

(** What the observer keeps: the pool's record of each pair, each account's requests, the first
    request index still valid, the accounts created with their referral, position sizes, recorded
    collateral other than the base token, and the supply of LP tokens. *)
Record view := mkView {
  v_pair : pair_id -> option pool_position;
  v_request : addr -> N -> option keeper_request;
  v_valid : addr -> N;
  v_account : addr -> option (option N);
  v_size : addr -> pair_id -> Z;
  v_coll : addr -> resource -> Z;
  v_lp : Z }.

(** The true values. *)
Definition view_of (w : world) : view :=
  mkView (fun k => po_positions (w_pool w) !! k)
    (request_at w) (valid_start w)
    (fun a => match w_accounts w !! a with Some acc => Some (ac_ref acc) | None => None end)
    (size_of w)
    (fun a r => if (r =? BASE)%N then 0 else match w_accounts w !! a with Some acc => default 0 (ac_coll acc !! r) | None => 0 end)
    (w_lp w).
Definition view_new : view := mkView (fun _ => None) (fun _ _ => None) (fun _ => 0%N) (fun _ => None) (fun _ _ => 0) (fun _ _ => 0) 0.

(** The last entry for a key, if any. *)
Fixpoint last_for {T} (k : N) (l : list (N * T)) : option T :=
  match l with
  | [] => None
  | (j, x) :: l => match last_for k l with Some y => Some y | None => if (j =? k)%N then Some x else None end
  end.
Definition overwrite {T} (f : N -> option T) (l : list (N * T)) (k : N) : option T :=
  match last_for k l with Some x => Some x | None => f k end.
(** The amount listed for a key. *)
Definition listed (k : N) (l : list (N * Z)) : Z := lsum (fun x => if (fst x =? k)%N then snd x else 0) l.

(** What an event says about the size of a position and about recorded collateral. *)
Definition size_change (e : event) (a : addr) (k : pair_id) : Z :=
  match e with
  | EvMarginOrder m => if ((eo_account m =? a) && (eo_pair m =? k))%N then eo_close m + eo_open m else 0
  | EvAutoDeleverage m => if ((ea_account m =? a) && (ea_pair m =? k))%N then ea_close m else 0
  | EvLiquidate m => if (el_account m =? a)%N then - listed k (el_position_amounts m) else 0
  | _ => 0
  end.
Definition coll_change (e : event) (a : addr) (r : resource) : Z :=
  if (r =? BASE)%N then 0 else
  match e with
  | EvAddCollateral b l => if (b =? a)%N then amount_in r l else 0
  | EvRemoveCollateral b _ l => if (b =? a)%N then - amount_in r l else 0
  | EvSwapDebt b q x _ => if ((b =? a) && (q =? r))%N then - x else 0
  | EvLiquidate m => if (el_account m =? a)%N then - listed r (el_collateral_amounts m) else 0
  | _ => 0
  end.
(** The change of an account's balance an event reports. *)
Definition balance_change (e : event) (a : addr) : Z :=
  match e with
  | EvAddCollateral b l => if (b =? a)%N then amount_in BASE l else 0
  | EvRemoveCollateral b _ l => if (b =? a)%N then - amount_in BASE l else 0
  | EvMarginOrder m => if (eo_account m =? a)%N then eo_pnl m else 0
  | EvAutoDeleverage m => if (ea_account m =? a)%N then ea_pnl m else 0
  | EvLiquidate m => if (el_account m =? a)%N then el_positions_pnl m + el_collateral_value_discounted m - el_pool_loss m else 0
  | _ => 0
  end.

(** How the observer reads one event. *)
Definition replay (v : view) (e : event) : view :=
  mkView
    (fun k => match e with EvPairUpdates l => overwrite (v_pair v) l k | _ => v_pair v k end)
    (fun a i => match e with EvRequests b l => if (b =? a)%N then overwrite (v_request v a) l i else v_request v a i | _ => v_request v a i end)
    (fun a => match e with EvValidStart b n => if (b =? a)%N then n else v_valid v a | _ => v_valid v a end)
    (fun a => match e with EvAccountCreation b r => if (b =? a)%N then Some r else v_account v a | _ => v_account v a end)
    (fun a k => v_size v a k + size_change e a k)
    (fun a r => v_coll v a r + coll_change e a r)
    (match e with EvLiquidity _ lp _ _ _ _ => v_lp v + lp | _ => v_lp v end).
Definition replay_all (v : view) (l : list event) : view := fold_left replay l v.

(** Two observers agree. *)
Definition same_view (x y : view) : Prop :=
  (forall k, v_pair x k = v_pair y k) /\ (forall a i, v_request x a i = v_request y a i) /\ (forall a, v_valid x a = v_valid y a) /\
  (forall a, v_account x a = v_account y a) /\ (forall a k, v_size x a k = v_size y a k) /\ (forall a r, v_coll x a r = v_coll y a r) /\ v_lp x = v_lp y.
(** All events of a history, in order. *)
Definition events_of (l : list (ctx * op * outp)) : list event := concat (map (fun x => o_events (snd x)) l).
