(** * Margin pool component and VirtualLiquidityPool.
    Models pool/src/margin_pool.rs, pool/src/margin_pool/structs.rs and
    exchange/src/exchange/virtual_margin_pool.rs. *)
From Verif Require Import Base Types.

(** structs.rs:4-16 *)
Record pool_position := mkPP {
  pp_oi_long : Z; pp_oi_short : Z; pp_cost : Z; pp_skew_abs_snap : Z; pp_pnl_snap : Z;
  pp_funding_2_rate : Z; pp_funding_long_index : Z; pp_funding_short_index : Z;
  pp_last_update : Z; pp_last_price : Z }.
Global Instance eta_pp : Settable pool_position := settable! mkPP
  <pp_oi_long; pp_oi_short; pp_cost; pp_skew_abs_snap; pp_pnl_snap; pp_funding_2_rate;
   pp_funding_long_index; pp_funding_short_index; pp_last_update; pp_last_price>.
(** structs.rs:18-33 *)
Definition pp_default (now : Z) : pool_position := mkPP 0 0 0 0 0 0 0 0 now (dec 1).

(** margin_pool.rs:33-40; [po_base] is the vault's balance *)
Record pool := mkPool {
  po_positions : gmap pair_id pool_position;
  po_base : Z; po_vb : Z; po_upf : Z; po_skew : Z; po_pnl : Z }.
Global Instance eta_pool : Settable pool := settable! mkPool
  <po_positions; po_base; po_vb; po_upf; po_skew; po_pnl>.
(** margin_pool.rs:43-61 *)
Definition pool_new : pool := mkPool ∅ 0 0 0 0 0.
(** margin_pool.rs:74-76 *)
Definition pool_get_position (now : Z) (p : pool) (k : pair_id) : pool_position :=
  default (pp_default now) (po_positions p !! k).
(** margin_pool.rs:78-83 *)
Definition pool_get_positions (now : Z) (p : pool) (ids : gset pair_id) : gmap pair_id pool_position :=
  set_to_map (fun k => (k, pool_get_position now p k)) ids.
(** margin_pool.rs:85-94 *)
Definition pool_update (p : pool) (upds : gmap pair_id pool_position) (vb upf skew pnl : Z) : pool :=
  mkPool (upds ∪ po_positions p) (po_base p) vb upf skew pnl.
(** margin_pool.rs:96-98; putting into the vault checks the balance range *)
Definition pool_deposit (p : pool) (amt : Z) : res pool :=
  b ← dadd (po_base p) amt; Ok (p <| po_base := b |>).
(** margin_pool.rs:100-102; returns the amount actually taken *)
Definition pool_withdraw (E : env) (p : pool) (amt : Z) (s : strategy) : res (pool * Z) :=
  a ← take_adv E BASE s (po_base p) amt; Ok (p <| po_base := po_base p - a |>, a).

(** virtual_margin_pool.rs:8-17; [vp_comp] is the component behind the cache *)
Record vpool := mkVP {
  vp_comp : pool;
  vp_positions : gmap pair_id pool_position;
  vp_updates : gset pair_id;
  vp_base : Z; vp_vb : Z; vp_upf : Z; vp_skew : Z; vp_pnl : Z }.
Global Instance eta_vp : Settable vpool := settable! mkVP
  <vp_comp; vp_positions; vp_updates; vp_base; vp_vb; vp_upf; vp_skew; vp_pnl>.
(** virtual_margin_pool.rs:20-33 *)
Definition vp_new (now : Z) (p : pool) (ids : gset pair_id) : vpool :=
  mkVP p (pool_get_positions now p ids) ∅ (po_base p) (po_vb p) (po_upf p) (po_skew p) (po_pnl p).
(** virtual_margin_pool.rs:35-54 *)
Definition vp_realize (v : vpool) : pool :=
  pool_update (vp_comp v) (filter (fun kv => fst kv ∈ vp_updates v) (vp_positions v))
    (vp_vb v) (vp_upf v) (vp_skew v) (vp_pnl v).
(** virtual_margin_pool.rs:56-58 *)
Definition vp_position (v : vpool) (k : pair_id) : res pool_position :=
  expect (vp_positions v !! k) EMissingPoolPosition.
(** virtual_margin_pool.rs:60-63 [position_mut] followed by an assignment [f] to
    the returned reference *)
Definition vp_set_position (v : vpool) (k : pair_id) (x : pool_position) : vpool :=
  v <| vp_updates := {[k]} ∪ vp_updates v |> <| vp_positions := <[k := x]> (vp_positions v) |>.
(** virtual_margin_pool.rs:85-88 *)
Definition vp_deposit (v : vpool) (amt : Z) : res vpool :=
  b ← dadd (vp_base v) amt;
  p ← pool_deposit (vp_comp v) amt;
  Ok (v <| vp_base := b |> <| vp_comp := p |>).
(** virtual_margin_pool.rs:90-94 *)
Definition vp_withdraw (E : env) (v : vpool) (amt : Z) (s : strategy) : res (vpool * Z) :=
  '(p, a) ← pool_withdraw E (vp_comp v) amt s;
  b ← dsub (vp_base v) a;
  Ok (v <| vp_base := b |> <| vp_comp := p |>, a).
(** virtual_margin_pool.rs:96-110 *)
Definition vp_add_vb (v : vpool) (x : Z) : res vpool := y ← dadd (vp_vb v) x; Ok (v <| vp_vb := y |>).
Definition vp_add_upf (v : vpool) (x : Z) : res vpool := y ← dadd (vp_upf v) x; Ok (v <| vp_upf := y |>).
Definition vp_add_skew (v : vpool) (x : Z) : res vpool := y ← dadd (vp_skew v) x; Ok (v <| vp_skew := y |>).
Definition vp_add_pnl (v : vpool) (x : Z) : res vpool := y ← dadd (vp_pnl v) x; Ok (v <| vp_pnl := y |>).
