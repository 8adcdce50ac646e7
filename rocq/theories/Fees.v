(** * Fee distributor and fee delegator components.
    Models fee_distributor/src/fee_distributor.rs and fee_delegator/src/fee_delegator.rs. *)
From Verif Require Import Base Types.

(** fee_distributor.rs:22-25 *)
Record distributor := mkFD { fd_protocol : Z; fd_treasury : Z }.
Global Instance eta_fd : Settable distributor := settable! mkFD <fd_protocol; fd_treasury>.
(** fee_distributor.rs:28-40 *)
Definition fd_new : distributor := mkFD 0 0.
(** fee_distributor.rs:50-53 *)
Definition fd_update_protocol (d : distributor) (x : Z) : res distributor :=
  _ ← guard_ (0 <=? x) EEngine; Ok (d <| fd_protocol := x |>).
(** fee_distributor.rs:55-58 *)
Definition fd_update_treasury (d : distributor) (x : Z) : res distributor :=
  _ ← guard_ (0 <=? x) EEngine; Ok (d <| fd_treasury := x |>).
(** fee_distributor.rs:60-63 *)
Definition fd_distribute (d : distributor) (p t : Z) : res distributor :=
  p' ← dadd (fd_protocol d) p;
  t' ← dadd (fd_treasury d) t;
  Ok (mkFD p' t').

(** fee_delegator.rs:34-41; [dl_vault] holds XRD; the fee oath resource manager
    is represented by its total supply, kept in the world *)
Record delegator := mkDL {
  dl_vault : Z; dl_vb : Z; dl_max_lock : Z; dl_mult : Z; dl_contingent : bool }.
Global Instance eta_dl : Settable delegator := settable! mkDL <dl_vault; dl_vb; dl_max_lock; dl_mult; dl_contingent>.
(** fee_delegator.rs:44-89 *)
Definition dl_new : delegator := mkDL 0 0 (dec 3) 1500000000000000000 false.
(** fee_delegator.rs:100-103 *)
Definition dl_update_max_lock (d : delegator) (x : Z) : res delegator :=
  _ ← guard_ (0 <=? x) EEngine; Ok (d <| dl_max_lock := x |>).
(** fee_delegator.rs:105-108 *)
Definition dl_update_mult (d : delegator) (x : Z) : res delegator :=
  _ ← guard_ (0 <=? x) EEngine; Ok (d <| dl_mult := x |>).
(** fee_delegator.rs:110-112 *)
Definition dl_update_contingent (d : delegator) (b : bool) : delegator := d <| dl_contingent := b |>.
(** fee_delegator.rs:114-117 *)
Definition dl_update_vb (d : delegator) (x : Z) : res delegator :=
  _ ← guard_ (0 <=? x) EEngine; Ok (d <| dl_vb := x |>).
(** fee_delegator.rs:119-121; the vault only takes XRD *)
Definition dl_deposit (d : delegator) (b : bucket) : res delegator :=
  _ ← guard_ (b_res b =? XRD)%N EEngine;
  v ← dadd (dl_vault d) (b_amt b);
  Ok (d <| dl_vault := v |>).
(** fee_delegator.rs:123-126 *)
Definition dl_withdraw (E : env) (d : delegator) (amt : Z) : res (delegator * bucket) :=
  a ← take_adv E XRD ToZero (dl_vault d) amt;
  Ok (d <| dl_vault := dl_vault d - a |>, (XRD, a)).
(** fee_delegator.rs:128-147; [supply] is the fee oath supply before the call,
    the result carries the supply after it. The engine returns the unspent part
    of a locked fee to the vault when the transaction ends; the model takes the
    whole amount out (nothing below depends on the XRD vault). *)
Definition dl_lock_fee (E : env) (usd_price : Z) (d : delegator) (supply amt : Z) : res (delegator * Z * bucket) :=
  a ← take_exact E XRD (dl_vault d) amt;
  price ← dmul usd_price (dl_mult d);
  value ← dmul price amt;
  vb ← dadd (dl_vb d) value;
  _ ← guard_ (mint_ok E FEE_OATH value) EEngine;
  s ← dadd supply value;
  _ ← guard_ (s <=? dl_max_lock d) EMaxLockExceeded;
  Ok (d <| dl_vault := dl_vault d - a |> <| dl_vb := vb |>, s, (FEE_OATH, value)).
