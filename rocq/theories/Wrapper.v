(** * Token wrapper, faucet and environment registry.
    Models token_wrapper/src/token_wrapper.rs, faucet/src/lib.rs:139-159 and
    env_registry/src/env_registry.rs. These components share no state with the
    exchange; each is its own state machine. *)
From Verif Require Import Base Types Lists.

(** ** Token wrapper *)
(** token_wrapper/src/token_wrapper/structs.rs: an input's vault and its flag *)
Record tw_input := mkTI { ti_vault : Z; ti_wrappable : bool }.
Global Instance eta_ti : Settable tw_input := settable! mkTI <ti_vault; ti_wrappable>.
(** token_wrapper.rs:49-54, plus the two supplies the wrapper moves: the base
    token's (deploy/tools/manifests.py:100-136: minting needs the authority badge,
    burning is open to anyone) and the flash oath's. *)
Record wrapper := mkTW {
  tw_auth : Z;
  tw_list : klist resource;
  tw_inputs : gmap resource tw_input;
  tw_base : Z;
  tw_flash : Z }.
Global Instance eta_tw : Settable wrapper := settable! mkTW <tw_auth; tw_list; tw_inputs; tw_base; tw_flash>.
(** token_wrapper.rs:57-105 *)
Definition tw_new (auth : Z) : wrapper := mkTW auth kl_new ∅ 0 0.

(** token_wrapper.rs:115-126 *)
Definition tw_add_input (t : wrapper) (r : resource) : res wrapper :=
  match tw_inputs t !! r with
  | Some _ => Ok t
  | None => l ← kl_push (tw_list t) r;
            Ok (t <| tw_list := l |> <| tw_inputs := <[r := mkTI 0 true]> (tw_inputs t) |>)
  end.
(** token_wrapper.rs:128-131 *)
Definition tw_update_wrappable (t : wrapper) (r : resource) (b : bool) : res wrapper :=
  i ← expect (tw_inputs t !! r) EInvalidChildToken;
  Ok (t <| tw_inputs := <[r := i <| ti_wrappable := b |>]> (tw_inputs t) |>).
(** token_wrapper.rs:133-140 *)
Definition tw_get_inputs (t : wrapper) (n : N) (start : option N) : res (list (resource * bool * Z)) :=
  let s := default 0%N start in
  e0 ← uadd s n;
  rmap (fun r => i ← expect (tw_inputs t !! r) EEngine; Ok (r, ti_wrappable i, ti_vault i))
       (kl_range (tw_list t) s (N.min e0 (kl_len (tw_list t)))).
(** token_wrapper.rs:142-156; [authorize!] needs one atto of the badge; the flash
    oath cannot be put into a vault (token_wrapper.rs:83-86, depositor deny_all) *)
Definition tw_wrap (E : env) (t : wrapper) (b : bucket) : res (wrapper * bucket) :=
  i ← expect (tw_inputs t !! b_res b) EInvalidChildToken;
  _ ← guard_ (ti_wrappable i) EWrappingDisabled;
  _ ← guard_ (1 <=? tw_auth t) EEngine;
  _ ← guard_ (mint_ok E BASE (b_amt b)) EEngine;
  s ← dadd (tw_base t) (b_amt b);
  _ ← guard_ (negb (b_res b =? FLASH_OATH)%N) EEngine;
  v ← dadd (ti_vault i) (b_amt b);
  Ok (t <| tw_base := s |> <| tw_inputs := <[b_res b := i <| ti_vault := v |>]> (tw_inputs t) |>,
      (BASE, b_amt b)).
(** Burning a bucket outside [authorize!]: the base token's burn rule is
    allow_all, the flash oath's is the wrapper itself, [burnable] says which other
    resources allow it. *)
Definition tw_burn (burnable : resource -> bool) (t : wrapper) (b : bucket) : res wrapper :=
  if (b_res b =? BASE)%N then
    _ ← guard_ (b_amt b <=? tw_base t) EEngine; Ok (t <| tw_base := tw_base t - b_amt b |>)
  else if (b_res b =? FLASH_OATH)%N then
    _ ← guard_ (b_amt b <=? tw_flash t) EEngine; Ok (t <| tw_flash := tw_flash t - b_amt b |>)
  else _ ← guard_ (burnable (b_res b)) EEngine; Ok t.
(** token_wrapper.rs:158-165: the resource of [parent_token] is not checked *)
Definition tw_unwrap (E : env) (burnable : resource -> bool) (t : wrapper) (b : bucket) (r : resource) : res (wrapper * bucket) :=
  i ← expect (tw_inputs t !! r) EInvalidChildToken;
  a ← take_adv E r ToZero (ti_vault i) (b_amt b);
  t ← tw_burn burnable (t <| tw_inputs := <[r := i <| ti_vault := ti_vault i - a |>]> (tw_inputs t) |>) b;
  Ok (t, (r, a)).
(** token_wrapper.rs:167-174 *)
Definition tw_flash_loan (E : env) (t : wrapper) (amt : Z) : res (wrapper * list bucket) :=
  _ ← guard_ (mint_ok E FLASH_OATH amt) EEngine;
  f ← dadd (tw_flash t) amt;
  _ ← guard_ (1 <=? tw_auth t) EEngine;
  _ ← guard_ (mint_ok E BASE amt) EEngine;
  s ← dadd (tw_base t) amt;
  Ok (t <| tw_flash := f |> <| tw_base := s |>, [(BASE, amt); (FLASH_OATH, amt)]).
(** token_wrapper.rs:176-194 *)
Definition tw_repay (E : env) (t : wrapper) (oath token : bucket) : res (wrapper * bucket) :=
  _ ← guard_ (b_res oath =? FLASH_OATH)%N EInvalidFlashOath;
  _ ← guard_ (b_res token =? BASE)%N EInvalidPaymentToken;
  _ ← guard_ (b_amt oath <=? b_amt token) EInsufficientFlashPayment;
  a ← take_adv E BASE ToInfinity (b_amt token) (b_amt oath);
  t ← tw_burn (fun _ => false) t (BASE, a);
  t ← tw_burn (fun _ => false) t oath;
  Ok (t, (BASE, b_amt token - a)).

Inductive tw_op :=
| TDepositAuthority (b : bucket) | TWithdrawAuthority
| TAddInput (r : resource) | TUpdateWrappable (r : resource) (b : bool)
| TWrap (b : bucket) | TUnwrap (b : bucket) (r : resource)
| TFlashLoan (amt : Z) | TRepay (oath token : bucket)
| TBurnBase (amt : Z).   (* anyone burning base tokens they hold *)

(** A presented bucket is real: its amount is part of the supply the wrapper
    knows about. *)
Definition tw_bucket_ok (E : env) (t : wrapper) (b : bucket) : bool :=
  bucket_ok E b && (if (b_res b =? BASE)%N then b_amt b <=? tw_base t
                    else if (b_res b =? FLASH_OATH)%N then b_amt b <=? tw_flash t else true).
(** token_wrapper.rs:107-113 for the authority methods *)
Definition tw_step (E : env) (burnable : resource -> bool) (t : wrapper) (o : tw_op) : res (wrapper * list bucket) :=
  match o with
  | TDepositAuthority b =>
      _ ← guard_ (bucket_ok E b) EEngine;
      _ ← guard_ (b_res b =? AUTHORITY)%N EEngine;
      x ← dadd (tw_auth t) (b_amt b); Ok (t <| tw_auth := x |>, [])
  | TWithdrawAuthority => Ok (t <| tw_auth := 0 |>, [(AUTHORITY, tw_auth t)])
  | TAddInput r => t ← tw_add_input t r; Ok (t, [])
  | TUpdateWrappable r b => t ← tw_update_wrappable t r b; Ok (t, [])
  | TWrap b => _ ← guard_ (tw_bucket_ok E t b) EEngine;
               '(t, x) ← tw_wrap E t b; Ok (t, [x])
  | TUnwrap b r => _ ← guard_ (tw_bucket_ok E t b) EEngine;
                   '(t, x) ← tw_unwrap E burnable t b r; Ok (t, [x])
  | TFlashLoan amt => tw_flash_loan E t amt
  | TRepay o b => _ ← guard_ (tw_bucket_ok E t o && tw_bucket_ok E t b) EEngine;
                  '(t, x) ← tw_repay E t o b; Ok (t, [x])
  | TBurnBase amt => _ ← guard_ (tw_bucket_ok E t (BASE, amt)) EEngine;
                     t ← tw_burn burnable t (BASE, amt); Ok (t, [])
  end.
(** Histories of the wrapper. [tw_steps E burnable t l t']: the calls [l] (with the
    buckets they returned) lead from [t] to [t']. *)
Inductive tw_steps (E : env) (burnable : resource -> bool) : wrapper -> list (tw_op * list bucket) -> wrapper -> Prop :=
| tws_nil t : tw_steps E burnable t [] t
| tws_cons t o out t1 l t2 :
    tw_step E burnable t o = Ok (t1, out) -> tw_steps E burnable t1 l t2 ->
    tw_steps E burnable t ((o, out) :: l) t2.

(** ** Faucet (faucet/src/lib.rs:16-18, 139-159) *)
Definition faucet := gmap resource Z.
(** lib.rs:139-141 *)
Definition fc_update (f : faucet) (r : resource) (amt : Z) : faucet := <[r := amt]> f.
(** lib.rs:143-147; [mintable]: the resources whose minter is this component *)
Definition fc_admin_mint (E : env) (mintable : resource -> bool) (r : resource) (amt : Z) : res bucket :=
  _ ← guard_ (mintable r && mint_ok E r amt) EEngine; Ok (r, amt).
(** lib.rs:149-159 *)
Definition fc_free1 (E : env) (mintable : resource -> bool) (l : list bucket) (x : resource * Z) : res (list bucket) :=
  if 0 <? snd x then
    _ ← guard_ (mintable (fst x) && mint_ok E (fst x) (snd x)) EEngine; Ok (l ++ [x])
  else Ok l.
Definition fc_free_tokens (E : env) (mintable : resource -> bool) (f : faucet) : res (list bucket) :=
  rfold (fc_free1 E mintable) [] (map_to_list f).

(** ** Environment registry (env_registry.rs:17-47); strings are opaque values,
    [0] is the empty string *)
Definition env_reg := gmap N N.
(** env_registry.rs:30-35 *)
Definition er_get (g : env_reg) (keys : list N) : gmap N N :=
  foldl (fun (m : gmap N N) k => <[k := default 0%N (g !! k)]> m) ∅ keys.
(** env_registry.rs:37-41 *)
Definition er_set (g : env_reg) (vars : list (N * N)) : env_reg :=
  foldl (fun (m : env_reg) kv => <[fst kv := snd kv]> m) g vars.
(** env_registry.rs:43-47 *)
Definition er_remove (g : env_reg) (keys : list N) : env_reg :=
  foldl (fun (m : env_reg) k => delete k m) g keys.
