(** * Call level of the faucet and the environment registry. *)
From Verif Require Import Base Types Lists Wrapper.

(** env_registry.rs:8-14: anyone may read, only the owner may write. [owner] says
    whether the caller satisfies the owner role. *)
Inductive er_op := ESet (vars : list (N * N)) | ERemove (keys : list N).
Definition er_step (owner : bool) (g : env_reg) (o : er_op) : res env_reg :=
  _ ← guard_ owner EAuth;
  Ok (match o with ESet vars => er_set g vars | ERemove keys => er_remove g keys end).
(** env_registry.rs:20-28 *)
Definition er_new : env_reg := ∅.
Fixpoint er_run (g : env_reg) (l : list (bool * er_op)) : env_reg :=
  match l with
  | [] => g
  | (owner, o) :: l => er_run (match er_step owner g o with Ok g' => g' | Err _ => g end) l
  end.

(** faucet/src/lib.rs:6-14, 124-131: update_mint_amount and admin_mint_token need the
    owner, free_tokens the user role, which is open to everyone unless the owner
    changed it; [user] says whether the caller satisfies it. *)
Inductive fc_op := FUpdate (r : resource) (amt : Z) | FAdminMint (r : resource) (amt : Z) | FFree.
Definition fc_step (E : env) (mintable : resource -> bool) (owner user : bool) (f : faucet) (o : fc_op) : res (faucet * list bucket) :=
  match o with
  | FUpdate r amt => _ ← guard_ owner EAuth; Ok (fc_update f r amt, [])
  | FAdminMint r amt => _ ← guard_ owner EAuth; b ← fc_admin_mint E mintable r amt; Ok (f, [b])
  | FFree => _ ← guard_ user EAuth; bs ← fc_free_tokens E mintable f; Ok (f, bs)
  end.
(** lib.rs:113-118: the amounts the faucet starts with *)
Definition fc_new (btc eth usdc usdt : resource) : faucet :=
  list_to_map [(usdt, 0); (usdc, 0); (eth, 200000000000000000); (btc, 1000000000000000)].
Fixpoint fc_run (E : env) (mintable : resource -> bool) (f : faucet) (l : list (bool * bool * fc_op)) : faucet :=
  match l with
  | [] => f
  | (owner, user, o) :: l => fc_run E mintable (match fc_step E mintable owner user f o with Ok (f', _) => f' | Err _ => f end) l
  end.
