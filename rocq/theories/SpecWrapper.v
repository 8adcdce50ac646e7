(** * Specification vocabulary for the token wrapper (C37, C38): sums over a history of calls. *)
From Verif Require Import Base Lists Types Wrapper Sums.

(** Everything in the wrapper's vaults. *)
Definition vaults_total (t : wrapper) : Z := msum (fun _ i => ti_vault i) (tw_inputs t).
Definition wrapped1 (x : tw_op * list bucket) : Z := match fst x with TWrap b => b_amt b | _ => 0 end.
Definition loaned1 (x : tw_op * list bucket) : Z := match fst x with TFlashLoan amt => amt | _ => 0 end.
Definition repaid1 (x : tw_op * list bucket) : Z := match fst x with TRepay o _ => b_amt o | _ => 0 end.
Definition burnt1 (x : tw_op * list bucket) : Z := match fst x with TBurnBase amt => amt | _ => 0 end.
(** Tokens of resource [r] handed to unwrap, and child tokens paid out by unwrap. *)
Definition unwrapped1 (r : resource) (x : tw_op * list bucket) : Z := match fst x with TUnwrap b _ => if (b_res b =? r)%N then b_amt b else 0 | _ => 0 end.
Definition paid1 (x : tw_op * list bucket) : Z := match fst x with TUnwrap _ _ => lsum b_amt (snd x) | _ => 0 end.
(** Every unwrap of the history hands in base tokens. *)
Definition unwraps_base (x : tw_op * list bucket) : Prop := match fst x with TUnwrap b _ => b_res b = BASE | _ => True end.
