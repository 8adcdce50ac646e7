(** * Specification vocabulary for the stored lists (C45): the ordinary lists they stand for. *)
From Verif Require Import Base Lists.

(** The list a key-value list stands for: same length, same item at every index. *)
Definition stands_for {T} (l : klist T) (xs : list T) : Prop :=
  kl_len l = N.of_nat (length xs) /\ forall i, kl_get l i = xs !! N.to_nat i.
(** The writes, on the stored list and on the ordinary list. *)
Inductive list_write (T : Type) := LPush (x : T) | LUpdate (i : N) (x : T).
Arguments LPush {T}. Arguments LUpdate {T}.
Definition write_stored {T} (l : klist T) (o : list_write T) : res (klist T) :=
  match o with LPush x => kl_push l x | LUpdate i x => kl_update l i x end.
Definition write_plain {T} (xs : list T) (o : list_write T) : list T :=
  match o with LPush x => xs ++ [x] | LUpdate i x => <[N.to_nat i := x]> xs end.
(** The page [s, e) of a list. *)
Definition page {T} (xs : list T) (s e : N) : list T := take (N.to_nat (e - s)) (drop (N.to_nat s) xs).
(** Items with their indexes. *)
Definition numbered {T} (xs : list T) : list (N * T) := imap (fun i x => (N.of_nat i, x)) xs.
(** The association list a hash list stands for: one entry per key, in order of first insertion. *)
Fixpoint put {V} (kvs : list (N * V)) (k : N) (v : V) : list (N * V) :=
  match kvs with
  | [] => [(k, v)]
  | x :: r => if (fst x =? k)%N then (k, v) :: r else x :: put r k v
  end.
Definition hstands_for {V} (h : hlist V) (kvs : list (N * V)) : Prop :=
  stands_for (hl_list h) (map fst kvs) /\ NoDup (map fst kvs) /\ forall k v, hl_get h k = Some v <-> (k, v) ∈ kvs.
