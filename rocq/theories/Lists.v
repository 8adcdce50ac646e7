(** * List and HashList over key-value stores.
    Models common/src/list.rs and common/src/hash_list.rs. *)
From Verif Require Import Base.

(** list.rs:6-10. [KeyValueStore<u64, T>] is a finite map. *)
Record klist (T : Type) := mkKlist { kl_ptr : N; kl_kvs : gmap N T }.
Arguments mkKlist {T}. Arguments kl_ptr {T}. Arguments kl_kvs {T}.
Global Instance eta_klist {T} : Settable (klist T) := settable! (@mkKlist T) <kl_ptr; kl_kvs>.

(** list.rs:13-21 *)
Definition kl_new {T} : klist T := mkKlist 0%N ∅.
(** list.rs:23-26; [pointer += 1] panics at u64::MAX *)
Definition kl_push {T} (l : klist T) (x : T) : res (klist T) :=
  p ← uadd (kl_ptr l) 1; Ok (mkKlist p (<[kl_ptr l := x]> (kl_kvs l))).
(** list.rs:28-30 *)
Definition kl_get {T} (l : klist T) (i : N) : option T := kl_kvs l !! i.
(** list.rs:36-39 *)
Definition kl_update {T} (l : klist T) (i : N) (x : T) : res (klist T) :=
  _ ← guard_ (i <? kl_ptr l)%N EIndexOutOfBounds;
  Ok (mkKlist (kl_ptr l) (<[i := x]> (kl_kvs l))).
(** list.rs:41-51: the loop [for i in start..end] that stops at the first gap.
    [n] is the number of iterations left, [end - start]. *)
Fixpoint kl_range_from {T} (l : klist T) (i : N) (n : nat) : list T :=
  match n with
  | O => []
  | S n => match kl_get l i with
           | Some x => x :: kl_range_from l (i + 1)%N n
           | None => []
           end
  end.
Definition kl_range {T} (l : klist T) (s e : N) : list T :=
  kl_range_from l s (N.to_nat (e - s)).
(** list.rs:53-55 *)
Definition kl_len {T} (l : klist T) : N := kl_ptr l.

(** hash_list.rs:5-9 *)
Record hlist (V : Type) := mkHlist { hl_list : klist N; hl_kvs : gmap N V }.
Arguments mkHlist {V}. Arguments hl_list {V}. Arguments hl_kvs {V}.
(** hash_list.rs:12-21 *)
Definition hl_new {V} : hlist V := mkHlist kl_new ∅.
(** hash_list.rs:23-32 *)
Definition hl_insert {V} (h : hlist V) (k : N) (v : V) : res (hlist V) :=
  match hl_kvs h !! k with
  | Some _ => Ok (mkHlist (hl_list h) (<[k := v]> (hl_kvs h)))
  | None => l ← kl_push (hl_list h) k; Ok (mkHlist l (<[k := v]> (hl_kvs h)))
  end.
(** hash_list.rs:34-36 *)
Definition hl_get {V} (h : hlist V) (k : N) : option V := hl_kvs h !! k.
(** hash_list.rs:42-53; [get(&key).unwrap()] panics when the key is unmapped *)
Fixpoint hl_range_from {V} (h : hlist V) (i : N) (n : nat) : res (list V) :=
  match n with
  | O => Ok []
  | S n => match kl_get (hl_list h) i with
           | Some k => v ← expect (hl_get h k) EEngine;
                       vs ← hl_range_from h (i + 1)%N n; Ok (v :: vs)
           | None => Ok []
           end
  end.
Definition hl_range {V} (h : hlist V) (s e : N) : res (list V) :=
  hl_range_from h s (N.to_nat (e - s)).
(** hash_list.rs:55-57 *)
Definition hl_len {V} (h : hlist V) : N := kl_len (hl_list h).
