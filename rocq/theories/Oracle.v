(** * Oracle component and VirtualOracle.
    Models oracle/src/oracle.rs and exchange/src/exchange/virtual_oracle.rs. *)
From Verif Require Import Base Types.

(** oracle.rs:30-33 *)
Record oracle := mkOracle {
  or_keys : gmap N N;
  or_prices : gmap pair_id (Z * Z) }.
Global Instance eta_oracle : Settable oracle := settable! mkOracle <or_keys; or_prices>.

(** A signed price message: (data, signature, key id). *)
Definition price_msg := (N * N * N)%type.

(** oracle.rs:70-77 *)
Definition oracle_add_key (o : oracle) (id key : N) : res oracle :=
  _ ← guard_ (bool_decide (or_keys o !! id = None)) EKeyIdAlreadyExists;
  Ok (o <| or_keys := <[id := key]> (or_keys o) |>).
(** oracle.rs:79-81 *)
Definition oracle_remove_key (o : oracle) (id : N) : oracle := o <| or_keys := delete id (or_keys o) |>.
(** oracle.rs:83-85 *)
Definition oracle_remove_price (o : oracle) (p : pair_id) : oracle := o <| or_prices := delete p (or_prices o) |>.
(** oracle.rs:113-121: one entry of the message; only a strictly newer timestamp
    replaces a stored price *)
Definition oracle_push1 (m : gmap pair_id (Z * Z)) (p : price_rec) : gmap pair_id (Z * Z) :=
  match m !! pr_pair p with
  | Some (q, t) => if t <? pr_time p then <[pr_pair p := (pr_quote p, pr_time p)]> m else m
  | None => <[pr_pair p := (pr_quote p, pr_time p)]> m
  end.
(** oracle.rs:103-121 *)
Definition oracle_push (E : env) (o : oracle) (msg : price_msg) : res oracle :=
  let '(data, sig, key_id) := msg in
  ps ← expect (e_decode E data) EInvalidData;
  key ← expect (or_keys o !! key_id) EInvalidKeyId;
  _ ← guard_ (e_verify E key data sig) EInvalidSignature;
  Ok (o <| or_prices := foldl oracle_push1 (or_prices o) ps |>).
(** oracle.rs:126-131 *)
Definition oracle_get (o : oracle) (ids : gset pair_id) : res (gmap pair_id (Z * Z)) :=
  rfold (fun (m : gmap pair_id (Z * Z)) p => q ← expect (or_prices o !! p) EMissingPair; Ok (<[p := q]> m))
        ∅ (elements ids).

(** virtual_oracle.rs:6-9 *)
Record voracle := mkVO {
  vo_prices : gmap pair_id Z;
  vo_resources : gmap resource pair_id }.
(** virtual_oracle.rs:13-19: the collateral feeds join the pair feeds with the
    smaller maximum age *)
Definition vo_feed1 (m : gmap pair_id Z) (f : resource * (pair_id * Z)) : gmap pair_id Z :=
  let '(_, (p, age)) := f in
  match m !! p with
  | Some a => if age <? a then <[p := age]> m else m
  | None => <[p := age]> m
  end.
Definition vo_merge_feeds (feeds : gmap resource (pair_id * Z)) (pairs : gmap pair_id Z) : gmap pair_id Z :=
  foldl vo_feed1 pairs (map_to_list feeds).
(** virtual_oracle.rs:29-42: freshness and positivity of one price *)
Definition vo_price1 (now : Z) (ages : gmap pair_id Z) (m : gmap pair_id Z) (x : pair_id * (Z * Z)) : res (gmap pair_id Z) :=
  let '(p, (price, ts)) := x in
  age ← expect (ages !! p) EInvalidPrice;
  nage ← ineg age;
  min_ts ← iadd now nage;
  _ ← guard_ (min_ts <? ts) EPriceTooOld;
  _ ← guard_ (0 <? price) EInvalidPrice;
  Ok (<[p := price]> m).
(** virtual_oracle.rs:12-49. Returns the oracle component too: a signed message
    updates it before the prices are read. *)
Definition vo_new (E : env) (now : Z) (o : oracle) (feeds : gmap resource (pair_id * Z))
    (pairs : gmap pair_id Z) (upd : option price_msg) : res (oracle * voracle) :=
  let ages := vo_merge_feeds feeds pairs in
  o1 ← match upd with Some msg => oracle_push E o msg | None => Ok o end;
  got ← oracle_get o1 (dom ages);
  prices ← rfold (vo_price1 now ages) ∅ (map_to_list got);
  Ok (o1, mkVO prices (fst <$> feeds)).
(** virtual_oracle.rs:51-53 *)
Definition vo_price (o : voracle) (p : pair_id) : res Z := expect (vo_prices o !! p) EMissingPrice.
(** virtual_oracle.rs:55-58 *)
Definition vo_price_resource (o : voracle) (r : resource) : res Z :=
  p ← expect (vo_resources o !! r) EMissingResourceFeed; vo_price o p.
