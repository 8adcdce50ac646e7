(** * Referral generator and permission registry components.
    Models referral_generator/src/referral_generator.rs and
    permission_registry/src/permission_registry.rs. *)
From Verif Require Import Base Types Lists Account.

Definition claims := list (resource * Z).
(** structs.rs:18-24 *)
Record rcode := mkRC { rc_ref : N; rc_claims : claims; rc_count : N; rc_max : N }.
Global Instance eta_rc : Settable rcode := settable! mkRC <rc_ref; rc_claims; rc_count; rc_max>.
(** structs.rs:26-31 *)
Record ralloc := mkRA { ra_claims : claims; ra_count : N; ra_max : N }.
Global Instance eta_ra : Settable ralloc := settable! mkRA <ra_claims; ra_count; ra_max>.
(** referral_generator.rs:35-39 *)
Record generator := mkGen {
  gn_vaults : vaults;
  gn_allocs : gmap N (list ralloc);
  gn_codes : gmap N rcode }.
Global Instance eta_gen : Settable generator := settable! mkGen <gn_vaults; gn_allocs; gn_codes>.
Definition gn_new : generator := mkGen ∅ ∅ ∅.

(** referral_generator.rs:76-84 and 138-146: buckets merged per resource *)
Definition map_tokens (ts : list bucket) : res (gmap resource Z) :=
  rfold (fun (m : gmap resource Z) t =>
           match m !! b_res t with
           | Some x => y ← dadd x (b_amt t); Ok (<[b_res t := y]> m)
           | None => Ok (<[b_res t := b_amt t]> m)
           end) ∅ ts.
(** referral_generator.rs:86-94: [total_claim += amount * Decimal::from(count)] *)
Definition add_claim (mult : option N) (m : gmap resource Z) (c : resource * Z) : res (gmap resource Z) :=
  _ ← guard_ (0 <? snd c) EInvalidClaimAmount;
  x ← match mult with
      | Some n => k ← dec_of_int (Z.of_N n); dmul (snd c) k
      | None => Ok (snd c)
      end;
  y ← dadd (default 0 (m !! fst c)) x;
  Ok (<[fst c := y]> m).
(** referral_generator.rs:96-112 and 165-181: for each claimed resource take the
    total (rounded up) out of the merged buckets *)
Definition take_claim (E : env) (s : gmap resource Z * list bucket) (c : resource * Z) : res (gmap resource Z * list bucket) :=
  let '(m, out) := s in
  match m !! fst c with
  | Some have =>
      _ ← guard_ (snd c <=? have) EInsufficientToken;
      a ← take_adv E (fst c) ToInfinity have (snd c);
      Ok (<[fst c := have - a]> m, out ++ [(fst c, a)])
  | None => _ ← guard_ (snd c =? 0) EInsufficientToken; Ok (m, out)
  end.
Definition take_claims (E : env) (m : gmap resource Z) (total : gmap resource Z) : res (gmap resource Z * list bucket) :=
  rfold (take_claim E) (m, []) (map_to_list total).
(** referral_generator.rs:69-130; returns (generator, remainder, index) *)
Definition gn_add_allocation (E : env) (g : generator) (ts : list bucket) (ref : N) (cs : claims) (count : N)
    : res (generator * list bucket * N) :=
  m ← map_tokens ts;
  total ← rfold (add_claim (Some count)) ∅ cs;
  '(rest, taken) ← take_claims E m total;
  let l := default [] (gn_allocs g !! ref) in
  v ← vts_put_batch (gn_vaults g) taken;
  Ok (g <| gn_allocs := <[ref := l ++ [mkRA cs 0 count]]> (gn_allocs g) |> <| gn_vaults := v |>,
      map_to_list rest, N.of_nat (length l)).
(** referral_generator.rs:149-163 *)
Definition add_code_claims (m : gmap resource Z) (x : N * (claims * N)) : res (gmap resource Z) :=
  let '(_, (cs, count)) := x in
  if (count =? 1)%N then rfold (add_claim None) m cs
  else _ ← guard_ (N.of_nat (length cs) =? 0)%N EMultiUseWithClaims; Ok m.
(** referral_generator.rs:184-195 *)
Definition insert_code (codes : gmap N rcode) (h : N) (c : rcode) : res (gmap N rcode) :=
  _ ← guard_ (bool_decide (codes !! h = None)) EReferralCodeExists;
  Ok (<[h := c]> codes).
(** referral_generator.rs:132-202; [hashes] is a HashMap *)
Definition gn_create_codes (E : env) (g : generator) (ts : list bucket) (ref : N) (hashes : gmap N (claims * N))
    : res (generator * list bucket) :=
  m ← map_tokens ts;
  total ← rfold add_code_claims ∅ (map_to_list hashes);
  '(rest, taken) ← take_claims E m total;
  codes ← rfold (fun cd x => insert_code cd (fst x) (mkRC ref (fst (snd x)) 0 (snd (snd x))))
                (gn_codes g) (map_to_list hashes);
  v ← vts_put_batch (gn_vaults g) taken;
  Ok (g <| gn_codes := codes |> <| gn_vaults := v |>, map_to_list rest).
(** referral_generator.rs:204-234; [hashes] is a HashSet *)
Definition gn_create_from_alloc (g : generator) (ref : N) (i : N) (hashes : gset N) : res generator :=
  l ← expect (gn_allocs g !! ref) EAllocationNotFound;
  a ← expect (l !! N.to_nat i) EAllocationNotFound;
  c ← uadd (ra_count a) (N.of_nat (size hashes));
  _ ← guard_ (c <=? ra_max a)%N EAllocationLimit;
  codes ← rfold (fun cd h => insert_code cd h (mkRC ref (ra_claims a) 0 1)) (gn_codes g) (elements hashes);
  Ok (g <| gn_allocs := <[ref := <[N.to_nat i := a <| ra_count := c |>]> l]> (gn_allocs g) |>
        <| gn_codes := codes |>).
(** referral_generator.rs:236-248 *)
Definition gn_claim (E : env) (g : generator) (h : N) : res (generator * N * list bucket) :=
  c ← expect (gn_codes g !! h) EReferralCodeNotFound;
  _ ← guard_ (rc_count c <? rc_max c)%N EReferralCodeClaimed;
  n ← uadd (rc_count c) 1;
  '(v, bs) ← vts_take_adv_batch E (gn_vaults g) (rc_claims c) ToZero;
  Ok (g <| gn_codes := <[h := c <| rc_count := n |>]> (gn_codes g) |> <| gn_vaults := v |>,
      rc_ref c, bs).

(** permission_registry structs.rs:4-9; the insertion order kept by IndexSet is
    not modelled *)
Record perms := mkPerms { pm_1 : gset addr; pm_2 : gset addr; pm_3 : gset addr }.
Global Instance eta_perms : Settable perms := settable! mkPerms <pm_1; pm_2; pm_3>.
Definition perms_empty : perms := mkPerms ∅ ∅ ∅.
(** permission_registry.rs:25-27: the store as a total function, absent = default *)
Definition registry := access_rule -> perms.
Definition reg_new : registry := fun _ => perms_empty.
(** permission_registry.rs:42-44 *)
Definition reg_get (g : registry) (r : access_rule) : perms := g r.
(** permission_registry.rs:46-48 *)
Definition reg_set (g : registry) (r : access_rule) (p : perms) : registry :=
  fun r' => if bool_decide (r' = r) then p else g r'.
