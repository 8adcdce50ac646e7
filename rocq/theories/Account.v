(** * Margin account component and VirtualMarginAccount.
    Models account/src/margin_account.rs, account/src/margin_account/structs.rs,
    common/src/vaults.rs and exchange/src/exchange/virtual_margin_account.rs. *)
From Verif Require Import Base Types Lists.

(** structs.rs:4-9; [apos_zero] is both [AccountPosition::default] and the value
    left by [remove] (structs.rs:11-17) *)
Record account_position := mkAP { ap_amount : Z; ap_cost : Z; ap_funding : Z }.
Global Instance eta_ap : Settable account_position := settable! mkAP <ap_amount; ap_cost; ap_funding>.
Definition apos_zero : account_position := mkAP 0 0 0.

(** ** Referral NFT data (referral_generator/src/referral_generator/structs.rs:5-27).
    Only the numeric fields are kept; name, description and key image are
    display strings nobody computes with. *)
Record referral := mkRef {
  rf_fee_referral : Z; rf_fee_rebate : Z; rf_referrals : N; rf_max_referrals : N;
  rf_balance : Z; rf_total_rewarded : Z }.
Global Instance eta_ref : Settable referral := settable! mkRef
  <rf_fee_referral; rf_fee_rebate; rf_referrals; rf_max_referrals; rf_balance; rf_total_rewarded>.

(** ** Vaults (common/src/vaults.rs). A missing vault is an empty one. *)
Definition vaults := gmap resource Z.
(** vaults.rs:18-24 *)
Definition vts_amount (v : vaults) (r : resource) : Z := default 0 (v !! r).
(** vaults.rs:30-38 *)
Definition vts_put (v : vaults) (b : bucket) : res vaults :=
  x ← dadd (vts_amount v (b_res b)) (b_amt b); Ok (<[b_res b := x]> v).
(** vaults.rs:40-44 *)
Definition vts_put_batch (v : vaults) (bs : list bucket) : res vaults := rfold vts_put v bs.
(** vaults.rs:46-52 *)
Definition vts_take (E : env) (v : vaults) (r : resource) (amt : Z) : res (vaults * bucket) :=
  a ← take_exact E r (vts_amount v r) amt;
  Ok (<[r := vts_amount v r - a]> v, (r, a)).
(** vaults.rs:61-67 *)
Definition vts_take_adv (E : env) (v : vaults) (r : resource) (amt : Z) (s : strategy) : res (vaults * bucket) :=
  a ← take_adv E r s (vts_amount v r) amt;
  Ok (<[r := vts_amount v r - a]> v, (r, a)).
(** vaults.rs:69-74; claims are served in order *)
Fixpoint vts_take_adv_batch (E : env) (v : vaults) (cs : list (resource * Z)) (s : strategy) : res (vaults * list bucket) :=
  match cs with
  | [] => Ok (v, [])
  | (r, amt) :: cs =>
      '(v1, b) ← vts_take_adv E v r amt s;
      '(v2, bs) ← vts_take_adv_batch E v1 cs s;
      Ok (v2, b :: bs)
  end.

(** ** The component *)
(** margin_account.rs:45-54 plus the level 1-3 roles of the component
    (margin_account.rs:22-27) *)
Record account := mkAcc {
  ac_vaults : vaults;
  ac_coll : gmap resource Z;
  ac_positions : gmap pair_id account_position;
  ac_vb : Z;
  ac_requests : klist keeper_request;
  ac_active : gset N;
  ac_vstart : N;
  ac_ref : option N;
  ac_l1 : access_rule; ac_l2 : access_rule; ac_l3 : access_rule }.
Global Instance eta_acc : Settable account := settable! mkAcc
  <ac_vaults; ac_coll; ac_positions; ac_vb; ac_requests; ac_active; ac_vstart; ac_ref;
   ac_l1; ac_l2; ac_l3>.
(** margin_account.rs:57-97 *)
Definition acc_new (l1 l2 l3 : access_rule) (ref : option N) : account :=
  mkAcc ∅ ∅ ∅ 0 kl_new ∅ 0 ref l1 l2 l3.
(** margin_account.rs:113-117 *)
Definition acc_get_requests (a : account) (n : N) (start : option N) : res (list (N * keeper_request)) :=
  let s := default 0%N start in
  e0 ← uadd s n;
  let e := N.min e0 (kl_len (ac_requests a)) in
  let xs := kl_range (ac_requests a) s e in
  Ok (zip (map (fun i => (s + N.of_nat i)%N) (seq 0 (N.to_nat (e - s)))) xs).
(** margin_account.rs:119-124 *)
Definition acc_get_requests_tail (a : account) (n : N) (end_ : option N) : res (list (N * keeper_request)) :=
  let len := kl_len (ac_requests a) in
  e ← match end_ with
      | Some e => e1 ← uadd e 1; Ok (N.min e1 len)
      | None => Ok len
      end;
  s ← usub e (N.min n e);
  let xs := kl_range (ac_requests a) s e in
  Ok (zip (rev (map (fun i => (s + N.of_nat i)%N) (seq 0 (N.to_nat (e - s))))) (rev xs)).
(** margin_account.rs:134-136; [unwrap] panics on a dangling index *)
Definition acc_get_active (a : account) : res (list (N * keeper_request)) :=
  rmap (fun i => r ← expect (kl_get (ac_requests a) i) EEngine; Ok (i, r)) (elements (ac_active a)).

(** structs.rs:29-38 *)
Record acc_updates := mkAU {
  au_positions : gmap pair_id account_position;
  au_vb : Z;
  au_vstart : N;
  au_req_add : list keeper_request;
  au_req_upd : gmap N keeper_request;
  au_act_add : list N;
  au_act_rem : list N }.
(** margin_account.rs:139-145: a position of amount 0 is dropped *)
Definition acc_merge_positions (upd cur : gmap pair_id account_position) : gmap pair_id account_position :=
  merge (fun u c => match u with
                    | Some p => if ap_amount p =? 0 then None else Some p
                    | None => c
                    end) upd cur.
(** margin_account.rs:138-161 *)
Definition acc_update (a : account) (u : acc_updates) : res account :=
  let adv := (ac_vstart a <? au_vstart u)%N in
  let vstart := if adv then au_vstart u else ac_vstart a in
  let active0 := if adv then filter (fun i => (vstart <= i)%N) (ac_active a) else ac_active a in
  reqs1 ← rfold kl_push (ac_requests a) (au_req_add u);
  reqs2 ← rfold (fun l x => kl_update l (fst x) (snd x)) reqs1 (map_to_list (au_req_upd u));
  Ok (a <| ac_positions := acc_merge_positions (au_positions u) (ac_positions a) |>
        <| ac_vb := au_vb u |>
        <| ac_vstart := vstart |>
        <| ac_requests := reqs2 |>
        <| ac_active := (active0 ∪ list_to_set (au_act_add u)) ∖ list_to_set (au_act_rem u) |>).
(** margin_account.rs:163-165 *)
Definition acc_update_referral_id (a : account) (r : option N) : account := a <| ac_ref := r |>.
(** margin_account.rs:168-175 and virtual_margin_account.rs:370-377: one bucket
    added to the balance table *)
Definition coll_add (m : gmap resource Z) (b : bucket) : res (gmap resource Z) :=
  match m !! b_res b with
  | Some x => y ← dadd x (b_amt b); Ok (<[b_res b := y]> m)
  | None => Ok (<[b_res b := b_amt b]> m)
  end.
(** margin_account.rs:181-190 and virtual_margin_account.rs:383-392: one bucket
    removed; indexing a missing entry panics, a zero entry is deleted *)
Definition coll_sub (m : gmap resource Z) (b : bucket) : res (gmap resource Z) :=
  x ← expect (m !! b_res b) EEngine;
  y ← dsub x (b_amt b);
  Ok (if y =? 0 then delete (b_res b) m else <[b_res b := y]> m).
(** margin_account.rs:167-177 *)
Definition acc_deposit (a : account) (bs : list bucket) : res account :=
  c ← rfold coll_add (ac_coll a) bs;
  v ← vts_put_batch (ac_vaults a) bs;
  Ok (a <| ac_coll := c |> <| ac_vaults := v |>).
(** margin_account.rs:179-193 *)
Definition acc_withdraw (E : env) (a : account) (cs : list (resource * Z)) (s : strategy) : res (account * list bucket) :=
  '(v, bs) ← vts_take_adv_batch E (ac_vaults a) cs s;
  c ← rfold coll_sub (ac_coll a) bs;
  Ok (a <| ac_coll := c |> <| ac_vaults := v |>, bs).

(** ** VirtualMarginAccount *)
(** virtual_margin_account.rs:13-32; [va_comp] is the component behind it *)
Record vacc := mkVA {
  va_addr : addr;
  va_comp : account;
  va_positions : gmap pair_id account_position;
  va_coll : gmap resource Z;
  va_vb : Z;
  va_vstart : N;
  va_rlen : N;
  va_alen : N;
  va_pos_upd : gset pair_id;
  va_req_add : list keeper_request;
  va_req_upd : gmap N keeper_request;
  va_act_add : list N;
  va_act_rem : list N;
  va_ref_id : option N;
  va_ref : option referral;
  va_rewarded : bool }.
Global Instance eta_va : Settable vacc := settable! mkVA
  <va_addr; va_comp; va_positions; va_coll; va_vb; va_vstart; va_rlen; va_alen; va_pos_upd;
   va_req_add; va_req_upd; va_act_add; va_act_rem; va_ref_id; va_ref; va_rewarded>.

(** virtual_margin_account.rs:35-65: the referral NFT's data is read (panic when
    the NFT does not exist) *)
Definition va_new (accs : gmap addr account) (refs : gmap N referral) (a : addr) : res vacc :=
  acc ← expect (accs !! a) EInvalidMarginAccount;
  rd ← match ac_ref acc with
       | Some id => d ← expect (refs !! id) EEngine; Ok (Some d)
       | None => Ok None
       end;
  Ok {| va_addr := a; va_comp := acc; va_positions := ac_positions acc; va_coll := ac_coll acc;
        va_vb := ac_vb acc; va_vstart := ac_vstart acc; va_rlen := kl_len (ac_requests acc);
        va_alen := N.of_nat (size (ac_active acc)); va_pos_upd := ∅; va_req_add := [];
        va_req_upd := ∅; va_act_add := []; va_act_rem := []; va_ref_id := ac_ref acc;
        va_ref := rd; va_rewarded := false |}.

(** virtual_margin_account.rs:67-76 *)
Definition va_updates (v : vacc) : acc_updates :=
  mkAU (filter (fun kv => fst kv ∈ va_pos_upd v) (va_positions v)) (va_vb v) (va_vstart v)
    (va_req_add v) (va_req_upd v) (va_act_add v) (va_act_rem v).
(** virtual_margin_account.rs:78-90: the requests reported by EventRequests *)
Definition va_event_requests (v : vacc) : list (N * keeper_request) :=
  imap (fun i r => ((N.of_nat i + va_rlen v)%N, r)) (va_req_add v) ++ map_to_list (va_req_upd v).
(** virtual_margin_account.rs:67-99: the account after the update and the
    referral NFTs after the reward is written back (fields balance and
    total_rewarded only) *)
Definition va_realize (v : vacc) (refs : gmap N referral) : res (account * gmap N referral) :=
  refs' ← (if va_rewarded v
           then id ← expect (va_ref_id v) EEngine;
                d ← expect (va_ref v) EEngine;
                d0 ← expect (refs !! id) EEngine;
                Ok (<[id := d0 <| rf_balance := rf_balance d |>
                               <| rf_total_rewarded := rf_total_rewarded d |>]> refs)
           else Ok refs);
  a ← acc_update (va_comp v) (va_updates v);
  Ok (a, refs').

(** virtual_margin_account.rs:109-112 [positions_mut] followed by replacing the
    whole map by [m] *)
Definition va_set_positions (v : vacc) (m : gmap pair_id account_position) : vacc :=
  v <| va_pos_upd := va_pos_upd v ∪ dom (va_positions v) |> <| va_positions := m |>.
(** virtual_margin_account.rs:118-120: reading inserts a default entry that is
    not marked for update *)
Definition va_position (v : vacc) (p : pair_id) : vacc * account_position :=
  match va_positions v !! p with
  | Some x => (v, x)
  | None => (v <| va_positions := <[p := apos_zero]> (va_positions v) |>, apos_zero)
  end.
(** virtual_margin_account.rs:122-125 [position_mut] followed by an assignment *)
Definition va_set_position (v : vacc) (p : pair_id) (x : account_position) : vacc :=
  v <| va_pos_upd := {[p]} ∪ va_pos_upd v |> <| va_positions := <[p := x]> (va_positions v) |>.
(** virtual_margin_account.rs:137-139 *)
Definition va_fee_share_referral (v : vacc) : Z := match va_ref v with Some d => rf_fee_referral d | None => 0 end.
(** virtual_margin_account.rs:141-143 *)
Definition va_fee_rebate (v : vacc) : res Z :=
  match va_ref v with Some d => dsub (dec 1) (rf_fee_rebate d) | None => Ok (dec 1) end.
(** virtual_margin_account.rs:145-151 *)
Definition va_reward_referral (v : vacc) (amt : Z) : res vacc :=
  match va_ref v with
  | Some d => b ← dadd (rf_balance d) amt;
              t ← dadd (rf_total_rewarded d) amt;
              Ok (v <| va_ref := Some (d <| rf_balance := b |> <| rf_total_rewarded := t |>) |>
                    <| va_rewarded := true |>)
  | None => Ok v
  end.
(** virtual_margin_account.rs:157-163 *)
Definition va_keeper_request (v : vacc) (i : N) : res keeper_request :=
  match va_req_upd v !! i with
  | Some r => Ok r
  | None => expect (kl_get (ac_requests (va_comp v)) i) EMissingRequest
  end.
(** virtual_margin_account.rs:165-180: the result is a map, so repeated indexes
    collapse *)
Definition va_keeper_requests (v : vacc) (is_ : list N) : res (gmap N keeper_request) :=
  rfold (fun (m : gmap N keeper_request) i => r ← va_keeper_request v i; Ok (<[i := r]> m)) ∅ is_.
(** virtual_margin_account.rs:198-200 *)
Definition va_collateral_amount (v : vacc) (r : resource) : Z := default 0 (va_coll v !! r).

(** virtual_margin_account.rs:411-414; [active_requests_len] is a usize (32 bits
    on wasm; the model uses the 64-bit bound, unreachable either way) *)
Definition va_add_active (v : vacc) (i : N) : res vacc :=
  n ← uadd (va_alen v) 1;
  Ok (v <| va_alen := n |> <| va_act_add := va_act_add v ++ [i] |>).
(** virtual_margin_account.rs:416-419 *)
Definition va_remove_active (v : vacc) (i : N) : res vacc :=
  n ← usub (va_alen v) 1;
  Ok (v <| va_alen := n |> <| va_act_rem := va_act_rem v ++ [i] |>).
(** virtual_margin_account.rs:421-428 *)
Definition status_phases (s : N) : res (list N) :=
  if (s =? STATUS_ACTIVE)%N then Ok [STATUS_DORMANT]
  else if (s =? STATUS_EXECUTED)%N then Ok [STATUS_ACTIVE]
  else if (s =? STATUS_CANCELLED)%N then Ok [STATUS_ACTIVE; STATUS_DORMANT]
  else Err EInvalidRequestStatus.
Definition is_pending (s : N) : bool := (s =? STATUS_ACTIVE)%N || (s =? STATUS_DORMANT)%N.
Definition in_list (s : N) (l : list N) : bool := existsb (N.eqb s) l.

(** virtual_margin_account.rs:252-272 *)
Definition va_push_request (now : Z) (v : vacc) (r : request) (delay expiry : N) (status : N) (eff : list addr) : res vacc :=
  _ ← guard_ (is_pending status) EInvalidRequestStatus;
  sub ← iadd now (u64_as_i64 delay);
  exp ← iadd sub (u64_as_i64 expiry);
  i ← uadd (va_rlen v) (N.of_nat (length (va_req_add v)));
  v ← va_add_active v i;
  Ok (v <| va_req_add := va_req_add v ++ [mkKReq r sub exp status eff] |>).

(** virtual_margin_account.rs:274-297: the loop body for one fetched request *)
Definition va_try_set1 (phases : list N) (status : N) (s : vacc * list N) (x : N * keeper_request) : res (vacc * list N) :=
  let '(v, updated) := s in
  let '(i, r) := x in
  if in_list (kr_status r) phases then
    v ← (if is_pending status then
           if is_pending (kr_status r) then Ok v else va_add_active v i
         else if is_pending (kr_status r) then va_remove_active v i else Ok v);
    Ok (v <| va_req_upd := <[i := r <| kr_status := status |>]> (va_req_upd v) |>, updated ++ [i])
  else Ok (v, updated).
Definition va_try_set_status (v : vacc) (is_ : list N) (status : N) : res (vacc * list N) :=
  phases ← status_phases status;
  rs ← va_keeper_requests v is_;
  rfold (va_try_set1 phases status) (v, []) (map_to_list rs).

(** virtual_margin_account.rs:313-327 *)
Definition va_cancel1 (v : vacc) (x : N * keeper_request) : res vacc :=
  let '(i, r) := x in
  phases ← status_phases STATUS_CANCELLED;
  _ ← guard_ (in_list (kr_status r) phases) ECancelNotActiveOrDormant;
  v ← (if is_pending (kr_status r) then va_remove_active v i else Ok v);
  Ok (v <| va_req_upd := <[i := r <| kr_status := STATUS_CANCELLED |>]> (va_req_upd v) |>).
Definition va_cancel_requests (v : vacc) (is_ : list N) : res vacc :=
  rs ← va_keeper_requests v is_;
  rfold va_cancel1 v (map_to_list rs).

(** virtual_margin_account.rs:329-367 *)
Definition va_process_request (now : Z) (v : vacc) (i : N) : res (vacc * request * bool) :=
  _ ← guard_ (va_vstart v <=? i)%N EProcessBeforeValidStart;
  r ← va_keeper_request v i;
  let expired := kr_expiry r <=? now in
  st ← (if expired
        then _ ← guard_ (is_pending (kr_status r)) EProcessNotActive; Ok STATUS_EXPIRED
        else _ ← guard_ (kr_status r =? STATUS_ACTIVE)%N EProcessNotActive; Ok STATUS_EXECUTED);
  _ ← guard_ (kr_submission r <? now) EProcessBeforeSubmission;
  v ← va_remove_active v i;
  Ok (v <| va_req_upd := <[i := r <| kr_status := st |>]> (va_req_upd v) |>, kr_request r, expired).

(** virtual_margin_account.rs:369-380 *)
Definition va_deposit (v : vacc) (bs : list bucket) : res vacc :=
  c ← rfold coll_add (va_coll v) bs;
  a ← acc_deposit (va_comp v) bs;
  Ok (v <| va_coll := c |> <| va_comp := a |>).
(** virtual_margin_account.rs:382-396 *)
Definition va_withdraw (E : env) (v : vacc) (cs : list (resource * Z)) (s : strategy) : res (vacc * list bucket) :=
  '(a, bs) ← acc_withdraw E (va_comp v) cs s;
  c ← rfold coll_sub (va_coll v) bs;
  Ok (v <| va_coll := c |> <| va_comp := a |>, bs).
(** virtual_margin_account.rs:398-400 *)
Definition va_add_vb (v : vacc) (x : Z) : res vacc := y ← dadd (va_vb v) x; Ok (v <| va_vb := y |>).
(** virtual_margin_account.rs:402-409 (its event is emitted by the caller in the model) *)
Definition va_update_valid_start (v : vacc) : vacc := v <| va_vstart := va_rlen v |>.
