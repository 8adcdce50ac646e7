(** * Shared types: addresses, buckets, access rules, the call context. *)
From Verif Require Import Base.

(** Addresses and ids are opaque; the model uses natural numbers for
    [ResourceAddress], [ComponentAddress], [PairId] (a String), [Hash] and
    [NonFungibleLocalId]. *)
Definition resource := N.
Definition addr := N.
Definition pair_id := N.

(** The resource constants of exchange.rs:47-54 (distinct addresses). *)
Definition BASE : resource := 0%N.
Definition LP : resource := 1%N.
Definition PROTOCOL : resource := 2%N.
Definition KEEPER_REWARD : resource := 3%N.
Definition FEE_OATH : resource := 4%N.
Definition AUTHORITY : resource := 5%N.
Definition REFERRAL : resource := 6%N.
Definition RECOVERY_KEY : resource := 7%N.
Definition XRD : resource := 8%N.
(** The resources created by components: the fee oath above, and the token
    wrapper's flash oath (token_wrapper.rs:65-88). *)
Definition FLASH_OATH : resource := 9%N.

(** A fungible bucket: resource and amount in attos. *)
Definition bucket := (resource * Z)%type.
Definition b_res (b : bucket) : resource := fst b.
Definition b_amt (b : bucket) : Z := snd b.

(** ** Access rules (Radix [AccessRule]/[AccessRuleNode] and their [or]).
    [CompositeRequirement] leaves are opaque: [LReq n] is any basic requirement
    (badge, amount, signature...), [LKey n] is [require(recovery key n)]. *)
Inductive leaf := LReq (n : N) | LKey (n : N).
Inductive rule_node :=
| NLeaf (l : leaf)
| NAny (ns : list rule_node)
| NAll (ns : list rule_node).
Inductive access_rule := AllowAll | DenyAll | Protected (n : rule_node).

Global Instance leaf_eq_dec : EqDecision leaf.
Proof. solve_decision. Defined.
Fixpoint rule_node_eqb (a b : rule_node) {struct a} : bool :=
  let fix eqs (l k : list rule_node) {struct l} : bool :=
    match l, k with
    | [], [] => true
    | x :: l, y :: k => rule_node_eqb x y && eqs l k
    | _, _ => false
    end in
  match a, b with
  | NLeaf x, NLeaf y => bool_decide (x = y)
  | NAny l, NAny k => eqs l k
  | NAll l, NAll k => eqs l k
  | _, _ => false
  end.
Section node_ind.
  Context (P : rule_node -> Prop) (Hl : forall l, P (NLeaf l))
    (Hany : forall ns, Forall P ns -> P (NAny ns)) (Hall : forall ns, Forall P ns -> P (NAll ns)).
  Fixpoint rule_node_ind2 (n : rule_node) : P n :=
    let fix all (l : list rule_node) : Forall P l :=
      match l with [] => Forall_nil_2 P | x :: l => Forall_cons_2 P x l (rule_node_ind2 x) (all l) end in
    match n with NLeaf l => Hl l | NAny ns => Hany ns (all ns) | NAll ns => Hall ns (all ns) end.
End node_ind.
Lemma rule_node_eqb_spec a b : rule_node_eqb a b = true <-> a = b.
Proof.
  revert b. induction a as [l|ns IH|ns IH] using rule_node_ind2; intros b.
  - destruct b; simpl; [rewrite bool_decide_eq_true|..]; split; congruence.
  - destruct b as [|ks|]; simpl; try (split; congruence).
    transitivity (ns = ks); [|split; congruence].
    revert ks. induction ns as [|x ns IHl]; intros [|y ks]; try (split; congruence).
    inversion IH as [|? ? Hx Hr]; subst. rewrite andb_true_iff, Hx, (IHl Hr ks). split; [intros []|]; intuition congruence.
  - destruct b as [| |ks]; simpl; try (split; congruence).
    transitivity (ns = ks); [|split; congruence].
    revert ks. induction ns as [|x ns IHl]; intros [|y ks]; try (split; congruence).
    inversion IH as [|? ? Hx Hr]; subst. rewrite andb_true_iff, Hx, (IHl Hr ks). split; [intros []|]; intuition congruence.
Qed.
Global Instance rule_node_eq_dec : EqDecision rule_node.
Proof.
  intros a b. destruct (rule_node_eqb a b) eqn:H.
  - left. apply rule_node_eqb_spec; exact H.
  - right. intros ->. assert (rule_node_eqb b b = true) by (apply rule_node_eqb_spec; reflexivity). congruence.
Defined.
Global Instance access_rule_eq_dec : EqDecision access_rule.
Proof. solve_decision. Defined.

(** [AccessRuleNode::or]: an [AnyOf] absorbs the other side, anything else is
    wrapped (radix-engine-interface, blueprints/package/access_rule; trusted). *)
Definition node_or (a b : rule_node) : rule_node :=
  match a with
  | NAny ns => NAny (ns ++ [b])
  | _ => NAny [a; b]
  end.

(** The engine's evaluation of a rule given which basic requirements the current
    auth zone satisfies. *)
Fixpoint node_sat (sat : leaf -> bool) (n : rule_node) : bool :=
  match n with
  | NLeaf l => sat l
  | NAny ns => existsb (node_sat sat) ns
  | NAll ns => forallb (node_sat sat) ns
  end.
Definition rule_sat (sat : leaf -> bool) (r : access_rule) : bool :=
  match r with AllowAll => true | DenyAll => false | Protected n => node_sat sat n end.

(** The sub-rules the permission registry also indexes: the children of a
    top-level [AnyOf] (exchange.rs:892, 1937, 1951, ...). *)
Definition sub_rules (r : access_rule) : list access_rule :=
  match r with Protected (NAny ns) => map Protected ns | _ => [] end.

(** ** Environment: what the contracts get from outside and the model leaves
    abstract. Every theorem quantifies over it.
    - [e_decode]: [scrypto_decode::<Vec<Price>>] of a price message (oracle.rs:104);
    - [e_verify]: BLS verification of keccak(data) (oracle.rs:106-111), given the
      key, the data and the signature;
    - [e_hash]: keccak256 of a referral code string (exchange.rs:865);
    - [e_div]: divisibility of the non-built-in resources. *)
Record price_rec := mkPrice { pr_pair : pair_id; pr_quote : Z; pr_time : Z }.
Record env := mkEnv {
  e_decode : N -> option (list price_rec);
  e_verify : N -> N -> N -> bool;
  e_hash : N -> N;
  e_div : resource -> N;
}.

(** ** Call context: which proofs are in the caller's auth zone, which NFTs the
    caller can present as a [Proof] argument, whether a target account accepts a
    deposit, and the engine's USD price (used by lock_fee). *)
Record ctx := mkCtx {
  cx_sat : leaf -> bool;
  cx_proves : resource -> N -> bool;
  cx_accepts : addr -> list bucket -> bool;
  cx_usd_price : Z;
}.

(** ** Resource arithmetic of the engine *)
(** The protocol's own tokens and XRD have divisibility 18
    (deployment manifests; fee_oath created with the default divisibility). *)
Definition divis (E : env) (r : resource) : Z :=
  if (r <? 10)%N then 18 else Z.min 18 (Z.of_N (e_div E r)).
(** Smallest unit of a resource in attos. *)
Definition unit_of (E : env) (r : resource) : Z := 10 ^ (18 - divis E r).
Inductive strategy := ToZero | ToInfinity.   (* common/src/consts.rs:8-9 *)
(** [amount_for_withdrawal]: rounding an amount to a resource's divisibility. *)
Definition round_amount (E : env) (r : resource) (s : strategy) (amt : Z) : res Z :=
  let u := unit_of E r in
  match s with
  | ToZero => chk (Z.quot amt u * u)
  | ToInfinity => chk (- ((- amt) / u) * u)
  end.
(** [take_advanced] on a vault or bucket holding [have]: the amount taken. *)
Definition take_adv (E : env) (r : resource) (s : strategy) (have amt : Z) : res Z :=
  a ← round_amount E r s amt;
  _ ← guard_ ((0 <=? a) && (a <=? have)) EEngine;
  Ok a.
(** [take]: the amount must already be a multiple of the unit. *)
Definition take_exact (E : env) (r : resource) (have amt : Z) : res Z :=
  _ ← guard_ ((0 <=? amt) && (amt <=? have) && (amt mod unit_of E r =? 0)) EEngine;
  Ok amt.
(** A bucket the engine can hand to a method: non-negative, representable,
    a multiple of the unit. *)
Definition bucket_ok (E : env) (b : bucket) : bool :=
  (0 <=? b_amt b) && (b_amt b <=? DMAX) && (b_amt b mod unit_of E (b_res b) =? 0).
(** [ResourceManager::mint]: at most 2^152 attos at once, multiple of the unit. *)
Definition mint_ok (E : env) (r : resource) (amt : Z) : bool :=
  (0 <=? amt) && (amt <=? 2 ^ 152) && (amt mod unit_of E r =? 0).

(** ** Keeper requests (exchange/src/exchange/requests.rs) *)
(** requests.rs:6-10 *)
Definition STATUS_DORMANT : N := 0%N.
Definition STATUS_ACTIVE : N := 1%N.
Definition STATUS_EXECUTED : N := 2%N.
Definition STATUS_CANCELLED : N := 3%N.
Definition STATUS_EXPIRED : N := 4%N.
(** requests.rs:12-43 *)
Inductive price_limit := PLNone | PLGte (p : Z) | PLLte (p : Z).
Definition pl_compare (l : price_limit) (v : Z) : bool :=
  match l with PLNone => true | PLGte p => p <=? v | PLLte p => v <=? p end.
(** requests.rs:45-65 *)
Inductive slippage_limit := SLNone | SLPercent (p : Z) | SLAbsolute (a : Z).
Definition sl_allowed (l : slippage_limit) (value : Z) : res Z :=
  match l with
  | SLNone => Ok DMAX
  | SLPercent p => x ← dmul value p; ddiv x (dec 100)
  | SLAbsolute a => Ok a
  end.
Definition sl_compare (l : slippage_limit) (slippage value : Z) : res bool :=
  a ← sl_allowed l value; Ok (slippage <=? a).
(** requests.rs:67-80; [request_index as i64 + offset] may overflow (panic), the
    cast back to u64 wraps *)
Inductive index_ref := IRIndex (i : N) | IRRelative (o : Z).
Definition ir_resolve (r : index_ref) (idx : N) : res N :=
  match r with
  | IRIndex i => Ok i
  | IRRelative o => s ← iadd (u64_as_i64 idx) o; Ok (i64_as_u64 s)
  end.
(** requests.rs:82-103 *)
Record req_remove := mkReqRemove { rr_target : addr; rr_claims : list (resource * Z) }.
Record req_order := mkReqOrder {
  ro_pair : pair_id; ro_amount : Z; ro_reduce_only : bool;
  ro_price_limit : price_limit; ro_slippage : slippage_limit;
  ro_activate : list N; ro_cancel : list N }.
Inductive request := RRemove (r : req_remove) | ROrder (r : req_order).
(** account/src/margin_account/structs.rs:41-50. The stored request is kept
    decoded: SBOR encode/decode (requests.rs:105-113) is taken to round-trip. *)
Record keeper_request := mkKReq {
  kr_request : request; kr_submission : Z; kr_expiry : Z; kr_status : N;
  kr_effected : list addr }.
Global Instance eta_kreq : Settable keeper_request :=
  settable! mkKReq <kr_request; kr_submission; kr_expiry; kr_status; kr_effected>.
