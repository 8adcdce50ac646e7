(** * Base: results, panics and the platform arithmetic used by the contracts.

    Everything the Radix engine gives the Rust code is modelled here:
    - a Rust panic / failed [assert!] / [expect] aborts the whole transaction,
      so it is the [Err] branch of [res] (no state is returned with it);
    - [Decimal] is an [I192] counting attos (10^-18); [+] and [-] panic on
      overflow, [*] and [/] are computed in a wider integer, truncated toward
      zero and panic when the result leaves the range or the divisor is 0;
    - [u64]/[usize]/[i64] arithmetic panics on overflow
      (Cargo.toml sets overflow-checks = true), while [as] casts wrap. *)
From Coq Require Export ZArith Lia Bool List.
From stdpp Require Export prelude countable gmap fin_maps list sorting.
From RecordUpdate Require Export RecordSet.
Export RecordSetNotations.
Global Open Scope Z_scope.

(** Error values. One constructor per message constant of
    exchange/src/exchange/errors.rs:1-68, plus the messages of the other
    packages and the engine's own panics ([EEngine]). *)
Inductive error :=
| EArithmetic            (* ERROR_ARITHMETIC and Decimal/integer overflow panics *)
| EEngine                (* engine refusals: vault/bucket/mint/proof errors *)
| EAuth                  (* the engine's auth module refused the call *)
| EInvalidAuthority | EInvalidFeeOath
| ESkewTooHigh | EPairOiTooHigh | EInsufficientMargin
| EPriceLimit | ESlippageLimit
| EInvalidPaymentToken | EInvalidProtocolToken | EInvalidLpToken
| EInsufficientPayment | EWithdrawalInsufficientBalance | EWithdrawalInsufficientPoolTokens
| ELiquidationSufficientMargin
| EAdlSkewTooLow | EAdlPnlBelowThreshold | EAdlSkewNotReduced | EAdlNoPosition
| ESwapNoDebt
| EClaimsTooMany | EEffectedRequestsTooMany | ETradeSizeMinNotMet
| EInvalidCollateral | EPositionsTooMany | ECollateralsTooMany | EActiveRequestsTooMany
| EInvalidAccount | EInvalidMarginAccount | EInvalidRequestStatus | EInvalidAuthLevel
| EInvalidPrice | EPriceTooOld
| EMissingPoolPosition | EMissingPairConfig | EMissingPrice | EMissingResourceFeed
| EMissingRequest
| ECancelNotActiveOrDormant
| EProcessNotActive | EProcessBeforeValidStart | EProcessBeforeSubmission
| EInvalidReferralData | EInvalidReferral | EReferralLimitReached
| EInvalidConfig         (* any assert of config/src/config/structs.rs *)
| EInvalidData | EInvalidKeyId | EInvalidSignature | EMissingPair | EKeyIdAlreadyExists  (* oracle *)
| EInvalidClaimAmount | EInsufficientToken | EReferralCodeExists | EReferralCodeNotFound
| EReferralCodeClaimed | EAllocationNotFound | EAllocationLimit | EMultiUseWithClaims  (* referral generator *)
| EMaxLockExceeded       (* fee delegator *)
| EInvalidChildToken | EWrappingDisabled | EInvalidFlashOath | EInsufficientFlashPayment (* token wrapper *)
| EIndexOutOfBounds.     (* common/src/list.rs:37 *)

Inductive res (A : Type) : Type := Ok (a : A) | Err (e : error).
Arguments Ok {A} a.
Arguments Err {A} e.

Global Instance res_ret : MRet res := fun A a => Ok a.
Global Instance res_bind : MBind res :=
  fun A B f m => match m with Ok a => f a | Err e => Err e end.
Global Instance res_fmap : FMap res :=
  fun A B f m => match m with Ok a => Ok (f a) | Err e => Err e end.

Definition is_ok {A} (r : res A) : Prop := exists a, r = Ok a.

(** [assert!(b, e)] *)
Definition guard_ (b : bool) (e : error) : res unit := if b then Ok tt else Err e.
(** [opt.expect(e)] / [opt.unwrap()] *)
Definition expect {A} (o : option A) (e : error) : res A :=
  match o with Some a => Ok a | None => Err e end.

Lemma bind_Ok {A B} (m : res A) (f : A -> res B) b :
  (m ≫= f) = Ok b <-> exists a, m = Ok a /\ f a = Ok b.
Proof.
  split.
  - destruct m as [a|e]; simpl; [intros H; exists a; auto | discriminate].
  - intros (a & -> & H); exact H.
Qed.
Lemma guard_Ok b e u : guard_ b e = Ok u <-> b = true.
Proof. destruct b, u; simpl; split; congruence. Qed.
Lemma expect_Ok {A} (o : option A) e a : expect o e = Ok a <-> o = Some a.
Proof. destruct o; simpl; split; congruence. Qed.

(** Fold with a state and early abort: Rust [for] loops with panics inside. *)
Fixpoint rfold {A S} (f : S -> A -> res S) (s : S) (l : list A) : res S :=
  match l with
  | [] => Ok s
  | x :: l => s' ← f s x; rfold f s' l
  end.
(** [iter().map(f).collect()] where [f] may panic. *)
Fixpoint rmap {A B} (f : A -> res B) (l : list A) : res (list B) :=
  match l with
  | [] => Ok []
  | x :: l => y ← f x; ys ← rmap f l; Ok (y :: ys)
  end.

(** ** Decimal *)
Definition E18 : Z := 1000000000000000000.
Definition DMAX : Z := 2 ^ 191 - 1.
Definition DMIN : Z := - 2 ^ 191.
Definition in_dec (x : Z) : bool := (DMIN <=? x) && (x <=? DMAX).
Definition chk (x : Z) : res Z := if in_dec x then Ok x else Err EArithmetic.

Definition dadd (a b : Z) : res Z := chk (a + b).
Definition dsub (a b : Z) : res Z := chk (a - b).
Definition dneg (a : Z) : res Z := chk (- a).
Definition dabs (a : Z) : res Z := chk (Z.abs a).
Definition dmul (a b : Z) : res Z := chk (Z.quot (a * b) E18).
Definition ddiv (a b : Z) : res Z :=
  if b =? 0 then Err EArithmetic else chk (Z.quot (a * E18) b).
(** [Ord::clamp] panics when lo > hi. *)
Definition dclamp (x lo hi : Z) : res Z :=
  if lo <=? hi then Ok (Z.max lo (Z.min x hi)) else Err EArithmetic.
Definition dec (n : Z) : Z := n * E18.            (* dec!(n) for an integer literal *)
(** [Decimal::from(n)] for a machine integer (always in range). *)
Definition dec_of_int (n : Z) : res Z := chk (n * E18).

(** ** Machine integers *)
Definition U64MAX : Z := 2 ^ 64 - 1.
Definition I64MAX : Z := 2 ^ 63 - 1.
Definition I64MIN : Z := - 2 ^ 63.
(** u64/usize [+] and [-] on [N] *)
Definition uadd (a b : N) : res N :=
  if (a + b <=? 18446744073709551615)%N then Ok (a + b)%N else Err EArithmetic.
Definition usub (a b : N) : res N :=
  if (b <=? a)%N then Ok (a - b)%N else Err EArithmetic.
(** i64 [+]/[-] and [Instant::add_seconds(..).expect(..)] *)
Definition in_i64 (x : Z) : bool := (I64MIN <=? x) && (x <=? I64MAX).
Definition iadd (a b : Z) : res Z := if in_i64 (a + b) then Ok (a + b) else Err EArithmetic.
Definition isub (a b : Z) : res Z := if in_i64 (a - b) then Ok (a - b) else Err EArithmetic.
Definition ineg (a : Z) : res Z := if in_i64 (- a) then Ok (- a) else Err EArithmetic.
(** [x as i64] from u64, [x as u16] from i64, [x as u64] from i64: they wrap. *)
Definition u64_as_i64 (x : N) : Z :=
  let z := Z.of_N x in if z <=? I64MAX then z else z - 2 ^ 64.
Definition i64_as_u64 (x : Z) : N := Z.to_N (x mod 2 ^ 64).
Definition i64_as_u16 (x : Z) : Z := x mod 2 ^ 16.

(** Inversion lemmas for the checked operations. *)
Lemma in_dec_spec x : in_dec x = true <-> DMIN <= x <= DMAX.
Proof. unfold in_dec; rewrite andb_true_iff, !Z.leb_le; tauto. Qed.
Lemma chk_Ok x y : chk x = Ok y <-> y = x /\ DMIN <= x <= DMAX.
Proof.
  unfold chk. destruct (in_dec x) eqn:H.
  - apply in_dec_spec in H. split; [intros [=<-]; auto | intros [-> _]; auto].
  - split; [discriminate|]. intros [_ H']; apply in_dec_spec in H'; congruence.
Qed.
Lemma dadd_Ok a b c : dadd a b = Ok c <-> c = a + b /\ DMIN <= a + b <= DMAX.
Proof. apply chk_Ok. Qed.
Lemma dsub_Ok a b c : dsub a b = Ok c <-> c = a - b /\ DMIN <= a - b <= DMAX.
Proof. apply chk_Ok. Qed.
Lemma dneg_Ok a c : dneg a = Ok c <-> c = - a /\ DMIN <= - a <= DMAX.
Proof. apply chk_Ok. Qed.
Lemma dabs_Ok a c : dabs a = Ok c <-> c = Z.abs a /\ DMIN <= Z.abs a <= DMAX.
Proof. apply chk_Ok. Qed.
Lemma dmul_Ok a b c :
  dmul a b = Ok c <-> c = Z.quot (a * b) E18 /\ DMIN <= Z.quot (a * b) E18 <= DMAX.
Proof. apply chk_Ok. Qed.
Lemma ddiv_Ok a b c :
  ddiv a b = Ok c <->
  b <> 0 /\ c = Z.quot (a * E18) b /\ DMIN <= Z.quot (a * E18) b <= DMAX.
Proof.
  unfold ddiv. destruct (Z.eqb_spec b 0) as [->|Hb].
  - split; [discriminate | tauto].
  - rewrite chk_Ok. tauto.
Qed.
Lemma dclamp_Ok x lo hi c :
  dclamp x lo hi = Ok c <-> lo <= hi /\ c = Z.max lo (Z.min x hi).
Proof.
  unfold dclamp. destruct (Z.leb_spec lo hi); split.
  - intros [=<-]; auto.
  - intros [_ ->]; auto.
  - discriminate.
  - intros [? _]; lia.
Qed.
Lemma dec_of_int_Ok n c : dec_of_int n = Ok c <-> c = n * E18 /\ DMIN <= n * E18 <= DMAX.
Proof. apply chk_Ok. Qed.
Lemma uadd_Ok a b c : uadd a b = Ok c <-> c = (a + b)%N /\ (a + b <= 18446744073709551615)%N.
Proof.
  unfold uadd. destruct (N.leb_spec (a + b) 18446744073709551615); split.
  - intros [=<-]; auto.
  - intros [-> _]; auto.
  - discriminate.
  - intros [_ ?]; lia.
Qed.
Lemma usub_Ok a b c : usub a b = Ok c <-> c = (a - b)%N /\ (b <= a)%N.
Proof.
  unfold usub. destruct (N.leb_spec b a); split.
  - intros [=<-]; auto.
  - intros [-> _]; auto.
  - discriminate.
  - intros [_ ?]; lia.
Qed.
Lemma in_i64_spec x : in_i64 x = true <-> I64MIN <= x <= I64MAX.
Proof. unfold in_i64; rewrite andb_true_iff, !Z.leb_le; tauto. Qed.
Lemma iadd_Ok a b c : iadd a b = Ok c <-> c = a + b /\ I64MIN <= a + b <= I64MAX.
Proof.
  unfold iadd. destruct (in_i64 (a + b)) eqn:H.
  - apply in_i64_spec in H. split; [intros [=<-]; auto | intros [-> _]; auto].
  - split; [discriminate|]. intros [_ H']; apply in_i64_spec in H'; congruence.
Qed.
Lemma isub_Ok a b c : isub a b = Ok c <-> c = a - b /\ I64MIN <= a - b <= I64MAX.
Proof.
  unfold isub. destruct (in_i64 (a - b)) eqn:H.
  - apply in_i64_spec in H. split; [intros [=<-]; auto | intros [-> _]; auto].
  - split; [discriminate|]. intros [_ H']; apply in_i64_spec in H'; congruence.
Qed.
Lemma ineg_Ok a c : ineg a = Ok c <-> c = - a /\ I64MIN <= - a <= I64MAX.
Proof.
  unfold ineg. destruct (in_i64 (- a)) eqn:H.
  - apply in_i64_spec in H. split; [intros [=<-]; auto | intros [-> _]; auto].
  - split; [discriminate|]. intros [_ H']; apply in_i64_spec in H'; congruence.
Qed.

Lemma Ok_inj {A} (a b : A) : Ok a = Ok b -> a = b.
Proof. congruence. Qed.

(** [inv H]: one or more inversion steps on a successful monadic computation. *)
Ltac inv_step H :=
  lazymatch type of H with
  | Err _ = Ok _ => discriminate H
  | Ok _ = Ok _ => apply Ok_inj in H
  | (_ ≫= _) = Ok _ =>
      let x := fresh "x" in let H1 := fresh "Hb" in let H2 := fresh "Hk" in
      apply bind_Ok in H; destruct H as (x & H1 & H2)
  | guard_ _ _ = Ok _ => apply guard_Ok in H
  | expect _ _ = Ok _ => apply expect_Ok in H
  | dadd _ _ = Ok _ => apply dadd_Ok in H; destruct H as [? ?]
  | dsub _ _ = Ok _ => apply dsub_Ok in H; destruct H as [? ?]
  | dneg _ = Ok _ => apply dneg_Ok in H; destruct H as [? ?]
  | dabs _ = Ok _ => apply dabs_Ok in H; destruct H as [? ?]
  | dmul _ _ = Ok _ => apply dmul_Ok in H; destruct H as [? ?]
  | ddiv _ _ = Ok _ => apply ddiv_Ok in H; destruct H as (? & ? & ?)
  | dclamp _ _ _ = Ok _ => apply dclamp_Ok in H; destruct H as [? ?]
  | dec_of_int _ = Ok _ => apply dec_of_int_Ok in H; destruct H as [? ?]
  | uadd _ _ = Ok _ => apply uadd_Ok in H; destruct H as [? ?]
  | usub _ _ = Ok _ => apply usub_Ok in H; destruct H as [? ?]
  | iadd _ _ = Ok _ => apply iadd_Ok in H; destruct H as [? ?]
  | isub _ _ = Ok _ => apply isub_Ok in H; destruct H as [? ?]
  | ineg _ = Ok _ => apply ineg_Ok in H; destruct H as [? ?]
  end.

Lemma rfold_ind {A S} (f : S -> A -> res S) (P : S -> S -> Prop) :
  (forall s, P s s) ->
  (forall s x s1 s2, f s x = Ok s1 -> P s1 s2 -> P s s2) ->
  forall l s s', rfold f s l = Ok s' -> P s s'.
Proof.
  intros Hr Hs l. induction l as [|x l IH]; intros s s' H; simpl in H.
  - inv_step H; subst; apply Hr.
  - inv_step H. eapply Hs; [exact Hb|]. apply IH; exact Hk.
Qed.
(** Invariant form. *)
Lemma rfold_inv {A S} (f : S -> A -> res S) (I : S -> Prop) :
  (forall s x s1, I s -> f s x = Ok s1 -> I s1) ->
  forall l s s', I s -> rfold f s l = Ok s' -> I s'.
Proof.
  intros Hs l. induction l as [|x l IH]; intros s s' Hi H; simpl in H.
  - inv_step H; subst; exact Hi.
  - inv_step H. eapply IH; [|exact Hk]. eapply Hs; eauto.
Qed.
Lemma rfold_app {A S} (f : S -> A -> res S) s l1 l2 :
  rfold f s (l1 ++ l2) = (s1 ← rfold f s l1; rfold f s1 l2).
Proof.
  revert s. induction l1 as [|x l1 IH]; intros s; simpl; [reflexivity|].
  destruct (f s x); simpl; auto.
Qed.
Lemma rmap_length {A B} (f : A -> res B) l l' : rmap f l = Ok l' -> length l' = length l.
Proof.
  revert l'. induction l as [|x l IH]; intros l' H; simpl in H.
  - inv_step H; subst; reflexivity.
  - inv_step H. inv_step Hk. inv_step Hk0. subst. simpl. f_equal. eauto.
Qed.
Lemma rmap_Forall2 {A B} (f : A -> res B) l l' :
  rmap f l = Ok l' -> Forall2 (fun x y => f x = Ok y) l l'.
Proof.
  revert l'. induction l as [|x l IH]; intros l' H; simpl in H.
  - inv_step H; subst; constructor.
  - inv_step H. inv_step Hk. inv_step Hk0. subst. constructor; auto.
Qed.

(** Repeated inversion of every successful computation in the context. *)
Ltac inv_all :=
  repeat match goal with
  | H : Err _ = Ok _ |- _ => discriminate H
  | H : Ok _ = Ok _ |- _ => apply Ok_inj in H
  | H : (_ ≫= _) = Ok _ |- _ => inv_step H
  | H : guard_ _ _ = Ok _ |- _ => inv_step H
  | H : expect _ _ = Ok _ |- _ => inv_step H
  | H : (let (_, _) := ?x in _) = Ok _ |- _ => destruct x eqn:?
  | H : (_, _) = (_, _) |- _ => injection H as
  | H : dadd _ _ = Ok _ |- _ => inv_step H
  | H : dsub _ _ = Ok _ |- _ => inv_step H
  | H : dneg _ = Ok _ |- _ => inv_step H
  | H : dabs _ = Ok _ |- _ => inv_step H
  | H : dmul _ _ = Ok _ |- _ => inv_step H
  | H : ddiv _ _ = Ok _ |- _ => inv_step H
  | H : dclamp _ _ _ = Ok _ |- _ => inv_step H
  | H : dec_of_int _ = Ok _ |- _ => inv_step H
  | H : uadd _ _ = Ok _ |- _ => inv_step H
  | H : usub _ _ = Ok _ |- _ => inv_step H
  | H : iadd _ _ = Ok _ |- _ => inv_step H
  | H : isub _ _ = Ok _ |- _ => inv_step H
  | H : ineg _ = Ok _ |- _ => inv_step H
  | H : mret _ = Ok _ |- _ => apply Ok_inj in H
  end.
