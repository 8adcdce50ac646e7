(** * Proof device: a call on a margin account as a sequence of session steps.
    Nothing here is part of the model; [ssteps] re-expresses what the methods of
    Exchange.v do (each constructor carries a successful run of a model function),
    and [acct_call_of_*] proves that every account method is such a sequence
    between reading the caches and writing them back. *)
From Verif Require Import Base DFloat Lists Types Config Oracle Pool Account Fees Referral ExInternal Exchange System.

(** Repeated inversion, including case distinctions. *)
Ltac inv_go :=
  repeat first
  [ progress inv_all
  | match goal with
    | H : (match ?x with _ => _ end) = Ok _ |- _ => is_var x; destruct x
    | H : (if ?b then _ else _) = Ok _ |- _ => destruct b eqn:?
    | H : (match ?x with _ => _ end) = Ok _ |- _ => destruct x eqn:?
    end ]; subst.

Inductive sact :=
| AOath (b : bucket)
| AAddBase (amt : Z)
| ADeposit (bs : list bucket)
| ATakeBase (amt : Z)
| AWithdraw (bs : list bucket)
| AUpdatePair (p : pair_id)
| AFunding (p : pair_id)
| AClose (p : pair_id) (amt : Z)
| AOpen (p : pair_id) (amt : Z)
| AFees (fee : Z)
| ATrySet (is_ : list N) (st : N)
| ACancel (is_ : list N)
| AProcess (i : N)
| APush (r : request) (delay expiry st : N)
| APosRead (p : pair_id)
| ALiqPos
| ADepositBase (amt : Z)
| ASettle (amt : Z)
| AVstart
| ALevel (lvl : N) (rule : access_rule).

Inductive sstep (E : env) (now : Z) (c : vconfig) (o : voracle) : sess -> sact -> sess -> Prop :=
| ss_oath p a fd supply oath a' supply' :
    x_settle_fee_oath c p a o supply oath = Ok (a', supply') ->
    sstep E now c o (mkS p a fd) (AOath oath) (mkS p a' fd)
| ss_add_base p a fd b p' a' :
    x_add_base (p, a) b = Ok (p', a') -> b_res b = BASE ->
    sstep E now c o (mkS p a fd) (AAddBase (b_amt b)) (mkS p' a' fd)
| ss_deposit p a fd bs a' :
    va_deposit a bs = Ok a' -> Forall (fun b => b_res b <> BASE) bs ->
    sstep E now c o (mkS p a fd) (ADeposit bs) (mkS p a' fd)
| ss_take_base p a fd amt p1 value n p' a' :
    vp_withdraw E p amt ToZero = Ok (p1, value) -> dneg value = Ok n ->
    x_settle_account p1 a n = Ok (p', a') ->
    sstep E now c o (mkS p a fd) (ATakeBase value) (mkS p' a' fd)
| ss_withdraw p a fd cs a' bs :
    va_withdraw E a cs ToZero = Ok (a', bs) ->
    sstep E now c o (mkS p a fd) (AWithdraw bs) (mkS p a' fd)
| ss_update_pair p a fd pid p' b :
    x_update_pair now c o p pid = Ok (p', b) ->
    sstep E now c o (mkS p a fd) (AUpdatePair pid) (mkS p' a fd)
| ss_funding p a fd pid p' a' f :
    x_settle_funding p a pid = Ok (p', a', f) ->
    sstep E now c o (mkS p a fd) (AFunding pid) (mkS p' a' fd)
| ss_close p a fd pid amt p' a' q :
    x_close_position c o p a pid amt = Ok (p', a', q) -> amt <> 0 ->
    sstep E now c o (mkS p a fd) (AClose pid amt) (mkS p' a' fd)
| ss_open p a fd pid amt p' a' fee :
    x_open_position c o p a pid amt = Ok (p', a', fee) -> amt <> 0 ->
    sstep E now c o (mkS p a fd) (AOpen pid amt) (mkS p' a' fd)
| ss_fees s fee s' q :
    x_settle_fees_referral c s fee = Ok (s', q) -> 0 <= fee ->
    sstep E now c o s (AFees fee) s'
| ss_try_set p a fd is_ st a' l :
    va_try_set_status a is_ st = Ok (a', l) ->
    sstep E now c o (mkS p a fd) (ATrySet is_ st) (mkS p a' fd)
| ss_cancel p a fd is_ a' :
    va_cancel_requests a is_ = Ok a' ->
    sstep E now c o (mkS p a fd) (ACancel is_) (mkS p a' fd)
| ss_process p a fd i a' rq ex :
    va_process_request now a i = Ok (a', rq, ex) ->
    sstep E now c o (mkS p a fd) (AProcess i) (mkS p a' fd)
| ss_push p a fd r delay expiry st eff a' :
    va_push_request now a r delay expiry st eff = Ok a' ->
    sstep E now c o (mkS p a fd) (APush r delay expiry st) (mkS p a' fd)
| ss_pos_read p a fd pid a' pos :
    va_position a pid = (a', pos) ->
    sstep E now c o (mkS p a fd) (APosRead pid) (mkS p a' fd)
| ss_liq_pos p a fd p' a' rp :
    x_liquidate_positions now c o p a = Ok (p', a', rp) ->
    sstep E now c o (mkS p a fd) ALiqPos (mkS p' a' fd)
| ss_deposit_base p a fd amt p' :
    vp_deposit p amt = Ok p' ->
    sstep E now c o (mkS p a fd) (ADepositBase amt) (mkS p' a fd)
| ss_settle p a fd amt p' a' :
    x_settle_account p a amt = Ok (p', a') ->
    sstep E now c o (mkS p a fd) (ASettle amt) (mkS p' a' fd)
| ss_vstart p a fd :
    sstep E now c o (mkS p a fd) AVstart (mkS p (va_update_valid_start a) fd)
| ss_level p a fd lvl rule :
    (1 <= lvl <= 3)%N ->
    sstep E now c o (mkS p a fd) (ALevel lvl rule)
      (mkS p (a <| va_comp := ac_set_level lvl (va_comp a) rule |>) fd).

Inductive ssteps (E : env) (now : Z) (c : vconfig) (o : voracle) : sess -> list sact -> sess -> Prop :=
| sss_nil s : ssteps E now c o s [] s
| sss_cons s x s1 l s2 : sstep E now c o s x s1 -> ssteps E now c o s1 l s2 -> ssteps E now c o s (x :: l) s2.

Lemma ssteps_app E now c o s l s1 k s2 :
  ssteps E now c o s l s1 -> ssteps E now c o s1 k s2 -> ssteps E now c o s (l ++ k) s2.
Proof. induction 1; simpl; [auto|]. intros. econstructor; eauto. Qed.
Lemma ssteps_one E now c o s x s1 : sstep E now c o s x s1 -> ssteps E now c o s [x] s1.
Proof. intros; econstructor; [eauto|constructor]. Qed.
Lemma ssteps_snoc E now c o s l s1 x s2 :
  ssteps E now c o s l s1 -> sstep E now c o s1 x s2 -> ssteps E now c o s (l ++ [x]) s2.
Proof. intros; eapply ssteps_app; eauto using ssteps_one. Qed.

(** Invariants of sessions. *)
Lemma ssteps_inv E now c o (I : sess -> Prop) :
  (forall s x s1, sstep E now c o s x s1 -> I s -> I s1) ->
  forall s l s', ssteps E now c o s l s' -> I s -> I s'.
Proof. intros Hs s l s' H. induction H; eauto. Qed.
(** Relations between the start and the end of a session. *)
Lemma ssteps_rel E now c o (R : sess -> sess -> Prop) :
  (forall s, R s s) -> (forall s1 s2 s3, R s1 s2 -> R s2 s3 -> R s1 s3) ->
  (forall s x s1, sstep E now c o s x s1 -> R s s1) ->
  forall s l s', ssteps E now c o s l s' -> R s s'.
Proof. intros Hr Ht Hs s l s' H. induction H; eauto. Qed.

Definition tr (E : env) (now : Z) (c : vconfig) (o : voracle) (s s' : sess) : Prop := exists l, ssteps E now c o s l s'.

(** Fees are never negative. *)
Lemma x_calculate_fee_nonneg ec pc pp fr price value fee : x_calculate_fee ec pc pp fr price value = Ok fee -> 0 <= fee.
Proof. unfold x_calculate_fee. intros H. inv_go. lia. Qed.
Lemma x_close_fee_nonneg c o p a pid amt p' a' pnl fee : x_close_position c o p a pid amt = Ok (p', a', (pnl, fee)) -> 0 <= fee.
Proof.
  unfold x_close_position. intros H. apply bind_Ok in H. destruct H as (? & _ & H). do 6 (apply bind_Ok in H; destruct H as (? & _ & H)).
  apply bind_Ok in H. destruct H as (f & Hf & H). apply x_calculate_fee_nonneg in Hf.
  repeat (apply bind_Ok in H; destruct H as (? & _ & H)). inv_go; assumption.
Qed.
Lemma x_open_fee_nonneg c o p a pid amt p' a' fee : x_open_position c o p a pid amt = Ok (p', a', fee) -> 0 <= fee.
Proof.
  unfold x_open_position. intros H. do 6 (apply bind_Ok in H; destruct H as (? & _ & H)).
  apply bind_Ok in H. destruct H as (f & Hf & H). apply x_calculate_fee_nonneg in Hf.
  repeat (apply bind_Ok in H; destruct H as (? & _ & H)). inv_go; assumption.
Qed.
Lemma x_liq_position1_fee c fr o p t1 t2 t3 t4 x p' t1' t2' t3' t4' :
  x_liq_position1 c fr o (p, (t1, t2, t3, t4)) x = Ok (p', (t1', t2', t3', t4')) -> t4 <= t4'.
Proof.
  destruct x as [pid pos]. unfold x_liq_position1. intros H. do 6 (apply bind_Ok in H; destruct H as (? & _ & H)).
  apply bind_Ok in H. destruct H as (f & Hf & H). apply x_calculate_fee_nonneg in Hf.
  do 11 (apply bind_Ok in H; destruct H as (? & _ & H)). apply bind_Ok in H. destruct H as (tf & Ht & H). inv_step Ht.
  apply Ok_inj in H. injection H. intros. lia.
Qed.
Lemma x_liq_fee_nonneg now c o p a p' a' rp : x_liquidate_positions now c o p a = Ok (p', a', rp) -> 0 <= lp_fee rp.
Proof.
  unfold x_liquidate_positions. intros H. apply bind_Ok in H. destruct H as (fr & _ & H). apply bind_Ok in H. destruct H as (p1 & _ & H).
  apply bind_Ok in H. destruct H as ([p2 [[[t1 t2] t3] t4]] & Hf & H).
  assert (0 <= t4) as H4.
  { assert (forall s s', rfold (x_liq_position1 c fr o) s (map_to_list (va_positions a)) = Ok s' -> snd (snd s) <= snd (snd s')) as Hm.
    { apply (rfold_ind _ (fun s s' => snd (snd s) <= snd (snd s'))); [lia|]. intros [q1 [[[u1 u2] u3] u4]] x [q2 [[[v1 v2] v3] v4]] s2 Hx Hs.
      apply x_liq_position1_fee in Hx. simpl in *. lia. }
    apply Hm in Hf. simpl in Hf. lia. }
  do 4 (apply bind_Ok in H; destruct H as (? & _ & H)). apply Ok_inj in H. injection H as _ _ <-. exact H4.
Qed.

(** ** Internal functions as session steps *)
Section internals.
  Context (E : env) (now : Z) (c : vconfig) (o : voracle).

  Lemma tr_add_bases fd l p a p' a' :
    Forall (fun b => b_res b = BASE) l ->
    rfold x_add_base (p, a) l = Ok (p', a') ->
    ssteps E now c o (mkS p a fd) (map (fun b => AAddBase (b_amt b)) l) (mkS p' a' fd).
  Proof.
    revert p a. induction l as [|b l IH]; intros p a Hl H; cbn [rfold map] in *.
    - inv_go. constructor.
    - inversion Hl as [|? ? Hb0 Hl0]; subst. apply bind_Ok in H. destruct H as ([p1 a1] & H1 & H2).
      econstructor; [eapply ss_add_base; eauto | eapply IH; eauto].
  Qed.

  Lemma tr_add_collateral fd p a ts p' a' ev :
    x_add_collateral c p a ts = Ok (p', a', ev) ->
    ssteps E now c o (mkS p a fd)
      (map (fun b => AAddBase (b_amt b)) (List.filter is_base ts) ++ [ADeposit (List.filter (fun b => negb (is_base b)) ts)])
      (mkS p' a' fd).
  Proof.
    unfold x_add_collateral. intros H. apply bind_Ok in H. destruct H as ([p1 a1] & H1 & H2).
    apply bind_Ok in H2. destruct H2 as (? & ? & H2). apply bind_Ok in H2. destruct H2 as (a2 & Hd & H2).
    apply bind_Ok in H2. destruct H2 as (? & ? & H2). apply Ok_inj in H2. injection H2 as <- <- _.
    eapply ssteps_snoc.
    - eapply tr_add_bases; [|exact H1]. apply Forall_forall. intros b Hb.
      apply elem_of_list_In, filter_In in Hb. destruct Hb as [_ Hb]. unfold is_base in Hb. apply N.eqb_eq in Hb. exact Hb.
    - eapply ss_deposit; [exact Hd|]. apply Forall_forall. intros b Hb.
      apply elem_of_list_In, filter_In in Hb. destruct Hb as [_ Hb]. unfold is_base in Hb.
      apply negb_true_iff, N.eqb_neq in Hb. exact Hb.
  Qed.

  (** The claim loop takes base tokens and collects the other claims. *)
  Lemma tr_claims fd l p a toks rest p' a' toks' rest' :
    rfold (x_claim1 E) (p, a, toks, rest) l = Ok (p', a', toks', rest') ->
    exists k, ssteps E now c o (mkS p a fd) (map ATakeBase k) (mkS p' a' fd)
      /\ toks' = toks ++ map (fun v => (BASE, v)) k
      /\ rest' = rest ++ List.filter (fun x => negb (fst x =? BASE)%N) l.
  Proof.
    revert p a toks rest. induction l as [|[r amt] l IH]; intros p a toks rest H; cbn [rfold] in H.
    - inv_go. exists []. simpl. rewrite !app_nil_r. split; [constructor|auto].
    - apply bind_Ok in H. destruct H as ([[[p1 a1] t1] r1] & H1 & H2). unfold x_claim1 in H1.
      destruct (r =? BASE)%N eqn:Hr.
      + apply bind_Ok in H1. destruct H1 as (? & Hg1 & H1). apply bind_Ok in H1. destruct H1 as (? & Hg2 & H1).
        apply bind_Ok in H1. destruct H1 as ([p2 value] & Hw & H1).
        apply bind_Ok in H1. destruct H1 as (n & Hn & H1). apply bind_Ok in H1. destruct H1 as ([p3 a3] & Hs & H1).
        apply Ok_inj in H1. injection H1 as <- <- <- <-.
        destruct (IH _ _ _ _ H2) as (k & Hk & -> & ->). exists (value :: k). split; [|split].
        * simpl. econstructor; [|exact Hk]. eapply ss_take_base; eauto.
        * simpl. rewrite <- app_assoc. reflexivity.
        * simpl. rewrite Hr. reflexivity.
      + apply bind_Ok in H1. destruct H1 as (? & Hg1 & H1). apply Ok_inj in H1. injection H1 as <- <- <- <-.
        destruct (IH _ _ _ _ H2) as (k & Hk & -> & ->). exists k. split; [exact Hk|]. split; [reflexivity|].
        simpl. rewrite Hr. simpl. rewrite <- app_assoc. reflexivity.
  Qed.

  Lemma tr_remove_collateral cx fd p a rq p' a' toks ev :
    x_remove_collateral E cx c p a o rq = Ok (p', a', toks, ev) ->
    exists k bs, ssteps E now c o (mkS p a fd) (map ATakeBase k ++ [AWithdraw bs]) (mkS p' a' fd)
      /\ toks = map (fun v => (BASE, v)) k ++ bs.
  Proof.
    unfold x_remove_collateral. intros H.
    apply bind_Ok in H. destruct H as (m & Hm & H). apply bind_Ok in H. destruct H as ([[[p1 a1] t1] r1] & Hf & H).
    apply bind_Ok in H. destruct H as ([a2 more] & Hw & H). apply bind_Ok in H. destruct H as (? & Hg & H).
    apply bind_Ok in H. destruct H as (? & Ha & H). apply Ok_inj in H. injection H as <- <- <- _.
    destruct (tr_claims fd _ _ _ _ _ _ _ _ _ Hf) as (k & Hk & Ht & Hr).
    exists k, more. split; [|rewrite Ht; reflexivity].
    eapply ssteps_snoc; [exact Hk|]. eapply ss_withdraw; eauto.
  Qed.

  Lemma tr_margin_order s rq s' ev :
    x_margin_order now c o s rq = Ok (s', ev) ->
    exists l0 fee, ssteps E now c o s
      ([AUpdatePair (ro_pair rq); AFunding (ro_pair rq)] ++ l0 ++
       [AFees fee; ATrySet (ro_activate rq) STATUS_ACTIVE; ATrySet (ro_cancel rq) STATUS_CANCELLED]) s'
      /\ Forall (fun x => match x with AClose k _ | AOpen k _ => k = ro_pair rq | _ => False end) l0.
  Proof.
    destruct s as [p a fd]. unfold x_margin_order. cbn [s_pool s_acc s_fd]. intros H.
    apply bind_Ok in H. destruct H as (price & Hp & H). apply bind_Ok in H. destruct H as (? & Hl & H).
    apply bind_Ok in H. destruct H as ([p1 b1] & Hu & H). apply bind_Ok in H. destruct H as ([[p2 a2] f2] & Hf & H).
    apply bind_Ok in H. destruct H as ([ac ao] & Hs & H). apply bind_Ok in H. destruct H as ([[[p3 a3] pnl] fee0] & Hc & H).
    apply bind_Ok in H. destruct H as ([[p4 a4] fee] & Ho & H).
    apply bind_Ok in H. destruct H as (tot & Ht & H). apply bind_Ok in H. destruct H as (ta & Hta & H).
    apply bind_Ok in H. destruct H as (tv & Htv & H). apply bind_Ok in H. destruct H as (okb & Hsl & H).
    apply bind_Ok in H. destruct H as (? & Hg & H). apply bind_Ok in H. destruct H as ([s5 [[[q0 q1] q2] q3]] & Hfe & H).
    apply bind_Ok in H. destruct H as ([a6 act] & Ha6 & H). apply bind_Ok in H. destruct H as ([a7 can] & Ha7 & H).
    apply bind_Ok in H. destruct H as (dsk & Hd & H). apply bind_Ok in H. destruct H as (? & Hi & H).
    apply bind_Ok in H. destruct H as (tp & Htp & H). apply Ok_inj in H. injection H as <- _.
    assert (exists lc, ssteps E now c o (mkS p2 a2 fd) lc (mkS p3 a3 fd)
              /\ Forall (fun x => match x with AClose k _ | AOpen k _ => k = ro_pair rq | _ => False end) lc) as (lc & Hlc & Flc).
    { destruct (ac =? 0) eqn:Hz; simpl in Hc.
      - apply Ok_inj in Hc. injection Hc as <- <- _ _. exists []. split; [constructor|constructor].
      - apply bind_Ok in Hc. destruct Hc as ([[pp aa] [y1 y2]] & Hcl & Hc). apply Ok_inj in Hc. injection Hc as <- <- _ _.
        exists [AClose (ro_pair rq) ac]. split; [|repeat constructor]. apply ssteps_one. eapply ss_close; [exact Hcl|].
        apply Z.eqb_neq; exact Hz. }
    assert (exists lo, ssteps E now c o (mkS p3 a3 fd) lo (mkS p4 a4 fd)
              /\ Forall (fun x => match x with AClose k _ | AOpen k _ => k = ro_pair rq | _ => False end) lo) as (lo & Hlo & Flo).
    { destruct (ao =? 0) eqn:Hz; simpl in Ho.
      - apply Ok_inj in Ho. injection Ho as <- <- _. exists []. split; [constructor|constructor].
      - apply bind_Ok in Ho. destruct Ho as ([[pp aa] y1] & Hcl & Ho). apply bind_Ok in Ho. destruct Ho as (ff & Hff & Ho).
        apply Ok_inj in Ho. injection Ho as <- <- _.
        exists [AOpen (ro_pair rq) ao]. split; [|repeat constructor]. apply ssteps_one. eapply ss_open; [exact Hcl|].
        apply Z.eqb_neq; exact Hz. }
    assert (0 <= fee) as Hfee.
    { assert (0 <= fee0) as H0.
      { destruct (ac =? 0); simpl in Hc; [apply Ok_inj in Hc; injection Hc; intros; lia|].
        apply bind_Ok in Hc. destruct Hc as ([[pp aa] [y1 y2]] & Hcl & Hc). apply Ok_inj in Hc. injection Hc as _ _ _ <-.
        eapply x_close_fee_nonneg; exact Hcl. }
      destruct (ao =? 0); simpl in Ho; [apply Ok_inj in Ho; injection Ho; intros; lia|].
      apply bind_Ok in Ho. destruct Ho as ([[pp aa] y1] & Hcl & Ho). apply bind_Ok in Ho. destruct Ho as (ff & Hff & Ho).
      apply x_open_fee_nonneg in Hcl. inv_step Hff. apply Ok_inj in Ho. injection Ho. intros. lia. }
    exists (lc ++ lo), fee. split; [|apply Forall_app; auto].
    eapply ssteps_app.
    { econstructor; [eapply ss_update_pair; exact Hu|]. apply ssteps_one. eapply ss_funding; exact Hf. }
    eapply ssteps_app; [eapply ssteps_app; eauto|].
    econstructor; [eapply ss_fees; [exact Hfe|exact Hfee]|]. destruct s5 as [p5 a5 fd5]. cbn [s_acc] in Ha6. simpl.
    econstructor; [eapply ss_try_set; exact Ha6|]. apply ssteps_one. eapply ss_try_set; exact Ha7.
  Qed.

  Lemma tr_swap_debt fd p a r payment p' a' token rest ev :
    x_swap_debt E c o p a r payment = Ok (p', a', token, rest, ev) ->
    exists paid value bs, ssteps E now c o (mkS p a fd) [ADepositBase paid; ASettle value; AWithdraw bs] (mkS p' a' fd)
      /\ last bs = Some token /\ rest = (BASE, b_amt payment - paid).
  Proof.
    unfold x_swap_debt. intros H. inv_go.
    - do 3 eexists. split; [|split; [eassumption|reflexivity]].
      econstructor; [eapply ss_deposit_base; eassumption|]. econstructor; [eapply ss_settle; eassumption|].
      apply ssteps_one. eapply ss_withdraw; eassumption.
    - do 3 eexists. split; [|split; [eassumption|reflexivity]].
      econstructor; [eapply ss_deposit_base; eassumption|]. econstructor; [eapply ss_settle; eassumption|].
      apply ssteps_one. eapply ss_withdraw; eassumption.
  Qed.

  Lemma tr_liquidate s payment s' toks evs :
    x_liquidate E now c o s payment = Ok (s', toks, evs) ->
    exists paid bs st lo fee, ssteps E now c o s
      ([ALiqPos; AWithdraw bs; ADepositBase paid; ASettle st] ++ lo ++ [AFees fee; AVstart]) s'
      /\ toks = bs ++ [(BASE, b_amt payment - paid)] /\ (lo = [] \/ exists x, lo = [ASettle x]).
  Proof.
    destruct s as [p a fd]. unfold x_liquidate. cbn [s_pool s_acc s_fd]. intros H.
    apply bind_Ok in H. destruct H as (? & Hp & H). apply bind_Ok in H. destruct H as ([[p1 a1] rp] & Hl & H).
    apply bind_Ok in H. destruct H as (rc & Hrc & H). apply bind_Ok in H. destruct H as (t & Ht & H).
    apply bind_Ok in H. destruct H as (av & Hav & H). apply bind_Ok in H. destruct H as (mg & Hmg & H).
    apply bind_Ok in H. destruct H as (? & Hg & H). apply bind_Ok in H. destruct H as (value & Hv & H).
    apply bind_Ok in H. destruct H as (? & Hg2 & H). apply bind_Ok in H. destruct H as ([a2 bs] & Hw & H).
    apply bind_Ok in H. destruct H as (paid & Hpd & H). apply bind_Ok in H. destruct H as (p2 & Hd & H).
    apply bind_Ok in H. destruct H as (st & Hst & H). apply bind_Ok in H. destruct H as ([p3 a3] & Hs & H).
    apply bind_Ok in H. destruct H as ([[p4 a4] pl] & Hlo & H). apply bind_Ok in H.
    destruct H as ([s5 [[[q0 q1] q2] q3]] & Hfe & H). apply Ok_inj in H. injection H as <- <- _.
    assert (exists lo, ssteps E now c o (mkS p3 a3 fd) lo (mkS p4 a4 fd) /\ (lo = [] \/ exists x, lo = [ASettle x])) as (lo & Hlo' & Hsh).
    { destruct (va_vb a3 <? 0).
      - apply bind_Ok in Hlo. destruct Hlo as (n & Hn & Hlo). apply bind_Ok in Hlo. destruct Hlo as ([px ax] & Hx & Hlo).
        apply Ok_inj in Hlo. injection Hlo as <- <- _. exists [ASettle n]. split; [|eauto].
        apply ssteps_one. eapply ss_settle; exact Hx.
      - apply Ok_inj in Hlo. injection Hlo as <- <- _. exists []. split; [constructor|auto]. }
    exists paid, bs, st, lo, (lp_fee rp). split; [|split; [reflexivity|exact Hsh]].
    eapply ssteps_app.
    { econstructor; [eapply ss_liq_pos; exact Hl|]. econstructor; [eapply ss_withdraw; exact Hw|].
      econstructor; [eapply ss_deposit_base; exact Hd|]. apply ssteps_one. eapply ss_settle; exact Hs. }
    eapply ssteps_app; [exact Hlo'|].
    econstructor; [eapply ss_fees; [exact Hfe|eapply x_liq_fee_nonneg; exact Hl]|]. destruct s5 as [p5 a5 fd5]. simpl. apply ssteps_one. apply ss_vstart.
  Qed.

  Lemma tr_auto_deleverage s pid s' ev :
    x_auto_deleverage now c o s pid = Ok (s', ev) ->
    exists amt fee, ssteps E now c o s [AUpdatePair pid; AFunding pid; APosRead pid; AClose pid amt; AFees fee] s'.
  Proof.
    destruct s as [p a fd]. unfold x_auto_deleverage. cbn [s_pool s_acc s_fd]. intros H.
    apply bind_Ok in H. destruct H as ([p1 b1] & Hu & H). apply bind_Ok in H. destruct H as ([[p2 a2] f2] & Hf & H).
    apply bind_Ok in H. destruct H as (sr & Hsr & H). apply bind_Ok in H. destruct H as (? & Hg & H).
    destruct (va_position a2 pid) as [a3 pos] eqn:Hpos.
    apply bind_Ok in H. destruct H as (price & Hp & H). apply bind_Ok in H. destruct H as (? & Hnz & H).
    apply bind_Ok in H. destruct H as (value & Hv & H). apply bind_Ok in H. destruct H as (t & Ht & H).
    apply bind_Ok in H. destruct H as (pc & Hpc & H). apply bind_Ok in H. destruct H as (th & Hth & H).
    apply bind_Ok in H. destruct H as (? & Hg2 & H). apply bind_Ok in H. destruct H as (am & Ham & H).
    apply bind_Ok in H. destruct H as ([[p4 a4] [pnl fee]] & Hcl & H).
    apply bind_Ok in H. destruct H as ([s5 [[[q0 q1] q2] q3]] & Hfe & H). apply bind_Ok in H. destruct H as (sr1 & Hsr1 & H).
    apply bind_Ok in H. destruct H as (? & Hg3 & H). apply bind_Ok in H. destruct H as (tp & Htp & H).
    apply Ok_inj in H. injection H as <- _.
    exists am, fee.
    econstructor; [eapply ss_update_pair; exact Hu|]. econstructor; [eapply ss_funding; exact Hf|].
    econstructor; [eapply ss_pos_read; exact Hpos|].
    econstructor; [eapply ss_close; [exact Hcl|]|].
    { inv_step Hnz. inv_step Ham. subst. apply negb_true_iff, Z.eqb_neq in Hnz. lia. }
    apply ssteps_one. eapply ss_fees; [exact Hfe|eapply x_close_fee_nonneg; exact Hcl].
  Qed.
End internals.

(** ** Calls on an account *)
Tactic Notation "bd" hyp(H) "as" simple_intropattern(p) := apply bind_Ok in H; destruct H as p.

Definition oath_total (l : list sact) : Z :=
  foldr (fun x acc => match x with AOath b => b_amt b + acc | _ => acc end) 0 l.
Lemma oath_total_app l k : oath_total (l ++ k) = oath_total l + oath_total k.
Proof. induction l as [|[]]; simpl; lia. Qed.

Definition oracle_pos (o : voracle) : Prop := forall p x, vo_prices o !! p = Some x -> 0 < x.

Definition final_world (w1 : world) (a : addr) (l : list sact) (s1 : sess) (acc' : account) (refs' : gmap N referral) (w' : world) : world :=
  w1 <| w_pool := vp_realize (s_pool s1) |> <| w_accounts := <[a := acc']> (w_accounts w1) |> <| w_refs := refs' |>
     <| w_fd := s_fd s1 |> <| w_oath := w_oath w1 - oath_total l |>
     <| w_perms := w_perms w' |> <| w_oracle := w_oracle w' |> <| w_rewards := w_rewards w' |> <| w_next := w_next w' |>.

(** [acct_call E w1 a l w']: from [w1], the caches of account [a] are read, the
    actions [l] happen, the caches are written back, giving [w']. *)
Inductive acct_call (E : env) (w1 : world) (a : addr) (l : list sact) (w' : world) : Prop :=
| acct_call_intro c o idsc ids v0 s1 acc' refs' :
    get_config w1 idsc = Ok c ->
    oracle_pos o ->
    get_acc w1 a = Ok v0 ->
    ssteps E (w_now w1) c o (mkS (get_pool w1 ids) v0 (w_fd w1)) l s1 ->
    va_realize (s_acc s1) (w_refs w1) = Ok (acc', refs') ->
    w' = final_world w1 a l s1 acc' refs' w' ->
    acct_call E w1 a l w'.

Lemma vp_realize_new now p ids : vp_realize (vp_new now p ids) = p.
Proof.
  unfold vp_realize, pool_update.
  match goal with |- context [@filter ?A ?B ?F ?P ?D ?m] => assert (@filter A B F P D m = ∅) as -> end.
  { apply map_filter_empty_iff. intros k x _. simpl. set_solver. }
  rewrite map_empty_union. destruct p; reflexivity.
Qed.
Lemma realize_get_pool w ids : vp_realize (get_pool w ids) = w_pool w.
Proof. apply vp_realize_new. Qed.

Lemma vo_price1_pos now ages l m m' :
  (forall p x, m !! p = Some x -> 0 < x) ->
  rfold (vo_price1 now ages) m l = Ok m' -> forall p x, m' !! p = Some x -> 0 < x.
Proof.
  intros H0 H. revert H. apply (rfold_inv (vo_price1 now ages) (fun m => forall p x, m !! p = Some x -> 0 < x)); [|exact H0].
  intros m0 [p [price ts]] m1 Hm Hs. unfold vo_price1 in Hs. inv_go. intros q y Hq.
  destruct (decide (q = p)) as [->|Hn].
  - rewrite lookup_insert in Hq. injection Hq as <-. apply Z.ltb_lt; assumption.
  - rewrite lookup_insert_ne in Hq by congruence. eauto.
Qed.
Lemma vo_new_pos E now o feeds pairs upd o' vo : vo_new E now o feeds pairs upd = Ok (o', vo) -> oracle_pos vo.
Proof.
  unfold vo_new. intros H. bd H as (o1 & H1 & H). bd H as (got & H2 & H). bd H as (prices & H3 & H).
  apply Ok_inj in H. injection H as <- <-. intros p x. simpl. eapply vo_price1_pos; [|exact H3].
  intros ? ?. rewrite lookup_empty. discriminate.
Qed.
Lemma get_oracle_pos E w c feeds upd o' vo : get_oracle E w c feeds upd = Ok (o', vo) -> oracle_pos vo.
Proof. apply vo_new_pos. Qed.
Lemma oracle_pos_empty : oracle_pos (mkVO ∅ ∅).
Proof. intros p x. simpl. rewrite lookup_empty. discriminate. Qed.

Lemma get_acc_addr w a v : get_acc w a = Ok v -> va_addr v = a.
Proof. unfold get_acc, va_new. intros H. inv_go; reflexivity. Qed.
Lemma get_config_empty w : exists c, get_config w ∅ = Ok c.
Proof.
  unfold get_config, vc_new. rewrite elements_empty. cbn [rfold]. eexists. reflexivity.
Qed.

(** [va_addr] is constant. *)
Ltac addr_solve := intros; inv_go; simpl in *; try congruence; try reflexivity.
Lemma va_add_active_addr v i v' : va_add_active v i = Ok v' -> va_addr v' = va_addr v.
Proof. unfold va_add_active. addr_solve. Qed.
Lemma va_remove_active_addr v i v' : va_remove_active v i = Ok v' -> va_addr v' = va_addr v.
Proof. unfold va_remove_active. addr_solve. Qed.
Lemma va_try_set1_addr ph st v l x v' l' : va_try_set1 ph st (v, l) x = Ok (v', l') -> va_addr v' = va_addr v.
Proof.
  unfold va_try_set1. destruct x as [i r]. intros H. inv_go; simpl; try reflexivity;
    match goal with H : _ _ _ = Ok _ |- _ => try (apply va_add_active_addr in H; exact H); try (apply va_remove_active_addr in H; exact H) end; reflexivity.
Qed.
Lemma va_try_set_addr v is_ st v' l : va_try_set_status v is_ st = Ok (v', l) -> va_addr v' = va_addr v.
Proof.
  unfold va_try_set_status. intros H. bd H as (ph & H1 & H). bd H as (rs & H2 & H).
  revert H. apply (rfold_ind (va_try_set1 ph st) (fun s s' => va_addr (fst s') = va_addr (fst s))); [auto|].
  intros [v0 l0] x [v1 l1] [v2 l2] Hs Hr. simpl in *. apply va_try_set1_addr in Hs. congruence.
Qed.
Lemma va_cancel1_addr v x v' : va_cancel1 v x = Ok v' -> va_addr v' = va_addr v.
Proof.
  unfold va_cancel1. destruct x as [i r]. intros H. inv_go; simpl; try reflexivity;
    match goal with H : va_remove_active _ _ = Ok _ |- _ => apply va_remove_active_addr in H; exact H end.
Qed.
Lemma va_cancel_addr v is_ v' : va_cancel_requests v is_ = Ok v' -> va_addr v' = va_addr v.
Proof.
  unfold va_cancel_requests. intros H. bd H as (rs & H2 & H).
  revert H. apply (rfold_ind va_cancel1 (fun s s' => va_addr s' = va_addr s)); [auto|].
  intros v0 x v1 v2 Hs Hr. apply va_cancel1_addr in Hs. congruence.
Qed.
Lemma va_process_addr now v i v' rq ex : va_process_request now v i = Ok (v', rq, ex) -> va_addr v' = va_addr v.
Proof.
  unfold va_process_request. intros H. inv_go; simpl; match goal with H : va_remove_active _ _ = Ok _ |- _ => apply va_remove_active_addr in H; exact H end.
Qed.
Lemma va_push_addr now v r d e st eff v' : va_push_request now v r d e st eff = Ok v' -> va_addr v' = va_addr v.
Proof.
  unfold va_push_request. intros H. inv_go; simpl; match goal with H : va_add_active _ _ = Ok _ |- _ => apply va_add_active_addr in H; exact H end.
Qed.
Lemma x_settle_account_inv p a amt p' a' : x_settle_account p a amt = Ok (p', a') ->
  p' = p <| vp_vb := vp_vb p - amt |> /\ a' = a <| va_vb := va_vb a + amt |>.
Proof. unfold x_settle_account, vp_add_vb, va_add_vb. intros H. inv_go. split; f_equal. Qed.
