(** * C64: a call reads no account but the one it names; request calls of different accounts do not order each other. *)
From Verif Require Import Base DFloat Lists Types Config Oracle Pool Account Fees Referral ExInternal Exchange System Scenario Trace Calls Shape Spec SpecAuth Witness P_Fees P_Indep Props_Ledger Props_Referral Props_Auth.

(** Two states alike in everything but the accounts other than [a] ([None]: in everything but the accounts). *)
Definition same_but_other_accounts (a : option addr) (w1 w2 : world) : Prop :=
  w2 = w1 <| w_accounts := w_accounts w2 |> /\ forall b, a = Some b -> w_accounts w2 !! b = w_accounts w1 !! b.
(** Two outcomes of a call: the same outputs and events and states alike as before, or the same failure. *)
Definition same_outcome (a : option addr) (r1 r2 : res (world * outp)) : Prop :=
  match r1, r2 with
  | Ok (w1, out1), Ok (w2, out2) => out1 = out2 /\ same_but_other_accounts a w1 w2
  | Err e1, Err e2 => e1 = e2
  | _, _ => False
  end.

Lemma agree_out a (R : world * outp -> world * outp -> Prop) r1 r2 : agree R r1 r2 -> (forall w1 o1 w2 o2, R (w1, o1) (w2, o2) -> o1 = o2 /\ same_but_other_accounts a w1 w2) -> same_outcome a r1 r2.
Proof. destruct r1 as [[w1 o1]|], r2 as [[w2 o2]|]; cbn; auto. Qed.
Lemma step_accs E cx w m o r : (forall x y, agree r x y -> True) -> agree r (exec E cx w o) (exec E cx (accs w m) o) -> agree r (step E cx w o) (step E cx (accs w m) o).
Proof.
  intros _ H. unfold step. change (access_ok cx (accs w m)) with (access_ok cx w). change (w_auth (accs w m)) with (w_auth w).
  repeat (lazymatch goal with |- agree _ (?m ≫= _) (?m ≫= _) => destruct m; [cbn [mbind res_bind]|reflexivity] end). exact H.
Qed.

(** A call's result, what it pays out, the events it emits and every effect on the shared state are the same whatever the other accounts hold. *)
Theorem C64_only_the_named_account_is_read E cx o w1 w2 :
  same_but_other_accounts (named_account o) w1 w2 -> same_outcome (named_account o) (step E cx w1 o) (step E cx w2 o).
Proof.
  intros [Hw Ha]. change (w2 = accs w1 (w_accounts w2)) in Hw. revert Ha. set (m := w_accounts w2) in *. clearbody m. rewrite Hw. clear Hw w2. intros Ha.
  destruct (named_account o) as [a|] eqn:Hn.
  - eapply agree_out; [apply step_accs; [auto|]; apply exec_same; [exact Hn|]; apply (Ha a eq_refl)|].
    intros x o1 y o2 [(m' & Hy & Hm') Ho]. cbn in *. subst. split; [reflexivity|]. split; [reflexivity|]. intros b [= <-]. exact Hm'.
  - eapply agree_out; [apply step_accs; [auto|]; apply exec_none; exact Hn|].
    intros x o1 y o2 (m' & Hy & Ho). cbn in *. subst. split; [reflexivity|]. split; [reflexivity|]. intros b Hb. discriminate Hb.
Qed.

(** A whole history of one account - its own calls, the keepers' calls on it, and calls that name no account - gives the same results step by step whatever the other accounts hold. *)
Theorem C64_histories E a : forall l w1 w2 w1' outs,
  Forall (fun c => named_account (snd c) = Some a \/ named_account (snd c) = None) l ->
  same_but_other_accounts (Some a) w1 w2 -> run E w1 l = Ok (w1', outs) ->
  exists w2', run E w2 l = Ok (w2', outs) /\ same_but_other_accounts (Some a) w1' w2'.
Proof.
  induction l as [|[cx o] l IH]; intros w1 w2 w1' outs Hl Hw H.
  { cbn in H. injection H as <- <-. exists w2. split; [reflexivity|exact Hw]. }
  apply Forall_cons in Hl as [Ho Hl]. cbn [snd] in Ho. cbn [run] in H.
  destruct (step E cx w1 o) as [[w1m out]|] eqn:Hs; [cbn [mbind res_bind] in H|discriminate H].
  destruct (run E w1m l) as [[w1e outs']|] eqn:Hr; [cbn [mbind res_bind] in H|discriminate H]. injection H as <- <-.
  pose proof (C64_only_the_named_account_is_read E cx o w1 w2) as Hc.
  assert (same_but_other_accounts (named_account o) w1 w2) as Hw'. { destruct Hw as [Hw1 Hw2]. split; [exact Hw1|]. intros b Hb. destruct Ho as [Ho|Ho]; rewrite Ho in Hb; [injection Hb as <-; apply Hw2; reflexivity|discriminate Hb]. }
  specialize (Hc Hw'). rewrite Hs in Hc. destruct (step E cx w2 o) as [[w2m out2]|] eqn:Hs2; cbn [same_outcome] in Hc; [|contradiction]. destruct Hc as [<- Hc].
  assert (same_but_other_accounts (Some a) w1m w2m) as Hm.
  { destruct Hc as [Hc1 Hc2]. split; [exact Hc1|]. intros b [= <-]. destruct Ho as [Ho|Ho]; [apply Hc2; exact Ho|].
    rewrite (C50_unnamed_changes_none _ _ _ _ _ _ Hs Ho), (C50_unnamed_changes_none _ _ _ _ _ _ Hs2 Ho). apply Hw. reflexivity. }
  destruct (IH w1m w2m w1e outs' Hl Hm Hr) as (w2' & Hr2 & He). exists w2'. split; [|exact He]. cbn [run]. rewrite Hs2. cbn [mbind res_bind]. rewrite Hr2. reflexivity.
Qed.

(** ** Commuting *)
(** Submitting or cancelling requests without a fee oath, on account [a]. *)
Definition plain_request (o : op) (a : addr) : Prop :=
  match o with
  | ORemoveCollateralRequest None _ b _ _ | OMarginOrderRequest None _ _ b _ _ _ _ _ _ _ _ | OMarginOrderTpSlRequest None _ _ b _ _ _ _ _ _ _ | OCancelRequests None b _ => b = a
  | _ => False
  end.
(** Calls that leave the clock, the owner's settings and the roles alone. *)
Definition no_setting (o : op) : Prop := match o with OAdvance _ | OSetRole _ _ => False | _ => setting_op o = false end.

Lemma plain_call o a : plain_request o a -> request_call o = Some a /\ named_account o = Some a.
Proof. destruct o; cbn; try contradiction; (destruct oath; [contradiction|]); intros ->; split; reflexivity. Qed.
Lemma now_kept E cx w o w' out : step E cx w o = Ok (w', out) -> no_setting o -> w_now w' = w_now w.
Proof.
  intros H Hs. apply step_gstep in H. destruct H; try reflexivity; try contradiction Hs.
  - destruct H0 as (l & Hc & _). apply acct_call_config in Hc as (_ & Hc & _). exact Hc.
  - match goal with Hc : acct_call _ _ _ _ _ |- _ => apply acct_call_config in Hc as (_ & Hc & _); rewrite Hc; reflexivity end.
Qed.
Lemma world_accounts (w : world) m1 m2 : m1 = w_accounts w -> (w <| w_accounts := m2 |>) <| w_accounts := m1 |> = w.
Proof. intros ->. destruct w; reflexivity. Qed.
(** A request call without oath and any later call that names another account (or none) and is not an administrative one can be swapped: same outputs, same events, same final state. *)
Theorem C64_requests_commute E cx1 cx2 w o1 o2 a w1 out1 w12 out2 :
  plain_request o1 a -> named_account o2 <> Some a -> no_setting o2 ->
  step E cx1 w o1 = Ok (w1, out1) -> step E cx2 w1 o2 = Ok (w12, out2) ->
  exists w2, step E cx2 w o2 = Ok (w2, out2) /\ step E cx1 w2 o1 = Ok (w12, out1).
Proof.
  intros Hp Hn Hs H1 H2. destruct (plain_call _ _ Hp) as [Hrc Hna].
  (* the request call alone *)
  assert (forall w0 w0' o0, step E cx1 w0 o1 = Ok (w0', o0) -> exec E cx1 w0 o1 = Ok (w0', o0)) as Hex.
  { intros w0 w0' o0 H. unfold step in H. repeat match type of H with (?m ≫= _) = Ok _ => destruct m; [cbn [mbind res_bind] in H|discriminate H] end. exact H. }
  pose proof (Hex _ _ _ H1) as Hx1.
  assert (alike a w w) as Hal0 by (split; [reflexivity|reflexivity|reflexivity|intros; reflexivity]).
  pose proof (exec_alike E cx1 w w o1 a Hrc Hal0) as He. rewrite Hx1 in He. destruct He as (_ & acc & Hw1 & _). cbn [fst] in Hw1.
  (* the other call does not see it *)
  assert (same_but_other_accounts (named_account o2) w1 w) as Hso.
  { split; [rewrite Hw1; destruct w; reflexivity|]. intros b Hb. rewrite Hw1. unfold accs. cbn. rewrite lookup_insert_ne; [reflexivity|]. intros ->. contradiction. }
  pose proof (C64_only_the_named_account_is_read E cx2 o2 w1 w Hso) as Hc. rewrite H2 in Hc. destruct (step E cx2 w o2) as [[w2 out2']|] eqn:Hs2; cbn [same_outcome] in Hc; [|contradiction]. destruct Hc as [<- [Hc1 Hc2]].
  exists w2. split; [reflexivity|].
  (* and the request call does not see the other *)
  assert (w_accounts w2 !! a = w_accounts w !! a) as Hacc by (eapply C50_other_accounts_untouched; eassumption).
  destruct (settings_step _ _ _ _ _ _ Hs2) as (So & Sw & Sr & _).
  assert (setting_op o2 = false) as Hset by (destruct o2; try exact Hs; contradiction Hs). specialize (Sw Hset).
  assert (w_roles w2 = w_roles w) as Sr' by (destruct o2; try exact Sr; contradiction Hs).
  pose proof (now_kept _ _ _ _ _ _ Hs2 Hs) as Snow.
  assert (w_config w2 = w_config w /\ w_auth w2 = w_auth w) as [Sc Sa]. { unfold owner_only in Sw. split; congruence. }
  assert (exists acc0, w_accounts w !! a = Some acc0 /\ forall id, ac_ref acc0 = Some id -> is_Some (w_refs w !! id)) as (acc0 & Ha0 & Hr0).
  { pose proof (acc_alike a w w Hal0) as Hg. destruct (get_acc w a) as [v|] eqn:Hg0.
    - unfold get_acc, va_new in Hg0. destruct (w_accounts w !! a) as [acc0|]; [|discriminate Hg0]. exists acc0. split; [reflexivity|]. intros id Hid. cbn [expect mbind res_bind] in Hg0. rewrite Hid in Hg0. destruct (w_refs w !! id); [eauto|discriminate Hg0].
    - exfalso. clear - Hx1 Hg0 Hrc. destruct o1; try discriminate Hrc; cbn [request_call] in Hrc; destruct oath; try discriminate Hrc; injection Hrc as ->; cbn [exec] in Hx1;
        unfold m_remove_collateral_request, m_margin_order_request, m_margin_order_tp_sl_request, m_cancel_requests in Hx1; rewrite Hg0 in Hx1; discriminate Hx1. }
  assert (alike a w w2) as Hal.
  { split; [symmetry; exact Snow|symmetry; exact Sc|symmetry; exact Hacc|]. intros acc' id Ha' Hid. assert (acc' = acc0) as -> by congruence. split; [|intros _; exact (Hr0 id Hid)]. intros [d Hd]. destruct (C36_referrals_stay _ _ _ _ _ _ _ _ Hs2 Hd) as [d' Hd']. eauto. }
  pose proof (exec_alike E cx1 w w2 o1 a Hrc Hal) as He. rewrite Hx1 in He. destruct (exec E cx1 w2 o1) as [[w21 out1']|] eqn:Hx2; cbn [agree] in He; [|contradiction]. destruct He as (Ho & acc' & He1 & He2). cbn [fst snd] in Ho, He1, He2. subst out1'.
  assert (acc' = acc) as ->. { rewrite Hw1 in He1. apply (f_equal (fun x => w_accounts x !! a)) in He1. unfold accs in He1. cbn in He1. rewrite !lookup_insert in He1. congruence. }
  assert (w21 = w12) as ->.
  { rewrite He2. unfold accs. rewrite Hc1. apply world_accounts. cbn [w_accounts]. apply map_eq. intros b.
    assert (w_accounts w2 !! b = w_accounts w12 !! b \/ b = a) as Hb.
    { destruct (decide (b = a)) as [->|Hne]; [right; reflexivity|left]. destruct (decide (named_account o2 = Some b)) as [Hb|Hb]; [apply Hc2; exact Hb|].
      rewrite (C50_other_accounts_untouched _ _ _ _ _ _ b Hs2 Hb), (C50_other_accounts_untouched _ _ _ _ _ _ b H2 Hb), Hw1. unfold accs. cbn. rewrite lookup_insert_ne by congruence. reflexivity. }
    destruct (decide (b = a)) as [->|Hne].
    - rewrite lookup_insert. rewrite (C50_other_accounts_untouched _ _ _ _ _ _ a H2 Hn), Hw1. unfold accs. cbn. rewrite lookup_insert. reflexivity.
    - rewrite lookup_insert_ne by congruence. destruct Hb as [Hb|Hb]; [exact Hb|contradiction]. }
  unfold step in H1 |- *. assert (access_ok cx1 w2 (op_access o1) = access_ok cx1 w (op_access o1)) as -> by (unfold access_ok, role_rule; rewrite So, Sr'; reflexivity). rewrite Sa.
  repeat (lazymatch goal with |- (?m ≫= _) = Ok _ => destruct m; [cbn [mbind res_bind] in H1 |- *|discriminate H1] end). exact Hx2.
Qed.

(** Concrete: a state in which another account (A3, with an open short) is wiped out; A2's request and its processing go the same. *)
Definition W2_without_A3 : world := W2 <| w_accounts := delete A3 (w_accounts W2) |>.
Example C64_ex : same_but_other_accounts (Some A2) W2 W2_without_A3 /\ is_Some (w_accounts W2 !! A3) /\ w_accounts W2_without_A3 !! A3 = None /\
  exists w1 w2 out, step sc_env cx_u2 W2 (snd (order cx_u2 A2 1%N (- dec 1) true)) = Ok (w1, out) /\ step sc_env cx_u2 W2_without_A3 (snd (order cx_u2 A2 1%N (- dec 1) true)) = Ok (w2, out).
Proof.
  assert (same_but_other_accounts (Some A2) W2 W2_without_A3) as Hs.
  { split; [reflexivity|]. intros b [= <-]. unfold W2_without_A3. cbn [w_accounts]. apply lookup_delete_ne. discriminate. }
  split; [exact Hs|]. split; [vm_compute; eauto|]. split; [apply lookup_delete|].
  destruct (try_true W2 (order cx_u2 A2 1%N (- dec 1) true) (fun _ _ => true)) as (w' & out & H & _); [vm_compute; reflexivity|].
  change (fst (order cx_u2 A2 1%N (- dec 1) true)) with cx_u2 in H.
  pose proof (C64_only_the_named_account_is_read sc_env cx_u2 (snd (order cx_u2 A2 1%N (- dec 1) true)) W2 W2_without_A3 Hs) as Hc. rewrite H in Hc.
  destruct (step sc_env cx_u2 W2_without_A3 _) as [[w2 out2]|]; cbn [same_outcome] in Hc; [|contradiction]. destruct Hc as [<- _]. exists w', w2, out. split; [exact H|reflexivity].
Qed.
(** Concrete: A3's request and A2's request, in either order. *)
Example C64_commute_ex : exists w1 out1 w12 out2 w2,
  step sc_env cx_u2 W2 (snd (order cx_u2 A2 1%N (- dec 1) true)) = Ok (w1, out1) /\ step sc_env cx_u3 w1 (snd (order cx_u3 A3 1%N (dec 1) true)) = Ok (w12, out2) /\
  step sc_env cx_u3 W2 (snd (order cx_u3 A3 1%N (dec 1) true)) = Ok (w2, out2) /\ step sc_env cx_u2 w2 (snd (order cx_u2 A2 1%N (- dec 1) true)) = Ok (w12, out1).
Proof.
  destruct (try_true W2 (order cx_u2 A2 1%N (- dec 1) true) (fun w1 _ => try_ w1 (order cx_u3 A3 1%N (dec 1) true) (fun _ _ => true))) as (w1 & out1 & H1 & Hf); [vm_compute; reflexivity|].
  apply try_true in Hf as (w12 & out2 & H2 & _). change (fst (order cx_u2 A2 1%N (- dec 1) true)) with cx_u2 in H1. change (fst (order cx_u3 A3 1%N (dec 1) true)) with cx_u3 in H2.
  destruct (C64_requests_commute sc_env cx_u2 cx_u3 W2 (snd (order cx_u2 A2 1%N (- dec 1) true)) (snd (order cx_u3 A3 1%N (dec 1) true)) A2 w1 out1 w12 out2 eq_refl ltac:(discriminate) eq_refl H1 H2) as (w2 & H3 & H4).
  exists w1, out1, w12, out2, w2. split; [exact H1|]. split; [exact H2|]. split; [exact H3|exact H4].
Qed.
