(** * How a call affects the account table (C50), and induction over histories. *)
From Verif Require Import Base DFloat Lists Types Config Oracle Pool Account Fees Referral ExInternal Exchange System Sums Trace Frames Calls Shape Spec P_Ledger.

Lemma acct_call_self E w a l w' : acct_call E w a l w' ->
  (exists acc, w_accounts w !! a = Some acc) /\ (exists acc', w_accounts w' !! a = Some acc') /\
  forall b, b <> a -> w_accounts w' !! b = w_accounts w !! b.
Proof.
  intros [c o idsc ids v0 s1 acc' refs' Hc Ho Hv Hs Hz Hw]. rewrite Hw. unfold final_world. simpl.
  apply get_acc_comp in Hv. split; [eauto|]. split.
  - exists acc'. apply lookup_insert.
  - intros b Hb. apply lookup_insert_ne. congruence.
Qed.

Definition created (E : env) (w : world) (o : op) (a : addr) (w' : world) : Prop :=
  exists oath rule ts code ref g more, o = OCreateAccount oath rule ts code a /\ w_accounts w !! a = None /\
    match code with
    | Some s => exists id, ref = Some id /\ gn_claim E (w_gen w) (e_hash E s) = Ok (g, id, more)
    | None => ref = None /\ g = w_gen w /\ more = []
    end /\
    acct_call E (new_account_world E w rule a ref g) a (add_acts (ts ++ more) ++ oath_acts oath) w'.

Lemma gstep_account E cx w o out w' a : gstep E cx w o out w' ->
  w_accounts w' !! a = w_accounts w !! a \/ (op_account o = Some a /\ acct_spec E w a o out w') \/ created E w o a w'.
Proof.
  intros H. destruct H; try (left; reflexivity).
  - destruct (decide (a0 = a)) as [->|Hn]; [right; left; auto|left].
    destruct H0 as (l & H0 & _). apply acct_call_self in H0. destruct H0 as (_ & _ & H0). apply H0. congruence.
  - destruct (decide (a0 = a)) as [->|Hn].
    + right; right. exists oath, rule, ts, code, ref, g, more. auto.
    + left. apply acct_call_self in H1. destruct H1 as (_ & _ & H1). rewrite H1 by congruence. simpl. apply lookup_insert_ne. congruence.
Qed.
Lemma step_account E cx w o out w' a : step E cx w o = Ok (w', out) ->
  w_accounts w' !! a = w_accounts w !! a \/ (op_account o = Some a /\ acct_spec E w a o out w') \/ created E w o a w'.
Proof. intros H. apply step_gstep in H. eapply gstep_account; eauto. Qed.

(** Invariants of single accounts. *)
Lemma accounts_inv E (I : world -> account -> Prop) :
  (forall w w' acc cx o out, step E cx w o = Ok (w', out) -> I w acc -> I w' acc) ->
  (forall w rule a ref g acc, I (new_account_world E w rule a ref g) acc -> I w acc) ->
  (forall w rule ref, I w (acc_new rule rule rule ref)) ->
  (forall w a l w' acc acc', (reachable E w \/ exists w0 rule ref g, w = new_account_world E w0 rule a ref g) ->
     acct_call E w a l w' -> w_accounts w !! a = Some acc -> w_accounts w' !! a = Some acc' -> I w acc -> I w' acc') ->
  forall w, reachable E w -> forall a acc, w_accounts w !! a = Some acc -> I w acc.
Proof.
  intros Hst Hnw Hnew Hcall w Hr. induction Hr as [owner auth keys now w Ha Hn Hg|w cx o w' out Hr IH Hs].
  - apply genesis_inv in Hg as (c & _ & ->). simpl. intros a acc H. rewrite lookup_empty in H. discriminate.
  - intros a acc' H'. destruct (step_account _ _ _ _ _ _ a Hs) as [Heq|[[Ho Hsp]|Hcr]].
    + rewrite Heq in H'. eapply Hst; eauto.
    + destruct Hsp as (l & Hl & _). pose proof (acct_call_self _ _ _ _ _ Hl) as ((acc & Hacc) & _ & _).
      eapply Hcall; [left; exact Hr|exact Hl|exact Hacc|exact H'|eauto].
    + destruct Hcr as (oath & rule & ts & code & ref & g & more & _ & Hnone & _ & Hl).
      eapply Hcall; [right; eauto|exact Hl| |exact H'|apply Hnew]. simpl. apply lookup_insert.
Qed.
(** Same when the invariant does not mention the rest of the state. *)
Lemma accounts_inv' E (I : account -> Prop) :
  (forall rule ref, I (acc_new rule rule rule ref)) ->
  (forall w a l w' acc acc', acct_call E w a l w' -> w_accounts w !! a = Some acc -> w_accounts w' !! a = Some acc' -> I acc -> I acc') ->
  forall w, reachable E w -> forall a acc, w_accounts w !! a = Some acc -> I acc.
Proof.
  intros Hnew Hcall w Hr. apply (accounts_inv E (fun _ acc => I acc)); auto. intros; eauto.
Qed.
Lemma acct_call_out E w a l w' acc acc' : acct_call E w a l w' -> w_accounts w !! a = Some acc -> w_accounts w' !! a = Some acc' ->
  exists c o idsc ids v0 s1 refs',
    get_config w idsc = Ok c /\ oracle_pos o /\ get_acc w a = Ok v0 /\ va_comp v0 = acc /\
    ssteps E (w_now w) c o (mkS (get_pool w ids) v0 (w_fd w)) l s1 /\
    va_realize (s_acc s1) (w_refs w) = Ok (acc', refs') /\
    acc_update (va_comp (s_acc s1)) (va_updates (s_acc s1)) = Ok acc'.
Proof.
  intros [c o idsc ids v0 s1 acc1 refs' Hc Ho Hv Hs Hz Hw] Ha Ha'. rewrite Hw in Ha'. unfold final_world in Ha'. simpl in Ha'.
  rewrite lookup_insert in Ha'. injection Ha' as ->. exists c, o, idsc, ids, v0, s1, refs'.
  pose proof (get_acc_comp _ _ _ Hv) as Hcomp. rewrite Ha in Hcomp. injection Hcomp as <-.
  pose proof (proj1 (va_realize_inv _ _ _ _ Hz)). auto 10.
Qed.
