(** * The concrete states of Scenario.v are reachable; helpers for the examples
    that show the theorems' hypotheses can be met. *)
From Verif Require Import Base DFloat Lists Types Config Oracle Pool Account Fees Referral ExInternal Exchange System Trace Shape Spec P_Ledger Scenario.

Definition okb {A} (r : res A) : bool := match r with Ok _ => true | Err _ => false end.
Definition w_dummy : world :=
  mkW 0 0 AllowAll (fun _ => None) (mkConfig (mkEC 0%N 0%N 0%N 0 0 0 0 0 0 0 0 0 0 0 0) hl_new ∅)
    (mkOracle ∅ ∅) pool_new ∅ fd_new dl_new ∅ gn_new reg_new 0 0 0 0 0%N.
Definition get (r : res world) : world := match r with Ok w => w | Err _ => w_dummy end.
Lemma okb_get (r : res world) : okb r = true -> r = Ok (get r).
Proof. destruct r; [reflexivity|discriminate]. Qed.
Definition tst {A} (r : res A) (f : A -> bool) : bool := match r with Ok a => f a | Err _ => false end.
Lemma tst_true {A} (r : res A) f : tst r f = true -> exists a, r = Ok a /\ f a = true.
Proof. destruct r; simpl; [eauto|discriminate]. Qed.

Lemma go_reachable E r l : okb (go E r l) = true -> (forall w, r = Ok w -> reachable E w) -> reachable E (get (go E r l)).
Proof.
  intros Hok Hr. apply okb_get in Hok. unfold go in *. destruct r as [w|]; [|discriminate]. simpl in *.
  destruct (run E w l) as [[w' outs]|] eqn:Hrun; [|discriminate]. simpl. eapply run_reachable; [apply Hr; reflexivity|exact Hrun].
Qed.
Lemma sc_genesis_reach w : sc_genesis = Ok w -> reachable sc_env w.
Proof.
  unfold sc_genesis. intros H.
  assert (0 <= dec 1 <= DMAX) as H1 by (vm_compute; split; discriminate).
  assert (I64MIN <= 1000 <= I64MAX) as H2 by (vm_compute; split; discriminate).
  exact (reach_init sc_env own_rule (dec 1) {[1%N := 77%N]} 1000 w H1 H2 H).
Qed.
Definition W1 := get sc_w1. Definition W2 := get sc_w2. Definition W3 := get sc_w3. Definition W4 := get sc_w4.
Lemma W1_ok : sc_w1 = Ok W1. Proof. apply okb_get. vm_compute. reflexivity. Qed.
Lemma W2_ok : sc_w2 = Ok W2. Proof. apply okb_get. vm_compute. reflexivity. Qed.
Lemma W3_ok : sc_w3 = Ok W3. Proof. apply okb_get. vm_compute. reflexivity. Qed.
Lemma W4_ok : sc_w4 = Ok W4. Proof. apply okb_get. vm_compute. reflexivity. Qed.
Lemma W1_reach : reachable sc_env W1.
Proof. apply go_reachable; [vm_compute; reflexivity|]. intros w H. apply sc_genesis_reach. exact H. Qed.
Lemma W2_reach : reachable sc_env W2.
Proof. apply go_reachable; [vm_compute; reflexivity|]. intros w H. rewrite W1_ok in H. apply Ok_inj in H. subst w. exact W1_reach. Qed.
Lemma W3_reach : reachable sc_env W3.
Proof. apply go_reachable; [vm_compute; reflexivity|]. intros w H. rewrite W2_ok in H. apply Ok_inj in H. subst w. exact W2_reach. Qed.
Lemma W4_reach : reachable sc_env W4.
Proof. apply go_reachable; [vm_compute; reflexivity|]. intros w H. rewrite W3_ok in H. apply Ok_inj in H. subst w. exact W3_reach. Qed.
(** A call succeeds in a state and its result passes a test. *)
Definition try_ (w : world) (x : ctx * op) (f : world -> outp -> bool) : bool :=
  tst (step sc_env (fst x) w (snd x)) (fun r => f (fst r) (snd r)).
Lemma try_true w x f : try_ w x f = true -> exists w' out, step sc_env (fst x) w (snd x) = Ok (w', out) /\ f w' out = true.
Proof. unfold try_. intros H. apply tst_true in H. destruct H as ([w' out] & H & Hf). eauto. Qed.
Definition W5 := get sc_w5.
Lemma W5_ok : sc_w5 = Ok W5. Proof. apply okb_get. vm_compute. reflexivity. Qed.
Lemma W5_reach : reachable sc_env W5.
Proof. apply go_reachable; [vm_compute; reflexivity|]. intros w H. rewrite W2_ok in H. apply Ok_inj in H. subst w. exact W2_reach. Qed.
Global Opaque W1 W2 W3 W4 W5.
(** Several calls in a row. *)
Definition hist (l : list (ctx * op)) (outs : list outp) : list (ctx * op * outp) := zip l outs.
Lemma run_steps E w l w' outs : run E w l = Ok (w', outs) -> steps E w (hist l outs) w'.
Proof.
  revert w outs. induction l as [|[cx o] l IH]; intros w outs H; simpl in H.
  - apply Ok_inj in H. injection H as <- <-. constructor.
  - bd H as ([w1 out] & H1 & H). bd H as ([w2 outs2] & H2 & H). apply Ok_inj in H. injection H as <- <-. simpl. econstructor; [exact H1|]. apply IH. exact H2.
Qed.
Definition try_run (w : world) (l : list (ctx * op)) (f : world -> list outp -> bool) : bool := tst (run sc_env w l) (fun r => f (fst r) (snd r)).
Lemma try_run_true w l f : try_run w l f = true -> exists w' outs, steps sc_env w (hist l outs) w' /\ f w' outs = true.
Proof. unfold try_run. intros H. apply tst_true in H. destruct H as ([w' outs] & H & Hf). exists w', outs. split; [apply run_steps; exact H|exact Hf]. Qed.
Lemma steps_cons_inv E w c o out l w' : steps E w ((c, o, out) :: l) w' -> exists w1, step E c w o = Ok (w1, out) /\ steps E w1 l w'.
Proof. intros H. inversion H; subst. eauto. Qed.
Lemma steps_nil_inv E w w' : steps E w [] w' -> w' = w.
Proof. intros H. inversion H; subst. reflexivity. Qed.
