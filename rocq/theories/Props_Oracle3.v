(** * C66: the stored price is the newest one delivered, in whatever order the messages arrive. *)
From Verif Require Import Base DFloat Lists Types Config Oracle Pool Account Fees Referral ExInternal Exchange System Sums Trace Frames Calls Shape Spec SpecOracle P_Ledger P_Accounts P_Oracle P_Keeper P_Requests2 Trading Scenario Witness Props_Oracle Props_Oracle2.

(** In the history [l] from [w] some call hands the oracle a signed price [p] of pair [k] taken at time [t]. *)
Definition delivered (E : env) (w : world) (l : list (ctx * op * outp)) (k : pair_id) (p t : Z) : Prop :=
  exists l1 cx o out l2 w1 msg, l = l1 ++ (cx, o, out) :: l2 /\ steps E w l1 w1 /\ reads_message w1 o /\ message_of o = Some msg /\ signed_price E w1 msg k p t.
(** Nobody removes the price of [k]. *)
Definition price_kept (l : list (ctx * op * outp)) (k : pair_id) : Prop := forall cx o out, (cx, o, out) ∈ l -> o <> OOracleRemovePrice k.

Lemma executes_dec w o : executes w o \/ ~ executes w o.
Proof.
  destruct o; cbn; auto. destruct (w_accounts w !! a) as [acc|] eqn:Ha; [|right; intros (acc & kr & H & _); discriminate H].
  destruct (kl_kvs (ac_requests acc) !! i) as [kr|] eqn:Hk; [|right; intros (acc' & kr & H & H2 & _); congruence].
  destruct (decide (w_now w < kr_expiry kr)) as [Hl|Hl]; [left; eauto|right; intros (acc' & kr' & H & H2 & H3); apply Hl; congruence].
Qed.
Lemma changed_delivered E cx w o w' out k p t : step E cx w o = Ok (w', out) -> stored_price w' k = Some (p, t) -> stored_price w k <> Some (p, t) ->
  exists msg, reads_message w o /\ message_of o = Some msg /\ signed_price E w msg k p t.
Proof.
  intros Hs Hy Hn. destruct (C12_signed _ _ _ _ _ _ _ _ _ Hs Hy Hn) as (msg & Hm & Hsg). exists msg. split; [|auto].
  destruct (executes_dec w o) as [He|He]; [left; exact He|]. destruct o; try discriminate Hm; try (destruct (He I)); [|right; eauto].
  exfalso. apply Hn. unfold stored_price in *. rewrite <- (C60_unread_message _ _ _ _ _ _ _ _ Hs He). exact Hy.
Qed.
Lemma delivered_cons E w cx o out w1 l k p t : step E cx w o = Ok (w1, out) -> delivered E w1 l k p t -> delivered E w ((cx, o, out) :: l) k p t.
Proof. intros H (l1 & c & x & r & l2 & w2 & msg & -> & H1 & H2). exists ((cx, o, out) :: l1), c, x, r, l2, w2, msg. split; [reflexivity|]. split; [econstructor; eassumption|exact H2]. Qed.
Lemma delivered_here E w cx o out l k p t msg : reads_message w o -> message_of o = Some msg -> signed_price E w msg k p t -> delivered E w ((cx, o, out) :: l) k p t.
Proof. intros H1 H2 H3. exists [], cx, o, out, l, w, msg. split; [reflexivity|]. split; [constructor|auto]. Qed.
Lemma steps_det_prefix E w l1 w1 x l2 w' : steps E w l1 w1 -> steps E w (l1 ++ x :: l2) w' -> steps E w1 (x :: l2) w'.
Proof. induction 1 as [w|w cx o out w2 l w3 H1 H2 IH]; [auto|]. intros H. cbn in H. inversion H; subst. apply IH. congruence. Qed.

(** C66. What is stored was there from the start or was delivered ... *)
Theorem C66_stored_was_delivered E w l w' k p t : steps E w l w' -> stored_price w' k = Some (p, t) -> stored_price w k = Some (p, t) \/ delivered E w l k p t.
Proof.
  intros H. induction H as [w|w cx o out w1 l w2 H1 H2 IH]; intros Hx; [auto|]. destruct (IH Hx) as [Hy|Hy]; [|right; eapply delivered_cons; eassumption].
  destruct (decide (stored_price w k = Some (p, t))) as [E0|E0]; [auto|]. destruct (changed_delivered _ _ _ _ _ _ _ _ _ H1 Hy E0) as (msg & Hr & Hm & Hsg). right. eapply delivered_here; eassumption.
Qed.
(** ... and nothing that was there or was delivered is newer. *)
Theorem C66_stored_is_newest E w l w' k p t : steps E w l w' -> price_kept l k -> stored_price w k = Some (p, t) \/ delivered E w l k p t ->
  exists p' t', stored_price w' k = Some (p', t') /\ t <= t'.
Proof.
  intros H Hk [Hx|(l1 & cx & o & out & l2 & w1 & msg & -> & H1 & Hr & Hm & Hsg)].
  - destruct (C11_prices_move_forward _ _ _ _ _ _ _ H Hk Hx) as (p' & t' & Hy & Hl & _). eauto.
  - pose proof (steps_det_prefix _ _ _ _ _ _ _ H1 H) as H2. inversion H2; subst. destruct (C60_never_behind_the_message _ _ _ _ _ _ _ _ _ _ H8 Hr Hm Hsg) as (p1 & t1 & Hy & Hl).
    destruct (C11_prices_move_forward E _ l2 w' k p1 t1 ltac:(eassumption)) as (p' & t' & Hz & Hl' & _); [|exact Hy|exists p', t'; split; [exact Hz|lia]].
    intros c x r Hin. eapply Hk. apply elem_of_app. right. right. exact Hin.
Qed.
(** Hence two histories that deliver the same prices of a pair, in whatever order, however often and with whatever else in between, leave the
    same price, if no two of the prices carry the same time. *)
Theorem C66_order_of_delivery E wa la wa' wb lb wb' k : steps E wa la wa' -> steps E wb lb wb' -> price_kept la k -> price_kept lb k ->
  let known w l p t := stored_price w k = Some (p, t) \/ delivered E w l k p t in
  (forall p t, known wa la p t <-> known wb lb p t) -> (forall p1 p2 t, known wa la p1 t -> known wa la p2 t -> p1 = p2) ->
  stored_price wa' k = stored_price wb' k.
Proof.
  intros Ha Hb Ka Kb known Hsame Huniq.
  destruct (stored_price wa' k) as [[p t]|] eqn:Sa; destruct (stored_price wb' k) as [[q u]|] eqn:Sb.
  - assert (known wa la p t) as Hp. { destruct (C66_stored_was_delivered _ _ _ _ _ _ _ Ha Sa); [left|right]; assumption. }
    assert (known wb lb q u) as Hq. { destruct (C66_stored_was_delivered _ _ _ _ _ _ _ Hb Sb); [left|right]; assumption. }
    destruct (C66_stored_is_newest E wb lb wb' k p t Hb Kb (proj1 (Hsame p t) Hp)) as (p1 & t1 & H1 & L1). destruct (C66_stored_is_newest E wa la wa' k q u Ha Ka (proj2 (Hsame q u) Hq)) as (p2 & t2 & H2 & L2).
    rewrite Sb in H1. injection H1 as <- <-. rewrite Sa in H2. injection H2 as <- <-. assert (t = u) as -> by lia. f_equal. f_equal. eapply Huniq; [exact Hp|apply Hsame; exact Hq].
  - exfalso. assert (known wa la p t) as Hp. { destruct (C66_stored_was_delivered _ _ _ _ _ _ _ Ha Sa); [left|right]; assumption. }
    destruct (C66_stored_is_newest E wb lb wb' k p t Hb Kb (proj1 (Hsame p t) Hp)) as (p1 & t1 & H1 & _). congruence.
  - exfalso. assert (known wb lb q u) as Hq. { destruct (C66_stored_was_delivered _ _ _ _ _ _ _ Hb Sb); [left|right]; assumption. }
    destruct (C66_stored_is_newest E wa la wa' k q u Ha Ka (proj2 (Hsame q u) Hq)) as (p1 & t1 & H1 & _). congruence.
  - reflexivity.
Qed.
(** Two messages, in both orders: the same prices are delivered and the same price is left. *)
Definition push_a := OOraclePush ∅ (default (0%N, 0%N, 0%N) (msg 30100%N 2000%N 87421%N)).
Definition push_b := OOraclePush ∅ (default (0%N, 0%N, 0%N) (msg 30200%N 2000%N 87422%N)).
Definition after_pushes (x y : op) : option (option (Z * Z)) := match run sc_env W3 [(cx_any, x); (cx_any, y)] with Ok (w, _) => Some (stored_price w 1%N) | Err _ => None end.
Example C66_ex : after_pushes push_a push_b = Some (Some (dec 30200, 87422)) /\ after_pushes push_b push_a = Some (Some (dec 30200, 87422)) /\
  exists l w', steps sc_env W3 l w' /\ price_kept l 1%N /\ delivered sc_env W3 l 1%N (dec 30200) 87422.
Proof.
  split; [vm_compute; reflexivity|]. split; [vm_compute; reflexivity|].
  destruct (try_true W3 (cx_any, push_b) (fun _ _ => true)) as (w1 & out & H & _); [vm_compute; reflexivity|]. exists [(cx_any, push_b, out)], w1.
  split; [econstructor; [exact H|constructor]|]. split. { intros c o r Hin. apply elem_of_list_singleton in Hin. injection Hin as -> -> ->. discriminate. }
  eapply delivered_here; [right; unfold push_b; eauto|reflexivity|]. exists 77%N. assert (exists ps, e_decode sc_env (enc 30200%N 2000%N 87422%N) = Some ps /\ mkPrice 1%N (dec 30200) 87422 ∈ ps) as (ps & H1 & H2).
  { eexists. split; [vm_compute; reflexivity|]. left. }
  exists ps. split; [|split; [reflexivity|split; [exact H1|exact H2]]].
  assert (bool_decide (or_keys (w_oracle W3) !! 1%N = Some 77%N) = true) as Hk by (apply (bool_decide_unpack _); vm_compute; exact I). apply bool_decide_eq_true in Hk. exact Hk.
Qed.
