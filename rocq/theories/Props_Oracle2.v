(** * C60: the newest signed price takes effect, replays and old prices are ignored, bad messages are rejected. *)
From Verif Require Import Base DFloat Lists Types Config Oracle Pool Account Fees Referral ExInternal Exchange System Sums Trace Frames Calls Shape Spec SpecOracle P_Ledger P_Accounts P_Oracle P_Keeper P_Requests2 Trading Scenario Witness Props_Oracle.

(** The call hands its price message to the oracle: a keeper call that executes, or a direct push. *)
Definition reads_message (w : world) (o : op) : Prop := executes w o \/ exists ids msg, o = OOraclePush ids msg.

Lemma push1_ge m p : exists y, oracle_push1 m p !! pr_pair p = Some y /\ pr_time p <= snd y.
Proof.
  unfold oracle_push1. destruct (m !! pr_pair p) as [[q t]|] eqn:Hp.
  - destruct (Z.ltb_spec t (pr_time p)) as [Hl|Hl].
    + rewrite lookup_insert. eexists. split; [reflexivity|]. cbn. lia.
    + exists (q, t). split; [exact Hp|]. cbn. lia.
  - rewrite lookup_insert. eexists. split; [reflexivity|]. cbn. lia.
Qed.
Lemma pushes_ge l m p : p ∈ l -> exists y, foldl oracle_push1 m l !! pr_pair p = Some y /\ pr_time p <= snd y.
Proof.
  revert m. induction l as [|q l IH]; intros m Hin; [inversion Hin|]. simpl. apply elem_of_cons in Hin as [->|Hin]; [|apply IH; exact Hin].
  destruct (push1_ge m q) as (y & Hy & Hl). destruct (pushes_mono l _ _ _ Hy) as (z & Hz & Hd). exists z. split; [exact Hz|]. destruct Hd as [->|Hd]; lia.
Qed.
Lemma message_pushed E cx w o w' out msg : step E cx w o = Ok (w', out) -> reads_message w o -> message_of o = Some msg -> oracle_push E (w_oracle w) msg = Ok (w_oracle w').
Proof.
  intros Hs [He|(ids & m & ->)] Hm.
  - destruct (keeper_prices _ _ _ _ _ _ Hs He) as (ids & c & orc & vo & Hp & <- & _). pose proof (pk_push _ _ _ _ _ _ _ Hp) as H. rewrite Hm in H. exact H.
  - cbn in Hm. injection Hm as ->. apply step_exec' in Hs. cbn [exec] in Hs. bd Hs as (x & Hx & Hs). bd Hs as (? & _ & Hs). apply Ok_inj in Hs. injection Hs as <- _. exact Hx.
Qed.
Lemma push_entry E w msg o' k p t : oracle_push E (w_oracle w) msg = Ok o' -> signed_price E w msg k p t -> exists y, or_prices o' !! k = Some y /\ t <= snd y.
Proof.
  destruct msg as [[data sig] id]. intros H (key & ps & _ & _ & Hd & Hin). unfold oracle_push in H. rewrite Hd in H. cbn [expect mbind res_bind] in H. bd H as (key' & _ & H). bd H as (? & _ & H). apply Ok_inj in H. subst o'. exact (pushes_ge ps _ _ Hin).
Qed.

(** ** After a call that reads a message, the price stored for a pair is at least as recent as every price the message
    carries for it ... *)
Theorem C60_never_behind_the_message E cx w o w' out msg k p t : step E cx w o = Ok (w', out) -> reads_message w o -> message_of o = Some msg -> signed_price E w msg k p t ->
  exists p' t', stored_price w' k = Some (p', t') /\ t <= t'.
Proof.
  intros Hs Hr Hm Hp. destruct (push_entry _ _ _ _ _ _ _ (message_pushed _ _ _ _ _ _ _ Hs Hr Hm) Hp) as ([p' t'] & Hy & Hl). exists p', t'. split; [exact Hy|exact Hl].
Qed.
(** ... a price more recent than the stored one and than the message's others for the pair is the one stored ... *)
Theorem C60_newest_takes_effect E cx w o w' out msg k p t : step E cx w o = Ok (w', out) -> reads_message w o -> message_of o = Some msg -> signed_price E w msg k p t ->
  (forall p0 t0, stored_price w k = Some (p0, t0) -> t0 < t) ->
  (forall p1 t1, signed_price E w msg k p1 t1 -> t1 < t \/ (p1, t1) = (p, t)) ->
  stored_price w' k = Some (p, t).
Proof.
  intros Hs Hr Hm Hp Hold Hoth. destruct (C60_never_behind_the_message _ _ _ _ _ _ _ _ _ _ Hs Hr Hm Hp) as (p' & t' & Hy & Hl).
  destruct (decide (stored_price w k = Some (p', t'))) as [E0|E0]; [specialize (Hold _ _ E0); lia|].
  destruct (C12_signed _ _ _ _ _ _ _ _ _ Hs Hy E0) as (msg' & Hm' & Hs'). rewrite Hm in Hm'. injection Hm' as <-. destruct (Hoth _ _ Hs') as [H|H]; [lia|]. rewrite Hy, H. reflexivity.
Qed.
(** ... and a price no more recent than the stored one never replaces it: old and replayed messages are harmless. *)
Theorem C60_old_prices_ignored E cx w o w' out k p0 t0 : step E cx w o = Ok (w', out) -> o <> OOracleRemovePrice k -> stored_price w k = Some (p0, t0) ->
  (forall msg p t, message_of o = Some msg -> signed_price E w msg k p t -> t <= t0) ->
  stored_price w' k = Some (p0, t0).
Proof.
  intros Hs Hne Hx Hold. destruct (C11_step _ _ _ _ _ _ _ _ Hs Hne Hx) as ([p t] & Hy & Hd). destruct Hd as [Hd|Hd]; [rewrite Hy, Hd; reflexivity|]. cbn in Hd.
  destruct (decide (stored_price w k = Some (p, t))) as [E0|E0]; [rewrite Hx in E0; injection E0 as -> ->; lia|]. destruct (C12_signed _ _ _ _ _ _ _ _ _ Hs Hy E0) as (msg & Hm & Hsg). specialize (Hold _ _ _ Hm Hsg). lia.
Qed.
(** A message that was read once can be sent again by anybody, in any call, at any later time: as long as the owner has
    not removed the pair's price, the stored price of every pair the message mentions stays as it is. *)
Theorem C60_replay_harmless E cx o out w w1 l w2 cx' o' out' w3 msg k p t :
  step E cx w o = Ok (w1, out) -> reads_message w o -> message_of o = Some msg -> signed_price E w msg k p t ->
  steps E w1 l w2 -> (forall c x r, (c, x, r) ∈ l -> x <> OOracleRemovePrice k) ->
  message_of o' = Some msg -> step E cx' w2 o' = Ok (w3, out') ->
  stored_price w3 k = stored_price w2 k.
Proof.
  intros Hs Hr Hm Hp Hl Hne Hm' Hs'.
  assert (forall p1 t1, signed_price E w2 msg k p1 t1 -> exists p2 t2, stored_price w2 k = Some (p2, t2) /\ t1 <= t2) as Hall.
  { intros p1 t1 Hp1. assert (signed_price E w msg k p1 t1) as Hp1'.
    { destruct msg as [[data sig] id]. destruct Hp as (key & ps & A & B & C & D), Hp1 as (key1 & ps1 & A1 & B1 & C1 & D1). rewrite C in C1. injection C1 as <-. exists key, ps. auto. }
    destruct (C60_never_behind_the_message _ _ _ _ _ _ _ _ _ _ Hs Hr Hm Hp1') as (pa & ta & Ha & Hla). destruct (C11_prices_move_forward _ _ _ _ _ _ _ Hl Hne Ha) as (pb & tb & Hb & Hlb & _). exists pb, tb. split; [exact Hb|lia]. }
  destruct (C60_never_behind_the_message _ _ _ _ _ _ _ _ _ _ Hs Hr Hm Hp) as (pa & ta & Ha & Hla). destruct (C11_prices_move_forward _ _ _ _ _ _ _ Hl Hne Ha) as (pb & tb & Hb & _ & _). rewrite Hb.
  apply (C60_old_prices_ignored _ _ _ _ _ _ _ _ _ Hs'); [intros ->; discriminate Hm'|exact Hb|]. intros m p1 t1 Hmm Hsg. rewrite Hm' in Hmm. injection Hmm as <-. destruct (Hall _ _ Hsg) as (p2 & t2 & H2 & H3). rewrite Hb in H2. injection H2 as <- <-. exact H3.
Qed.
(** ** A call that would read a message is rejected, as a whole, when the message does not decode, names an unknown key
    or carries a wrong signature. *)
Theorem C60_bad_message_rejected E cx w o data sig id : reads_message w o -> message_of o = Some (data, sig, id) ->
  (e_decode E data = None \/ or_keys (w_oracle w) !! id = None \/ exists key, or_keys (w_oracle w) !! id = Some key /\ e_verify E key data sig = false) ->
  exists e, step E cx w o = Err e.
Proof.
  intros Hr Hm Hbad. destruct (step E cx w o) as [[w' out]|e] eqn:Hs; [exfalso|eauto]. pose proof (message_pushed _ _ _ _ _ _ _ Hs Hr Hm) as H. unfold oracle_push in H. bd H as (ps & H1 & H). bd H as (key & H2 & H). bd H as (? & H3 & H). apply expect_Ok in H1, H2. apply guard_Ok in H3.
  destruct Hbad as [Hb|[Hb|(key' & Hb & Hv)]]; congruence.
Qed.
(** A keeper call on an expired request does not look at its message. *)
Theorem C60_unread_message E cx w a i upd w' out : step E cx w (OProcessRequest a i upd) = Ok (w', out) -> ~ executes w (OProcessRequest a i upd) -> w_oracle w' = w_oracle w.
Proof.
  intros H Hne. apply process_inv in H as (v0 & v1 & rq & ex & ids & c & w1 & v2 & pay & evs & w2 & Hv & Hp & Hids & Hc & Hx & Hz & -> & _).
  destruct ex; [destruct Hx as (-> & _); cbn; rewrite (realize_acc_oracle _ _ _ Hz); reflexivity|]. exfalso. apply Hne.
  apply get_acc_inv in Hv. destruct Hv as (acc & Ha & Hcomp & _ & _ & _ & _ & _ & _ & _ & _ & _ & Hru & _). apply process_request_inv in Hp as (r & n & _ & Hr & _ & _ & _ & _ & He). unfold va_keeper_request in Hr. rewrite Hru, lookup_empty, Hcomp in Hr. apply expect_Ok in Hr. exists acc, r. split; [exact Ha|]. split; [exact Hr|]. destruct He as [[He _]|[_ He]]; [discriminate He|]. lia.
Qed.
(** ** The owner's calls on the oracle, exactly. *)
Theorem C60_add_key E cx w id key w' out : step E cx w (OOracleAddKey id key) = Ok (w', out) ->
  or_keys (w_oracle w) !! id = None /\ (forall j, or_keys (w_oracle w') !! j = if decide (j = id) then Some key else or_keys (w_oracle w) !! j) /\ (forall k, stored_price w' k = stored_price w k).
Proof.
  intros H. apply step_exec' in H. cbn [exec] in H. bd H as (x & Hx & H). apply Ok_inj in H. injection H as <- <-. unfold oracle_add_key in Hx. bd Hx as (? & Hg & Hx). apply guard_Ok, bool_decide_eq_true in Hg. apply Ok_inj in Hx. subst x. split; [exact Hg|]. split; [|reflexivity]. intros j. cbn. destruct (decide (j = id)) as [->|Hn]; [apply lookup_insert|apply lookup_insert_ne; congruence].
Qed.
Theorem C60_remove_key E cx w id w' out : step E cx w (OOracleRemoveKey id) = Ok (w', out) ->
  (forall j, or_keys (w_oracle w') !! j = if decide (j = id) then None else or_keys (w_oracle w) !! j) /\ (forall k, stored_price w' k = stored_price w k).
Proof.
  intros H. apply step_exec' in H. cbn [exec] in H. apply Ok_inj in H. injection H as <- <-. split; [|reflexivity]. intros j. cbn. destruct (decide (j = id)) as [->|Hn]; [apply lookup_delete|apply lookup_delete_ne; congruence].
Qed.
Theorem C60_remove_price E cx w k w' out : step E cx w (OOracleRemovePrice k) = Ok (w', out) ->
  stored_price w' k = None /\ (forall j, j <> k -> stored_price w' j = stored_price w j) /\ or_keys (w_oracle w') = or_keys (w_oracle w).
Proof.
  intros H. apply step_exec' in H. cbn [exec] in H. apply Ok_inj in H. injection H as <- <-. split; [apply lookup_delete|]. split; [|reflexivity]. intros j Hj. apply lookup_delete_ne. congruence.
Qed.
Lemma step_keys E cx w o w' out id : step E cx w o = Ok (w', out) -> (forall key, o <> OOracleAddKey id key) -> or_keys (w_oracle w) !! id = None -> or_keys (w_oracle w') !! id = None.
Proof.
  intros Hs Hne Hk. destruct (step_oracle _ _ _ _ _ _ Hs) as [H|msg Hm H|Hac H|k' -> H].
  - rewrite H. exact Hk.
  - apply oracle_push_inv in H as (_ & _ & ->). exact Hk.
  - destruct o; try discriminate Hac;
      try (assert (w_oracle w' = w_oracle w) as ->; [|exact Hk]; clear - Hs; apply step_gstep in Hs; match type of Hs with gstep _ _ _ ?o _ _ => remember o as oo eqn:Eo end; destruct Hs; try discriminate Eo; try (subst; discriminate); reflexivity).
    + destruct (C60_add_key _ _ _ _ _ _ _ Hs) as (_ & A & _). rewrite A. destruct (decide (id = id0)) as [->|]; [exfalso; exact (Hne _ eq_refl)|exact Hk].
    + destruct (C60_remove_key _ _ _ _ _ _ Hs) as (A & _). rewrite A. destruct (decide (id = id0)); [reflexivity|exact Hk].
    + destruct (C60_remove_price _ _ _ _ _ _ Hs) as (_ & _ & A). rewrite A. exact Hk.
  - rewrite H. exact Hk.
Qed.
(** Once the owner has removed a key, no call carrying a message under it succeeds until he registers that id again. *)
Theorem C60_revoked_key E cx0 w0 id w out0 l w' cx o data sig : step E cx0 w0 (OOracleRemoveKey id) = Ok (w, out0) -> steps E w l w' ->
  (forall c x r, (c, x, r) ∈ l -> forall key, x <> OOracleAddKey id key) ->
  reads_message w' o -> message_of o = Some (data, sig, id) -> exists e, step E cx w' o = Err e.
Proof.
  intros H0 Hl Hne Hr Hm. apply (C60_bad_message_rejected _ _ _ _ data sig id Hr Hm). right. left. destruct (C60_remove_key _ _ _ _ _ _ H0) as (A & _). specialize (A id). rewrite decide_True in A by reflexivity. clear - Hl Hne A.
  revert A Hne. induction Hl as [w|w cx o out w1 l w2 H1 H2 IH]; intros A Hne; [exact A|]. apply IH; [|intros; eapply Hne; right; eauto]. apply (step_keys _ _ _ _ _ _ _ H1); [|exact A]. intros key. exact (Hne _ _ _ (elem_of_list_here _ _) key).
Qed.
(** In W2 a keeper brings a newer price: it takes effect; sending the message again later changes nothing. *)
Example C60_ex : exists w1 o1 w2 o2, step sc_env cx_any W2 (OUpdatePairs [1%N] (msg 30300%N 2000%N 1010%N)) = Ok (w1, o1) /\
  reads_message W2 (OUpdatePairs [1%N] (msg 30300%N 2000%N 1010%N)) /\ stored_price w1 1%N = Some (dec 30300, 1010) /\
  step sc_env cx_u2 w1 (OUpdatePairs [2%N] (msg 30300%N 2000%N 1010%N)) = Ok (w2, o2) /\ stored_price w2 1%N = stored_price w1 1%N /\
  exists m, message_of (OUpdatePairs [1%N] (msg 30300%N 2000%N 1010%N)) = Some m /\ signed_price sc_env W2 m 1%N (dec 30300) 1010.
Proof.
  destruct (try_true W2 (cx_any, OUpdatePairs [1%N] (msg 30300%N 2000%N 1010%N)) (fun w1 _ => bool_decide (stored_price W2 1%N <> Some (dec 30300, 1010)) && bool_decide (stored_price w1 1%N = Some (dec 30300, 1010)) && 
     try_ w1 (cx_u2, OUpdatePairs [2%N] (msg 30300%N 2000%N 1010%N)) (fun _ _ => true))) as (w1 & o1 & H1 & Hf); [vm_compute; reflexivity|]. apply andb_true_iff in Hf as [Hf H2]. apply andb_true_iff in Hf as [Hf0 Hf]. apply bool_decide_eq_true in Hf, Hf0. apply try_true in H2 as (w2 & o2 & H2 & _).
  destruct (C12_signed _ _ _ _ _ _ _ _ _ H1 Hf Hf0) as (m & Hm & Hsg).
  exists w1, o1, w2, o2. split; [exact H1|]. split; [left; exact I|]. split; [exact Hf|]. split; [exact H2|]. split; [|exists m; split; [exact Hm|exact Hsg]].
  apply (C60_replay_harmless sc_env cx_any (OUpdatePairs [1%N] (msg 30300%N 2000%N 1010%N)) o1 W2 w1 [] w1 cx_u2 (OUpdatePairs [2%N] (msg 30300%N 2000%N 1010%N)) o2 w2 m 1%N (dec 30300) 1010 H1 (or_introl I) Hm Hsg (steps_nil _ _)); [intros ? ? ? Hin; inversion Hin|exact Hm|exact H2].
Qed.
